(** The exact conditions and effects of every call of marketplace v1. *)
From stdpp Require Import relations pretty.
From Verif Require Import Base Common Chain BaseFacts ChainFacts IndexRange IndexFacts QuerySpec IndexWalk SaleFacts Plain
  V1Model V1Spec V1Facts V1Inv V1Reach V1Hooks V1Live V1Query V1More.

Section Exact.
Context (p : params) (x : ext).

(** ** Sales *)
Lemma payout_pays_off v st coll price to finder bps resp ms ci : payout x v st coll price to finder bps resp = Ok ms ->
  q_info v coll = Some ci -> pays_off (sp_trading_fee (s_params st)) price finder bps (ci_royalty ci).
Proof.
  unfold payout. intros H Hci. apply bind_Ok in H as (n&Hn&H). apply mul_floor_Ok in Hn as [-> _]. cbv zeta in H.
  rewrite floor_floor in H. rewrite Hci in H. apply bind_Ok in H as ([fm cut]&Hf&H).
  assert (cut = finders_cut price finder bps) as Hcut.
  { destruct finder as [f|]; [|by injection Hf as <- <-]. apply bind_Ok in Hf as (n&Hn&Hf). injection Hf as <- <-. unfold finders_cut.
    destruct bps as [b|]; [|by injection Hn]. apply bind_Ok in Hn as (k&Hk&Hn). injection Hn as <-.
    apply mul_floor_Ok in Hk as [-> _]. apply percent_floor. }
  clear Hf. unfold pays_off. rewrite <-Hcut. set (fee := price * sp_trading_fee (s_params st) / 10 ^ 20) in *.
  unfold parse_royalties in H. destruct (ci_royalty ci) as [[rto share]|].
  - destruct (share =? 0) eqn:Es.
    + apply bind_Ok in H as (s1&H1&H). apply bind_Ok in H as (?&H2&H). apply add128_Ok in H1 as ->. apply ensure_Ok in H2.
      apply N.eqb_eq in Es as ->. split; [|intros ? ? [= _ <-]; by apply N.le_0_l]. rewrite N.sub_0_r, N.div_mul by done. by apply N.leb_le.
    + apply bind_Ok in H as (amount&Ha&H).
      apply bind_Ok in H as (s1&H1&H). apply bind_Ok in H as (s2&H2&H). apply bind_Ok in H as (?&H3&H).
      apply bind_Ok in H as (rest&H4&H). apply bind_Ok in H as (n1&H5&H). apply bind_Ok in H as (n2&H6&H).
      apply bind_Ok in H as (n3&H7&H). apply sub128_Ok in H4 as [-> Hs]. apply mul_floor_Ok in H5 as [-> _].
      apply sub128_Ok in H6 as [-> ?]. apply sub128_Ok in H7 as [-> ?]. change DEC_ONE with (10 ^ 18) in *. split; [lia|]. by intros ? ? [= _ <-].
  - apply bind_Ok in H as (s1&H1&H). apply bind_Ok in H as (?&H2&H). apply add128_Ok in H1 as ->. apply ensure_Ok in H2.
    split; [by apply N.leb_le|done].
Qed.
Lemma payout_off v st coll price to finder bps resp ci : rate_ok (sp_trading_fee (s_params st)) ->
  (forall n, bps = Some n -> n <= 10000) -> 100 * price <= U128_MAX -> q_info v coll = Some ci ->
  pays_off (sp_trading_fee (s_params st)) price finder bps (ci_royalty ci) ->
  exists ms, payout x v st coll price to finder bps resp = Ok ms.
Proof.
  intros Hrate Hbps Hsize Hci [Hpo Hsh]. unfold payout. rewrite mul_floor_live; [|by apply rate_le|done]. rewrite bind_ok. cbv zeta.
  rewrite Hci, floor_floor.
  set (fee := price * sp_trading_fee (s_params st) / 10 ^ 20) in *.
  assert (exists fm, (match finder with
          | Some finder =>
              n ← match bps with Some b => n ← mul_floor price (dec_percent b); Ok (n / 100) | None => Ok 0 end;
              Ok (if 0 <? n then [send finder n] else [], n)
          | None => Ok ([], 0)
          end) = Ok (fm, finders_cut price finder bps)) as (fm&->).
  { unfold finders_cut. destruct finder; [|by eexists]. destruct bps as [b|]; [|by eexists].
    rewrite mul_floor_live; [|by apply rate_le, rate_percent, Hbps|done]. rewrite !bind_ok. rewrite percent_floor. by eexists. }
  set (cut := finders_cut price finder bps) in *. rewrite bind_ok. unfold parse_royalties.
  destruct (ci_royalty ci) as [[rt share]|]; [destruct (share =? 0) eqn:E0|].
  - apply N.eqb_eq in E0 as ->. rewrite N.sub_0_r, N.div_mul in Hpo by done.
    rewrite add128_live by lia. rewrite bind_ok. rewrite (proj2 (N.leb_le _ _)) by lia. cbn [ensure]. rewrite bind_ok.
    rewrite sub128_live by lia. rewrite bind_ok. rewrite sub128_live by lia. by eexists.
  - specialize (Hsh _ _ eq_refl).
    pose proof (complement price share Hsh) as Hcp. cbv zeta in Hcp.
    assert (10 ^ 18 <= 10 ^ 20) as H20 by (apply N.leb_le; vm_compute; reflexivity).
    assert (10 ^ 18 - share <= 10 ^ 20) as Hrs by (etrans; [apply N.le_sub_l|exact H20]). assert (share <= 10 ^ 20) as Hsh2 by (etrans; [exact Hsh|exact H20]).
    rewrite (mul_floor_live _ _ Hsh2 Hsize). rewrite bind_ok. change DEC_ONE with (10 ^ 18) in *.
    set (r := price * share / 10 ^ 18) in *. set (q := price * (10 ^ 18 - share) / 10 ^ 18) in *.
    rewrite add128_live by lia. rewrite bind_ok. rewrite add128_live by lia. rewrite bind_ok.
    rewrite (proj2 (N.leb_le _ _)) by lia. cbn [ensure]. rewrite bind_ok, (sub128_live _ _ Hsh). rewrite bind_ok.
    rewrite (mul_floor_live _ _ Hrs Hsize). rewrite bind_ok. change DEC_ONE with (10 ^ 18). fold q.
    rewrite sub128_live by lia. rewrite bind_ok. rewrite sub128_live by lia. by eexists.
  - rewrite add128_live by lia. rewrite bind_ok. rewrite (proj2 (N.leb_le _ _)) by lia. cbn [ensure]. rewrite bind_ok.
    rewrite sub128_live by lia. rewrite bind_ok. rewrite sub128_live by lia. by eexists.
Qed.

(** The sale of an ask [a] at its price.  [st1] only matters through the fee and the sale hooks. *)
Lemma finalize_exact v st st1 a price buyer finder to resp ms : s_params st1 = s_params st -> s_sale_hooks st1 = s_sale_hooks st ->
  rate_ok (sp_trading_fee (s_params st)) -> (forall n, k_finders a = Some n -> n <= 10000) -> 100 * price <= U128_MAX -> k_price a = price ->
  finalize_sale x v st1 a price buyer finder to resp = Ok ms <->
  exists sale, ms = resp ++ sale /\
    sale_does x v st (k_coll a) (k_tok a) price (k_seller a) (default (k_seller a) (k_recipient a)) buyer (default buyer to) finder (k_finders a) sale.
Proof.
  intros Ep Eh Hrate Hbps Hsize Hprice.
  assert (forall ci, q_info v (k_coll a) = Some ci -> finalize_sale x v st1 a price buyer finder to resp = Ok ms ->
    ms = resp ++ plainly (split_msgs x (split_of (sp_trading_fee (s_params st)) price finder (k_finders a) (ci_royalty ci)) finder
          (default (k_seller a) (k_recipient a)) ++ [MNft (k_coll a) (pretty (k_tok a)) (default buyer to)]) ++
         told (s_sale_hooks st) (HSale (k_coll a) (k_tok a) (native price) (k_seller a) buyer)) as Hms.
  { intros ci Hci H. apply finalize_sale_Ok in H as (ci'&Hci'&_&->). assert (ci' = ci) as -> by congruence.
    unfold sale_hooks. by rewrite Ep, Eh, Hprice. }
  split.
  - intros H. pose proof H as H'. unfold finalize_sale in H'. apply bind_Ok in H' as (ms'&H1&_).
    pose proof (payout_Ok _ _ _ _ _ _ _ _ _ _ H1) as (ci&Hci&_). apply payout_pays_off with (ci := ci) in H1; [|done]. rewrite Ep in H1.
    eexists. split; [exact (Hms ci Hci H)|]. by exists ci.
  - intros (sale&->&ci&Hci&Hpo&->).
    assert (exists ms', finalize_sale x v st1 a price buyer finder to resp = Ok ms') as [ms' Hf].
    { unfold finalize_sale. rewrite <-Ep in Hrate, Hpo.
      destruct (payout_off v st1 (k_coll a) price (address_or (k_recipient a) (k_seller a)) finder (k_finders a) resp ci Hrate Hbps Hsize Hci Hpo) as [m' ->].
      rewrite bind_ok. by eexists. }
    rewrite Hf. f_equal. apply finalize_sale_Ok in Hf as (ci'&Hci'&_&->). assert (ci' = ci) as -> by congruence.
    unfold sale_hooks. by rewrite Ep, Eh, Hprice.
Qed.

(** ** Single checks *)
Lemma price_iff st c : price_validate st c = Ok tt <-> fair_price st c.
Proof.
  split; [apply price_Ok|]. intros (H1&H2&H3). unfold price_validate. rewrite bool_decide_eq_true_2 by done.
  rewrite (proj2 (N.eqb_neq _ _)) by lia. cbn [negb andb ensure]. rewrite bind_ok. by rewrite (proj2 (N.leb_le _ _)).
Qed.
Lemma tradable_live v e coll : tradable v e coll -> only_tradable v e coll = Ok tt.
Proof.
  intros H. unfold only_tradable. destruct (q_info v coll) as [ci|] eqn:E1; [|done]. destruct (ci_start ci) as [start|] eqn:E2; [|done].
  specialize (H _ _ E1 E2). by rewrite (proj2 (N.ltb_ge _ _)).
Qed.
Lemma valid_of o : known p o -> maybe_addr p o = Ok o.
Proof. intros H. by apply maybe_addr_live. Qed.
Lemma may_pay_live fee : may_pay [native fee] "ustars" = Ok fee.
Proof. unfold may_pay. cbn. destruct fee; done. Qed.
Lemma may_pay_nil : may_pay [] "ustars" = Ok 0.
Proof. done. Qed.

Lemma names_of v e s f st m st' ms : execute_sub p x v e s f st m = Ok (st', ms) ->
  match m with
  | SetAsk _ coll _ _ rc rs _ _ => p_valid p coll = true /\ known p rc /\ known p rs
  | SetBid coll _ _ finder _ | BuyNow coll _ _ finder _ => p_valid p coll = true /\ known p finder
  | BuyFor coll _ _ finder _ to => p_valid p coll = true /\ known p finder /\ p_valid p to = true
  | AcceptBid coll _ who finder | AcceptCollectionBid coll _ who finder => p_valid p coll = true /\ p_valid p who = true /\ known p finder
  | RejectBid coll _ who | RemoveStaleBid coll _ who | RemoveStaleCollectionBid coll who => p_valid p coll = true /\ p_valid p who = true
  | _ => True
  end.
Proof.
  destruct m; cbn [execute_sub]; intros H; try done; apply bind_Ok in H as (c&Hc&H); apply addr_validate_Ok in Hc as [_ Hv]; split; try exact Hv;
    apply bind_Ok in H as (o&Ho&H).
  - apply bind_Ok in H as (o2&Ho2&_). apply maybe_addr_Ok in Ho as [-> ?], Ho2 as [-> ?]. done.
  - by apply maybe_addr_Ok in Ho as [-> ?].
  - by apply maybe_addr_Ok in Ho as [-> ?].
  - apply bind_Ok in H as (o2&Ho2&_). apply maybe_addr_Ok in Ho as [-> ?]. by apply addr_validate_Ok in Ho2 as [-> ?].
  - apply bind_Ok in H as (o2&Ho2&_). apply addr_validate_Ok in Ho as [-> ?]. by apply maybe_addr_Ok in Ho2 as [-> ?].
  - by apply addr_validate_Ok in Ho as [-> ?].
  - apply bind_Ok in H as (o2&Ho2&_). apply addr_validate_Ok in Ho as [-> ?]. by apply maybe_addr_Ok in Ho2 as [-> ?].
  - by apply addr_validate_Ok in Ho as [-> ?].
  - by apply addr_validate_Ok in Ho as [-> ?].
Qed.

(** ** Listing calls *)
Lemma listing_exact v e s f st m st' ms : v1_history p x st -> no_overflow e f st -> is_listing m ->
  execute_sub p x v e s f st m = Ok (st', ms) <-> listing_does p v e s f st m st' ms.
Proof.
  intros Hst Hr Hm. pose proof (history_wf _ _ _ Hst) as Hw. destruct m as [ty coll tok price rc rs bps ex|coll tok|coll tok price| | | | | | | | | | | | |]; try done; clear Hm.
  - split.
    + intros H. pose proof (names_of _ _ _ _ _ _ _ _ H) as Hn. apply execute_effect in H. cbn [listing_does]. cbv zeta.
      inversion H as [ty' c t pr rc' rs' bp ex' a fee H1 H2 H3 H4 H5 H6 H7 H8 H9 H10 H11 H12| | | | | | | | | | | | | |]; subst; try done.
      repeat (split; [done|]). split; [by destruct H10 as [[? ?]|?]; [right|left]|]. repeat (split; [done|]). done.
    + cbn [listing_does]. cbv zeta. intros ((N1&N2&N3)&(Hfp&Hmax)&(Ho&Ht&Ha)&Hwin&Hpaid&Hfa&Hres&->&->). cbn [execute_sub].
      rewrite (valid_ok p _ N1), bind_ok, (valid_of _ N2), bind_ok, (valid_of _ N3), bind_ok. unfold execute_set_ask.
      rewrite (proj2 (price_iff _ _) Hfp), bind_ok. unfold MAX_FIXED_PRICE_ASK_AMOUNT. rewrite (proj2 (N.leb_le _ _) Hmax). cbn [ensure]. rewrite bind_ok.
      rewrite (only_owner_live _ _ _ _ Ho), bind_ok, (tradable_live _ _ _ Ht), bind_ok. unfold tok_str. rewrite Ha. cbn [ensure]. rewrite bind_ok.
      rewrite (expiry_live _ _ _ Hwin (po_ask _ (wf_params _ _ Hw)) (ir_ask _ _ _ Hr)), bind_ok.
      assert (may_pay f NATIVE_DENOM = Ok (sp_listing_fee (s_params st))) as ->.
      { destruct Hpaid as [->|[-> E]]; [apply may_pay_live|]. by rewrite E. }
      rewrite bind_ok, N.eqb_refl. cbn [ensure]. rewrite bind_ok, (finders_live _ _ Hfa), bind_ok.
      assert (match rs with Some r => ensure (bool_decide (r <> s)) EInvalidInput ;; ensure (bool_decide (ty = FixedPrice)) EInvalidInput | None => Ok tt end = Ok tt) as ->.
      { destruct rs as [r|]; [|done]. destruct (Hres r eq_refl). by rewrite !bool_decide_eq_true_2 by done. }
      rewrite bind_ok. cbv zeta. do 2 f_equal. f_equal. unfold fair_burn. destruct (sp_listing_fee (s_params st) =? 0) eqn:E.
      * by replace (0 <? _) with false by lia.
      * by replace (0 <? _) with true by lia.
  - split.
    + intros H. apply execute_effect in H. inversion H as [|c t a H1 H2 H3| | | | | | | | | | | | |]; subst; try done. by exists a.
    + cbn [listing_does]. intros (a&->&Ho&Ha&->&->). destruct (wf_ask _ _ Hw _ _ Ha) as (Hk&_&_&_&_&Hv). injection Hk as E1 E2. cbn [execute_sub].
      rewrite E1, (valid_ok p _ Hv), bind_ok, <-E1. unfold execute_remove_ask. change (nonpayable []) with (Ok tt). rewrite bind_ok, (only_owner_live _ _ _ _ Ho), bind_ok, Ha.
      done.
  - split.
    + intros H. apply execute_effect in H. inversion H as [| |c t pr a a' H1 H2 H3 H4 H5 H6 H7 H8| | | | | | | | | | | |]; subst; try done.
      destruct (wf_ask _ _ Hw _ _ H3) as (Hk&_). injection Hk as E1 E2. exists a. repeat (split; [done|]). cbv zeta.
      unfold a'. rewrite <-E1, <-E2, H7. done.
    + cbn [listing_does]. cbv zeta. intros (a&->&Ho&Hfp&Ha&Hact&Hl&->&->). destruct (wf_ask _ _ Hw _ _ Ha) as (Hk&_&_&_&_&Hv). injection Hk as E1 E2. cbn [execute_sub].
      rewrite E1, (valid_ok p _ Hv), bind_ok, <-E1. unfold execute_update_ask_price. change (nonpayable []) with (Ok tt). rewrite bind_ok, (only_owner_live _ _ _ _ Ho), bind_ok.
      rewrite (proj2 (price_iff _ _) Hfp), bind_ok, Ha. cbn [load]. rewrite bind_ok, Hact. cbn [ensure]. rewrite bind_ok, (live_live _ _ Hl). cbn [ensure]. rewrite bind_ok.
      cbv zeta. by rewrite <-E1, <-E2.
Qed.

(** ** Upkeep *)
Lemma upkeep_exact v e s f st m st' ms : v1_history p x st -> no_overflow e f st -> is_upkeep m ->
  execute_sub p x v e s f st m = Ok (st', ms) <-> upkeep_does p v e s f st m st' ms.
Proof.
  intros Hst Hr Hm. pose proof (history_wf _ _ _ Hst) as Hw. pose proof (wf_params _ _ Hw) as Hpo.
  assert (e_time e <= U64_MAX) as Hte by (pose proof (ir_ask _ _ _ Hr); lia).
  destruct m as [| | | | | | | | | | | |coll tok|coll tok|coll tok who|coll who]; try done; clear Hm.
  - split.
    + intros H. apply execute_effect in H. inversion H as [| | | | | | | | | | |c t a ok a' H1 H2 H3 H4 H5| | |]; subst; try done.
      destruct (wf_ask _ _ Hw _ _ H3) as (Hk&_). injection Hk as E1 E2. split; [done|]. split; [done|]. exists a. split; [done|]. cbv zeta.
      unfold a'. rewrite <-E1, <-E2. split; [|done]. rewrite H5. by destruct (q_approval _ _ _ _).
    + intros (->&Hop&a&Ha&H). cbv zeta in H. destruct H as (Hne&->&->). destruct (wf_ask _ _ Hw _ _ Ha) as (Hk&_&_&_&_&Hv). injection Hk as E1 E2. cbn [execute_sub].
      rewrite E1, (valid_ok p _ Hv), bind_ok, <-E1. unfold execute_sync_ask. change (nonpayable []) with (Ok tt). rewrite bind_ok, (operator_live _ _ Hop), bind_ok, Ha.
      cbn [load]. rewrite bind_ok. cbv zeta. unfold tok_str. rewrite <-E1, <-E2.
      assert (negb (Bool.eqb (q_approval v coll (pretty tok) (p_self p)) (k_active a)) = true) as -> by (by destruct (q_approval _ _ _ _), (k_active a)).
      done.
  - split.
    + intros H. apply execute_effect in H. inversion H as [| | | | | | | | | | | |c t a H1 H2 H3 H4| |]; subst; try done. split; [done|]. split; [done|]. by exists a.
    + intros (->&Hop&a&Ha&Hcond&->&->). destruct (wf_ask _ _ Hw _ _ Ha) as (Hk&_&_&_&_&Hv). injection Hk as E1 E2. cbn [execute_sub].
      rewrite E1, (valid_ok p _ Hv), bind_ok, <-E1. unfold execute_remove_stale_ask. change (nonpayable []) with (Ok tt). rewrite bind_ok, (operator_live _ _ Hop), bind_ok, Ha.
      cbn [load]. rewrite bind_ok. cbv zeta. unfold tok_str.
      assert (negb (bool_decide (q_owner v coll (pretty tok) <> None) && q_approval v coll (pretty tok) (p_self p) && negb (is_expired (k_expires a) e)) = true) as ->; [|done].
      destruct Hcond as [->|[->|Hl]].
      * by rewrite bool_decide_eq_false_2 by (intros ?; done).
      * by rewrite andb_false_r.
      * unfold live in Hl. unfold is_expired. rewrite (proj2 (N.leb_le _ _)) by lia. by rewrite andb_false_r.
  - split.
    + intros H. pose proof (names_of _ _ _ _ _ _ _ _ H) as [_ Hn]. apply execute_effect in H. inversion H as [| | | | | | | | | | | | |c t w b reward H1 H2 H3 H4 H5|]; subst; try done.
      destruct (wf_bid _ _ Hw _ _ H3) as (Hk&_). injection Hk as E1 E2 E3. split; [done|]. split; [done|]. exists b. rewrite <-E3. done.
    + intros (->&Hop&b&Hv2&Hb&Hs&H). cbv zeta in H. destruct H as (->&->). destruct (wf_bid _ _ Hw _ _ Hb) as (Hk&_&_&Hv&_). injection Hk as E1 E2 E3. cbn [execute_sub].
      rewrite E1, (valid_ok p _ Hv), bind_ok, (valid_ok p _ Hv2), bind_ok, <-E1. unfold execute_remove_stale_bid. change (nonpayable []) with (Ok tt). rewrite bind_ok, (operator_live _ _ Hop), bind_ok, Hb.
      cbn [load]. rewrite bind_ok, (stale_live _ _ _ Hs Hte), bind_ok, (reward_live _ _ (po_reward _ Hpo) (ir_bids _ _ _ Hr _ _ Hb)), bind_ok.
      rewrite sub128_live by (apply rate_part, Hpo). rewrite bind_ok, <-E3. done.
  - split.
    + intros H. pose proof (names_of _ _ _ _ _ _ _ _ H) as [_ Hn]. apply execute_effect in H. inversion H as [| | | | | | | | | | | | | |c w b reward H1 H2 H3 H4 H5]; subst; try done.
      destruct (wf_cbid _ _ Hw _ _ H3) as (Hk&_). injection Hk as E1 E3. split; [done|]. split; [done|]. exists b. rewrite <-E3. done.
    + intros (->&Hop&b&Hv2&Hb&Hs&H). cbv zeta in H. destruct H as (->&->). destruct (wf_cbid _ _ Hw _ _ Hb) as (Hk&_&_&Hv&_). injection Hk as E1 E3. cbn [execute_sub].
      rewrite E1, (valid_ok p _ Hv), bind_ok, (valid_ok p _ Hv2), bind_ok, <-E1. unfold execute_remove_stale_collection_bid. change (nonpayable []) with (Ok tt). rewrite bind_ok, (operator_live _ _ Hop), bind_ok, Hb.
      cbn [load]. rewrite bind_ok, (stale_live _ _ _ Hs Hte), bind_ok, (reward_live _ _ (po_reward _ Hpo) (ir_cbids _ _ _ Hr _ _ Hb)), bind_ok.
      rewrite sub128_live by (apply rate_part, Hpo). rewrite bind_ok, <-E3. done.
Qed.

(** ** Bidding calls *)
Lemma amt_paid n : amt [native n] "ustars" = n.
Proof. rewrite amt_native. by rewrite bool_decide_eq_true_2. Qed.

(** What [execute_set_bid] does once the limits are checked. *)
Lemma set_bid_exact v e s f st ba st' ms : wf p st -> no_overflow e f st ->
  execute_set_bid x v e s f st (ba_coll ba) (ba_tok ba) (ba_bps ba) (ba_expires ba) (ba_finder ba) (ba_to ba) (ba_now ba) = Ok (st', ms) <->
  exists price, (f = [native price] /\ 0 < price /\ sp_min_price (s_params st) <= price) /\
    ba_finder ba <> Some s /\ finder_allowed st (ba_bps ba) /\
    in_window (sp_bid_expiry (s_params st)) (e_time e) (ba_expires ba) /\
    let refund := plainly (refund_of st (ba_coll ba) (ba_tok ba) s) in
    let b := Bid (ba_coll ba) (ba_tok ba) s price (ba_bps ba) (ba_expires ba) in
    let rests := st' = with_orders st (s_asks st) (<[(ba_coll ba, ba_tok ba, s) := b]> (s_bids st)) (s_cbids st) /\
                 ms = refund ++ told (s_bid_hooks st) (HBid b HCreate) in
    match s_asks st !! (ba_coll ba, ba_tok ba) with
    | None => ba_now ba = false /\ rests
    | Some a =>
        live e (k_expires a) /\ k_active a = true /\ (forall r, k_reserve a = Some r -> r = s) /\
        match k_type a with
        | Auction => k_price a <= price /\ rests
        | FixedPrice =>
            (price < k_price a /\ rests) \/
            (price = k_price a /\ owns v (k_seller a) (ba_coll ba) (ba_tok ba) /\
             st' = with_orders st (delete (ba_coll ba, ba_tok ba) (s_asks st)) (delete (ba_coll ba, ba_tok ba, s) (s_bids st)) (s_cbids st) /\
             exists sale, ms = refund ++ sale /\
               sale_does x v st (ba_coll ba) (ba_tok ba) price (k_seller a) (default (k_seller a) (k_recipient a)) s (default s (ba_to ba))
                 (ba_finder ba) (k_finders a) sale)
        end
    end.
Proof.
  intros Hw Hr. destruct ba as [coll tok expires finder bps to now]. cbn [ba_coll ba_tok ba_expires ba_finder ba_bps ba_to ba_now].
  pose proof (wf_params _ _ Hw) as Hpo.
  assert (exists res, match s_bids st !! (coll, tok, s) with
      | Some old => (remove_bid st coll tok s, [send s (b_price old)]) | None => (st, []) end
      = (remove_bid st coll tok s, res) /\ res = plainly (refund_of st coll tok s)) as (res&Eres&Hres).
  { unfold refund_of. destruct (s_bids st !! (coll, tok, s)) eqn:E; eexists; split; try done.
    by rewrite remove_bid_none. }
  assert (forall b, b_coll b = coll -> b_tok b = tok -> b_bidder b = s ->
    store_bid (remove_bid st coll tok s) b = with_orders st (s_asks st) (<[(coll, tok, s) := b]> (s_bids st)) (s_cbids st)) as Estore.
  { intros b <- <- <-. unfold store_bid, remove_bid, set_bids, with_orders. cbn [s_params s_asks s_bids s_cbids s_ask_hooks s_bid_hooks s_sale_hooks s_cbid_hooks].
    by rewrite insert_delete_insert. }
  unfold execute_set_bid. rewrite Eres. clear Eres. cbn beta iota zeta. change (s_asks (remove_bid st coll tok s)) with (s_asks st).
  rewrite <-Hres. clear Hres. split.
  - intros H.
    apply bind_Ok in H as (?&H1&H). apply bind_Ok in H as (?&H2&H). apply bind_Ok in H as (price&H3&H).
    apply bind_Ok in H as (?&H4&H). apply bind_Ok in H as (?&H5&H). apply bind_Ok in H as (?&_&H).
    apply ensure_Ok, bool_decide_eq_true in H1. apply finders_Ok in H2. apply must_pay_Ok in H3 as [-> Hpos].
    apply ensure_Ok in H4. apply expiry_Ok in H5. pose proof (ir_funds _ _ _ Hr) as Hsize. rewrite amt_paid in Hsize.
    exists price. split; [split_and!; [done|done|by apply N.leb_le]|]. repeat (split; [done|]). cbv zeta.
    apply bind_Ok in H as (?&Ho&H).
    destruct (s_asks st !! (coll, tok)) as [a|] eqn:Ea.
    2: { apply ensure_Ok in Ho. injection H as <- <-. rewrite Estore by done. split; [by destruct now|done]. }
    apply bind_Ok in Ho as (?&Hx&Ho). apply bind_Ok in Ho as (?&Hy&Ho). apply ensure_Ok in Hy. apply ensure_Ok, live_Ok in Hx.
    split; [done|]. split; [done|]. split. { intros r Hrs. rewrite Hrs in Ho. by apply ensure_Ok, bool_decide_eq_true in Ho. }
    destruct (wf_ask _ _ Hw _ _ Ea) as (Hk&Hpr&_&_&Hbps&_). injection Hk as Hk1 Hk2.
    destruct (k_type a) eqn:Ety.
    + destruct (price ?= k_price a) eqn:Ecmp; [|left; injection H as <- <-; rewrite Estore by done; split; [by apply N.compare_lt_iff|done]|done].
      apply N.compare_eq_iff in Ecmp. right. split; [done|].
      destruct (q_owner v (k_coll a) (tok_str (k_tok a))) as [o|] eqn:Eo; [|done].
      apply bind_Ok in H as (?&Hs&H). apply ensure_Ok, bool_decide_eq_true in Hs. subst o.
      apply bind_Ok in H as (ms'&Hf&H). injection H as <- <-.
      apply (finalize_exact v st) in Hf; [|done|done|apply Hpo|done|done|done].
      split; [by rewrite Hk1, Hk2|]. split; [done|]. by rewrite Hk1, Hk2.
    + destruct (price ?= k_price a) eqn:Ecmp; [|done|]; injection H as <- <-; rewrite Estore by done; (split; [|done]).
      * apply N.compare_eq_iff in Ecmp. lia.
      * apply N.compare_gt_iff in Ecmp. lia.
  - intros (price&(->&Hpos&Hmin)&Hfi&Hfa&Hwin&H). cbv zeta in H. pose proof (ir_funds _ _ _ Hr) as Hsize. rewrite amt_paid in Hsize.
    rewrite bool_decide_eq_true_2 by done. cbn [ensure]. rewrite bind_ok, (finders_live _ _ Hfa), bind_ok.
    change NATIVE_DENOM with "ustars". rewrite (must_pay_live _ Hpos), bind_ok, (proj2 (N.leb_le _ _) Hmin). cbn [ensure].
    rewrite bind_ok, (expiry_live _ _ _ Hwin (po_bid _ Hpo) (ir_bid _ _ _ Hr)), bind_ok, bind_ok.
    destruct (s_asks st !! (coll, tok)) as [a|] eqn:Ea.
    2: { destruct H as (->&->&->). cbn [negb ensure]. rewrite bind_ok, Estore by done. done. }
    destruct (wf_ask _ _ Hw _ _ Ea) as (Hk&Hpr&_&_&Hbps&_). injection Hk as Hk1 Hk2.
    destruct H as (Hl&Hact&Hrs&H). rewrite (live_live _ _ Hl), Hact. cbn [ensure]. rewrite !bind_ok.
    assert (match k_reserve a with Some r => ensure (bool_decide (r = s)) EUnauthorized | None => Ok () end = Ok tt) as ->.
    { destruct (k_reserve a) as [r|]; [|done]. by rewrite bool_decide_eq_true_2 by (by apply Hrs). }
    rewrite bind_ok. destruct (k_type a) eqn:Ety.
    + destruct H as [(Hlt&->&->)|(->&Ho&->&sale&->&Hsale)].
      * apply N.compare_lt_iff in Hlt. rewrite Hlt. by rewrite Estore by done.
      * rewrite N.compare_refl. unfold owns in Ho. rewrite Hk1, Hk2 in Ho. unfold tok_str. rewrite Ho, bool_decide_eq_true_2 by done. cbn [ensure]. rewrite bind_ok.
        rewrite (proj2 (finalize_exact v st (remove_ask (remove_bid st coll tok s) coll tok) a (k_price a) s finder to res (res ++ sale) eq_refl eq_refl (po_fee _ Hpo) Hbps Hsize eq_refl)).
        { done. }
        exists sale. split; [done|]. by rewrite <-Hk1, <-Hk2.
    + destruct H as (Hle&->&->). destruct (price ?= k_price a) eqn:Ecmp; [by rewrite Estore by done| |by rewrite Estore by done].
      apply N.compare_lt_iff in Ecmp. exfalso. apply N.le_ngt in Hle. by apply Hle.
Qed.

Lemma bidding_exact v e s f st m st' ms : v1_history p x st -> no_overflow e f st -> is_bidding m ->
  execute_sub p x v e s f st m = Ok (st', ms) <-> bidding_does p x v e s f st m st' ms.
Proof.
  intros Hst Hr Hm. pose proof (history_wf _ _ _ Hst) as Hw.
  assert (forall ba, bid_call m = Some ba ->
    ((p_valid p (ba_coll ba) = true /\ known p (ba_finder ba) /\ known p (ba_to ba)) /\
     execute_set_bid x v e s f st (ba_coll ba) (ba_tok ba) (ba_bps ba) (ba_expires ba) (ba_finder ba) (ba_to ba) (ba_now ba) = Ok (st', ms)) <->
    bidding_does p x v e s f st m st' ms) as Hiff.
  { intros ba Hba. rewrite (set_bid_exact v e s f st ba st' ms Hw Hr). unfold bidding_does. split.
    - intros (Hn&price&H1&H2). by exists ba, price.
    - intros (ba'&price&Hba'&Hn&H). assert (ba' = ba) as -> by congruence. split; [done|]. by exists price. }
  destruct m as [| | |coll tok ex finder bps|coll tok ex finder bps|coll tok ex finder bps to| | | | | | | | | |]; try done; clear Hm;
    rewrite <-(Hiff _ eq_refl); clear Hiff; cbn [ba_coll ba_tok ba_expires ba_finder ba_bps ba_to ba_now]; (split; [intros H|]).
  - pose proof (names_of _ _ _ _ _ _ _ _ H) as [Hv Hk]. cbn [execute_sub] in H. rewrite (valid_ok p _ Hv), bind_ok, (valid_of _ Hk), bind_ok in H. done.
  - intros ((Hv&Hk&_)&H). cbn [execute_sub]. by rewrite (valid_ok p _ Hv), bind_ok, (valid_of _ Hk), bind_ok.
  - pose proof (names_of _ _ _ _ _ _ _ _ H) as [Hv Hk]. cbn [execute_sub] in H. rewrite (valid_ok p _ Hv), bind_ok, (valid_of _ Hk), bind_ok in H. done.
  - intros ((Hv&Hk&_)&H). cbn [execute_sub]. by rewrite (valid_ok p _ Hv), bind_ok, (valid_of _ Hk), bind_ok.
  - pose proof (names_of _ _ _ _ _ _ _ _ H) as (Hv&Hk&Ht). cbn [execute_sub] in H. rewrite (valid_ok p _ Hv), bind_ok, (valid_of _ Hk), bind_ok, (valid_ok p _ Ht), bind_ok in H.
    split; [|done]. split; [done|]. split; [done|]. by intros ? [= <-].
  - intros ((Hv&Hk&Ht)&H). cbn [execute_sub]. by rewrite (valid_ok p _ Hv), bind_ok, (valid_of _ Hk), bind_ok, (valid_ok p _ (Ht _ eq_refl)), bind_ok.
Qed.

(** ** Withdrawals, rejections, acceptances, collection bids *)
Lemma answer_exact v e s f st m st' ms : v1_history p x st -> no_overflow e f st -> is_answer m ->
  execute_sub p x v e s f st m = Ok (st', ms) <-> answer_does p x v e s f st m st' ms.
Proof.
  intros Hst Hr Hm. pose proof (history_wf _ _ _ Hst) as Hw. pose proof (wf_params _ _ Hw) as Hpo.
  destruct m as [| | | | | |coll tok|coll tok who finder|coll tok who|coll ex bps|coll|coll tok who finder| | | |]; try done; clear Hm.
  - split.
    + intros H. apply execute_effect in H. inversion H as [| | | | |c t b H1 H2| | | | | | | | |]; subst; try done.
      destruct (wf_bid _ _ Hw _ _ H2) as (Hk&_). injection Hk as E1 E2 E3. exists b. rewrite E3 at 4. done.
    + intros (b&->&Hb&->&->). destruct (wf_bid _ _ Hw _ _ Hb) as (Hk&_&_&Hv&_). injection Hk as E1 E2 E3. cbn [execute_sub].
      rewrite E1, (valid_ok p _ Hv), bind_ok, <-E1. unfold execute_remove_bid. change (nonpayable []) with (Ok tt). rewrite bind_ok, Hb. cbn [load]. rewrite bind_ok, <-E3. done.
  - split.
    + intros H. pose proof (names_of _ _ _ _ _ _ _ _ H) as (Hv&Hv2&Hk). cbn [execute_sub] in H.
      rewrite (valid_ok p _ Hv), bind_ok, (valid_ok p _ Hv2), bind_ok, (valid_of _ Hk), bind_ok in H. unfold execute_accept_bid in H.
      apply bind_Ok in H as (?&H1&H). apply bind_Ok in H as (?&H2&H). apply bind_Ok in H as (?&H3&H).
      apply bind_Ok in H as (b&H4&H). apply bind_Ok in H as (?&H5&H). apply nonpayable_Ok in H1. apply only_owner_Ok in H2.
      apply only_tradable_Ok in H3. apply load_Ok in H4. apply ensure_Ok, live_Ok in H5. cbv zeta in H.
      assert (match s_asks st !! (coll, tok) with Some _ => remove_ask st coll tok | None => st end = remove_ask st coll tok) as E.
      { destruct (s_asks st !! (coll, tok)) eqn:E; [done|]. by rewrite remove_ask_none. }
      rewrite E in H. apply bind_Ok in H as (ms'&Hf&H). injection H as <- <-. destruct (wf_bid _ _ Hw _ _ H4) as (_&_&_&_&Hbps).
      apply (finalize_exact v st) in Hf as (sale&->&Hf); [|done|done|apply Hpo|done|by apply (ir_bids _ _ _ Hr _ _ H4)|done].
      exists b. repeat (split; [done|]). exact Hf.
    + intros (b&Hv2&Hk&->&Ho&Ht&Hb&Hl&->&Hsale). destruct (wf_bid _ _ Hw _ _ Hb) as (Hk'&_&_&Hv&Hbps). injection Hk' as E1 E2 E3. cbn [execute_sub].
      rewrite E1, (valid_ok p _ Hv), bind_ok, (valid_ok p _ Hv2), bind_ok, (valid_of _ Hk), bind_ok, <-E1. unfold execute_accept_bid.
      change (nonpayable []) with (Ok tt). rewrite bind_ok, (only_owner_live _ _ _ _ Ho), bind_ok, (tradable_live _ _ _ Ht), bind_ok, Hb. cbn [load].
      rewrite bind_ok, (live_live _ _ Hl). cbn [ensure]. rewrite bind_ok. cbv zeta.
      assert (match s_asks st !! (coll, tok) with Some _ => remove_ask st coll tok | None => st end = remove_ask st coll tok) as E.
      { destruct (s_asks st !! (coll, tok)) eqn:E; [done|]. by rewrite remove_ask_none. }
      rewrite E.
      rewrite (proj2 (finalize_exact v st (remove_bid (remove_ask st coll tok) coll tok who) (Ask Auction coll tok s (b_price b) (Some s) None (b_finders b) (b_expires b) true)
        (b_price b) who finder None [] ms eq_refl eq_refl (po_fee _ Hpo) Hbps (ir_bids _ _ _ Hr _ _ Hb) eq_refl)).
      { done. }
      exists ms. split; [done|]. exact Hsale.
  - split.
    + intros H. pose proof (names_of _ _ _ _ _ _ _ _ H) as [_ Hn]. apply execute_effect in H. inversion H as [| | | | | | |c t w b H1 H2 H3| | | | | | |]; subst; try done. by exists b.
    + intros (b&Hv2&->&Ho&Hb&->&->). destruct (wf_bid _ _ Hw _ _ Hb) as (Hk&_&_&Hv&_). injection Hk as E1 E2 E3. cbn [execute_sub].
      rewrite E1, (valid_ok p _ Hv), bind_ok, (valid_ok p _ Hv2), bind_ok, <-E1. unfold execute_reject_bid. change (nonpayable []) with (Ok tt).
      rewrite bind_ok, (only_owner_live _ _ _ _ Ho), bind_ok, Hb. done.
  - assert (plainly (crefund_of st coll s) = plain_msgs (match s_cbids st !! (coll, s) with Some o => [pay (cb_bidder o) (cb_price o)] | None => [] end)) as Eref.
    { unfold crefund_of. destruct (s_cbids st !! (coll, s)) as [o|] eqn:E; [|done]. destruct (wf_cbid _ _ Hw _ _ E) as (Hk&_). injection Hk as _ <-. done. }
    assert (forall b, cb_coll b = coll -> cb_bidder b = s ->
      store_cbid (remove_cbid st coll s) b = with_orders st (s_asks st) (s_bids st) (<[(coll, s) := b]> (s_cbids st))) as Estore.
    { intros b <- <-. unfold store_cbid, remove_cbid, set_cbids, with_orders. cbn [s_params s_asks s_bids s_cbids s_ask_hooks s_bid_hooks s_sale_hooks s_cbid_hooks].
      by rewrite insert_delete_insert. }
    split.
    + intros H. apply execute_effect in H. inversion H as [| | | | | | | |c ex' bp price b H1 H2 H3 H4 H5 H6| | | | | |]; subst; try done. exists price. cbv zeta.
      unfold b. rewrite Eref, Estore by done. done.
    + intros (price&H). cbv zeta in H. destruct H as (Hv&(->&Hpos&Hmin)&Hwin&Hfa&->&->). cbn [execute_sub]. rewrite (valid_ok p _ Hv), bind_ok. unfold execute_set_collection_bid.
      change NATIVE_DENOM with "ustars". rewrite (must_pay_live _ Hpos), bind_ok, (proj2 (N.leb_le _ _) Hmin). cbn [ensure].
      rewrite bind_ok, (expiry_live _ _ _ Hwin (po_bid _ Hpo) (ir_bid _ _ _ Hr)), bind_ok, (finders_live _ _ Hfa), bind_ok.
      replace (match s_cbids st !! (coll, s) with
        | Some old => (remove_cbid st coll s, [send (cb_bidder old) (cb_price old)]) | None => (st, []) end)
        with (remove_cbid st coll s, plainly (crefund_of st coll s)).
      2: { rewrite Eref. destruct (s_cbids st !! (coll, s)) eqn:E; [done|]. by rewrite remove_cbid_none. }
      cbv zeta. by rewrite Estore by done.
  - split.
    + intros H. apply execute_effect in H. inversion H as [| | | | | | | | |c b H1 H2| | | | |]; subst; try done.
      destruct (wf_cbid _ _ Hw _ _ H2) as (Hk&_). injection Hk as E1 E3. exists b. rewrite E3 at 4. done.
    + intros (b&->&Hb&->&->). destruct (wf_cbid _ _ Hw _ _ Hb) as (Hk&_&_&Hv&_). injection Hk as E1 E3. cbn [execute_sub].
      rewrite E1, (valid_ok p _ Hv), bind_ok, <-E1. unfold execute_remove_collection_bid. change (nonpayable []) with (Ok tt). rewrite bind_ok, Hb. cbn [load]. rewrite bind_ok, <-E3. done.
  - assert (match s_asks (remove_cbid st coll who) !! (coll, tok) with
        | Some _ => remove_ask (remove_cbid st coll who) coll tok | None => remove_cbid st coll who end
        = remove_ask (remove_cbid st coll who) coll tok) as E.
    { cbn [s_asks remove_cbid set_cbids]. destruct (s_asks st !! (coll, tok)) eqn:E; [done|].
      unfold remove_ask, set_asks. cbn [s_asks remove_cbid set_cbids]. by rewrite delete_notin by done. }
    split.
    + intros H. pose proof (names_of _ _ _ _ _ _ _ _ H) as (Hv&Hv2&Hk). cbn [execute_sub] in H.
      rewrite (valid_ok p _ Hv), bind_ok, (valid_ok p _ Hv2), bind_ok, (valid_of _ Hk), bind_ok in H. unfold execute_accept_collection_bid in H.
      apply bind_Ok in H as (?&H1&H). apply bind_Ok in H as (?&H2&H). apply bind_Ok in H as (?&H3&H).
      apply bind_Ok in H as (b&H4&H). apply bind_Ok in H as (?&H5&H). apply nonpayable_Ok in H1. apply only_owner_Ok in H2.
      apply only_tradable_Ok in H3. apply load_Ok in H4. apply ensure_Ok, live_Ok in H5. cbv zeta in H.
      rewrite E in H. apply bind_Ok in H as (ms'&Hf&H). injection H as <- <-. destruct (wf_cbid _ _ Hw _ _ H4) as (_&_&_&_&Hbps).
      apply (finalize_exact v st) in Hf as (sale&->&Hf); [|done|done|apply Hpo|done|by apply (ir_cbids _ _ _ Hr _ _ H4)|done].
      exists b. repeat (split; [done|]). exact Hf.
    + intros (b&Hv2&Hk&->&Ho&Ht&Hb&Hl&->&Hsale). destruct (wf_cbid _ _ Hw _ _ Hb) as (Hk'&_&_&Hv&Hbps). injection Hk' as E1 E3. cbn [execute_sub].
      rewrite E1, (valid_ok p _ Hv), bind_ok, (valid_ok p _ Hv2), bind_ok, (valid_of _ Hk), bind_ok, <-E1. unfold execute_accept_collection_bid.
      change (nonpayable []) with (Ok tt). rewrite bind_ok, (only_owner_live _ _ _ _ Ho), bind_ok, (tradable_live _ _ _ Ht), bind_ok, Hb. cbn [load].
      rewrite bind_ok, (live_live _ _ Hl). cbn [ensure]. rewrite bind_ok. cbv zeta. rewrite E.
      rewrite (proj2 (finalize_exact v st (remove_ask (remove_cbid st coll who) coll tok) (Ask Auction coll tok s (cb_price b) (Some s) None (cb_finders b) (cb_expires b) true)
        (cb_price b) who finder None [] ms eq_refl eq_refl (po_fee _ Hpo) Hbps (ir_cbids _ _ _ Hr _ _ Hb) eq_refl)).
      { done. }
      exists ms. split; [done|]. exact Hsale.
Qed.

(** ** Governance *)
Lemma register_iff l a l' : register l a = Ok l' <-> a ∉ l /\ l' = l ++ [a].
Proof.
  unfold register. destruct (existsb _ l) eqn:E.
  - apply existsb_exists in E as (o&Ho&E). apply bool_decide_eq_true in E as ->. apply elem_of_list_In in Ho. naive_solver.
  - assert (a ∉ l) as Hn.
    { intros Hin. apply not_true_iff_false in E. apply E, existsb_exists. exists a. split; [by apply elem_of_list_In|by apply bool_decide_eq_true]. }
    split; [intros [= <-]; done|]. by intros [_ ->].
Qed.
Lemma unregister_iff l a l' : unregister l a = Ok l' <-> exists l1 l2, l = l1 ++ a :: l2 /\ a ∉ l1 /\ l' = l1 ++ l2.
Proof.
  revert l'. induction l as [|o l IH]; intros l'; cbn [unregister].
  - split; [done|]. intros (l1&l2&H&_). by destruct l1.
  - case_bool_decide as Ho.
    + subst o. split; [intros [= <-]; exists [], l; split_and!; [done|apply not_elem_of_nil|done]|].
      intros (l1&l2&H&Hn&->). destruct l1 as [|y l1]; [by injection H as <-|]. injection H as <- _. by destruct Hn; left.
    + split.
      * intros H. apply bind_Ok in H as (r&Hr&H). injection H as <-. apply IH in Hr as (l1&l2&->&Hn&->).
        exists (o :: l1), l2. split_and!; [done| |done]. by apply not_elem_of_cons.
      * intros (l1&l2&H&Hn&->). destruct l1 as [|y l1]; [by injection H as <- _|]. injection H as <- ->. apply not_elem_of_cons in Hn as [_ Hn].
        rewrite (proj2 (IH (l1 ++ l2))); [done|]. by exists l1, l2.
Qed.
Lemma valid_iff a b : addr_validate p a = Ok b <-> b = a /\ p_valid p a = true.
Proof.
  split; [apply addr_validate_Ok|]. intros [-> H]. by apply valid_ok.
Qed.
Lemma below_bps o : bps_ok o = Ok tt <-> below o (fun n => n <= 10000).
Proof.
  unfold bps_ok, below, MAX_FEE_BPS. destruct o as [n|]; [|naive_solver]. split.
  - intros H%ensure_Ok m [= <-]. by apply N.leb_le.
  - intros H. by rewrite (proj2 (N.leb_le _ _) (H n eq_refl)).
Qed.
Lemma below_expiry o : expiry_ok o = Ok tt <-> below o (fun r => er_min r <= er_max r).
Proof.
  unfold expiry_ok, expiry_validate, below. destruct o as [n|]; [|naive_solver]. split.
  - intros H%ensure_Ok m [= <-]. by apply N.leb_le.
  - intros H. by rewrite (proj2 (N.leb_le _ _) (H n eq_refl)).
Qed.
Lemma joins_iff l a {B} (g : list addr -> result B) z :
  (a0 ← addr_validate p a; l' ← register l a0; g l') = Ok z <-> exists l', joins p l a l' /\ g l' = Ok z.
Proof.
  split.
  - intros H. apply bind_Ok in H as (a0&Ha&H). apply bind_Ok in H as (r&Hr&H). apply valid_iff in Ha as [-> Hv]. apply register_iff in Hr as [Hn ->]. by eexists.
  - intros (r&(Hv&Hn&->)&H). rewrite (valid_ok p _ Hv), bind_ok, (proj2 (register_iff l a (l ++ [a]))) by done. by rewrite bind_ok.
Qed.
Lemma leaves_iff l a {B} (g : list addr -> result B) z :
  (a0 ← addr_validate p a; l' ← unregister l a0; g l') = Ok z <-> exists l', leaves p l a l' /\ g l' = Ok z.
Proof.
  split.
  - intros H. apply bind_Ok in H as (a0&Ha&H). apply bind_Ok in H as (r&Hr&H). apply valid_iff in Ha as [-> Hv]. apply unregister_iff in Hr. by exists r.
  - intros (r&(Hv&Hr)&H). rewrite (valid_ok p _ Hv), bind_ok, (proj2 (unregister_iff l a r)) by done. by rewrite bind_ok.
Qed.
Lemma governs_exact v e st m st' msgs : sudo p v e st m = Ok (st', msgs) <-> governs p st m st' /\ msgs = [].
Proof.
  assert (sudo p v e st m = Ok (st', msgs) <-> sudo_state p st m = Ok st' /\ msgs = []) as ->.
  { unfold sudo. split; [|intros [-> ->]; done]. intros H. apply bind_Ok in H as (st1&H1&H). by injection H as <- <-. }
  assert (forall l (g : list addr -> state) a, (exists l', joins p l a l' /\ Ok (g l') = Ok st') <-> (exists l', joins p l a l' /\ st' = g l')) as Hj.
  { intros. split; intros (l'&Hl&E); exists l'; split; try done; [by injection E as <-|by rewrite E]. }
  assert (forall l (g : list addr -> state) a, (exists l', leaves p l a l' /\ Ok (g l') = Ok st') <-> (exists l', leaves p l a l' /\ st' = g l')) as Hl.
  { intros. split; intros (l'&Hl&E); exists l'; split; try done; [by injection E as <-|by rewrite E]. }
  assert (sudo_state p st m = Ok st' <-> governs p st m st') as ->; [|done].
  destruct m as [u|a|a|h|h|h|h|h|h|]; cbn [sudo_state governs]; try (rewrite ?joins_iff, ?leaves_iff; (apply Hj || apply Hl)).
  - cbv zeta. unfold sudo_update_params. split.
    + intros H. apply bind_Ok in H as ([]&H1&H). apply bind_Ok in H as ([]&H2&H). apply bind_Ok in H as ([]&H3&H).
      apply bind_Ok in H as ([]&H4&H). apply bind_Ok in H as ([]&H5&H). cbv zeta in H. injection H as <-.
      split; [|by destruct (u_trading_fee_bps u), (u_max_finders_fee_bps u), (u_stale u), (u_reward_bps u)].
      by rewrite <-!below_bps, <-!below_expiry.
    + intros ((H1&H2&H3&H4&H5)&->). apply below_bps in H1, H2, H3. apply below_expiry in H4, H5.
      rewrite H1, H2, H3, H4, H5, !bind_ok. by destruct (u_trading_fee_bps u), (u_max_finders_fee_bps u), (u_stale u), (u_reward_bps u).
  - split; [by intros [= <-]|by intros ->].
Qed.

(** ** Set-up *)
Lemma validate_all_iff l r : validate_all p l = Ok r <-> Forall (fun a => p_valid p a = true) l /\ r = l.
Proof.
  revert r. induction l as [|a l IH]; intros r; cbn [validate_all].
  - split; [intros [= <-]; split; [apply List.Forall_nil|done]|by intros [_ ->]].
  - split.
    + intros H. apply bind_Ok in H as (b&Hb&H). apply bind_Ok in H as (r'&Hr&H). injection H as <-. apply valid_iff in Hb as [-> Hv].
      apply IH in Hr as [Hr ->]. split; [by apply List.Forall_cons|done].
    + intros [H ->]. apply Forall_cons_1 in H as [Hv H]. rewrite (valid_ok p _ Hv), bind_ok, (proj2 (IH l)) by done. done.
Qed.
Lemma dedup_sorted l : StronglySorted (kle str_leb (fun s => s)) l -> StronglySorted bytes_before (dedup l).
Proof.
  intros Hs. assert (StronglySorted (kle str_leb (fun s => s)) (dedup l)) as Hd.
  { clear -Hs. induction Hs as [|a l Hl IH Ha]; cbn; [constructor|]. destruct (dedup l) as [|b l'] eqn:E.
    - constructor; [constructor|apply List.Forall_nil].
    - case_bool_decide; [done|]. constructor; [done|]. rewrite <-E. apply Forall_forall. intros y Hy. apply (proj1 (dedup_in _ _)) in Hy.
      rewrite Forall_forall in Ha. by apply Ha. }
  pose proof (dedup_NoDup _ Hs) as Hn. induction Hd as [|a r Hr IH Ha]; [constructor|]. apply NoDup_cons in Hn as [Hn1 Hn2].
  constructor; [by apply IH|]. rewrite Forall_forall in Ha |- *. intros y Hy. specialize (Ha y Hy). unfold kle in Ha.
  change (id_before a y). apply str_leb_before. destruct (str_leb y a) eqn:E; [|done]. exfalso. apply Hn1. by rewrite (str_leb_antisym a y).
Qed.
Lemma sorted_unique (l l' : list string) : StronglySorted bytes_before l -> StronglySorted bytes_before l' -> (forall a, a ∈ l <-> a ∈ l') -> l = l'.
Proof.
  intros H1. revert l'. induction H1 as [|a l Hl IH Ha]; intros l' H2 E.
  - destruct l' as [|b l']; [done|]. exfalso. apply (not_elem_of_nil b), E. left.
  - destruct l' as [|b l']; [exfalso; apply (not_elem_of_nil a), E; left|]. apply StronglySorted_inv in H2 as [H2 Hb].
    rewrite Forall_forall in Ha, Hb.
    assert (a = b) as ->.
    { assert (a ∈ b :: l') as Hin by (apply E; left). apply elem_of_cons in Hin as [?|Hin]; [done|].
      assert (b ∈ a :: l) as Hin' by (apply E; left). apply elem_of_cons in Hin' as [?|Hin']; [done|].
      exfalso. apply (bytes_irrefl a). pose proof (proj2 (str_leb_before b a) (Ha _ Hin')) as F1. pose proof (proj2 (str_leb_before a b) (Hb _ Hin)) as F2.
      destruct (str_leb_total a b); congruence. }
    f_equal. apply IH; [done|]. intros y. split; intros Hy.
    + assert (y ∈ b :: l') as Hin by (apply E; by right). apply elem_of_cons in Hin as [->|?]; [|done]. exfalso. by apply (bytes_irrefl b), Ha.
    + assert (y ∈ b :: l) as Hin by (apply E; by right). apply elem_of_cons in Hin as [->|?]; [|done]. exfalso. by apply (bytes_irrefl b), Hb.
Qed.
Lemma map_validate_iff l r : map_validate p l = Ok r <->
  Forall (fun a => p_valid p a = true) l /\ StronglySorted bytes_before r /\ (forall a, a ∈ r <-> a ∈ l).
Proof.
  assert (forall l, StronglySorted bytes_before (dedup (sort_by str_leb (fun s => s) l)) /\ forall a, a ∈ dedup (sort_by str_leb (fun s => s) l) <-> a ∈ l) as Hd.
  { intros l0. split.
    - apply dedup_sorted, sort_by_sorted; [apply str_leb_total|intros; by eapply str_leb_trans].
    - intros a. rewrite dedup_in. by rewrite sort_by_perm. }
  unfold map_validate. split.
  - intros H. apply bind_Ok in H as (r'&Hr&H). injection H as <-. apply validate_all_iff in Hr as [Hr ->]. split; [done|]. apply Hd.
  - intros (H1&H2&H3). rewrite (proj2 (validate_all_iff l l)) by done. rewrite bind_ok. f_equal. destruct (Hd l) as [H4 H5].
    apply sorted_unique; [done|done|]. intros a. by rewrite H5, H3.
Qed.
Lemma sets_up_exact m st : instantiate p m = Ok st <-> sets_up p m st.
Proof.
  unfold instantiate, sets_up, MAX_FEE_BPS, expiry_validate. split.
  - intros H.
    apply bind_Ok in H as (?&H1&H). apply bind_Ok in H as (?&H2&H). apply bind_Ok in H as (?&H3&H).
    apply bind_Ok in H as (?&H4&H). apply bind_Ok in H as (?&H5&H). apply bind_Ok in H as (?&H6&H).
    apply bind_Ok in H as (ops&H7&H). apply bind_Ok in H as (hooks&H8&H). injection H as <-.
    apply ensure_Ok, N.leb_le in H1, H2, H3, H4, H5. apply map_validate_iff in H7 as (H7&H9&H10).
    repeat (split; [done|]). split; [destruct (im_stale m) as [|secs]; [done|by exists secs]|]. split; [done|].
    assert (known p (im_sale_hook m) /\ hooks = option_list (im_sale_hook m)) as [Hk ->].
    { destruct (im_sale_hook m) as [h|]; [|by injection H8 as <-]. apply bind_Ok in H8 as (a&Ha&H8). injection H8 as <-.
      apply valid_iff in Ha as [-> Hv]. split; [|done]. by intros ? [= <-]. }
    split; [done|]. by exists ops.
  - intros ((H1&H2&H3)&(H4&H5)&(secs&Hs)&Hv&Hk&ops&H6&H7&->).
    rewrite (proj2 (N.leb_le _ _) H2), (proj2 (N.leb_le _ _) H1), (proj2 (N.leb_le _ _) H3), (proj2 (N.leb_le _ _) H4), (proj2 (N.leb_le _ _) H5).
    cbn [ensure]. rewrite !bind_ok, Hs, bind_ok, (proj2 (map_validate_iff _ _) (conj Hv (conj H6 H7))), bind_ok.
    assert (match im_sale_hook m with None => Ok [] | Some h => a ← addr_validate p h; Ok [a] end = Ok (option_list (im_sale_hook m))) as ->.
    { destruct (im_sale_hook m) as [h|]; [|done]. by rewrite (valid_ok p _ (Hk _ eq_refl)). }
    done.
Qed.

(** ** Single orders *)
Lemma lookups_exact st coll tok who : v1_history p x st -> p_valid p coll = true -> p_valid p who = true ->
  query_ask p st coll tok = Ok (s_asks st !! (coll, tok)) /\ query_bid p st coll tok who = Ok (s_bids st !! (coll, tok, who)) /\
  query_collection_bid p st coll who = Ok (s_cbids st !! (coll, who)).
Proof.
  intros _ H1 H2. unfold query_ask, query_bid, query_collection_bid. by rewrite (valid_ok p _ H1), !bind_ok, (valid_ok p _ H2), !bind_ok.
Qed.
End Exact.
