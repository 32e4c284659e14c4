(** The handlers of the reserve auction do exactly what RAExactSpec says. *)
From stdpp Require Import relations.
From Verif Require Import Base BaseFacts Common Chain ChainFacts Plain IndexRange IndexFacts QuerySpec SaleFacts
  RAModel RASpec RAFacts RAIndex RAInv RAReach RAFinal RAMore RALive RAExactSpec.

Section Exact.
Context (p : params) (lb : lib).
Local Lemma bind_ok {A B} (a : A) (g : A -> result B) : (y ← Ok a; g y) = g a.
Proof. done. Qed.

(** * One auction *)
Lemma put_put st a o : put st (a_key a) o = put_auction st (a_key a) o.
Proof. done. Qed.

Lemma royalty_load v coll : royalty_known p lb v coll <-> exists roy, load_collection_royalties p lb v coll = Ok roy.
Proof.
  unfold royalty_known, load_collection_royalties. destruct (q_info v coll) as [[cs [[to sh]|]]|]; cbn [ci_royalty].
  - unfold addr_validate. destruct (p_valid p to) eqn:E; cbn [mbind result_bind]; split.
    + eauto.
    + intros _ to' sh' E'. by injection E' as <- <-.
    + intros H. specialize (H to sh eq_refl). congruence.
    + by intros [? ?].
  - split; [eauto|done].
  - destruct (l_royalty_open lb); split; eauto; [by intros|by intros [? ?]].
Qed.

Lemma settle_handled v st now a cfg h resp st' msgs :
  settle_auction p lb v st now a cfg h resp = Ok (st', msgs) ->
  exists o em, st' = put st (a_key a) o /\ msgs = resp ++ em /\ handled p lb v now cfg h a o em.
Proof.
  intros H. pose proof H as H'. apply settle_inv in H as (o&em&->&->&Ho). exists o, em. split; [done|]. split; [done|].
  split; [done|]. intros ->. apply royalty_load. inversion Ho as [|t hb sp Ht Hle Hnh Hh Hs Hr]; subst.
  unfold settle_auction in H'. rewrite Ht in H'. apply bind_Ok in H' as (?&_&H').
  destruct (within_halt_window h (t_seconds t)) eqn:E; [by apply within_halted in E|].
  rewrite Hh in H'. apply bind_Ok in H' as (roy&Hroy&_). eauto.
Qed.

Lemma outcome_unique v now cfg h a o1 m1 o2 m2 :
  outcome lb v now cfg h a o1 m1 -> outcome lb v now cfg h a o2 m2 -> o1 = o2 /\ m1 = m2.
Proof.
  intros H1 H2. destruct H1 as [t1 E1 L1 K1 B1|t1 hb1 sp1 E1 L1 K1 Hb1 S1 R1].
  - destruct H2 as [t2 E2 L2 K2 B2|t2 hb2 sp2 E2 L2 K2 Hb2 S2 R2]; [done|]. assert (t1 = t2) by congruence. by subst t2.
  - destruct H2 as [t2 E2 L2 K2 B2|t2 hb2 sp2 E2 L2 K2 Hb2 S2 R2]; [assert (t1 = t2) by congruence; by subst t2|].
    split; [done|]. assert (hb1 = hb2) by congruence. subst hb2. destruct R1 as [F1 R1], R2 as [F2 R2].
    assert (sp_burn sp1 = sp_burn sp2) as Eb by congruence.
    assert (sp_royalty sp1 = sp_royalty sp2 /\ (sp_royalty sp1 <> 0 -> sp_royalty_to sp1 = sp_royalty_to sp2)) as [Er Et].
    { destruct (q_info v (a_coll a)) as [[cs [[to sh]|]]|]; [|split; congruence..].
      destruct R1 as [-> R1], R2 as [-> R2]. split; congruence. }
    unfold splits in S1, S2. assert (sp_seller sp1 = sp_seller sp2) as Es by lia.
    unfold settlement. rewrite Eb, Es. f_equal. f_equal. unfold pay_part. rewrite <-Er.
    destruct (decide (sp_royalty sp1 = 0)); [done|]. by rewrite Et.
Qed.

Lemma handled_settles v st now a cfg h resp o em : handled p lb v now cfg h a o em ->
  settle_auction p lb v st now a cfg h resp = Ok (put st (a_key a) o, resp ++ em).
Proof.
  intros [Ho Hroy].
  assert (exists r, settle_auction p lb v st now a cfg h resp = Ok r) as [[st' ms] Hr].
  { unfold settle_auction. destruct Ho as [t Ht Hle Hh Hm|t hb sp Ht Hle Hh Hhb Hsp [Hfee Hrate]];
      rewrite Ht, (proj2 (N.leb_le _ _) Hle); cbn [ensure mbind result_bind].
    - apply within_halted in Hh. rewrite Hh. unfold t_plus_seconds. rewrite (proj2 (N.leb_le _ _) Hm). cbn. by eexists.
    - destruct (within_halt_window h (t_seconds t)) eqn:E; [by apply within_halted in E|]. rewrite Hhb.
      specialize (Hroy eq_refl). apply royalty_load in Hroy as [roy Hroy]. rewrite Hroy, bind_ok.
      unfold splits in Hsp. unfold payout_nft_sale_fees. rewrite Hfee. cbn [mbind result_bind].
      unfold checked_sub128. rewrite (proj2 (N.leb_le (sp_burn sp) _)) by lia. cbn [mbind result_bind].
      unfold load_collection_royalties in Hroy. destruct (q_info v (a_coll a)) as [[cs [[to sh]|]]|].
      + cbn [ci_royalty] in Hroy. unfold addr_validate in Hroy. destruct (p_valid p to); [|done]. injection Hroy as <-.
        destruct Hrate as [_ Hroy]. rewrite Hroy. cbn [mbind result_bind].
        rewrite (proj2 (N.leb_le (sp_royalty sp) _)) by lia. cbn. by eexists.
      + injection Hroy as <-. cbn [mbind result_bind]. rewrite (proj2 (N.leb_le 0 _)) by lia. cbn. by eexists.
      + destruct (l_royalty_open lb); [|done]. injection Hroy as <-. cbn [mbind result_bind].
        rewrite (proj2 (N.leb_le 0 _)) by lia. cbn. by eexists. }
  rewrite Hr. apply settle_handled in Hr as (o'&em'&->&->&[Ho' _]).
  by destruct (outcome_unique _ _ _ _ _ _ _ _ _ Ho Ho') as [-> ->].
Qed.

Lemma settle_exact v st now a cfg h st' msgs :
  settle_auction p lb v st now a cfg h [] = Ok (st', msgs) <->
  exists o, st' = put st (a_key a) o /\ handled p lb v now cfg h a o msgs.
Proof.
  split.
  - intros (o&em&->&->&H)%settle_handled. by exists o.
  - intros (o&->&H). by rewrite (handled_settles _ _ _ _ _ _ _ _ _ H).
Qed.

Lemma can_handle_iff v now cfg h a : can_handle p lb v now cfg h a <-> exists o ms, handled p lb v now cfg h a o ms.
Proof.
  split.
  - intros (t&Ht&Hle&[[Hh Hb]|(Hh&Hr&hb&sp&Hhb&Hs&Hra)]).
    + exists (Some (with_end a (now + cf_halt_postpone cfg * NANOS))), []. split; [|done]. by eapply postponed.
    + exists None, (settlement a hb sp). split; [|done]. by eapply sold.
  - intros (o&ms&Ho&Hr). destruct Ho as [t Ht Hle Hh Hm|t hb sp Ht Hle Hh Hhb Hsp Hra]; exists t.
    + split; [done|]. split; [done|]. by left.
    + split; [done|]. split; [done|]. right. split; [done|]. split; [by apply Hr|]. by exists hb, sp.
Qed.

(** * Users *)
Section Users.
Context (st : state) (Hst : ra_history p lb st).

Lemma stored k a : s_auctions st !! k = Some a -> a_key a = k /\ aok p a.
Proof. apply (wf_auction p st). by eapply history_wf. Qed.
Lemma no_bid k a : s_auctions st !! k = Some a -> a_first a = None <-> a_high a = None.
Proof. intros [_ H]%stored. destruct (aok_phase _ _ H); split; congruence. Qed.
Lemma validate_ok coll tok a : s_auctions st !! (coll, tok) = Some a -> addr_validate p coll = Ok coll.
Proof. intros [Hk H]%stored. apply aok_valid in H. unfold a_key in Hk. injection Hk as <- <-. unfold addr_validate. by rewrite H. Qed.
Lemma reserve_iff c : validate_reserve_price st c = Ok tt <-> exists m, s_mins st !! c_denom c = Some m /\ m <= c_amount c.
Proof.
  split; [apply validate_reserve_price_Ok|]. intros (m&Hm&Hle). unfold validate_reserve_price. rewrite Hm.
  by rewrite (proj2 (N.leb_le _ _) Hle).
Qed.

Lemma bid_succeeds e sender n coll tok a a' ms :
  n <= U128_MAX -> s_auctions st !! (coll, tok) = Some a -> a_seller a <> sender -> 0 < n ->
  bid_result (e_time e) (s_config st) sender n a a' ms -> (forall t, a_end a' = Some t -> t <= U64_MAX) ->
  execute_place_bid e sender [Coin (c_denom (a_reserve a)) n] st coll tok = Ok (put_auction st (coll, tok) (Some a'), ms).
Proof.
  intros Hn Ha Hs Hpos Hb Hmax. destruct (stored _ _ Ha) as [Hk Hok]. unfold execute_place_bid. cbv zeta.
  rewrite (proj2 (load_auction_Ok _ _ _) Ha), bind_ok.
  unfold must_pay, one_coin, a_denom. cbn [c_amount c_denom].
  rewrite (proj2 (N.eqb_neq n 0)) by lia. cbn [mbind result_bind]. cbn [c_denom]. rewrite bool_decide_eq_true_2 by done.
  cbn [mbind result_bind c_amount]. rewrite bool_decide_eq_true_2 by done. cbn [ensure mbind result_bind].
  destruct Hb as [Hf Hh He Hmin|first hb t Hf Hh He Hopen Hmin]; unfold min_bid_coin; rewrite Hh.
  - cbn [mbind result_bind]. unfold a_denom. rewrite (proj2 (has_coins_one _ _ _) Hmin). cbn [ensure mbind result_bind].
    rewrite He, Hf. cbn [ensure mbind result_bind]. cbn [a_end] in Hmax. specialize (Hmax _ eq_refl).
    unfold t_plus_seconds. rewrite (proj2 (N.leb_le _ _) Hmax). cbn [mbind result_bind]. unfold save_auction, put_auction, set_auctions.
    unfold a_key in *. cbn [a_coll a_tok]. by rewrite Hk.
  - rewrite <-ceil_div_scaled in Hmin. unfold mul_ceil. unfold ceil_div in Hmin. cbv zeta.
    rewrite (proj2 (N.leb_le _ U128_MAX)) by (etrans; [exact Hmin|exact Hn]). cbn [mbind result_bind].
    unfold a_denom. rewrite (proj2 (has_coins_one _ _ _) Hmin). cbn [ensure mbind result_bind].
    rewrite He, Hf, (proj2 (N.ltb_lt _ _) Hopen). cbn [ensure mbind result_bind].
    destruct (aok_bid _ _ Hok _ Hh) as (_&Hp0&_). unfold checked_transfer_coin. rewrite (proj2 (N.eqb_neq _ 0)) by lia.
    cbn [mbind result_bind app]. cbn [a_end] in Hmax. specialize (Hmax _ eq_refl).
    unfold save_auction, put_auction, set_auctions, a_key in *. cbn [a_coll a_tok].
    destruct (decide (t_seconds t < t_seconds (e_time e) + cf_extend (s_config st))) as [Hx|Hx].
    + rewrite (proj2 (N.ltb_lt _ _)) by lia. unfold t_plus_seconds. rewrite (proj2 (N.leb_le _ _) Hmax).
      cbn [mbind result_bind a_coll a_tok]. by rewrite Hk.
    + rewrite (proj2 (N.ltb_ge _ _)) by lia. cbn [mbind result_bind a_coll a_tok]. by rewrite Hk.
Qed.

Lemma calls_sound v e sender funds m st' msgs :
  execute p lb v e sender funds st m = Ok (st', msgs) -> calls p lb v (e_time e) sender funds st m st' msgs.
Proof.
  intros H. destruct m as [coll tok reserve duration recipient|coll tok reserve|coll tok|coll tok|coll tok].
  - apply create_exact in H as (Ho&Hf&->&->). by apply opens.
  - apply execute_effect in H; [|by eapply history_wf]. inversion H as [|? ? ? a Hf Ha Hs Hn (x&Hx&Hle)| | |]; subst.
    destruct (stored _ _ Ha) as [Hk _]. apply (no_bid _ _ Ha) in Hn.
    assert (forall st1, st1 = put_auction st (coll, tok) (Some (with_reserve a reserve)) ->
      calls p lb v (e_time e) (a_seller a) [] st (UpdateReservePrice coll tok reserve) st1 []) as Hc.
    { intros st1 ->. by eapply reprices. }
    apply Hc. rewrite <-Hk. done.
  - apply execute_effect in H; [|by eapply history_wf]. inversion H as [| |? ? a Hf Ha Hs Hn| |]; subst.
    destruct (stored _ _ Ha) as [Hk _]. apply (no_bid _ _ Ha) in Hn.
    assert (forall st1, st1 = put_auction st (coll, tok) None ->
      calls p lb v (e_time e) (a_seller a) [] st (CancelAuction coll tok) st1 [MNft coll tok (a_seller a)]) as Hc.
    { intros st1 ->. by eapply cancels. }
    apply Hc. rewrite <-Hk. done.
  - pose proof H as H'. apply execute_effect in H'; [|by eapply history_wf].
    inversion H' as [| | |c t a0 n0 a0' ms Ha0 Hf0 Hbt|]; subst.
    apply bid_exact in H as (a&n&a'&Ha&Hs&Hf&Hpos&Hb&Est); [|done].
    assert (a0 = a) by congruence. subst a0. injection Hf as Hn0. subst n0.
    rewrite Est. eapply (bids _ _ _ _ _ _ _ coll tok a n a'); try done.
    destruct (bt_result _ _ _ _ _ _ _ Hbt) as (first&et&E'&Hle&_).
    assert (a' = a0') as ->.
    { destruct (stored _ _ Ha) as [Hk _]. apply (f_equal s_auctions), (f_equal (.!! (coll, tok))) in Est.
      cbn in Est. rewrite lookup_insert in Est. unfold save_auction in Est. cbn in Est.
      assert (a_key a0' = (coll, tok)) as Ek by (rewrite E'; rewrite <-Hk; done). rewrite Ek, lookup_insert in Est. by injection Est. }
    rewrite E'. cbn. intros t Et. injection Et as <-. done.
  - cbn in H. apply bind_Ok in H as (c&Hc&H). apply addr_validate_Ok in Hc as [-> _]. unfold execute_settle_auction in H.
    apply bind_Ok in H as (?&Hn%nonpayable_Ok&H). apply bind_Ok in H as (a&Ha%load_auction_Ok&H).
    apply settle_exact in H as (o&->&Ho). destruct (stored _ _ Ha) as [Hk _]. rewrite put_put, Hk. subst funds. by eapply settles.
Qed.
Lemma calls_exact v e sender funds m st' msgs :
  (forall c, c ∈ funds -> c_amount c <= U128_MAX) ->
  execute p lb v e sender funds st m = Ok (st', msgs) <-> calls p lb v (e_time e) sender funds st m st' msgs.
Proof.
  intros Hsmall. split.
  - apply calls_sound.
  - intros H. inversion H as [coll tok reserve duration recipient Ho Hf|coll tok reserve a x Hf Ha Hs Hn Hx Hle|
      coll tok a Hf Ha Hs Hn|coll tok a n a' ms Ha Hs Hf Hpos Hb Hmax|coll tok a o ms Hf Ha Ho]; subst m st' msgs.
    + by apply create_exact.
    + cbn [execute]. rewrite (validate_ok _ _ _ Ha), bind_ok. subst funds. unfold execute_update_reserve_price.
      cbn [nonpayable mbind result_bind]. rewrite (proj2 (load_auction_Ok _ _ _) Ha). cbn [mbind result_bind]. rewrite (bool_decide_eq_true_2 _ Hs).
      apply (no_bid _ _ Ha) in Hn. rewrite (bool_decide_eq_true_2 _ Hn). cbn [ensure mbind result_bind].
      rewrite (proj2 (reserve_iff reserve)) by eauto. cbn [mbind result_bind]. destruct (stored _ _ Ha) as [Hk _].
      unfold put_auction, save_auction, set_auctions, with_reserve, a_key in *. cbn [a_coll a_tok]. by rewrite Hk.
    + cbn [execute]. rewrite (validate_ok _ _ _ Ha), bind_ok. subst funds. unfold execute_cancel_auction.
      cbn [nonpayable mbind result_bind]. rewrite (proj2 (load_auction_Ok _ _ _) Ha). cbn [mbind result_bind]. rewrite (bool_decide_eq_true_2 _ Hs).
      apply (no_bid _ _ Ha) in Hn. rewrite (bool_decide_eq_true_2 _ Hn). cbn [ensure mbind result_bind].
      destruct (stored _ _ Ha) as [Hk _]. unfold put_auction, remove_auction, set_auctions, transfer_nft. by rewrite Hk, Hs.
    + cbn [execute]. rewrite (validate_ok _ _ _ Ha), bind_ok. rewrite Hf. apply bid_succeeds; try done.
      apply (Hsmall (Coin (c_denom (a_reserve a)) n)). rewrite Hf. by apply elem_of_list_singleton.
    + cbn [execute]. rewrite (validate_ok _ _ _ Ha), bind_ok. subst funds. unfold execute_settle_auction.
      cbn [nonpayable mbind result_bind]. rewrite (proj2 (load_auction_Ok _ _ _) Ha). cbn [mbind result_bind].
      rewrite (handled_settles _ _ _ _ _ _ _ _ _ Ho). destruct (stored _ _ Ha) as [Hk _]. by rewrite put_put, Hk.
Qed.

(** * Block hooks *)
Lemma begin_exact v e st' msgs :
  sudo_begin_block e st = Ok (st', msgs) <-> sudo_calls p lb v (e_time e) st BeginBlock st' msgs.
Proof.
  unfold sudo_begin_block. set (now := t_seconds (e_time e)). cbv zeta.
  split.
  - intros H. apply bind_Ok in H as (?&Hp%ensure_Ok&H). apply bind_Ok in H as (ws&Hw&H). injection H as <- <-.
    destruct ((0 <? hm_prev (s_halt st)) && (cf_halt_threshold (s_config st) <=? now - hm_prev (s_halt st))) eqn:E.
    + apply bind_Ok in Hw as (t&Ht&Hw). injection Hw as <-. unfold add64 in Ht.
      destruct (N.leb_spec (now + cf_halt_buffer (s_config st)) U64_MAX); [|done]. injection Ht as <-.
      apply begins_after_halt; [fold now; lia| |done]. unfold chain_halted. fold now. lia.
    + injection Hw as <-. apply begins; [fold now; lia|]. unfold chain_halted. fold now. lia.
  - intros H. inversion H as [Hp Hh Hm|Hp Hh| |m st1 Hg]; subst; [| |by inversion Hg]; fold now in Hp |- *;
      rewrite (proj2 (N.leb_le _ _) Hp); cbn [ensure mbind result_bind]; unfold chain_halted in Hh; fold now in Hh.
    + fold now in Hm. rewrite (proj2 (N.ltb_lt _ _)) by lia. rewrite (proj2 (N.leb_le _ (now - _))) by lia. cbn [andb].
      unfold add64. rewrite (proj2 (N.leb_le _ _) Hm). done.
    + destruct ((0 <? hm_prev (s_halt st)) && (cf_halt_threshold (s_config st) <=? now - hm_prev (s_halt st))) eqn:E; [|done].
      exfalso. apply Hh. lia.
Qed.

Lemma first_due_unique now limit l1 l2 : first_due st now limit l1 -> first_due st now limit l2 -> l1 = l2.
Proof.
  assert (forall l1 l2, first_due st now limit l1 -> first_due st now limit l2 -> forall a, a ∈ l1 -> a ∈ l2) as Hsub.
  { clear l1 l2. intros l1 l2 H1 H2 a Ha. destruct (fd_due _ _ _ _ H1 a Ha) as [Hs Hd].
    destruct (fd_complete _ _ _ _ H2 a Hs Hd) as [?|[Hlen Hbef]]; [done|exfalso].
    assert (NoDup l2) as Hn2.
    { eapply sorted_nodup; [|apply (fd_sorted _ _ _ _ H2)]. intros x. apply end_before_irrefl. }
    assert (a ∉ l2) as Hna. { intros Hin. by apply (end_before_irrefl (a_ekey a)), Hbef. }
    assert (length (a :: l2) <= length l1)%nat as Hl.
    { apply submseteq_length, NoDup_submseteq; [by apply NoDup_cons|]. intros b [->|Hb]%elem_of_cons; [done|].
      destruct (fd_due _ _ _ _ H2 b Hb) as [Hsb Hdb].
      destruct (fd_complete _ _ _ _ H1 b Hsb Hdb) as [?|[_ Hbef1]]; [done|exfalso].
      apply (end_before_irrefl (a_ekey a)). eapply end_before_trans; [apply (Hbef1 a Ha)|apply (Hbef b Hb)]. }
    pose proof (fd_limit _ _ _ _ H1). cbn in Hl. lia. }
  intros H1 H2. pose proof (fd_sorted _ _ _ _ H1) as S1. pose proof (fd_sorted _ _ _ _ H2) as S2.
  assert (forall x, x ∈ l1 <-> x ∈ l2) as Heq by (intros x; split; by apply Hsub). clear H1 H2 Hsub.
  revert l2 S2 Heq. induction S1 as [|a l1 S1 IH F1]; intros l2 S2 Heq.
  - destruct l2 as [|b l2]; [done|]. exfalso. specialize (Heq b). apply (elem_of_nil b). apply Heq. by left.
  - destruct S2 as [|b l2 S2 F2].
    { exfalso. apply (elem_of_nil a). apply Heq. by left. }
    rewrite Forall_forall in F1, F2.
    assert (a = b) as <-.
    { assert (a ∈ b :: l2) as Ha by (apply Heq; by left). assert (b ∈ a :: l1) as Hb by (apply Heq; by left).
      apply elem_of_cons in Ha as [->|Ha]; [done|]. apply elem_of_cons in Hb as [->|Hb]; [done|].
      exfalso. apply (end_before_irrefl (a_ekey a)). eapply end_before_trans; [apply (F1 b Hb)|apply (F2 a Ha)]. }
    f_equal. apply IH; [done|]. intros x. split; intros Hx.
    + assert (x ∈ a :: l2) as [->|?]%elem_of_cons by (apply Heq; by right); [|done].
      by destruct (end_before_irrefl (a_ekey a)); apply F1.
    + assert (x ∈ a :: l1) as [->|?]%elem_of_cons by (apply Heq; by right); [|done].
      by destruct (end_before_irrefl (a_ekey a)); apply F2.
Qed.

Lemma settle_all_handled v now cfg h l : forall s resp s' msgs,
  settle_all p lb v now cfg h s l resp = Ok (s', msgs) <->
  exists os, Forall2 (fun a o => handled p lb v now cfg h a (fst o) (snd o)) l os /\
    msgs = resp ++ concat (snd <$> os) /\ s' = process s l os.
Proof.
  induction l as [|a l IH]; intros s resp s' msgs; cbn [settle_all].
  - split.
    + intros H. injection H as <- <-. exists []. split; [constructor|]. cbn. by rewrite app_nil_r.
    + intros (os&HF&->&->). inversion HF; subst. cbn. by rewrite app_nil_r.
  - split.
    + intros H. apply bind_Ok in H as ([s1 r1]&H1&H). apply settle_handled in H1 as (o&em&->&->&Ho).
      apply IH in H as (os&HF&->&->). exists ((o, em) :: os). split; [by constructor|]. cbn. by rewrite app_assoc.
    + intros (os&HF&->&->). inversion HF as [|? [o em] ? os' Ho HF']; subst. rewrite (handled_settles _ _ _ _ _ _ _ _ _ Ho), bind_ok.
      apply IH. exists os'. split; [done|]. cbn. by rewrite app_assoc.
Qed.

Lemma processed_is s' l os : NoDup (a_key <$> l) -> length l = length os -> processed st s' l os ->
  s_config s' = s_config (process st l os) /\ s_mins s' = s_mins (process st l os) /\ s_auctions s' = s_auctions (process st l os).
Proof.
  intros Hn Hlen [Hc Hm Hd Ho]. destruct (process_config st l os) as (->&->&_). split; [done|]. split; [done|].
  apply map_eq. intros k. destruct (decide (k ∈ a_key <$> l)) as [Hin|Hout].
  - apply elem_of_list_fmap in Hin as (a&->&Ha). apply elem_of_list_lookup_1 in Ha as [i Hi].
    assert (is_Some (os !! i)) as [o Hoi].
    { apply lookup_lt_is_Some. rewrite <-Hlen. by eapply lookup_lt_Some. }
    rewrite (process_at st l os i a o Hn Hi Hoi). apply (Hd i a o Hi Hoi).
  - rewrite process_other by done. apply Ho. intros a Ha <-. apply Hout. apply elem_of_list_fmap. by exists a.
Qed.

(** The first of the processed auctions ends first. *)
Lemma stale_iff now limit l ws :
  first_due st now limit l -> hm_windows (s_halt st) = ws -> forall ws',
  windows_after l ws ws' <->
  ws' = hm_windows (match find_stale_halt_info (s_halt st) (match l with [] => None | a :: _ => a_end a end) with
                    | Some h => h | None => s_halt st end).
Proof.
  intros Hl Hws ws'. unfold find_stale_halt_info. rewrite Hws. destruct ws as [|w ws].
  { rewrite Hws. split; [by inversion 1|]. intros ->. constructor. }
  destruct l as [|b l].
  - cbn [hm_windows]. split.
    + inversion 1 as [|? ? Hd|? ? a Ha Hle]; subst; [done|]. by apply elem_of_nil in Ha.
    + intros ->. apply window_dropped. by intros a ?%elem_of_nil.
  - destruct (fd_due _ _ _ _ Hl b) as [_ (t&Ht&_)]; [by left|]. rewrite Ht.
    assert (end_second b = t_seconds t) as Eb by (unfold end_second; by rewrite Ht).
    assert (forall a, a ∈ b :: l -> end_second b <= end_second a) as Hmin.
    { intros a [->|Ha]%elem_of_cons; [lia|]. pose proof (fd_sorted _ _ _ _ Hl) as Hs. inversion Hs as [|? ? _ HF]; subst.
      rewrite Forall_forall in HF. destruct (HF a Ha) as [H|[H _]]; unfold a_ekey in H; cbn in H; lia. }
    destruct (N.ltb_spec (hw_end w) (t_seconds t)) as [Hlt|Hge].
    + cbn [hm_windows]. split.
      * inversion 1 as [|? ? Hd|? ? a Ha Hle]; subst; [done|]. specialize (Hmin a Ha). lia.
      * intros ->. apply window_dropped. intros a Ha. specialize (Hmin a Ha). lia.
    + rewrite Hws. split.
      * inversion 1 as [|? ? Hd|? ? a Ha Hle]; subst; [|done]. specialize (Hd b). feed pose proof Hd; [by left|]. lia.
      * intros ->. apply (window_kept _ _ _ b); [by left|]. lia.
Qed.
Lemma stale_prev h o h' : find_stale_halt_info h o = Some h' -> hm_prev h' = hm_prev h.
Proof.
  unfold find_stale_halt_info. destruct (hm_windows h); [done|]. destruct o as [t|]; [destruct (_ <? _); [|done]|];
    intros E; by injection E as <-.
Qed.

Lemma end_exact v e st' msgs : t_seconds (e_time e) + 1 <= U64_MAX ->
  sudo_end_block p lb v e st = Ok (st', msgs) <-> sudo_calls p lb v (e_time e) st EndBlock st' msgs.
Proof.
  intros Hmax. pose proof (history_wf p lb _ Hst) as Hwf.
  pose proof (due_first p st (e_time e) (cf_max_settle (s_config st)) Hwf Hmax) as Hfd.
  pose proof (due_nodup p st Hwf (t_seconds (e_time e) + 1) (cf_max_settle (s_config st))) as Hnd.
  unfold sudo_end_block. unfold add64. rewrite (proj2 (N.leb_le _ _) Hmax), bind_ok. cbv zeta.
  set (l := due_auctions st (t_seconds (e_time e) + 1) (cf_max_settle (s_config st))) in *.
  assert (match l with [] => Ok None | a :: _ => match a_end a with None => Err EPanic | Some t => Ok (Some t) end end
          = Ok (match l with [] => None | a :: _ => a_end a end)) as Hear.
  { destruct l as [|a l']; [done|]. destruct (fd_due _ _ _ _ Hfd a) as [_ (t&->&_)]; [by left|done]. }
  rewrite Hear, bind_ok. set (ear := match l with [] => None | a :: _ => a_end a end) in *.
  split.
  - intros H. apply bind_Ok in H as ([s1 ms]&Hs&H). injection H as <- <-.
    apply settle_all_handled in Hs as (os&HF&->&->). cbn [app].
    destruct (process_config st l os) as (H1&H2&H3).
    eapply (ends _ _ _ _ _ l os); [exact Hfd|exact HF| | |].
    + split.
      * by destruct (find_stale_halt_info _ _).
      * by destruct (find_stale_halt_info _ _).
      * intros i a o Ha Ho. pose proof (process_at st l os i a o Hnd Ha Ho) as Hat. by destruct (find_stale_halt_info _ _).
      * intros k Hk. assert (k ∉ (a_key <$> l)) as Hout.
        { intros (a&->&Ha)%elem_of_list_fmap. by apply (Hk a Ha). }
        pose proof (process_other st l os k Hout). by destruct (find_stale_halt_info _ _).
    + destruct (find_stale_halt_info (s_halt st) ear) eqn:E; [by apply stale_prev in E|by rewrite H3].
    + eapply stale_iff; [exact Hfd|done|]. fold ear. destruct (find_stale_halt_info (s_halt st) ear) eqn:E; [done|by rewrite H3].
  - intros H. inversion H as [| |l' os s1 Hfd' HF Hpr Hprev Hw|m s1 Hg]; subst; [|by inversion Hg].
    assert (l' = l) as -> by (by eapply first_due_unique). apply bind_Ok. exists (process st l os, concat (snd <$> os)). split.
    { apply settle_all_handled. by exists os. }
    f_equal. f_equal. destruct (process_config st l os) as (_&_&H3).
    destruct (processed_is st' l os Hnd (Forall2_length _ _ _ HF) Hpr) as (E1&E2&E3).
    apply (stale_iff (e_time e) (cf_max_settle (s_config st)) l _ Hfd eq_refl) in Hw. fold ear in Hw.
    destruct st' as [c' m' [pr' ws'] au']. cbn in E1, E2, E3, Hprev, Hw. subst c' m' au' pr' ws'.
    destruct (find_stale_halt_info (s_halt st) ear) as [h'|] eqn:E.
    + apply stale_prev in E. unfold set_halt. f_equal. rewrite <-E. by destruct h'.
    + rewrite <-H3. by destruct (process st l os) as [? ? [? ?] ?].
Qed.

Lemma sudo_exact v e m st' msgs : t_seconds (e_time e) + 1 <= U64_MAX ->
  sudo p lb v e st m = Ok (st', msgs) <-> sudo_calls p lb v (e_time e) st m st' msgs.
Proof.
  intros Hmax.
  assert (m = BeginBlock \/ m = EndBlock \/ (m <> BeginBlock /\ m <> EndBlock)) as [->|[->|[H1 H2]]]
    by (destruct m; auto).
  - apply begin_exact.
  - by apply end_exact.
  - rewrite governance_exact by done. split.
    + intros [Hg ->]. by apply governed.
    + inversion 1; by subst.
Qed.

Lemma sudo_sound v e m st' msgs : sudo p lb v e st m = Ok (st', msgs) -> sudo_calls p lb v (e_time e) st m st' msgs.
Proof.
  intros H. assert (m = BeginBlock \/ m = EndBlock \/ (m <> BeginBlock /\ m <> EndBlock)) as [->|[->|[H1 H2]]] by (destruct m; auto).
  - by apply begin_exact.
  - apply end_exact; [|exact H]. cbn [sudo] in H. unfold sudo_end_block in H. apply bind_Ok in H as (x&Hx&_).
    unfold add64 in Hx. destruct (_ <=? U64_MAX) eqn:E in Hx; [lia|done].
  - apply governance_exact in H as [Hg ->]; [|done..]. by apply governed.
Qed.

(** EndBlock fails exactly when one of the first due auctions cannot be processed. *)
Lemma end_fails v e : t_seconds (e_time e) + 1 <= U64_MAX ->
  (exists er, sudo p lb v e st EndBlock = Err er) <->
  exists l a, first_due st (e_time e) (cf_max_settle (s_config st)) l /\ a ∈ l /\
    ~ can_handle p lb v (e_time e) (s_config st) (s_halt st) a.
Proof.
  intros Hmax. pose proof (history_wf p lb _ Hst) as Hwf.
  pose proof (due_first p st (e_time e) (cf_max_settle (s_config st)) Hwf Hmax) as Hfd.
  set (l := due_auctions st (t_seconds (e_time e) + 1) (cf_max_settle (s_config st))) in *.
  split.
  - intros [er Her]. exists l.
    assert (~ Forall (fun a => exists r, settle_auction p lb v st (e_time e) a (s_config st) (s_halt st) [] = Ok r) l) as Hn.
    { intros HF.
      assert (exists os, Forall2 (fun a o => handled p lb v (e_time e) (s_config st) (s_halt st) a (fst o) (snd o)) l os) as [os Hos].
      { clear -HF. induction HF as [|a l [[s' ms] Ha] _ [os IH]]; [by exists []|].
        apply settle_exact in Ha as (o&_&Ho). exists ((o, ms) :: os). by constructor. }
      cbn [sudo] in Her. unfold sudo_end_block in Her. unfold add64 in Her.
      rewrite (proj2 (N.leb_le _ _) Hmax), bind_ok in Her. cbv zeta in Her. fold l in Her.
      assert (exists x, match l with [] => Ok None | a :: _ => match a_end a with None => Err EPanic | Some t => Ok (Some t) end end
          = Ok x) as [x Hx].
      { destruct l as [|a l']; [by eexists|]. destruct (fd_due _ _ _ _ Hfd a) as [_ (t&->&_)]; [by left|by eexists]. }
      rewrite Hx, bind_ok in Her.
      rewrite (proj2 (settle_all_handled _ _ _ _ _ st [] _ _)) in Her by (exists os; done). done. }
    apply not_Forall_Exists in Hn; [|intros a; destruct (settle_auction _ _ _ _ _ _ _ _ _) as [r|er'];
      [left; by eexists|right; by intros [? ?]]].
    apply Exists_exists in Hn as (a&Ha&Hno). exists a. split; [done|]. split; [done|]. intros Hc%can_handle_iff.
    destruct Hc as (o&ms&Ho). apply Hno. eexists. by apply handled_settles.
  - intros (l'&a&Hl'&Ha&Hno). assert (l' = l) as -> by (by eapply first_due_unique).
    destruct (sudo p lb v e st EndBlock) as [[s' ms]|er] eqn:E; [|eauto]. exfalso.
    apply sudo_exact in E; [|done]. inversion E as [| |l' os s1 Hfd' HF Hpr Hprev Hw|m s1 Hg]; subst; [|by inversion Hg].
    assert (l' = l) as -> by (by eapply first_due_unique). apply Hno, can_handle_iff.
    apply elem_of_list_lookup_1 in Ha as [i Hi]. destruct (Forall2_lookup_l _ _ _ _ _ HF Hi) as (o&_&Ho). eauto.
Qed.
End Users.

(** * The end of a block on the chain *)
Definition pays_ok (m : cmsg) : Prop :=
  match m with MSend to cs => send_ok p to cs = true | MFairBurn c => 0 < c_amount c | _ => True end.
Lemma run_pays_ok {S} ms : forall (w : world S) w', run_msgs p w ms = Ok w' -> Forall pays_ok ms.
Proof.
  induction ms as [|m ms IH]; intros w w' H; [constructor|].
  destruct m as [to cs|c t to|r c|c|h]; cbn -[send_ok covers bank_move bank_sub] in H.
  - apply bind_Ok in H as (?&Hs%ensure_Ok&H). apply andb_prop in Hs as [Hs _]. constructor; [done|]. by eapply IH.
  - apply bind_Ok in H as (?&_&H). constructor; [done|]. destruct (p_honest p c); [apply bind_Ok in H as (?&_&H)|]; by eapply IH.
  - constructor; [done|]. by eapply IH.
  - apply bind_Ok in H as (?&Hs%ensure_Ok&H). apply andb_prop in Hs as [Hs _]. constructor; [cbn; lia|]. by eapply IH.
  - constructor; [done|]. by eapply IH.
Qed.
Lemma pay_part_ok to d n : Forall pays_ok (pay_part to d n) <-> (0 < n -> p_blocked p to = false).
Proof.
  unfold pay_part. case_decide as E.
  - split; [lia|]. constructor.
  - rewrite Forall_singleton. cbn. unfold send_ok. cbn. rewrite (proj2 (N.ltb_lt 0 n)) by lia.
    destruct (p_blocked p to); cbn; split; try done. intros H. specialize (H ltac:(lia)). done.
Qed.
Lemma can_finish_iff v now cfg h a :
  can_finish p lb v now cfg h a <-> exists o ms, handled p lb v now cfg h a o ms /\ Forall pays_ok ms.
Proof.
  split.
  - intros (t&Ht&Hle&[[Hh Hb]|(Hh&Hr&hb&sp&Hhb&Hs&Hra&Hb1&Hb2)]).
    + exists (Some (with_end a (now + cf_halt_postpone cfg * NANOS))), []. split; [|constructor]. split; [|done]. by eapply postponed.
    + exists None, (settlement a hb sp). split; [split; [by eapply sold|done]|]. unfold settlement. rewrite !Forall_app. split_and!.
      * unfold burn_part. case_decide; constructor; [cbn; lia|constructor].
      * by apply pay_part_ok.
      * by apply pay_part_ok.
      * by repeat constructor.
  - intros (o&ms&[Ho Hr]&Hp). destruct Ho as [t Ht Hle Hh Hm|t hb sp Ht Hle Hh Hhb Hsp Hra]; exists t.
    + split; [done|]. split; [done|]. by left.
    + split; [done|]. split; [done|]. right. split; [done|]. split; [by apply Hr|]. exists hb, sp. split_and!; try done.
      * unfold settlement in Hp. rewrite !Forall_app in Hp. destruct Hp as (_&Hp&_&_). exact (proj1 (pay_part_ok _ _ _) Hp).
      * unfold settlement in Hp. rewrite !Forall_app in Hp. destruct Hp as (_&_&Hp&_). exact (proj1 (pay_part_ok _ _ _) Hp).
Qed.
Lemma handled_sendable v now cfg h a o ms : p_honest p (a_coll a) = true -> a_coll a <> p_self p ->
  handled p lb v now cfg h a o ms -> Forall pays_ok ms -> Forall (sendable p) ms.
Proof.
  intros Hh Hs [Ho _] Hp. destruct Ho; [constructor|]. unfold settlement, burn_part, pay_part in *.
  rewrite !Forall_app in Hp |- *. destruct Hp as (Hp1&Hp2&Hp3&_). split_and!.
  - destruct (decide (sp_burn sp = 0)); [constructor|]. rewrite Forall_singleton in Hp1. apply Forall_singleton. cbn in *. lia.
  - destruct (decide (sp_royalty sp = 0)); [constructor|]. rewrite Forall_singleton in Hp2. apply Forall_singleton. exact Hp2.
  - destruct (decide (sp_seller sp = 0)); [constructor|]. rewrite Forall_singleton in Hp3. apply Forall_singleton. exact Hp3.
  - by repeat constructor.
Qed.

Lemma block_ends w :
  ra_reachable p lb w -> t_seconds (w_time w) < U64_MAX ->
  (forall k a, s_auctions (w_st w) !! k = Some a -> due (w_time w) a -> p_honest p (a_coll a) = true /\ a_coll a <> p_self p) ->
  (exists w', run_sudo p lb w EndBlock = Ok w') <->
  exists l, first_due (w_st w) (w_time w) (cf_max_settle (s_config (w_st w))) l /\
    forall a, a ∈ l -> can_finish p lb (view_of p w) (w_time w) (s_config (w_st w)) (s_halt (w_st w)) a.
Proof.
  intros Hr Hm Hall. pose proof (reachable_wf p lb _ Hr) as Hwf. pose proof (reachable_history p lb _ Hr) as Hst.
  assert (t_seconds (e_time (env_of w)) + 1 <= U64_MAX) as Hmax by (cbn [env_of e_time]; lia).
  split.
  - intros [w' H]. unfold run_sudo in H. apply bind_Ok in H as ([st' ms]&Hs&H). cbn [fst snd] in H.
    apply run_pays_ok in H. apply sudo_exact in Hs; [|done..].
    inversion Hs as [| |l os s1 Hfd HF Hpr Hprev Hw|m s1 Hg]; subst; [|by inversion Hg].
    exists l. split; [done|]. intros a Ha. apply can_finish_iff.
    apply elem_of_list_lookup_1 in Ha as [i Hi]. destruct (Forall2_lookup_l _ _ _ _ _ HF Hi) as ([o ms]&Hoi&Ho). exists o, ms.
    split; [done|]. rewrite Forall_forall in H |- *. intros m Hin. apply H. apply elem_of_list_In, in_concat. exists ms.
    split; [|by apply elem_of_list_In]. apply elem_of_list_In, elem_of_list_fmap. exists (o, ms). split; [done|].
    by eapply elem_of_list_lookup_2.
  - intros (l&Hfd&Hfin).
    pose proof (due_first p (w_st w) (w_time w) (cf_max_settle (s_config (w_st w))) Hwf Hmax) as Hfd'.
    pose proof (due_nodup p (w_st w) Hwf (t_seconds (w_time w) + 1) (cf_max_settle (s_config (w_st w)))) as Hnd.
    rewrite <-(first_due_unique (w_st w) _ _ _ _ Hfd Hfd') in Hnd.
    assert (exists os, Forall2 (fun a o => handled p lb (view_of p w) (w_time w) (s_config (w_st w)) (s_halt (w_st w)) a (fst o) (snd o)) l os /\
        Forall pays_ok (concat (snd <$> os))) as (os&HF&Hpay).
    { clear -Hfin. induction l as [|a l IH].
      - exists []. split; constructor.
      - destruct IH as (os&HF&Hp); [intros b Hb; apply Hfin; by right|].
        destruct (proj1 (can_finish_iff _ _ _ _ a) (Hfin a ltac:(by left))) as (o&ms&Ho&Hms).
        exists ((o, ms) :: os). split; [by constructor|]. cbn. by apply Forall_app. }
    assert (forall a, a ∈ l -> s_auctions (w_st w) !! a_key a = Some a /\ p_honest p (a_coll a) = true /\ a_coll a <> p_self p) as Hl.
    { intros a Ha. destruct (fd_due _ _ _ _ Hfd a Ha) as [H1 H2]. split; [exact H1|]. by apply (Hall _ _ H1 H2). }
    destruct (sudo p lb (view_of p w) (env_of w) (w_st w) EndBlock) as [[st' ms]|er] eqn:Es.
    2: { exfalso. destruct (proj1 (end_fails (w_st w) Hst (view_of p w) (env_of w) Hmax)) as (l'&a&Hl'&Ha&Hno); [eauto|].
         cbn [env_of e_time] in Hl', Hno. assert (l' = l) as -> by (by eapply first_due_unique).
         apply Hno, can_handle_iff. destruct (proj1 (can_finish_iff _ _ _ _ a) (Hfin a Ha)) as (o&ms&Ho&_). eauto. }
    unfold run_sudo. rewrite Es, bind_ok. cbn [fst snd]. apply sudo_exact in Es; [|done..].
    inversion Es as [| |l' os' s1 Hfd1 HF' Hpr Hprev Hw|m s1 Hg]; subst; [|by inversion Hg].
    cbn [env_of e_time] in Hfd1, HF'. assert (l' = l) as -> by (by eapply first_due_unique).
    assert (os' = os) as ->.
    { clear -HF HF'. revert os' HF'. induction HF as [|a [o ms] l os [Ho _] _ IH]; intros os' HF'; inversion HF' as [|? [o' ms'] ? ? [Ho' _] HF1]; subst; [done|].
      cbn in Ho, Ho'. destruct (outcome_unique _ _ _ _ _ _ _ _ _ Ho Ho') as [-> ->]. f_equal. by apply IH. }
    assert (Forall2 (fun a o => outcome lb (view_of p w) (w_time w) (s_config (w_st w)) (s_halt (w_st w)) a (fst o) (snd o)) l os) as HFo.
    { eapply Forall2_impl; [exact HF|]. by intros a o [? _]. }
    assert (Forall (sendable p) (concat (snd <$> os))) as Hsend.
    { clear -HF Hpay Hl. induction HF as [|a [o em] l os Ho _ IH]; [constructor|].
      cbn in Hpay |- *. apply Forall_app in Hpay as [Hp1 Hp2]. apply Forall_app. split.
      - destruct (Hl a) as (_&?&?); [by left|]. by eapply handled_sendable.
      - apply IH; [done|]. intros b Hb. apply Hl. by right. }
    assert (Forall (fun a => s_auctions (w_st w) !! a_key a = Some a) l) as Hls.
    { apply Forall_forall. intros a Ha. by apply Hl. }
    apply run_plain; [done|..].
    + intros d. cbn [w_bank set_st]. destruct (reachable_solvent _ _ _ Hr) as [_ Hb]. specialize (Hb d).
      pose proof (process_accounting _ _ _ _ _ _ _ _ d Hnd Hls HFo). lia.
    + rewrite <-(plain_honest_out p) by (by apply sendable_plain). destruct (process_honest_out p lb _ _ _ _ _ _ HFo) as [Hsub _].
      by eapply sublist_nodup.
    + intros c t Hin. rewrite <-(plain_honest_out p) in Hin by (by apply sendable_plain). cbn [w_nft set_st].
      pose proof (honest_out_honest _ _ _ _ Hin) as Hh. destruct (process_honest_out p lb _ _ _ _ _ _ HFo) as [_ Hex].
      apply Hex in Hin as (i&a&o&Ha&_&Hk&_). rewrite Forall_forall in Hls.
      assert (s_auctions (w_st w) !! (c, t) = Some a) as Hsa.
      { rewrite <-Hk. apply Hls. by eapply elem_of_list_lookup_2. }
      destruct (auction_custody _ _ _ _ _ Hr Hsa) as [E Hc]. injection E as -> ->. by apply Hc.
Qed.
End Exact.
