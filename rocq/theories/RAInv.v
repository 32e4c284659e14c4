(** Invariants of the reserve auction: well-formed storage, accounting and custody, for every call. *)
From stdpp Require Import relations.
From Verif Require Import Base Common Chain BaseFacts ChainFacts IndexRange IndexFacts SaleFacts
  RAModel RASpec RAFacts RAIndex.

(** * Payment checks *)
Lemma nonpayable_Ok funds u : nonpayable funds = Ok u -> funds = [].
Proof. by destruct funds. Qed.
Lemma must_pay_Ok funds d n : must_pay funds d = Ok n -> funds = [Coin d n] /\ 0 < n.
Proof.
  unfold must_pay, one_coin. intros H. destruct funds as [|[dn m] [|? ?]]; try done. cbn in H.
  destruct (m =? 0) eqn:E; [done|]. cbn in H. case_bool_decide; [|done]. injection H as <-. subst. split; [done|lia].
Qed.
Lemma load_auction_Ok st k a : load_auction st k = Ok a <-> s_auctions st !! k = Some a.
Proof. unfold load_auction. destruct (s_auctions st !! k); split; congruence. Qed.
Lemma validate_reserve_price_Ok st c u : validate_reserve_price st c = Ok u ->
  exists m, s_mins st !! c_denom c = Some m /\ m <= c_amount c.
Proof.
  unfold validate_reserve_price. destruct (s_mins st !! c_denom c) as [m|]; [|done]. intros H%ensure_Ok.
  exists m. split; [done|lia].
Qed.
Lemma has_coins_one d n m : has_coins [Coin d n] (Coin d m) = true <-> m <= n.
Proof. cbn. rewrite bool_decide_eq_true_2 by done. lia. Qed.

(** * Bids *)
Record bid_taken (e : env) (sender : addr) (cfg : config) (a : auction) (n : N) (a' : auction) (msgs : list cmsg) : Prop := {
  bt_pos : 0 < n;
  bt_seller : a_seller a <> sender;
  bt_min : match a_high a with
           | None => c_amount (a_reserve a) <= n
           | Some hb => ceil_div (c_amount (hb_coin hb) * (DEC_ONE + cf_increment cfg)) DEC_ONE <= n
           end;
  bt_open : forall t, a_end a = Some t -> t_seconds (e_time e) < t_seconds t;
  bt_result : exists first end_time,
    a' = Auction (a_coll a) (a_tok a) (a_seller a) (a_reserve a) (a_duration a) (Some end_time) (a_recipient a)
                 (Some (HighBid (Coin (a_denom a) n) sender)) (Some first) /\
    end_time <= U64_MAX /\
    ((a_first a = None /\ first = e_time e /\ end_time = e_time e + a_duration a * NANOS /\ msgs = []) \/
     (exists prev t, a_first a = Some first /\ a_high a = Some prev /\ a_end a = Some t /\
        0 < c_amount (hb_coin prev) /\ msgs = [MSend (hb_bidder prev) [hb_coin prev]] /\
        ((t_seconds t - t_seconds (e_time e) < cf_extend cfg /\ end_time = e_time e + cf_extend cfg * NANOS) \/
         (cf_extend cfg <= t_seconds t - t_seconds (e_time e) /\ end_time = t))));
}.

Lemma place_bid_inv e sender funds st coll tok st' msgs :
  (forall a t, s_auctions st !! (coll, tok) = Some a -> a_end a = Some t -> t <= U64_MAX) ->
  execute_place_bid e sender funds st coll tok = Ok (st', msgs) ->
  exists a n a', s_auctions st !! (coll, tok) = Some a /\ funds = [Coin (a_denom a) n] /\
    bid_taken e sender (s_config st) a n a' msgs /\ st' = save_auction st a'.
Proof.
  intros Hend. unfold execute_place_bid. intros H.
  apply bind_Ok in H as (a&Ha&H). apply load_auction_Ok in Ha.
  apply bind_Ok in H as (n&Hn&H). apply must_pay_Ok in Hn as [-> Hpos].
  apply bind_Ok in H as (?&Hs&H). apply ensure_Ok, bool_decide_eq_true in Hs.
  apply bind_Ok in H as (mb&Hmb&H). apply bind_Ok in H as (?&Hhas&H). apply ensure_Ok in Hhas.
  apply bind_Ok in H as (?&Hopen&H). apply ensure_Ok in Hopen.
  apply bind_Ok in H as ([[first' end'] resp]&Hr&H). injection H as <- <-.
  assert (match a_high a with None => c_amount (a_reserve a) <= n
          | Some hb => ceil_div (c_amount (hb_coin hb) * (DEC_ONE + cf_increment (s_config st))) DEC_ONE <= n end) as Hmin.
  { unfold min_bid_coin in Hmb. apply bind_Ok in Hmb as (m&Hm&E). injection E as <-.
    apply has_coins_one in Hhas. destruct (a_high a) as [hb|].
    - unfold mul_ceil in Hm. cbv zeta in Hm. destruct (_ <=? U128_MAX) in Hm; [|done]. injection Hm as <-. exact Hhas.
    - injection Hm as <-. done. }
  assert (forall t, a_end a = Some t -> t_seconds (e_time e) < t_seconds t) as Hop.
  { intros t E. rewrite E in Hopen. lia. }
  destruct (a_first a) as [first|] eqn:Ef.
  - destruct (a_high a) as [prev|] eqn:Eh; [|done]. apply bind_Ok in Hr as (ms&Hms&Hr).
    unfold checked_transfer_coin in Hms. destruct (c_amount (hb_coin prev) =? 0) eqn:Ez; [done|]. injection Hms as <-.
    destruct (a_end a) as [t|] eqn:Et; [|done].
    assert (t <= U64_MAX) as Htm by (by eapply Hend).
    destruct (t_seconds t - t_seconds (e_time e) <? cf_extend (s_config st)) eqn:Ex.
    + apply bind_Ok in Hr as (ne&Hne&Hr). apply t_plus_seconds_Ok in Hne as [-> Hle]. injection Hr as <- <- <-.
      eexists a, n, _. split_and!; [done|done| |done]. split; try done; [by rewrite Eh|by rewrite Et|].
      eexists _, _. split_and!; [done|done|]. right. exists prev, t. split_and!; try done; [lia|]. left. split; [lia|done].
    + injection Hr as <- <- <-.
      eexists a, n, _. split_and!; [done|done| |done]. split; try done; [by rewrite Eh|by rewrite Et|].
      eexists _, _. split_and!; [done|done|]. right. exists prev, t. split_and!; try done; [lia|]. right. split; [lia|done].
  - apply bind_Ok in Hr as (ne&Hne&Hr). apply t_plus_seconds_Ok in Hne as [-> Hle]. injection Hr as <- <- <-.
    eexists a, n, _. split_and!; [done|done| |done]. split; try done. eexists _, _. split_and!; [done|done|]. by left.
Qed.

Section Inv.
Context (p : params) (lb : lib).
Notation wf := (wf p).
Notation aok := (aok p).

(** * The effect of every call *)
Inductive ra_effect (v : view) (e : env) (sender : addr) (funds : list coin) (st : state) : msg -> state -> list cmsg -> Prop :=
  | eff_create coll tok reserve duration recipient a msgs :
      p_valid p coll = true -> (forall r, recipient = Some r -> p_valid p r = true) ->
      only_owner lb v sender coll tok = Ok tt -> q_approval v coll tok (p_self p) = true ->
      s_auctions st !! (coll, tok) = None -> only_tradable lb v e coll = Ok tt ->
      (exists m, s_mins st !! c_denom reserve = Some m /\ m <= c_amount reserve) ->
      cf_min_duration (s_config st) <= duration <= cf_max_duration (s_config st) ->
      a = Auction coll tok sender reserve duration None recipient None None ->
      ((c_amount (cf_create_fee (s_config st)) = 0 /\ funds = [] /\ msgs = []) \/
       (0 < c_amount (cf_create_fee (s_config st)) /\ has_coins funds (cf_create_fee (s_config st)) = true /\
        msgs = [MFairBurn (cf_create_fee (s_config st))])) ->
      ra_effect v e sender funds st (CreateAuction coll tok reserve duration recipient)
        (save_auction st a) (msgs ++ [MNft coll tok (p_self p)])
  | eff_reprice coll tok reserve a :
      funds = [] -> s_auctions st !! (coll, tok) = Some a -> a_seller a = sender -> a_first a = None ->
      (exists m, s_mins st !! c_denom reserve = Some m /\ m <= c_amount reserve) ->
      ra_effect v e sender funds st (UpdateReservePrice coll tok reserve)
        (save_auction st (Auction (a_coll a) (a_tok a) (a_seller a) reserve (a_duration a) (a_end a)
                    (a_recipient a) (a_high a) (a_first a))) []
  | eff_cancel coll tok a :
      funds = [] -> s_auctions st !! (coll, tok) = Some a -> a_seller a = sender -> a_first a = None ->
      ra_effect v e sender funds st (CancelAuction coll tok) (remove_auction st a) [MNft coll tok (a_seller a)]
  | eff_bid coll tok a n a' msgs :
      s_auctions st !! (coll, tok) = Some a -> funds = [Coin (a_denom a) n] ->
      bid_taken e sender (s_config st) a n a' msgs ->
      ra_effect v e sender funds st (PlaceBid coll tok) (save_auction st a') msgs
  | eff_settle coll tok a o em :
      funds = [] -> s_auctions st !! (coll, tok) = Some a ->
      outcome lb v (e_time e) (s_config st) (s_halt st) a o em ->
      ra_effect v e sender funds st (SettleAuction coll tok) (put st (a_key a) o) em.

Lemma addr_validate_Ok s a : addr_validate p s = Ok a -> a = s /\ p_valid p s = true.
Proof. unfold addr_validate. destruct (p_valid p s); [|done]. intros H. by injection H as <-. Qed.

Lemma execute_effect v e sender funds st m st' msgs :
  wf st -> execute p lb v e sender funds st m = Ok (st', msgs) -> ra_effect v e sender funds st m st' msgs.
Proof.
  intros Hwf H. destruct m as [coll tok reserve duration recipient|coll tok reserve|coll tok|coll tok|coll tok]; cbn in H;
    apply bind_Ok in H as (c&Hc&H); apply addr_validate_Ok in Hc as [-> Hv].
  - apply bind_Ok in H as (r&Hr&H).
    assert (r = recipient /\ forall x, recipient = Some x -> p_valid p x = true) as [-> Hrec].
    { destruct recipient as [x|]; cbn in Hr.
      - apply bind_Ok in Hr as (y&Hy&Hr). apply addr_validate_Ok in Hy as [-> ?]. injection Hr as <-. split; [done|].
        intros ? E. by injection E as <-.
      - injection Hr as <-. done. }
    unfold execute_create_auction in H.
    apply bind_Ok in H as ([]&Ho&H). apply bind_Ok in H as ([]&Hap&H). apply ensure_Ok in Hap.
    apply bind_Ok in H as ([]&Hno&H). unfold only_no_auction in Hno. destruct (s_auctions st !! (coll, tok)) eqn:En; [done|].
    apply bind_Ok in H as ([]&Ht&H). apply bind_Ok in H as (?&Hp&H). apply validate_reserve_price_Ok in Hp.
    apply bind_Ok in H as (?&Hd&H). apply ensure_Ok in Hd. apply bind_Ok in H as (ms&Hms&H). injection H as <- <-.
    apply andb_prop in Hd as [? ?]. apply eff_create; try done; [lia|].
    destruct (c_amount (cf_create_fee (s_config st)) =? 0) eqn:Ez.
    + apply bind_Ok in Hms as (?&Hn%nonpayable_Ok&E). injection E as <-. left. split_and!; [lia|done|done].
    + apply bind_Ok in Hms as (?&Hn%ensure_Ok&E). injection E as <-. right. split_and!; [lia|done|done].
  - unfold execute_update_reserve_price in H. apply bind_Ok in H as (?&Hn%nonpayable_Ok&H).
    apply bind_Ok in H as (a&Ha%load_auction_Ok&H). apply bind_Ok in H as (?&Hs%ensure_Ok&H).
    apply bind_Ok in H as (?&Hf%ensure_Ok&H). apply bind_Ok in H as (?&Hp%validate_reserve_price_Ok&H).
    injection H as <- <-. apply bool_decide_eq_true in Hs, Hf. by apply eff_reprice.
  - unfold execute_cancel_auction in H. apply bind_Ok in H as (?&Hn%nonpayable_Ok&H).
    apply bind_Ok in H as (a&Ha%load_auction_Ok&H). apply bind_Ok in H as (?&Hs%ensure_Ok&H).
    apply bind_Ok in H as (?&Hf%ensure_Ok&H).
    injection H as <- <-. apply bool_decide_eq_true in Hs, Hf. by apply eff_cancel.
  - apply place_bid_inv in H as (a&n&a'&Ha&Hf&Hb&->).
    + by eapply eff_bid.
    + intros a t Ha. destruct (wf_auction _ _ Hwf _ _ Ha) as [_ Hok]. apply (aok_end _ _ Hok).
  - unfold execute_settle_auction in H. apply bind_Ok in H as (?&Hn%nonpayable_Ok&H).
    apply bind_Ok in H as (a&Ha%load_auction_Ok&H). apply settle_inv in H as (o&em&->&->&Ho).
    by eapply eff_settle.
Qed.

(** * Well-formedness is preserved *)
Lemma wf_save st a : wf st -> aok a -> wf (save_auction st a).
Proof. intros Hwf Ha. apply (wf_put p st (a_key a) (Some a)); [done|]. intros x E. by injection E as <-. Qed.
Lemma wf_remove st a : wf st -> wf (remove_auction st a).
Proof. intros Hwf. by apply (wf_put p st (a_key a) None). Qed.

Lemma seconds_plus t s : t_seconds (t + s * NANOS) = t_seconds t + s.
Proof. unfold t_seconds. apply N.div_add. done. Qed.
Lemma seconds_lt t t' : t_seconds t < t_seconds t' -> t < t'.
Proof.
  unfold t_seconds. intros H. destruct (N.lt_ge_cases t t') as [?|Hge]; [done|].
  pose proof (N.div_le_mono t' t NANOS ltac:(done) Hge). lia.
Qed.

Lemma bid_aok e sender cfg a n a' msgs : sender <> p_self p -> aok a -> bid_taken e sender cfg a n a' msgs -> aok a'.
Proof.
  intros Hself [H1 H2 H3 H4 H5] [Bpos Bs Bmin Bopen (f&t'&->&Hmax&Hcase)]. split; cbn; try done.
  - eapply running; cbn; try done. destruct Hcase as [(_&->&->&_)|(prev&t&Hf&Hh&Ht&_&_&Hc)]; [unfold NANOS; lia|].
    destruct H3 as [? ? ?|f0 e0 hb Hf0 He0 Hh0 Hle]; [congruence|].
    rewrite Hf in Hf0. injection Hf0 as <-. rewrite Ht in He0. injection He0 as <-.
    destruct Hc as [[Hlt ->]|[_ ->]]; [|done].
    apply Bopen in Ht. etrans; [exact Hle|]. apply N.lt_le_incl, seconds_lt. rewrite seconds_plus. lia.
  - intros hb E. injection E as <-. cbn. done.
  - intros t E. by injection E as <-.
Qed.

Lemma wf_effect v e sender funds st m st' msgs :
  sender <> p_self p -> wf st -> ra_effect v e sender funds st m st' msgs -> wf st'.
Proof.
  intros Hs Hwf H. destruct H as [coll tok reserve duration recipient a msgs Hv Hr Ho Hap Hn Ht Hp Hd -> Hfee
    |coll tok reserve a _ Ha Hsel Hf Hp|coll tok a _ Ha Hsel Hf|coll tok a n a' msgs Ha Hfu Hb|coll tok a o em _ Ha Ho].
  - apply wf_save; [done|]. split; cbn; try done. by apply waiting.
  - destruct (wf_auction _ _ Hwf _ _ Ha) as [Hk [H1 H2 H3 H4 H5]]. apply wf_save; [done|].
    destruct H3 as [Hf' He Hh|]; [|congruence]. split; cbn; try done.
    + by apply waiting.
    + intros hb E. congruence.
  - by apply wf_remove.
  - destruct (wf_auction _ _ Hwf _ _ Ha) as [Hk Hok]. apply wf_save; [done|]. by eapply bid_aok.
  - destruct (wf_auction _ _ Hwf _ _ Ha) as [Hk Hok]. apply wf_put; [done|]. by eapply outcome_aok.
Qed.
Lemma wf_execute v e sender funds st m st' msgs :
  sender <> p_self p -> wf st -> execute p lb v e sender funds st m = Ok (st', msgs) -> wf st'.
Proof. intros ? ? H%execute_effect; [|done]. by eapply wf_effect. Qed.

(** * Privileged calls *)
Lemma end_block_inv v e st st' msgs : wf st -> sudo_end_block p lb v e st = Ok (st', msgs) ->
  let l := due_auctions st (t_seconds (e_time e) + 1) (cf_max_settle (s_config st)) in
  exists os earliest,
    Forall2 (fun a o => outcome lb v (e_time e) (s_config st) (s_halt st) a (fst o) (snd o)) l os /\
    msgs = concat (snd <$> os) /\
    earliest = match l with [] => None | a :: _ => a_end a end /\
    st' = match find_stale_halt_info (s_halt st) earliest with
          | Some h => set_halt (process st l os) h
          | None => process st l os
          end.
Proof.
  intros Hwf H. unfold sudo_end_block in H. apply bind_Ok in H as (b&Hb&H). unfold add64 in Hb.
  destruct (_ <=? _) in Hb; [|done]. injection Hb as <-. cbv zeta in H.
  apply bind_Ok in H as (ear&He&H). apply bind_Ok in H as ([st1 ms]&Hs&H). injection H as <- <-.
  apply settle_all_inv in Hs as (os&HF&->&->). cbn [app]. eexists os, ear. split_and!; [done|done| |done].
  destruct (due_auctions st _ _) as [|a l]; [by injection He as <-|]. destruct (a_end a); [by injection He as <-|done].
Qed.

Lemma due_aok st bound limit : wf st -> Forall aok (due_auctions st bound limit).
Proof.
  intros Hwf. apply Forall_forall. intros a Ha. apply (due_elem p) in Ha as [Ha _]; [|done].
  by destruct (wf_auction _ _ Hwf _ _ Ha).
Qed.
Lemma wf_set_halt st h : wf st -> wf (set_halt st h).
Proof. intros [H1 H2]. by split. Qed.

Lemma wf_sudo v e st m st' msgs : wf st -> sudo p lb v e st m = Ok (st', msgs) -> wf st'.
Proof.
  intros Hwf H. destruct m as [| |u|cs|ds|]; cbn in H.
  - unfold sudo_begin_block in H. apply bind_Ok in H as (?&_&H). cbv zeta in H. apply bind_Ok in H as (ws&_&H). injection H as <- <-.
    by apply wf_set_halt.
  - apply end_block_inv in H as (os&ear&HF&->&_&->); [|done].
    assert (wf (process st (due_auctions st (t_seconds (e_time e) + 1) (cf_max_settle (s_config st))) os)) as Hp.
    { eapply process_wf; [done|by apply due_aok|exact HF]. }
    destruct (find_stale_halt_info _ _); [by apply wf_set_halt|done].
  - unfold sudo_update_params in H. apply bind_Ok in H as (fb&_&H). apply bind_Ok in H as ([]&Hc&H). injection H as <- <-.
    destruct Hwf as [_ H2]. by split.
  - unfold sudo_set_min_reserve_prices in H. apply bind_Ok in H as (mm&_&H). injection H as <- <-. destruct Hwf as [H1 H2]. by split.
  - unfold sudo_unset_min_reserve_prices in H. apply bind_Ok in H as (mm&_&H). injection H as <- <-. destruct Hwf as [H1 H2]. by split.
  - by injection H as <- <-.
Qed.
Lemma wf_instantiate c mins st : instantiate p c mins = Ok st -> wf st.
Proof.
  unfold instantiate. intros H. apply bind_Ok in H as (?&_&H). apply bind_Ok in H as ([]&Hc&H). apply bind_Ok in H as (m&_&H).
  injection H as <-. split; [done|]. intros k a. cbn. by rewrite lookup_empty.
Qed.

(** * Accounting *)
Definition a_price (a : auction) : coin := match a_high a with Some hb => hb_coin hb | None => Coin "" 0 end.
Definition liab (st : state) (d : denom) : N := esc a_price (s_auctions st) d.
Lemma owed_price d a : owed d a = amt [a_price a] d.
Proof.
  unfold owed, a_price. destruct (a_high a) as [hb|]; [apply in_denom_amt|]. cbn. by case_bool_decide.
Qed.
Lemma high_total_liab st d : high_total st d = liab st d.
Proof.
  unfold high_total, liab, esc, map_fold. cbn. induction (map_to_list (s_auctions st)) as [|[k a] l IH]; cbn; [done|].
  rewrite IH, owed_price. cbn. lia.
Qed.
Lemma liab_put st k o a d : s_auctions st !! k = Some a ->
  liab (put st k o) d + amt [a_price a] d = liab st d + match o with Some a' => amt [a_price a'] d | None => 0 end.
Proof.
  intros Ha. unfold liab, put. cbn [set_auctions s_auctions]. destruct o as [a'|].
  - by apply esc_insert_some.
  - rewrite (esc_delete a_price _ _ _ d Ha). lia.
Qed.
Lemma outcome_accounting v now cfg h st a o em d :
  s_auctions st !! a_key a = Some a -> outcome lb v now cfg h a o em ->
  liab (put st (a_key a) o) d + out em d = liab st d.
Proof.
  intros Ha Ho. pose proof (liab_put st _ o _ d Ha) as H. destruct Ho as [t Ht Hle _ Hm|t hb sp Ht Hle _ Hh Hsp _].
  - cbn [out]. change (a_price (with_end a (now + cf_halt_postpone cfg * NANOS))) with (a_price a) in H. lia.
  - rewrite out_settlement by done. rewrite in_denom_amt. unfold a_price in H. rewrite Hh in H. lia.
Qed.
Lemma process_accounting v now cfg h st l os d :
  NoDup (a_key <$> l) -> Forall (fun a => s_auctions st !! a_key a = Some a) l ->
  Forall2 (fun a o => outcome lb v now cfg h a (fst o) (snd o)) l os ->
  liab (process st l os) d + out (concat (snd <$> os)) d = liab st d.
Proof.
  intros Hn Hl H. revert st Hl. induction H as [|a [o em] l os Ho _ IH]; intros st Hl; [unfold process; cbn; lia|].
  cbn in Hn. apply NoDup_cons in Hn as [Ha Hn]. apply Forall_cons in Hl as [Hst Hl]. rewrite process_cons. cbn [fst snd] in *.
  cbn [fmap list_fmap concat snd]. rewrite out_app. pose proof (outcome_accounting v now cfg h st a o em d Hst Ho) as H1.
  specialize (IH Hn (put st (a_key a) o)). feed specialize IH.
  - rewrite Forall_forall in Hl |- *. intros b Hb. assert (a_key b <> a_key a) as Hne.
    { intros E. apply Ha. rewrite <-E. by apply elem_of_list_fmap_1. }
    cbn. destruct o; [rewrite lookup_insert_ne by done|rewrite lookup_delete_ne by done]; by apply Hl.
  - lia.
Qed.

(** Coins a successful call keeps beyond what it owes: only an overpaid creation fee. *)
Lemma effect_accounting v e sender funds st m st' msgs d :
  wf st -> ra_effect v e sender funds st m st' msgs ->
  liab st' d + out msgs d <= liab st d + amt funds d /\
  ((forall c t r du rc, m <> CreateAuction c t r du rc) -> liab st' d + out msgs d = liab st d + amt funds d).
Proof.
  intros Hwf H. destruct H as [coll tok reserve duration recipient a msgs Hv Hr Ho Hap Hn Ht Hp Hd -> Hfee
    |coll tok reserve a -> Ha Hsel Hf Hp|coll tok a -> Ha Hsel Hf|coll tok a n a' msgs Ha -> Hb|coll tok a o em -> Ha Ho].
  - split; [|intros H; by destruct (H coll tok reserve duration recipient)].
    rewrite out_app. unfold liab. cbn [save_auction set_auctions s_auctions].
    rewrite esc_insert_new by done. cbn [a_price a_high amt c_amount c_denom].
    destruct Hfee as [(_&->&->)|(Hpos&Hhas&->)]; cbn [out out_one amt].
    + destruct (bool_decide _); lia.
    + assert (amt [cf_create_fee (s_config st)] d <= amt funds d) as Hle.
      { rewrite amt_one. case_bool_decide as E; [|lia]. subst d. clear -Hhas.
        induction funds as [|c funds IH]; cbn in *; [done|]. case_bool_decide as E; [lia|]. apply IH in Hhas. lia. }
      cbn [amt] in Hle. destruct (bool_decide ("" = d)); lia.
  - destruct (wf_auction _ _ Hwf _ _ Ha) as [Hk [_ _ Hph _ _]]. destruct Hph as [_ _ Hh|]; [|congruence].
    match goal with |- context [save_auction st ?x] => change (save_auction st x) with (put st (a_key a) (Some x));
      pose proof (liab_put st (a_key a) (Some x) a d) as H; cbv beta iota in H; change (a_price x) with (a_price a) in H end.
    rewrite Hk in H |- *. specialize (H Ha). cbn [out amt]. split; intros; lia.
  - destruct (wf_auction _ _ Hwf _ _ Ha) as [Hk [_ _ Hph _ _]]. destruct Hph as [_ _ Hh|]; [|congruence].
    change (remove_auction st a) with (put st (a_key a) None). pose proof (liab_put st (a_key a) None a d) as H.
    rewrite Hk in H |- *. specialize (H Ha). unfold a_price in H. rewrite Hh in H. cbn [out out_one amt].
    rewrite amt_one in H. cbn [c_amount] in H. destruct (bool_decide _) in H; split; intros; lia.
  - destruct (wf_auction _ _ Hwf _ _ Ha) as [Hk [_ _ Hph _ _]].
    destruct Hb as [Bpos Bs Bmin Bopen (f&t'&->&Hmax&Hcase)].
    match goal with |- context [save_auction st ?x] => change (save_auction st x) with (put st (a_key a) (Some x));
      pose proof (liab_put st (a_key a) (Some x) a d) as H end.
    rewrite Hk in H |- *. specialize (H Ha). unfold a_price in H at 2. cbn [a_high hb_coin] in H.
    destruct Hcase as [(Hf&_&_&->)|(prev&t&Hf&Hh&Ht&_&->&_)].
    + destruct Hph as [_ _ Hh|]; [|congruence]. unfold a_price in H. rewrite Hh in H. cbn [out].
      rewrite (amt_one (Coin "" 0)) in H. cbn [c_amount] in H. destruct (bool_decide (_ = d)) in H; split; intros; lia.
    + unfold a_price in H. rewrite Hh in H. cbn [out out_one]. split; intros; lia.
  - destruct (wf_auction _ _ Hwf _ _ Ha) as [Hk _]. cbn [amt].
    pose proof (outcome_accounting v (e_time e) (s_config st) (s_halt st) st a o em d) as H.
    rewrite Hk in H |- *. specialize (H Ha Ho). split; intros; lia.
Qed.
Lemma execute_liab v e sender funds st m st' msgs d :
  wf st -> execute p lb v e sender funds st m = Ok (st', msgs) -> liab st' d + out msgs d <= liab st d + amt funds d.
Proof. intros Hwf H%execute_effect; [|done]. by eapply effect_accounting. Qed.

Lemma due_stored st bound limit : wf st ->
  Forall (fun a => s_auctions st !! a_key a = Some a) (due_auctions st bound limit).
Proof. intros Hwf. apply Forall_forall. intros a Ha. by apply (due_elem p) in Ha as [Ha _]. Qed.

Lemma sudo_liab v e st m st' msgs d : wf st -> sudo p lb v e st m = Ok (st', msgs) ->
  liab st' d + out msgs d = liab st d.
Proof.
  intros Hwf H. destruct m as [| |u|cs|ds|]; cbn in H.
  - unfold sudo_begin_block in H. apply bind_Ok in H as (?&_&H). cbv zeta in H. apply bind_Ok in H as (ws&_&H). injection H as <- <-.
    unfold liab. cbn. lia.
  - apply end_block_inv in H as (os&ear&HF&->&_&->); [|done].
    pose proof (process_accounting v (e_time e) (s_config st) (s_halt st) st _ _ d
      (due_nodup p st Hwf _ _) (due_stored _ _ _ Hwf) HF) as H.
    destruct (find_stale_halt_info _ _); exact H.
  - unfold sudo_update_params in H. apply bind_Ok in H as (fb&_&H). apply bind_Ok in H as ([]&Hc&H). injection H as <- <-.
    unfold liab. cbn. lia.
  - unfold sudo_set_min_reserve_prices in H. apply bind_Ok in H as (mm&_&H). injection H as <- <-. unfold liab. cbn. lia.
  - unfold sudo_unset_min_reserve_prices in H. apply bind_Ok in H as (mm&_&H). injection H as <- <-. unfold liab. cbn. lia.
  - injection H as <- <-. unfold liab. cbn. lia.
Qed.

(** * Custody *)
Definition held (st : state) (c : addr) (t : token) : Prop := exists a, s_auctions st !! (c, t) = Some a.

Lemma only_owner_not_self v sender coll tok : sender <> p_self p -> only_owner lb v sender coll tok = Ok tt ->
  q_owner v coll tok <> Some (p_self p).
Proof.
  intros Hs. unfold only_owner. destruct (q_owner v coll tok) as [o|]; [|done]. intros H%ensure_Ok Hx.
  injection Hx as ->. apply bool_decide_eq_true in H. done.
Qed.
Lemma honest_out_settlement a hb sp :
  honest_out p (settlement a hb sp) = if p_honest p (a_coll a) then [a_key a] else [].
Proof.
  unfold settlement, burn_part, pay_part. rewrite !honest_out_app. repeat case_decide; cbn; by destruct (p_honest p (a_coll a)).
Qed.
Lemma outcome_honest_out v now cfg h a o em : outcome lb v now cfg h a o em ->
  honest_out p em = match o with Some _ => [] | None => if p_honest p (a_coll a) then [a_key a] else [] end.
Proof. intros [|]; [done|]. apply honest_out_settlement. Qed.

Lemma sublist_nodup {A} (l k : list A) : sublist l k -> NoDup k -> NoDup l.
Proof.
  induction 1 as [|x l k H IH|x l k H IH]; intros Hn; [done|..]; apply NoDup_cons in Hn as [Hx Hn].
  - apply NoDup_cons. split; [|by apply IH]. intros Hi. apply Hx. eapply elem_of_submseteq; [done|]. by apply sublist_submseteq.
  - by apply IH.
Qed.
Lemma process_honest_out v now cfg h l os :
  Forall2 (fun a o => outcome lb v now cfg h a (fst o) (snd o)) l os ->
  sublist (honest_out p (concat (snd <$> os))) (a_key <$> l) /\
  (forall k, k ∈ honest_out p (concat (snd <$> os)) ->
    exists (i : nat) a o, l !! i = Some a /\ os !! i = Some o /\ a_key a = k /\ fst o = None).
Proof.
  induction 1 as [|a [o em] l os Ho _ [IH1 IH2]]; cbn [fmap list_fmap concat fst snd].
  - split; [done|]. intros k Hk. by apply elem_of_nil in Hk.
  - cbn [fst snd] in Ho. rewrite honest_out_app, (outcome_honest_out _ _ _ _ _ _ _ Ho). split.
    + destruct o; cbn; [by constructor|]. destruct (p_honest p (a_coll a)); cbn; by constructor.
    + intros k [Hk|Hk]%elem_of_app.
      * exists 0%nat, a, (o, em). cbn. destruct o; [by apply elem_of_nil in Hk|].
        destruct (p_honest p (a_coll a)); [|by apply elem_of_nil in Hk]. apply elem_of_list_singleton in Hk. by subst.
      * apply IH2 in Hk as (i&b&o'&?&?&?&?). by exists (S i), b, o'.
Qed.

Lemma process_dom v now cfg h st l os k :
  Forall (fun a => s_auctions st !! a_key a = Some a) l ->
  Forall2 (fun a o => outcome lb v now cfg h a (fst o) (snd o)) l os ->
  is_Some (s_auctions (process st l os) !! k) -> is_Some (s_auctions st !! k).
Proof.
  intros Hl HF Hk. destruct (decide (k ∈ (a_key <$> l))) as [Hin|Hout].
  - apply elem_of_list_fmap in Hin as (a&->&Ha). rewrite Forall_forall in Hl. rewrite (Hl a Ha). done.
  - by rewrite process_other in Hk.
Qed.

Lemma no_release st st' msgs : honest_out p msgs = [] ->
  (forall c t, p_honest p c = true -> held st' c t -> held st c t) -> releases p held st st' msgs.
Proof.
  intros E H. unfold releases. rewrite E. split_and!; [constructor| |done]. intros ? ? Hin. by apply elem_of_nil in Hin.
Qed.

Lemma outcome_shape v now cfg h st l os :
  NoDup (a_key <$> l) -> Forall (fun a => s_auctions st !! a_key a = Some a) l ->
  Forall2 (fun a o => outcome lb v now cfg h a (fst o) (snd o)) l os ->
  releases p held st (process st l os) (concat (snd <$> os)).
Proof.
  intros Hn Hl HF. destruct (process_honest_out _ _ _ _ _ _ HF) as [Hsub Hin]. split_and!.
  - eapply sublist_nodup; done.
  - intros c t H. apply Hin in H as (i&a&o&Ha&Ho&Hk&Hnone). rewrite Forall_forall in Hl. split.
    + exists a. rewrite <-Hk. apply Hl. by eapply elem_of_list_lookup_2.
    + intros [x Hx]. pose proof (process_at st l os i a o Hn Ha Ho) as Hat. rewrite Hk, Hnone in Hat.
      assert (Some x = None) by (rewrite <-Hat; symmetry; exact Hx). done.
  - intros c t _ H. by eapply process_dom.
Qed.

Lemma effect_custody v e sender funds st m st' msgs :
  sender <> p_self p -> wf st -> ra_effect v e sender funds st m st' msgs ->
  single_move p held st st' v msgs \/ releases p held st st' msgs.
Proof.
  intros Hs Hwf H. destruct H as [coll tok reserve duration recipient a msgs Hv Hr Ho Hap Hn Ht Hp Hd -> Hfee
    |coll tok reserve a _ Ha Hsel Hf Hp|coll tok a _ Ha Hsel Hf|coll tok a n a' msgs Ha Hfu Hb|coll tok a o em _ Ha Ho].
  - destruct (p_honest p coll) eqn:Eh.
    + left. exists coll, tok, (p_self p), msgs, []. split_and!; try done.
      * destruct Hfee as [(_&_&->)|(_&_&->)]; by repeat constructor.
      * right. by eapply only_owner_not_self.
      * intros c' t' _ [x Hx]. cbn in Hx. apply lookup_insert_Some in Hx as [[E _]|[Hne Hx]].
        -- injection E as <- <-. by left.
        -- right. split; [by exists x|]. intros [-> ->]. by apply Hne.
    + right. apply no_release.
      * rewrite honest_out_app. destruct Hfee as [(_&_&->)|(_&_&->)]; cbn; by rewrite Eh.
      * intros c t Hc [x Hx]. cbn in Hx. apply lookup_insert_Some in Hx as [[E _]|[Hne Hx]]; [|by exists x].
        injection E as <- <-. congruence.
  - right. apply no_release; [done|]. intros c t _ [x Hx]. cbn in Hx.
    destruct (wf_auction _ _ Hwf _ _ Ha) as [Hk _]. unfold a_key in *. cbn in Hx.
    apply lookup_insert_Some in Hx as [[E _]|[Hne Hx]]; [|by exists x]. exists a. congruence.
  - right. destruct (wf_auction _ _ Hwf _ _ Ha) as [Hk _]. unfold releases. cbn. split_and!.
    + destruct (p_honest p coll); cbn; [apply NoDup_singleton|constructor].
    + intros c t Hin. assert ((c, t) = (coll, tok)) as E.
      { destruct (p_honest p coll); cbn in Hin; [by apply elem_of_list_singleton in Hin|by apply elem_of_nil in Hin]. }
      rewrite E in *. injection E as -> ->. split; [by exists a|]. intros [x Hx]. cbn in Hx. rewrite Hk, lookup_delete in Hx. done.
    + intros c t _ [x Hx]. cbn in Hx. apply lookup_delete_Some in Hx as [_ Hx]. by exists x.
  - right. destruct (wf_auction _ _ Hwf _ _ Ha) as [Hk _]. destruct Hb as [_ _ _ _ (f&t'&->&_&Hcase)].
    apply no_release.
    + destruct Hcase as [(_&_&_&->)|(prev&t&_&_&_&_&->&_)]; done.
    + intros c t _ [x Hx]. cbn in Hx. unfold a_key in *. cbn in Hx.
      apply lookup_insert_Some in Hx as [[E _]|[Hne Hx]]; [|by exists x]. exists a. congruence.
  - right. destruct (wf_auction _ _ Hwf _ _ Ha) as [Hk _].
    pose proof (outcome_shape v (e_time e) (s_config st) (s_halt st) st [a] [(o, em)]) as H. rewrite Hk.
    cbn in H. rewrite app_nil_r in H. unfold process in H. cbn in H. rewrite Hk in H. apply H.
    + apply NoDup_singleton.
    + constructor; [by rewrite Hk|constructor].
    + constructor; [done|constructor].
Qed.
Lemma execute_custody v e sender funds st m st' msgs :
  sender <> p_self p -> wf st -> execute p lb v e sender funds st m = Ok (st', msgs) ->
  single_move p held st st' v msgs \/ releases p held st st' msgs.
Proof. intros Hs Hwf H%execute_effect; [|done]. by eapply effect_custody. Qed.

Lemma sudo_custody v e st m st' msgs : wf st -> sudo p lb v e st m = Ok (st', msgs) -> releases p held st st' msgs.
Proof.
  intros Hwf H. destruct m as [| |u|cs|ds|]; cbn in H.
  - unfold sudo_begin_block in H. apply bind_Ok in H as (?&_&H). cbv zeta in H. apply bind_Ok in H as (ws&_&H). injection H as <- <-.
    by apply no_release.
  - apply end_block_inv in H as (os&ear&HF&->&_&->); [|done].
    pose proof (outcome_shape v (e_time e) (s_config st) (s_halt st) st _ _ 
      (due_nodup p st Hwf _ _) (due_stored _ _ _ Hwf) HF) as H.
    destruct (find_stale_halt_info _ _); exact H.
  - unfold sudo_update_params in H. apply bind_Ok in H as (fb&_&H). apply bind_Ok in H as ([]&Hc&H). injection H as <- <-.
    by apply no_release.
  - unfold sudo_set_min_reserve_prices in H. apply bind_Ok in H as (mm&_&H). injection H as <- <-. by apply no_release.
  - unfold sudo_unset_min_reserve_prices in H. apply bind_Ok in H as (mm&_&H). injection H as <- <-. by apply no_release.
  - injection H as <- <-. by apply no_release.
Qed.
End Inv.
