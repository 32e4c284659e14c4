(** The properties of marketplace v1 (C52-C65 and C75-C95, C106-C111 of properties.jsonl).  They hold whether or not the chain accepts
    burning nothing ([ext]).  Each theorem is closed by a lemma proved elsewhere; what it rests on is printed beneath it, and
    an example shows a concrete case meeting its hypotheses. *)
From stdpp Require Import relations pretty.
From Verif Require Import Base BaseFacts Common Chain ChainFacts IndexRange QuerySpec V1Model V1Spec V1Facts V1Inv V1Reach V1Final
  V1Hooks V1Live V1Query V1More V1Exact V1Examples V1Refute.

Section Forms.
Context (p : params) (x : ext).

Lemma split_form v e s f st m st' msgs c t who : v1_history p x st ->
  execute p x v e s f st m = Ok (st', msgs) -> MNft c t who ∈ msgs ->
  exists d ci, closes v e s f st m d /\ c = d_coll d /\ t = pretty (d_tok d) /\ who = d_buyer_to d /\
    q_info v (d_coll d) = Some ci /\ let sp := deal_split st ci d in
    msgs = deal_msgs x st m s ci d ++ hook_msgs (s_sale_hooks st) /\
    (split_total sp = d_price d \/ split_total sp + 1 = d_price d) /\
    out msgs "ustars" = refund_due st m s + split_total sp /\ (forall dn, dn <> "ustars" -> out msgs dn = 0).
Proof.
  intros Hst H Hn. destruct (sale_rule p x _ _ _ _ _ _ _ _ _ _ _ Hst H Hn) as (d&ci&Hc&->&->&->&Hi&Hf&_&->&_).
  exists d, ci. split_and!; try done.
  destruct (refund_first_facts st m s) as (_&Ho&_).
  assert (forall dn, out (deal_msgs x st m s ci d ++ hook_msgs (s_sale_hooks st)) dn =
    if bool_decide ("ustars" = dn) then refund_due st m s + split_total (deal_split st ci d) else 0) as E.
  { intros dn. unfold deal_msgs. rewrite !out_app, out_hooks, Ho, out_split.
    - cbn [out out_one]. fold (split_total (deal_split st ci d)). unfold split_sum, split_total. case_bool_decide; lia.
    - intros Hd. unfold deal_split. rewrite Hd. apply split_none. }
  cbv zeta. split_and!; [done|exact Hf| |].
  - rewrite E. by rewrite bool_decide_eq_true_2.
  - intros dn Hdn. rewrite E. by rewrite bool_decide_eq_false_2.
Qed.
Lemma unique_bid_form st k1 k2 b1 b2 : v1_history p x st -> s_bids st !! k1 = Some b1 -> s_bids st !! k2 = Some b2 ->
  b_coll b1 = b_coll b2 -> b_tok b1 = b_tok b2 -> b_bidder b1 = b_bidder b2 -> k1 = k2.
Proof.
  intros Hw%history_wf H1 H2 E1 E2 E3. apply (wf_bid _ _ Hw) in H1 as (->&_), H2 as (->&_). congruence.
Qed.
Lemma unique_cbid_form st k1 k2 b1 b2 : v1_history p x st -> s_cbids st !! k1 = Some b1 -> s_cbids st !! k2 = Some b2 ->
  cb_coll b1 = cb_coll b2 -> cb_bidder b1 = cb_bidder b2 -> k1 = k2.
Proof.
  intros Hw%history_wf H1 H2 E1 E3. apply (wf_cbid _ _ Hw) in H1 as (->&_), H2 as (->&_). congruence.
Qed.
Lemma refund_form v e s f st m st' msgs ba old : v1_history p x st -> execute p x v e s f st m = Ok (st', msgs) -> bid_call m = Some ba ->
  s_bids st !! (ba_coll ba, ba_tok ba, s) = Some old ->
  (exists rest, msgs = pay s (b_price old) :: rest) /\
  (s_bids st' !! (ba_coll ba, ba_tok ba, s) = None \/
   exists price, f = [native price] /\
     s_bids st' !! (ba_coll ba, ba_tok ba, s) = Some (Bid (ba_coll ba) (ba_tok ba) s price (ba_bps ba) (ba_expires ba))).
Proof.
  intros Hst H Hba Ho. destruct (bidding_rule p x _ _ _ _ _ _ _ _ _ Hst H Hba) as (price&Hc&_&_&_&_&Hcases).
  destruct Hcases as [(a&ci&_&_&_&_&_&_&Hn&_&E)|(_&_&_&Hn&E)]; unfold refund_of in E; rewrite Ho in E; (split; [eexists; exact E|]).
  - by left.
  - right. exists price. split; [by destruct Hc|done].
Qed.
Lemma crefund_form v e s f st coll ex bps st' msgs : v1_history p x st ->
  execute p x v e s f st (SetCollectionBid coll ex bps) = Ok (st', msgs) ->
  exists price, f = [native price] /\ 0 < price /\ s_cbids st' = <[(coll, s) := CBid coll s price bps ex]> (s_cbids st) /\
    s_bids st' = s_bids st /\ s_asks st' = s_asks st /\ msgs = crefund_of st coll s ++ hook_msgs (s_cbid_hooks st).
Proof.
  intros Hw%history_wf (ms&H&->)%execute_sub_of. inversion H; subst; try done. exists price. split_and!; try done.
  - cbn [s_cbids store_cbid set_cbids remove_cbid cb_coll cb_bidder b]. apply insert_delete_insert.
  - rewrite map_app, erase_plain. unfold cbid_hooks. rewrite erase_hooks. f_equal. unfold crefund_of.
    destruct (s_cbids st !! (coll, s)) as [o|] eqn:Eo; [|done]. try done.
    apply (wf_cbid _ _ Hw) in Eo as (Ek&_). injection Ek as Ec Eb. cbn. by rewrite <- ?Eb.
Qed.
Lemma ask_sale_form v e s f st m st' msgs ba c t who : v1_history p x st -> execute p x v e s f st m = Ok (st', msgs) ->
  bid_call m = Some ba -> MNft c t who ∈ msgs ->
  exists a ci, s_asks st !! (ba_coll ba, ba_tok ba) = Some a /\ k_type a = FixedPrice /\ k_active a = true /\ live e (k_expires a) /\
    f = [native (k_price a)] /\ owns v (k_seller a) (ba_coll ba) (ba_tok ba) /\
    c = ba_coll ba /\ t = pretty (ba_tok ba) /\ who = default s (ba_to ba) /\ q_info v (ba_coll ba) = Some ci /\
    pay (default (k_seller a) (k_recipient a))
        (x_seller (split_of (sp_trading_fee (s_params st)) (k_price a) (ba_finder ba) (k_finders a) (ci_royalty ci))) ∈ msgs.
Proof.
  intros Hst H Hba Hn. destruct (sale_rule p x _ _ _ _ _ _ _ _ _ _ _ Hst H Hn) as (d&ci&Hc&->&->&->&Hi&_&_&->&_).
  destruct Hc as [coll tok bidder finder b -> | coll tok bidder finder b -> |ba' a Hba' Ha Hty Hac Hl Hr Hf Ho Hfi]; try done.
  assert (ba' = ba) as -> by congruence. exists a, ci. split_and!; try done.
  unfold deal_msgs, split_msgs. rewrite !elem_of_app. left. right. left. right. right. right. by left.
Qed.
Lemma reserve_form v e s f st m st' msgs ba a r : v1_history p x st -> execute p x v e s f st m = Ok (st', msgs) -> bid_call m = Some ba ->
  s_asks st !! (ba_coll ba, ba_tok ba) = Some a -> k_reserve a = Some r -> s = r.
Proof.
  intros Hst H Hba Ha Hr. destruct (bidding_rule p x _ _ _ _ _ _ _ _ _ Hst H Hba) as (price&_&Ho&_).
  destruct (Ho _ Ha) as [[_ _ Hres] _]. symmetry. by apply Hres.
Qed.
Lemma open_form v e s f st m st' msgs ba a : v1_history p x st -> execute p x v e s f st m = Ok (st', msgs) -> bid_call m = Some ba ->
  s_asks st !! (ba_coll ba, ba_tok ba) = Some a -> live e (k_expires a) /\ k_active a = true.
Proof.
  intros Hst H Hba Ha. destruct (bidding_rule p x _ _ _ _ _ _ _ _ _ Hst H Hba) as (price&_&Ho&_). by destruct (Ho _ Ha) as [[? ? _] _].
Qed.
Lemma live_bid_form v e s f st coll tok bidder finder st' msgs : v1_history p x st ->
  execute p x v e s f st (AcceptBid coll tok bidder finder) = Ok (st', msgs) ->
  exists b, s_bids st !! (coll, tok, bidder) = Some b /\ live e (b_expires b).
Proof. intros _ (ms&H&->)%execute_sub_of. inversion H; subst; try done. by eexists. Qed.
Lemma live_cbid_form v e s f st coll tok bidder finder st' msgs : v1_history p x st ->
  execute p x v e s f st (AcceptCollectionBid coll tok bidder finder) = Ok (st', msgs) ->
  exists b, s_cbids st !! (coll, bidder) = Some b /\ live e (cb_expires b).
Proof. intros _ (ms&H&->)%execute_sub_of. inversion H; subst; try done. by eexists. Qed.
Lemma origin_form st k b : v1_history p x st -> s_asks st !! k = Some b -> ask_origin p x st b.
Proof. intros H Hb. by destruct (asks_have_origin p x _ _ _ H Hb). Qed.
Lemma price_form st k b : v1_history p x st -> s_asks st !! k = Some b -> price_origin p x st b.
Proof. intros H Hb. by destruct (asks_have_origin p x _ _ _ H Hb). Qed.
Lemma buy_now_form v e s f st m st' msgs ba : v1_history p x st -> execute p x v e s f st m = Ok (st', msgs) ->
  bid_call m = Some ba -> ba_now ba = true ->
  exists a price, s_asks st !! (ba_coll ba, ba_tok ba) = Some a /\ f = [native price] /\
    ((k_type a = FixedPrice /\ price = k_price a /\ MNft (ba_coll ba) (pretty (ba_tok ba)) (default s (ba_to ba)) ∈ msgs /\
      s_bids st' !! (ba_coll ba, ba_tok ba, s) = None) \/
     ((k_type a = FixedPrice /\ price < k_price a \/ k_type a = Auction /\ k_price a <= price) /\
      s_bids st' !! (ba_coll ba, ba_tok ba, s) = Some (Bid (ba_coll ba) (ba_tok ba) s price (ba_bps ba) (ba_expires ba)))).
Proof.
  intros Hst H Hba Hnow. destruct (bidding_rule p x _ _ _ _ _ _ _ _ _ Hst H Hba) as (price&Hc&Hop&_&_&_&[Hb|Hr]).
  - destruct Hb as (a&ci&Ha&Hty&Hp&_&_&_&Hn&_&->). exists a, price. split_and!; [done|by destruct Hc|]. left. split_and!; try done.
    rewrite !elem_of_app. right. right. left. by left.
  - destruct Hr as (Hlt&Hask&_&Hb&_). destruct (s_asks st !! (ba_coll ba, ba_tok ba)) as [a|] eqn:Ea; [|by destruct (Hask Hnow)].
    exists a, price. split_and!; [done|by destruct Hc|]. right. split; [|done]. destruct (Hop _ eq_refl) as [_ Hty].
    destruct (k_type a) eqn:Et; [left|right]; split; try done. by apply Hlt.
Qed.
Lemma listing_price_form st k a : v1_history p x st -> s_asks st !! k = Some a ->
  k_price a <= 100000000000000 \/
  exists st0 st1 v e s f c msgs, v1_history p x st0 /\ owns v s (k_coll a) (k_tok a) /\
    execute p x v e s f st0 (UpdateAskPrice (k_coll a) (k_tok a) c) = Ok (st1, msgs) /\ c_amount c = k_price a /\ rtc (v1_call p x) st1 st.
Proof.
  intros Hst Ha. destruct (price_form _ _ _ Hst Ha) as (st0&st1&v&e&s&f&m&msgs&H0&H&Hr&Ho&_&[(c&ty&rc&rs&bps&ex&->&_&Hle)|(c&->&Hc)]).
  - by left.
  - right. by exists st0, st1, v, e, s, f, c, msgs.
Qed.
Lemma absent_seller_form v e s f st m st' msgs ba a : v1_history p x st -> execute p x v e s f st m = Ok (st', msgs) -> bid_call m = Some ba ->
  s_asks st !! (ba_coll ba, ba_tok ba) = Some a -> ~ owns v (k_seller a) (ba_coll ba) (ba_tok ba) ->
  (forall c t who, MNft c t who ∉ msgs) /\ s_asks st' !! (ba_coll ba, ba_tok ba) = Some a.
Proof.
  intros Hst H Hba Ha Hno. split.
  - intros c t who Hn. destruct (ask_sale_form _ _ _ _ _ _ _ _ _ _ _ _ Hst H Hba Hn) as (a'&ci&Ha'&_&_&_&_&Ho&_).
    assert (a' = a) as -> by congruence. done.
  - destruct (bidding_rule p x _ _ _ _ _ _ _ _ _ Hst H Hba) as (price&Hc&Hop&_&_&_&[Hb|Hr]).
    + destruct Hb as (a'&ci&Ha'&_&_&Ho&_). assert (a' = a) as -> by congruence. done.
    + destruct Hr as (_&_&->&_). done.
Qed.
Lemma params_form st : v1_history p x st -> params_ok (s_params st) /\ NoDup (s_ask_hooks st) /\ NoDup (s_bid_hooks st) /\
  NoDup (s_sale_hooks st) /\ s_cbid_hooks st = [].
Proof. intros Hw%history_wf. split; [by apply wf_params in Hw|by destruct (wf_hooks _ _ Hw) as (?&?&?&?)]. Qed.
Lemma add_operator_form v e st a st' msgs : sudo p v e st (AddOperator a) = Ok (st', msgs) ->
  ~ operator st a /\ (forall o, operator st' o <-> operator st o \/ o = a).
Proof.
  unfold sudo. intros (st1&H1&H)%bind_Ok. injection H as <- <-. cbn in H1. apply bind_Ok in H1 as (a0&Ha&H1).
  apply addr_validate_Ok in Ha as [-> _]. apply bind_Ok in H1 as (l&Hl&H1). injection H1 as <-. unfold register in Hl.
  destruct (existsb _ _) eqn:E; [done|]. injection Hl as <-. unfold operator. cbn. split.
  - intros Hin. apply not_true_iff_false in E. apply E. apply existsb_exists. exists a. split; [by apply elem_of_list_In|by apply bool_decide_eq_true].
  - intros o. by rewrite elem_of_app, elem_of_list_singleton.
Qed.
Lemma unregister_spec l a l' : unregister l a = Ok l' -> NoDup l -> a ∈ l /\ forall o, o ∈ l' <-> o ∈ l /\ o <> a.
Proof.
  revert l'. induction l as [|b l IH]; intros l' H Hn; [done|]. cbn in H. apply NoDup_cons in Hn as [Hb Hn]. case_bool_decide as E.
  - injection H as <-. subst. split; [by left|]. intros o. rewrite elem_of_cons. split; [intros Ho; split; [by right|by intros ->]|by intros [[?|?] ?]].
  - apply bind_Ok in H as (l1&H1&H). injection H as <-. destruct (IH _ H1 Hn) as [Hin Hl]. split; [by right|]. intros o.
    rewrite !elem_of_cons, Hl. split; [intros [->|[? ?]]; auto|intros [[->|?] ?]; auto].
Qed.
Lemma remove_operator_form v e st a st' msgs : v1_history p x st -> sudo p v e st (RemoveOperator a) = Ok (st', msgs) ->
  operator st a /\ (forall o, operator st' o <-> operator st o /\ o <> a).
Proof.
  intros Hw%history_wf. unfold sudo. intros (st1&H1&H)%bind_Ok. injection H as <- <-. cbn in H1. apply bind_Ok in H1 as (a0&Ha&H1).
  apply addr_validate_Ok in Ha as [-> _]. apply bind_Ok in H1 as (l&Hl&H1). injection H1 as <-.
  apply unregister_spec in Hl; [done|]. apply (po_operators _ (wf_params _ _ Hw)).
Qed.
Lemma hook_data_form v e s f st m st' ms c t who : v1_history p x st -> execute_sub p x v e s f st m = Ok (st', ms) -> SPlain (MNft c t who) ∈ ms ->
  exists d ci, closes v e s f st m d /\ c = d_coll d /\ t = pretty (d_tok d) /\ who = d_buyer_to d /\
    ms = map SPlain (deal_msgs x st m s ci d) ++
         map (fun h => SHook h (HSale (d_coll d) (d_tok d) (native (d_price d)) (d_seller d) (d_buyer d))) (s_sale_hooks st).
Proof.
  intros Hw%history_wf H Hn. apply execute_effect in H.
  assert (MNft c t who ∈ map erase ms) as Hn' by (change (MNft c t who) with (erase (SPlain (MNft c t who))); by apply elem_of_list_fmap_1).
  destruct (effect_sale p x _ _ _ _ _ _ _ _ _ _ _ Hw H Hn') as (d&ci&Hc&->&->&->&_&_&_&_&_&->). by exists d, ci.
Qed.
Lemma withdraw_any_hooks hk w coll tok who b : v1_reachable p x w -> p_blocked p who = false ->
  s_bids (w_st w) !! (coll, tok, who) = Some b -> exists w', run_tx_hooked p hk x w who [] (RemoveBid coll tok) = Ok w'.
Proof. intros Hr Hb Hl. apply hooks_cannot_block. by eapply withdraw_runs. Qed.
Lemma cwithdraw_any_hooks hk w coll who b : v1_reachable p x w -> p_blocked p who = false ->
  s_cbids (w_st w) !! (coll, who) = Some b -> exists w', run_tx_hooked p hk x w who [] (RemoveCollectionBid coll) = Ok w'.
Proof. intros Hr Hb Hl. apply hooks_cannot_block. by eapply cwithdraw_runs. Qed.
Lemma sale_any_hooks hk w s f m d ci : v1_reachable p x w -> s <> p_self p -> covers (w_bank w) s f = true ->
  closes (view_of p w) (env_of w) s f (w_st w) m d -> names_ok p m -> limits_ok (env_of w) (w_st w) m (d_price d) ->
  o_info (w_ora w) (d_coll d) = Some ci -> deal_payable p x (w_st w) ci d -> (refund_due (w_st w) m s <> 0 -> p_blocked p s = false) ->
  d_coll d <> p_self p -> (p_honest p (d_coll d) = true -> can_transfer w (d_coll d) (pretty (d_tok d)) (p_self p) = true) ->
  exists w', run_tx_hooked p hk x w s f m = Ok w'.
Proof. intros. apply hooks_cannot_block. by eapply sale_runs. Qed.
Lemma balance_form v e s f st m st' msgs : v1_history p x st -> execute p x v e s f st m = Ok (st', msgs) ->
  let before := bids_total st + cbids_total st + amt f "ustars" in
  let after := bids_total st' + cbids_total st' + out msgs "ustars" in
  after = before \/ after + 1 = before.
Proof.
  intros Hw%history_wf H. destruct (execute_balanced p x _ _ _ _ _ _ _ _ "ustars" Hw H) as [E|[_ E]]; rewrite !liab_total in E; cbv zeta; lia.
Qed.
(** On the chain: the bid comes back in full, only that bid leaves the book, then the hooks are called. *)
Definition only_bid_gone (st st1 : state) (coll : addr) (tok : N) (who : addr) : Prop :=
  s_bids st1 = delete (coll, tok, who) (s_bids st) /\ s_asks st1 = s_asks st /\ s_cbids st1 = s_cbids st /\ s_params st1 = s_params st.
Definition only_cbid_gone (st st1 : state) (coll who : addr) : Prop :=
  s_cbids st1 = delete (coll, who) (s_cbids st) /\ s_asks st1 = s_asks st /\ s_bids st1 = s_bids st /\ s_params st1 = s_params st.
Lemma withdraw_form w who f coll tok w' : v1_reachable p x w -> texec p (execute p x) who f (RemoveBid coll tok) w w' ->
  f = [] /\ exists b w1, s_bids (w_st w) !! (coll, tok, who) = Some b /\ paid_back p w w1 who (b_price b) /\
    only_bid_gone (w_st w) (w_st w1) coll tok who /\ dispatch p (execute p x) w1 (hook_msgs (s_bid_hooks (w_st w))) w'.
Proof. intros Hr H. destruct (withdraw_world p x _ _ _ _ _ _ Hr H) as (->&b&w1&Hb&Hp&E&Hd). split; [done|]. exists b, w1. split_and!; try done. by rewrite E. Qed.
Lemma cwithdraw_form w who f coll w' : v1_reachable p x w -> texec p (execute p x) who f (RemoveCollectionBid coll) w w' ->
  f = [] /\ exists b w1, s_cbids (w_st w) !! (coll, who) = Some b /\ paid_back p w w1 who (cb_price b) /\
    only_cbid_gone (w_st w) (w_st w1) coll who /\ dispatch p (execute p x) w1 (hook_msgs (s_cbid_hooks (w_st w))) w'.
Proof. intros Hr H. destruct (cwithdraw_world p x _ _ _ _ _ Hr H) as (->&b&w1&Hb&Hp&E&Hd). split; [done|]. exists b, w1. split_and!; try done. by rewrite E. Qed.
Lemma reject_form w s f coll tok who w' : v1_reachable p x w -> texec p (execute p x) s f (RejectBid coll tok who) w w' ->
  f = [] /\ owns (view_of p w) s coll tok /\ exists b w1, s_bids (w_st w) !! (coll, tok, who) = Some b /\ paid_back p w w1 who (b_price b) /\
    only_bid_gone (w_st w) (w_st w1) coll tok who /\ dispatch p (execute p x) w1 (hook_msgs (s_bid_hooks (w_st w))) w'.
Proof. intros Hr H. destruct (reject_world p x _ _ _ _ _ _ _ Hr H) as (->&Ho&b&w1&Hb&Hp&E&Hd). split; [done|]. split; [done|]. exists b, w1. split_and!; try done. by rewrite E. Qed.
Lemma clean_form w op f coll tok who w' : v1_reachable p x w -> texec p (execute p x) op f (RemoveStaleBid coll tok who) w w' ->
  f = [] /\ operator (w_st w) op /\ exists b w1, s_bids (w_st w) !! (coll, tok, who) = Some b /\
    stale (w_st w) (w_time w) (b_expires b) /\ let reward := b_price b * sp_reward (s_params (w_st w)) / 10 ^ 20 in
    0 < reward < b_price b /\ cleaned p w w1 who (b_price b - reward) op reward /\
    only_bid_gone (w_st w) (w_st w1) coll tok who /\ dispatch p (execute p x) w1 (hook_msgs (s_bid_hooks (w_st w))) w'.
Proof.
  intros Hr H. destruct (clean_world p x _ _ _ _ _ _ _ H Hr) as (->&Ho&b&w1&Hb&Hst&Hrw&Hp&E&Hd). split; [done|]. split; [done|].
  exists b, w1. split; [done|]. split; [done|]. cbv zeta. split; [done|]. split; [done|]. split; [|done]. by rewrite E.
Qed.
Lemma cclean_form w op f coll who w' : v1_reachable p x w -> texec p (execute p x) op f (RemoveStaleCollectionBid coll who) w w' ->
  f = [] /\ operator (w_st w) op /\ exists b w1, s_cbids (w_st w) !! (coll, who) = Some b /\
    stale (w_st w) (w_time w) (cb_expires b) /\ let reward := cb_price b * sp_reward (s_params (w_st w)) / 10 ^ 20 in
    0 < reward < cb_price b /\ cleaned p w w1 who (cb_price b - reward) op reward /\
    only_cbid_gone (w_st w) (w_st w1) coll who /\ dispatch p (execute p x) w1 (hook_msgs (s_cbid_hooks (w_st w))) w'.
Proof.
  intros Hr H. destruct (cclean_world p x _ _ _ _ _ _ H Hr) as (->&Ho&b&w1&Hb&Hst&Hrw&Hp&E&Hd). split; [done|]. split; [done|].
  exists b, w1. split; [done|]. split; [done|]. cbv zeta. split; [done|]. split; [done|]. split; [|done]. by rewrite E.
Qed.
Lemma mandate_form v e s f st m st' msgs c t who : v1_history p x st -> execute p x v e s f st m = Ok (st', msgs) -> MNft c t who ∈ msgs ->
  exists tok, t = pretty tok /\ mandate v e s f st m c tok who.
Proof. intros Hw%history_wf (ms&H&->)%execute_sub_of Hn. by eapply effect_mandate. Qed.
(** A hook list of any length changes neither the verdict nor the orders nor the other messages. *)
Lemma hook_free_form v e s f st m :
  match execute_sub p x v e s f st m, execute_sub p x v e s f (no_hooks st) m with
  | Ok (st1, ms1), Ok (st2, ms2) => st2 = no_hooks st1 /\ ms2 = List.filter (fun m => match m with SPlain _ => true | SHook _ _ => false end) ms1
  | Err _, Err _ => True
  | _, _ => False
  end.
Proof.
  rewrite execute_strip. unfold strip. destruct (execute_sub p x v e s f st m) as [[st1 ms1]|er]; [|done]. cbn. done.
Qed.
End Forms.
Section Walks.
Context (p : params) (x : ext) (st : state) (Hst : v1_history p x st).
Let Hwf : wf p st := history_wf _ _ _ Hst.
Lemma ask_walks_form inactive who limit fuel : limit <> Some 0 -> (size (s_asks st) < fuel)%nat -> p_valid p who = true ->
  lists_all ask_by_price (fun a => listed st a /\ k_coll a = who /\ visible inactive a)
    (page_walk (fun start => query_asks_sorted_by_price p st who inactive start limit) (fun a => (k_price a, k_tok a)) None fuel) /\
  lists_all (fun a b => ask_by_price b a) (fun a => listed st a /\ k_coll a = who /\ visible inactive a)
    (page_walk (fun start => reverse_query_asks_sorted_by_price p st who inactive start limit) (fun a => (k_price a, k_tok a)) None fuel) /\
  lists_all ask_by_nft (fun a => listed st a /\ k_seller a = who /\ visible inactive a)
    (page_walk (fun start => query_asks_by_seller p st who inactive start limit) (fun a => (k_coll a, k_tok a)) None fuel).
Proof. intros. split_and!; [by apply asks_price_walk|by apply reverse_asks_price_walk|by apply asks_seller_walk]. Qed.
Lemma bid_walks_form who limit fuel : limit <> Some 0 -> (size (s_bids st) < fuel)%nat -> p_valid p who = true ->
  lists_all bid_by_price (fun b => bidding st b /\ b_coll b = who)
    (page_walk (fun start => query_bids_sorted_by_price p st who start limit) (fun b => (b_price b, b_tok b, b_bidder b)) None fuel) /\
  lists_all (fun a b => bid_by_price b a) (fun b => bidding st b /\ b_coll b = who)
    (page_walk (fun start => reverse_query_bids_sorted_by_price p st who start limit) (fun b => (b_price b, b_tok b, b_bidder b)) None fuel) /\
  lists_all bid_by_nft (fun b => bidding st b /\ b_bidder b = who)
    (page_walk (fun start => query_bids_by_bidder p st who start limit) (fun b => (b_coll b, b_tok b)) None fuel) /\
  lists_all bid_by_expiry (fun b => bidding st b /\ b_bidder b = who)
    (page_walk (fun start => query_bids_by_bidder_sorted_by_expiry p st who start limit) (fun b => (b_coll b, b_tok b)) None fuel).
Proof. intros. split_and!; [by apply bids_price_walk|by apply reverse_bids_price_walk|by apply bids_bidder_walk|by apply bids_expiry_walk]. Qed.
Lemma cbid_walks_form who limit fuel : limit <> Some 0 -> (size (s_cbids st) < fuel)%nat -> p_valid p who = true ->
  lists_all cbid_by_coll (fun b => cbidding st b /\ cb_bidder b = who)
    (page_walk (fun start => query_collection_bids_by_bidder p st who start limit) cb_coll None fuel) /\
  lists_all cbid_by_expiry (fun b => cbidding st b /\ cb_bidder b = who)
    (page_walk (fun start => query_collection_bids_by_bidder_sorted_by_expiry p st who start limit) (fun b => (cb_coll b, cb_bidder b)) None fuel) /\
  ((forall b, cbidding st b -> p_valid p (cb_bidder b) = true) ->
   lists_all cbid_by_price (fun b => cbidding st b /\ cb_coll b = who)
     (page_walk (fun start => query_collection_bids_sorted_by_price p st who start limit) (fun b => (cb_price b, cb_bidder b)) None fuel) /\
   lists_all (fun a b => cbid_by_price b a) (fun b => cbidding st b /\ cb_coll b = who)
     (page_walk (fun start => reverse_query_collection_bids_sorted_by_price p st who start limit) (fun b => (cb_price b, cb_bidder b)) None fuel)).
Proof. intros. split_and!; [by apply cbids_bidder_walk|by apply cbids_expiry_walk|]. intros. split; [by apply cbids_price_walk|by apply reverse_cbids_price_walk]. Qed.
Lemma asks_walk_form coll inactive limit fuel : p_valid p coll = true -> limit <> Some 0 -> (size (s_asks st) < fuel)%nat ->
  lists_all ask_by_token (fun a => listed st a /\ k_coll a = coll /\ visible inactive a /\ 0 < k_tok a)
    (page_walk (fun start => query_asks p st coll inactive start limit) k_tok None fuel).
Proof. intros. by apply asks_walk. Qed.
Lemma reverse_asks_walk_form coll inactive top limit fuel : p_valid p coll = true -> limit <> Some 0 -> (size (s_asks st) < fuel)%nat ->
  lists_all (fun a b => ask_by_token b a) (fun a => listed st a /\ k_coll a = coll /\ visible inactive a /\ k_tok a < top)
    (page_walk (fun start => reverse_query_asks p st coll inactive (Some (default top start)) limit) k_tok None fuel).
Proof. intros. by apply reverse_asks_walk. Qed.
Lemma collections_form limit fuel : limit <> Some 0 -> (size (s_asks st) < fuel)%nat ->
  forall c, c ∈ page_walk (fun start => query_collections p st start limit) (fun c => c) None fuel <-> exists a, listed st a /\ k_coll a = c.
Proof. by apply collections_walk. Qed.
Lemma count_form coll n : query_ask_count p st coll = Ok n ->
  exists rows, NoDup rows /\ (forall a, a ∈ rows <-> listed st a /\ k_coll a = coll) /\
    n = N.of_nat (length rows) mod 4294967296 /\ (N.of_nat (length rows) < 4294967296 -> n = N.of_nat (length rows)).
Proof. by apply ask_count_spec. Qed.
End Walks.
Lemma short_form p st who tok inactive limit :
  short_pages (fun start => query_asks p st who inactive start limit) limit /\
  short_pages (fun start => reverse_query_asks p st who inactive start limit) limit /\
  short_pages (fun start => query_asks_sorted_by_price p st who inactive start limit) limit /\
  short_pages (fun start => reverse_query_asks_sorted_by_price p st who inactive start limit) limit /\
  short_pages (fun start => query_asks_by_seller p st who inactive start limit) limit /\
  short_pages (fun start => query_bids p st who tok start limit) limit /\
  short_pages (fun start => query_bids_by_bidder p st who start limit) limit /\
  short_pages (fun start => query_bids_sorted_by_price p st who start limit) limit /\
  short_pages (fun start => reverse_query_bids_sorted_by_price p st who start limit) limit /\
  short_pages (fun start => query_bids_by_bidder_sorted_by_expiry p st who start limit) limit /\
  short_pages (fun start => query_collection_bids_sorted_by_price p st who start limit) limit /\
  short_pages (fun start => reverse_query_collection_bids_sorted_by_price p st who start limit) limit /\
  short_pages (fun start => query_collection_bids_by_bidder p st who start limit) limit /\
  short_pages (fun start => query_collection_bids_by_bidder_sorted_by_expiry p st who start limit) limit.
Proof.
  split_and!; [apply asks_short|apply reverse_asks_short|apply asks_price_short|apply reverse_asks_price_short|apply asks_seller_short
    |apply bids_short|apply bids_bidder_short|apply bids_price_short|apply reverse_bids_price_short|apply bids_expiry_short
    |apply cbids_price_short|apply reverse_cbids_price_short|apply cbids_bidder_short|apply cbids_expiry_short].
Qed.

(** Calls in the state [vw1] of V1Examples. *)
Definition call1 (x : ext) (s : addr) (f : list coin) (m : msg) : result (state * list cmsg) :=
  execute p1 x (view_of p1 (vw1 x)) (env_of (vw1 x)) s f (w_st (vw1 x)) m.
Definition msgs_of {A} (r : result (A * list cmsg)) : option (list cmsg) := match r with Ok (_, ms) => Some ms | Err _ => None end.
Definition sells (ms : option (list cmsg)) : bool :=
  match ms with Some l => existsb (fun m => match m with MNft _ _ _ => true | _ => false end) l | None => false end.
Definition tx1 (x : ext) (s : addr) (f : list coin) (m : msg) : bool := is_ok (run_tx p1 (execute p1 x) (vw1 x) s f m).
Definition buy1 : msg := BuyNow "coll1" 1 (sec 2500) (Some "finde") None.

(** * C52 *)
Theorem C52_v1_escrow : forall p x w, v1_reachable p x w -> bids_total (w_st w) + cbids_total (w_st w) <= w_bank w (p_self p) "ustars".
Proof. exact reachable_funded. Qed.
Print Assumptions C52_v1_escrow.
Example C52_case x : v1_reachable p1 x (vw1 x) /\ bids_total (w_st (vw1 x)) = 1550 /\ cbids_total (w_st (vw1 x)) = 1100 /\
  w_bank (vw1 x) "marke" "ustars" = 2650.
Proof. split; [apply vw1_reachable|]. by vm_compute. Qed.

(** * C53 *)
(** Whenever a call moves an NFT, its messages are a refund of the caller's replaced bid, the split of the price, the NFT and the
    hooks; the split is the price or one unit less. *)
Theorem C53_v1_split : forall p x v e s f st m st' msgs c t who, v1_history p x st ->
  execute p x v e s f st m = Ok (st', msgs) -> MNft c t who ∈ msgs ->
  exists d ci, closes v e s f st m d /\ c = d_coll d /\ t = pretty (d_tok d) /\ who = d_buyer_to d /\
    q_info v (d_coll d) = Some ci /\ let sp := deal_split st ci d in
    msgs = deal_msgs x st m s ci d ++ hook_msgs (s_sale_hooks st) /\
    (split_total sp = d_price d \/ split_total sp + 1 = d_price d) /\
    out msgs "ustars" = refund_due st m s + split_total sp /\ (forall dn, dn <> "ustars" -> out msgs dn = 0).
Proof. exact split_form. Qed.
Print Assumptions C53_v1_split.
(** 2% fee, 1% finder's fee, 5% royalty of 1000; at 951 the royalty (47.55) and the rest (903.45) are both rounded down. *)
Example C53_case x : v1_history p1 x (w_st (vw1 x)) /\
  msgs_of (call1 x "carol" [us 1000] buy1) =
    Some [MFairBurn (us 20); pay "finde" 10; pay "royal" 50; pay "alice" 920; MNft "coll1" "1" "carol"; MHook "hook1"] /\
  split_total (split_of 2000000000000000000 951 None None (Some ("royal", 50000000000000000))) = 950.
Proof. split; [apply vw1_history|]. by vm_compute. Qed.

(** * C54 *)
Theorem C54_v1_one_bid : forall p x st k1 k2 b1 b2, v1_history p x st -> s_bids st !! k1 = Some b1 -> s_bids st !! k2 = Some b2 ->
  b_coll b1 = b_coll b2 -> b_tok b1 = b_tok b2 -> b_bidder b1 = b_bidder b2 -> k1 = k2.
Proof. exact unique_bid_form. Qed.
Print Assumptions C54_v1_one_bid.
Theorem C54_v1_one_collection_bid : forall p x st k1 k2 b1 b2, v1_history p x st -> s_cbids st !! k1 = Some b1 -> s_cbids st !! k2 = Some b2 ->
  cb_coll b1 = cb_coll b2 -> cb_bidder b1 = cb_bidder b2 -> k1 = k2.
Proof. exact unique_cbid_form. Qed.
Print Assumptions C54_v1_one_collection_bid.
Theorem C54_v1_replacement : forall p x v e s f st m st' msgs ba old, v1_history p x st ->
  execute p x v e s f st m = Ok (st', msgs) -> bid_call m = Some ba -> s_bids st !! (ba_coll ba, ba_tok ba, s) = Some old ->
  (exists rest, msgs = pay s (b_price old) :: rest) /\
  (s_bids st' !! (ba_coll ba, ba_tok ba, s) = None \/
   exists price, f = [native price] /\
     s_bids st' !! (ba_coll ba, ba_tok ba, s) = Some (Bid (ba_coll ba) (ba_tok ba) s price (ba_bps ba) (ba_expires ba))).
Proof. exact refund_form. Qed.
Print Assumptions C54_v1_replacement.
Theorem C54_v1_collection_replacement : forall p x v e s f st coll ex bps st' msgs, v1_history p x st ->
  execute p x v e s f st (SetCollectionBid coll ex bps) = Ok (st', msgs) ->
  exists price, f = [native price] /\ 0 < price /\ s_cbids st' = <[(coll, s) := CBid coll s price bps ex]> (s_cbids st) /\
    s_bids st' = s_bids st /\ s_asks st' = s_asks st /\ msgs = crefund_of st coll s ++ hook_msgs (s_cbid_hooks st).
Proof. exact crefund_form. Qed.
Print Assumptions C54_v1_collection_replacement.
Example C54_case x : v1_history p1 x (w_st (vw1 x)) /\ s_bids (w_st (vw1 x)) !! ("coll1", 1, "bobby") = Some bid1 /\
  msgs_of (call1 x "bobby" [us 30] (SetBid "coll1" 1 (sec 2500) None None)) = Some [pay "bobby" 950; MHook "hook2"] /\
  msgs_of (call1 x "daver" [us 30] (SetCollectionBid "coll1" (sec 2500) None)) = Some [pay "daver" 700].
Proof. split; [apply vw1_history|]. split; [apply vw1_bid1|]. by vm_compute. Qed.

(** * C55 *)
Theorem C55_v1_ask_sale : forall p x v e s f st m st' msgs ba c t who, v1_history p x st -> execute p x v e s f st m = Ok (st', msgs) ->
  bid_call m = Some ba -> MNft c t who ∈ msgs ->
  exists a ci, s_asks st !! (ba_coll ba, ba_tok ba) = Some a /\ k_type a = FixedPrice /\ k_active a = true /\ live e (k_expires a) /\
    f = [native (k_price a)] /\ owns v (k_seller a) (ba_coll ba) (ba_tok ba) /\
    c = ba_coll ba /\ t = pretty (ba_tok ba) /\ who = default s (ba_to ba) /\ q_info v (ba_coll ba) = Some ci /\
    pay (default (k_seller a) (k_recipient a))
        (x_seller (split_of (sp_trading_fee (s_params st)) (k_price a) (ba_finder ba) (k_finders a) (ci_royalty ci))) ∈ msgs.
Proof. exact ask_sale_form. Qed.
Print Assumptions C55_v1_ask_sale.
Example C55_case x : v1_history p1 x (w_st (vw1 x)) /\
  msgs_of (call1 x "carol" [us 800] (BuyFor "coll1" 3 (sec 2500) None None "daver")) =
    Some [MFairBurn (us 16); pay "royal" 40; pay "treas" 744; MNft "coll1" "3" "daver"; MHook "hook1"].
Proof. split; [apply vw1_history|]. by vm_compute. Qed.

(** * C56 *)
Theorem C56_v1_reserved : forall p x v e s f st m st' msgs ba a r, v1_history p x st -> execute p x v e s f st m = Ok (st', msgs) ->
  bid_call m = Some ba -> s_asks st !! (ba_coll ba, ba_tok ba) = Some a -> k_reserve a = Some r -> s = r.
Proof. exact reserve_form. Qed.
Print Assumptions C56_v1_reserved.
Example C56_case x : v1_history p1 x (w_st (vw1 x)) /\ s_asks (w_st (vw1 x)) !! ("coll1", 3) = Some ask3 /\ k_reserve ask3 = Some "carol" /\
  is_ok (call1 x "carol" [us 800] (SetBid "coll1" 3 (sec 2500) None None)) = true /\
  is_ok (call1 x "bobby" [us 800] (SetBid "coll1" 3 (sec 2500) None None)) = false.
Proof. split; [apply vw1_history|]. split; [apply vw1_ask3|]. by vm_compute. Qed.

(** * C57 *)
Theorem C57_v1_open_ask : forall p x v e s f st m st' msgs ba a, v1_history p x st -> execute p x v e s f st m = Ok (st', msgs) ->
  bid_call m = Some ba -> s_asks st !! (ba_coll ba, ba_tok ba) = Some a -> live e (k_expires a) /\ k_active a = true.
Proof. exact open_form. Qed.
Print Assumptions C57_v1_open_ask.
Theorem C57_v1_live_bid : forall p x v e s f st coll tok bidder finder st' msgs, v1_history p x st ->
  execute p x v e s f st (AcceptBid coll tok bidder finder) = Ok (st', msgs) ->
  exists b, s_bids st !! (coll, tok, bidder) = Some b /\ live e (b_expires b).
Proof. exact live_bid_form. Qed.
Print Assumptions C57_v1_live_bid.
Theorem C57_v1_live_collection_bid : forall p x v e s f st coll tok bidder finder st' msgs, v1_history p x st ->
  execute p x v e s f st (AcceptCollectionBid coll tok bidder finder) = Ok (st', msgs) ->
  exists b, s_cbids st !! (coll, bidder) = Some b /\ live e (cb_expires b).
Proof. exact live_cbid_form. Qed.
Print Assumptions C57_v1_live_collection_bid.
(** bobby's collection bid lives until 1500 s. *)
Definition at_time (x : ext) (t : N) (s : addr) (f : list coin) (m : msg) : result (state * list cmsg) :=
  execute p1 x (view_of p1 (vw1 x)) (Env 12 (sec t)) s f (w_st (vw1 x)) m.
Example C57_case x : v1_history p1 x (w_st (vw1 x)) /\
  is_ok (at_time x 1999 "carol" [us 1000] buy1) = true /\ is_ok (at_time x 2000 "carol" [us 1000] buy1) = false /\
  is_ok (at_time x 2499 "alice" [] (AcceptBid "coll1" 1 "bobby" None)) = true /\
  is_ok (at_time x 2500 "alice" [] (AcceptBid "coll1" 1 "bobby" None)) = false /\
  is_ok (at_time x 1499 "alice" [] (AcceptCollectionBid "coll1" 1 "bobby" None)) = true /\
  is_ok (at_time x 1500 "alice" [] (AcceptCollectionBid "coll1" 1 "bobby" None)) = false.
Proof. split; [apply vw1_history|]. by vm_compute. Qed.

(** * C58 *)
Theorem C58_v1_bid_life : forall p x v e s f st m st' msgs k b, v1_history p x st -> execute p x v e s f st m = Ok (st', msgs) ->
  s_bids st !! k = Some b -> k = (b_coll b, b_tok b, b_bidder b) /\ bid_fate x v e s st m b msgs (s_bids st' !! k).
Proof. exact bid_life. Qed.
Print Assumptions C58_v1_bid_life.
Theorem C58_v1_collection_bid_life : forall p x v e s f st m st' msgs k b, v1_history p x st -> execute p x v e s f st m = Ok (st', msgs) ->
  s_cbids st !! k = Some b -> k = (cb_coll b, cb_bidder b) /\ cbid_fate x v e s st m b msgs (s_cbids st' !! k).
Proof. exact cbid_life. Qed.
Print Assumptions C58_v1_collection_bid_life.
Example C58_case x : v1_history p1 x (w_st (vw1 x)) /\ s_bids (w_st (vw1 x)) !! ("coll1", 1, "bobby") = Some bid1 /\
  s_cbids (w_st (vw1 x)) !! ("coll1", "daver") = Some cbid1 /\
  msgs_of (call1 x "bobby" [] (RemoveBid "coll1" 1)) = Some [pay "bobby" 950; MHook "hook2"] /\
  msgs_of (call1 x "alice" [] (RejectBid "coll1" 1 "bobby")) = Some [pay "bobby" 950; MHook "hook2"] /\
  msgs_of (call1 x "alice" [] (AcceptBid "coll1" 1 "bobby" None)) =
    Some [MFairBurn (us 19); pay "royal" 47; pay "alice" 883; MNft "coll1" "1" "bobby"; MHook "hook1"] /\
  msgs_of (call1 x "alice" [] (AcceptCollectionBid "coll1" 7 "daver" None)) =
    Some [MFairBurn (us 14); pay "royal" 35; pay "alice" 651; MNft "coll1" "7" "daver"; MHook "hook1"].
Proof. split; [apply vw1_history|]. split; [apply vw1_bid1|]. split; [apply vw1_cbid1|]. by vm_compute. Qed.

(** * C59 *)
Theorem C59_v1_clean_up : forall p x w op f coll tok who w', v1_reachable p x w -> texec p (execute p x) op f (RemoveStaleBid coll tok who) w w' ->
  f = [] /\ operator (w_st w) op /\ exists b w1, s_bids (w_st w) !! (coll, tok, who) = Some b /\
    stale (w_st w) (w_time w) (b_expires b) /\ let reward := b_price b * sp_reward (s_params (w_st w)) / 10 ^ 20 in
    0 < reward < b_price b /\ cleaned p w w1 who (b_price b - reward) op reward /\
    only_bid_gone (w_st w) (w_st w1) coll tok who /\ dispatch p (execute p x) w1 (hook_msgs (s_bid_hooks (w_st w))) w'.
Proof. exact clean_form. Qed.
Print Assumptions C59_v1_clean_up.
Theorem C59_v1_collection_clean_up : forall p x w op f coll who w', v1_reachable p x w ->
  texec p (execute p x) op f (RemoveStaleCollectionBid coll who) w w' ->
  f = [] /\ operator (w_st w) op /\ exists b w1, s_cbids (w_st w) !! (coll, who) = Some b /\
    stale (w_st w) (w_time w) (cb_expires b) /\ let reward := cb_price b * sp_reward (s_params (w_st w)) / 10 ^ 20 in
    0 < reward < cb_price b /\ cleaned p w w1 who (cb_price b - reward) op reward /\
    only_cbid_gone (w_st w) (w_st w1) coll who /\ dispatch p (execute p x) w1 (hook_msgs (s_cbid_hooks (w_st w))) w'.
Proof. exact cclean_form. Qed.
Print Assumptions C59_v1_collection_clean_up.
Definition vw2 (x : ext) : world state := after x (vw1 x) [At (sec 3100)].
Lemma vw2_reachable x : v1_reachable p1 x (vw2 x).
Proof. refine (after_reachable x (vw1 x) [At (sec 3100)] (vw1_reachable x) _). by vm_compute. Qed.
(** 5% of 950 is 47.5; bobby's bid expired at 2500 s and is stale from 3100 s on. *)
Example C59_case x : v1_reachable p1 x (vw2 x) /\
  texec p1 (execute p1 x) "opera" [] (RemoveStaleBid "coll1" 1 "bobby") (vw2 x) (after x (vw2 x) [Tx "opera" [] (RemoveStaleBid "coll1" 1 "bobby")]) /\
  msgs_of (at_time x 3100 "opera" [] (RemoveStaleBid "coll1" 1 "bobby")) = Some [pay "bobby" 903; pay "opera" 47; MHook "hook2"] /\
  msgs_of (at_time x 3100 "opera" [] (RemoveStaleCollectionBid "coll1" "bobby")) = Some [pay "bobby" 380; pay "opera" 20] /\
  is_ok (at_time x 3099 "opera" [] (RemoveStaleBid "coll1" 1 "bobby")) = false.
Proof. split; [apply vw2_reachable|]. split; [refine (after_texec x (vw2 x) _ _ _ _); by vm_compute|]. by vm_compute. Qed.

(** * C60 *)
Theorem C60_v1_bid_limits : forall p x st k b, v1_history p x st -> s_bids st !! k = Some b -> bid_origin p x st b.
Proof. exact bids_have_origin. Qed.
Print Assumptions C60_v1_bid_limits.
Theorem C60_v1_collection_bid_limits : forall p x st k b, v1_history p x st -> s_cbids st !! k = Some b -> cbid_origin p x st b.
Proof. exact cbids_have_origin. Qed.
Print Assumptions C60_v1_collection_bid_limits.
Theorem C60_v1_ask_limits : forall p x st k a, v1_history p x st -> s_asks st !! k = Some a -> ask_origin p x st a.
Proof. exact origin_form. Qed.
Print Assumptions C60_v1_ask_limits.
Example C60_case x : v1_history p1 x (w_st (vw1 x)) /\ s_bids (w_st (vw1 x)) !! ("coll1", 1, "bobby") = Some bid1 /\
  s_cbids (w_st (vw1 x)) !! ("coll1", "daver") = Some cbid1 /\ s_asks (w_st (vw1 x)) !! ("coll1", 1) = Some ask1 /\
  is_ok (call1 x "carol" [us 5] (SetBid "coll2" 1 (sec 1161) None (Some 1000))) = true /\
  is_ok (call1 x "carol" [us 4] (SetBid "coll2" 1 (sec 1161) None (Some 1000))) = false /\
  is_ok (call1 x "carol" [us 5] (SetBid "coll2" 1 (sec 1160) None (Some 1000))) = false /\
  is_ok (call1 x "carol" [us 5] (SetBid "coll2" 1 (sec 1161) None (Some 1001))) = false.
Proof. split; [apply vw1_history|]. split; [apply vw1_bid1|]. split; [apply vw1_cbid1|]. split; [apply vw1_ask1|]. by vm_compute. Qed.

(** * C61: false; BuyNow may leave a resting bid and no NFT *)
Theorem C61_v1_buy_now_refuted : forall x, exists w w' coll tok ex bps b, v1_reachable p1 x w /\
  texec p1 (execute p1 x) "carol" [us 900] (BuyNow coll tok ex None bps) w w' /\
  s_bids (w_st w') !! (coll, tok, "carol") = Some b /\ w_nft w' coll (pretty tok) <> Some "carol".
Proof. exact buy_now_rests. Qed.
Print Assumptions C61_v1_buy_now_refuted.
(** What holds: the NFT is listed, and either the payment is the asking price of a fixed-price ask and the NFT moves, or (a lower
    payment, or an auction) a bid rests. *)
Theorem C61_v1_buy_now_partial : forall p x v e s f st m st' msgs ba, v1_history p x st -> execute p x v e s f st m = Ok (st', msgs) ->
  bid_call m = Some ba -> ba_now ba = true ->
  exists a price, s_asks st !! (ba_coll ba, ba_tok ba) = Some a /\ f = [native price] /\
    ((k_type a = FixedPrice /\ price = k_price a /\ MNft (ba_coll ba) (pretty (ba_tok ba)) (default s (ba_to ba)) ∈ msgs /\
      s_bids st' !! (ba_coll ba, ba_tok ba, s) = None) \/
     ((k_type a = FixedPrice /\ price < k_price a \/ k_type a = Auction /\ k_price a <= price) /\
      s_bids st' !! (ba_coll ba, ba_tok ba, s) = Some (Bid (ba_coll ba) (ba_tok ba) s price (ba_bps ba) (ba_expires ba)))).
Proof. exact buy_now_form. Qed.
Print Assumptions C61_v1_buy_now_partial.
Example C61_case x : v1_history p1 x (w_st (vw1 x)) /\ sells (msgs_of (call1 x "carol" [us 1000] buy1)) = true /\
  msgs_of (call1 x "carol" [us 999] buy1) = Some [MHook "hook2"] /\
  msgs_of (call1 x "daver" [us 501] (BuyNow "coll1" 2 (sec 2500) None None)) = Some [MHook "hook2"] /\
  is_ok (call1 x "carol" [us 1000] (BuyNow "coll1" 9 (sec 2500) None None)) = false.
Proof. split; [apply vw1_history|]. by vm_compute. Qed.

(** * C62: false; UpdateAskPrice has no maximum *)
Theorem C62_v1_max_price_refuted : forall x, exists w k a, v1_reachable p1 x w /\ s_asks (w_st w) !! k = Some a /\ 100000000000000 < k_price a.
Proof. exact dear_ask. Qed.
Print Assumptions C62_v1_max_price_refuted.
(** What holds: above the maximum only by UpdateAskPrice. *)
Theorem C62_v1_max_price_partial : forall p x st k a, v1_history p x st -> s_asks st !! k = Some a ->
  k_price a <= 100000000000000 \/
  exists st0 st1 v e s f c msgs, v1_history p x st0 /\ owns v s (k_coll a) (k_tok a) /\
    execute p x v e s f st0 (UpdateAskPrice (k_coll a) (k_tok a) c) = Ok (st1, msgs) /\ c_amount c = k_price a /\ rtc (v1_call p x) st1 st.
Proof. exact listing_price_form. Qed.
Print Assumptions C62_v1_max_price_partial.
Example C62_case x : v1_history p1 x (w_st (vw1 x)) /\ s_asks (w_st (vw1 x)) !! ("coll1", 1) = Some ask1 /\
  is_ok (call1 x "alice" [us 10] (SetAsk FixedPrice "coll1" 5 (us 100000000000000) None None None (sec 2000))) = true /\
  is_ok (call1 x "alice" [us 10] (SetAsk FixedPrice "coll1" 5 (us 100000000000001) None None None (sec 2000))) = false /\
  is_ok (call1 x "alice" [] (UpdateAskPrice "coll1" 1 (us 100000000000001))) = true.
Proof. split; [apply vw1_history|]. split; [apply vw1_ask1|]. by vm_compute. Qed.

(** * C63 *)
(** Whatever the hook contracts do, a transaction succeeds exactly when it would without them. *)
Theorem C63_v1_hooks : forall p x hk w s f m,
  (exists w', run_tx_hooked p hk x w s f m = Ok w') <-> (exists w', run_tx p (execute p x) w s f m = Ok w').
Proof. exact hooks_cannot_block. Qed.
Print Assumptions C63_v1_hooks.
(** Hooks that all fail leave no trace. *)
Theorem C63_v1_failing_hooks : forall p x hk w s f m, (forall h c w, exists er, hk h c w = Err er) ->
  run_tx_hooked p hk x w s f m = run_tx p (execute p x) w s f m.
Proof. exact failing_hooks. Qed.
Print Assumptions C63_v1_failing_hooks.
(** Registered hooks change neither the verdict nor the orders nor the other messages. *)
Theorem C63_v1_hooks_add_nothing : forall p x v e s f st m,
  match execute_sub p x v e s f st m, execute_sub p x v e s f (no_hooks st) m with
  | Ok (st1, ms1), Ok (st2, ms2) => st2 = no_hooks st1 /\ ms2 = List.filter (fun m => match m with SPlain _ => true | SHook _ _ => false end) ms1
  | Err _, Err _ => True
  | _, _ => False
  end.
Proof. exact hook_free_form. Qed.
Print Assumptions C63_v1_hooks_add_nothing.
Definition bad_hook : addr -> hook_call -> world state -> result (world state) := fun _ _ _ => Err EOther.
Example C63_case x : (forall h c w, exists er, bad_hook h c w = Err er) /\ s_sale_hooks (w_st (vw1 x)) = ["hook1"] /\
  is_ok (run_tx_hooked p1 bad_hook x (vw1 x) "carol" [us 1000] buy1) = true /\ tx1 x "carol" [us 1000] buy1 = true.
Proof. split; [by eexists|]. by vm_compute. Qed.

(** * C64: false for token 0 *)
Theorem C64_v1_asks_refuted : forall x, exists w a, v1_reachable p1 x w /\ listed (w_st w) a /\ k_active a = true /\
  forall start limit rows, query_asks p1 (w_st w) (k_coll a) None start limit = Ok rows -> a ∉ rows.
Proof. exact asks_hide_zero. Qed.
Print Assumptions C64_v1_asks_refuted.
Theorem C64_v1_asks_partial : forall p x st, v1_history p x st -> forall coll inactive limit fuel,
  p_valid p coll = true -> limit <> Some 0 -> (size (s_asks st) < fuel)%nat ->
  lists_all ask_by_token (fun a => listed st a /\ k_coll a = coll /\ visible inactive a /\ 0 < k_tok a)
    (page_walk (fun start => query_asks p st coll inactive start limit) k_tok None fuel).
Proof. exact asks_walk_form. Qed.
Print Assumptions C64_v1_asks_partial.
Example C64_case x : v1_history p1 x (w_st (vw1 x)) /\ size (s_asks (w_st (vw1 x))) = 3%nat /\
  page_walk (fun start => query_asks p1 (w_st (vw1 x)) "coll1" None start (Some 2)) k_tok None 4 = [ask1; ask2; ask3].
Proof. split; [apply vw1_history|]. by vm_compute. Qed.

(** * C65 *)
Theorem C65_v1_authority : forall p x v e s f st m st' msgs, execute p x v e s f st m = Ok (st', msgs) -> authorised v s st m.
Proof. exact authority. Qed.
Print Assumptions C65_v1_authority.
Example C65_case x : tx1 x "opera" [] (SyncAsk "coll1" 1) = false /\ tx1 x "alice" [] (RemoveAsk "coll1" 1) = true /\
  tx1 x "bobby" [] (RemoveAsk "coll1" 1) = false /\ tx1 x "alice" [] (UpdateAskPrice "coll1" 1 (us 7)) = true /\
  tx1 x "bobby" [] (UpdateAskPrice "coll1" 1 (us 7)) = false /\ tx1 x "alice" [] (RejectBid "coll1" 1 "bobby") = true /\
  tx1 x "carol" [] (RejectBid "coll1" 1 "bobby") = false /\ tx1 x "bobby" [] (RemoveBid "coll1" 1) = true /\
  tx1 x "carol" [] (RemoveBid "coll1" 1) = false /\
  is_ok (run_acts p1 x (vw2 x) [Tx "opera" [] (RemoveStaleBid "coll1" 1 "bobby")]) = true /\
  is_ok (run_acts p1 x (vw2 x) [Tx "alice" [] (RemoveStaleBid "coll1" 1 "bobby")]) = false.
Proof. by vm_compute. Qed.

(** * C75 *)
Theorem C75_v1_withdraw : forall p x hk w coll tok who b, v1_reachable p x w -> p_blocked p who = false ->
  s_bids (w_st w) !! (coll, tok, who) = Some b -> exists w', run_tx_hooked p hk x w who [] (RemoveBid coll tok) = Ok w'.
Proof. exact withdraw_any_hooks. Qed.
Print Assumptions C75_v1_withdraw.
Theorem C75_v1_withdraw_effect : forall p x w who f coll tok w', v1_reachable p x w -> texec p (execute p x) who f (RemoveBid coll tok) w w' ->
  f = [] /\ exists b w1, s_bids (w_st w) !! (coll, tok, who) = Some b /\ paid_back p w w1 who (b_price b) /\
    only_bid_gone (w_st w) (w_st w1) coll tok who /\ dispatch p (execute p x) w1 (hook_msgs (s_bid_hooks (w_st w))) w'.
Proof. exact withdraw_form. Qed.
Print Assumptions C75_v1_withdraw_effect.
Theorem C75_v1_collection_withdraw : forall p x hk w coll who b, v1_reachable p x w -> p_blocked p who = false ->
  s_cbids (w_st w) !! (coll, who) = Some b -> exists w', run_tx_hooked p hk x w who [] (RemoveCollectionBid coll) = Ok w'.
Proof. exact cwithdraw_any_hooks. Qed.
Print Assumptions C75_v1_collection_withdraw.
Theorem C75_v1_collection_withdraw_effect : forall p x w who f coll w', v1_reachable p x w ->
  texec p (execute p x) who f (RemoveCollectionBid coll) w w' ->
  f = [] /\ exists b w1, s_cbids (w_st w) !! (coll, who) = Some b /\ paid_back p w w1 who (cb_price b) /\
    only_cbid_gone (w_st w) (w_st w1) coll who /\ dispatch p (execute p x) w1 (hook_msgs (s_cbid_hooks (w_st w))) w'.
Proof. exact cwithdraw_form. Qed.
Print Assumptions C75_v1_collection_withdraw_effect.
(** Also long after expiry. *)
Example C75_case x : v1_reachable p1 x (vw2 x) /\ p_blocked p1 "bobby" = false /\
  s_bids (w_st (vw2 x)) !! ("coll1", 1, "bobby") = Some bid1 /\ s_cbids (w_st (vw2 x)) !! ("coll1", "daver") = Some cbid1 /\
  texec p1 (execute p1 x) "bobby" [] (RemoveBid "coll1" 1) (vw2 x) (after x (vw2 x) [Tx "bobby" [] (RemoveBid "coll1" 1)]) /\
  w_bank (after x (vw2 x) [Tx "bobby" [] (RemoveBid "coll1" 1)]) "bobby" "ustars" = w_bank (vw2 x) "bobby" "ustars" + 950.
Proof.
  split; [apply vw2_reachable|]. split; [done|]. split; [by vm_compute|]. split; [by vm_compute|].
  split; [refine (after_texec x (vw2 x) _ _ _ _); by vm_compute|by vm_compute].
Qed.

(** * C76 *)
Theorem C76_v1_sale_effect : forall p x w s f m w' d, v1_reachable p x w -> texec p (execute p x) s f m w w' ->
  closes (view_of p w) (env_of w) s f (w_st w) m d -> p_honest p (d_coll d) = true ->
  exists ci w1, o_info (w_ora w) (d_coll d) = Some ci /\ let sp := deal_split (w_st w) ci d in
    split_fits sp (d_price d) /\ deal_bank p (w_st w) m s f sp d (w_bank w) (w_bank w1) /\
    w_nft w1 (d_coll d) (pretty (d_tok d)) = Some (d_buyer_to d) /\
    (forall c t, (c, t) <> (d_coll d, pretty (d_tok d)) -> w_nft w1 c t = w_nft w c t) /\
    s_asks (w_st w1) !! (d_coll d, d_tok d) = None /\
    execute p x (view_of p w) (env_of w) s f (w_st w) m =
      Ok (w_st w1, deal_msgs x (w_st w) m s ci d ++ hook_msgs (s_sale_hooks (w_st w))) /\
    dispatch p (execute p x) w1 (hook_msgs (s_sale_hooks (w_st w))) w'.
Proof. exact sale_world. Qed.
Print Assumptions C76_v1_sale_effect.
Definition deal1 : deal := Deal "coll1" 1 1000 "alice" "alice" "carol" "carol" (Some "finde") (Some 100).
Lemma deal1_closes x : closes (view_of p1 (vw1 x)) (env_of (vw1 x)) "carol" [us 1000] (w_st (vw1 x)) buy1 deal1.
Proof.
  refine (closes_ask _ _ "carol" [us 1000] _ buy1 (BidArgs "coll1" 1 (sec 2500) (Some "finde") None None true) ask1 _ _ _ _ _ _ _ _ _);
    try done; by vm_compute.
Qed.
Example C76_case x : v1_reachable p1 x (vw1 x) /\
  closes (view_of p1 (vw1 x)) (env_of (vw1 x)) "carol" [us 1000] (w_st (vw1 x)) buy1 deal1 /\ p_honest p1 "coll1" = true /\
  texec p1 (execute p1 x) "carol" [us 1000] buy1 (vw1 x) (after x (vw1 x) [Tx "carol" [us 1000] buy1]) /\
  w_nft (after x (vw1 x) [Tx "carol" [us 1000] buy1]) "coll1" "1" = Some "carol" /\
  w_bank (after x (vw1 x) [Tx "carol" [us 1000] buy1]) "alice" "ustars" = w_bank (vw1 x) "alice" "ustars" + 920.
Proof.
  split; [apply vw1_reachable|]. split; [apply deal1_closes|]. split; [done|].
  split; [refine (after_texec x (vw1 x) _ _ _ _); by vm_compute|by vm_compute].
Qed.

(** * C77 *)
Theorem C77_v1_sale_runs : forall p x hk w s f m d ci, v1_reachable p x w -> s <> p_self p -> covers (w_bank w) s f = true ->
  closes (view_of p w) (env_of w) s f (w_st w) m d -> names_ok p m -> limits_ok (env_of w) (w_st w) m (d_price d) ->
  o_info (w_ora w) (d_coll d) = Some ci -> deal_payable p x (w_st w) ci d -> (refund_due (w_st w) m s <> 0 -> p_blocked p s = false) ->
  d_coll d <> p_self p -> (p_honest p (d_coll d) = true -> can_transfer w (d_coll d) (pretty (d_tok d)) (p_self p) = true) ->
  exists w', run_tx_hooked p hk x w s f m = Ok w'.
Proof. exact sale_any_hooks. Qed.
Print Assumptions C77_v1_sale_runs.
Definition info1 : collection_info := CollectionInfo (Some (sec 900)) (Some ("royal", 50000000000000000)).
Example C77_case x : v1_reachable p1 x (vw1 x) /\ covers (w_bank (vw1 x)) "carol" [us 1000] = true /\
  closes (view_of p1 (vw1 x)) (env_of (vw1 x)) "carol" [us 1000] (w_st (vw1 x)) buy1 deal1 /\ names_ok p1 buy1 /\
  limits_ok (env_of (vw1 x)) (w_st (vw1 x)) buy1 1000 /\ o_info (w_ora (vw1 x)) "coll1" = Some info1 /\
  deal_payable p1 x (w_st (vw1 x)) info1 deal1 /\ can_transfer (vw1 x) "coll1" "1" "marke" = true.
Proof.
  split; [apply vw1_reachable|]. split; [by vm_compute|]. split; [apply deal1_closes|]. split; [by split; [|intros a [= <-]]|].
  split.
  { intros ba H. injection H as <-. split; [by intros b H|]. assert (s_params (w_st (vw1 x)) = s_params vst0) as -> by (by vm_compute).
    assert (e_time (env_of (vw1 x)) = sec 1100) as -> by (by vm_compute). split; [by vm_compute|]. split; [by vm_compute|by vm_compute]. }
  split; [by vm_compute|]. split; [|by vm_compute].
  assert (deal_split (w_st (vw1 x)) info1 deal1 = Split 20 10 (Some ("royal", 50)) 920) as E by (by vm_compute).
  assert (100 * d_price deal1 <= U128_MAX) as Hsz by (by vm_compute).
  refine (Build_deal_payable p1 x (w_st (vw1 x)) info1 deal1 Hsz _ _ _ _ _); rewrite ?E; clear.
  - left. by vm_compute.
  - by intros g [= <-].
  - by intros to n [= <- <-].
  - by vm_compute.
  - by vm_compute.
Qed.

(** * C78 *)
Theorem C78_v1_ask_life : forall p x v e s f st m st' msgs k a, v1_history p x st -> execute p x v e s f st m = Ok (st', msgs) ->
  s_asks st !! k = Some a -> k = (k_coll a, k_tok a) /\ ask_fate v e s f st m a (s_asks st' !! k).
Proof. exact ask_life. Qed.
Print Assumptions C78_v1_ask_life.
Theorem C78_v1_mandate : forall p x v e s f st m st' msgs c t who, v1_history p x st -> execute p x v e s f st m = Ok (st', msgs) ->
  MNft c t who ∈ msgs -> exists tok, t = pretty tok /\ mandate v e s f st m c tok who.
Proof. exact mandate_form. Qed.
Print Assumptions C78_v1_mandate.
Example C78_case x : v1_history p1 x (w_st (vw1 x)) /\ s_asks (w_st (vw1 x)) !! ("coll1", 1) = Some ask1 /\
  match call1 x "alice" [] (RemoveAsk "coll1" 1) with Ok (st', _) => s_asks st' !! ("coll1", 1) = None | Err _ => False end /\
  match call1 x "alice" [] (AcceptBid "coll1" 1 "bobby" None) with Ok (st', _) => s_asks st' !! ("coll1", 1) = None | Err _ => False end /\
  match call1 x "alice" [us 10] (SetAsk Auction "coll1" 1 (us 70) None None None (sec 2000)) with
  | Ok (st', _) => s_asks st' !! ("coll1", 1) = Some (Ask Auction "coll1" 1 "alice" 70 None None None (sec 2000) true) | Err _ => False end.
Proof. split; [apply vw1_history|]. split; [apply vw1_ask1|]. by vm_compute. Qed.

(** * C79: false; a later owner may set the price of an earlier owner's ask, which then sells at that price *)
Theorem C79_v1_own_price_refuted : forall x, exists w w' w1 w2 a,
  v1_reachable p1 x w /\ texec p1 (execute p1 x) "bobby" [] reprice w w' /\
  listed (w_st w') a /\ k_seller a = "alice" /\ s_asks (w_st w) !! (k_coll a, k_tok a) <> Some a /\
  rtc (v1_step p1 x) w' w1 /\ w_nft w1 "coll1" "1" = Some "alice" /\
  texec p1 (execute p1 x) "carol" [us 100] buy100 w1 w2 /\ w_nft w2 "coll1" "1" = Some "carol".
Proof. exact foreign_price. Qed.
Print Assumptions C79_v1_own_price_refuted.
Theorem C79_v1_own_price_partial : forall p x st k a, v1_history p x st -> s_asks st !! k = Some a -> price_origin p x st a.
Proof. exact price_form. Qed.
Print Assumptions C79_v1_own_price_partial.
Example C79_case x : v1_history p1 x (w_st (vw1 x)) /\ s_asks (w_st (vw1 x)) !! ("coll1", 3) = Some ask3.
Proof. split; [apply vw1_history|apply vw1_ask3]. Qed.

(** * C80: false; an ask outlives the transfer of the NFT and works again when the seller gets it back *)
Theorem C80_v1_ask_ends_refuted : forall x, exists w w1 w2, v1_reachable p1 x w /\ listed (w_st w) ask1 /\ w_nft w "coll1" "1" = Some "bobby" /\
  rtc (env_step p1) w w1 /\ w_nft w1 "coll1" "1" = Some "alice" /\
  texec p1 (execute p1 x) "carol" [us 1000] buy100 w1 w2 /\ w_nft w2 "coll1" "1" = Some "carol".
Proof. exact stale_ask_revives. Qed.
Print Assumptions C80_v1_ask_ends_refuted.
(** What holds: while the seller does not own the NFT the ask sells nothing. *)
Theorem C80_v1_ask_ends_partial : forall p x v e s f st m st' msgs ba a, v1_history p x st -> execute p x v e s f st m = Ok (st', msgs) ->
  bid_call m = Some ba -> s_asks st !! (ba_coll ba, ba_tok ba) = Some a -> ~ owns v (k_seller a) (ba_coll ba) (ba_tok ba) ->
  (forall c t who, MNft c t who ∉ msgs) /\ s_asks st' !! (ba_coll ba, ba_tok ba) = Some a.
Proof. exact absent_seller_form. Qed.
Print Assumptions C80_v1_ask_ends_partial.
Example C80_case x : v1_reachable p1 x (ww1 x) /\ s_asks (w_st (ww1 x)) !! ("coll1", 1) = Some ask1 /\
  q_owner (view_of p1 (ww1 x)) "coll1" "1" = Some "bobby" /\
  is_ok (run_tx p1 (execute p1 x) (ww1 x) "carol" [us 1000] buy100) = false /\
  is_ok (run_tx p1 (execute p1 x) (ww1 x) "carol" [us 900] buy100) = true.
Proof. split; [apply ww1_reachable|]. by vm_compute. Qed.

(** * C81 *)
Theorem C81_v1_settings : forall p x v e s f st m st' msgs, execute p x v e s f st m = Ok (st', msgs) ->
  s_params st' = s_params st /\ s_ask_hooks st' = s_ask_hooks st /\ s_bid_hooks st' = s_bid_hooks st /\
  s_sale_hooks st' = s_sale_hooks st /\ s_cbid_hooks st' = s_cbid_hooks st.
Proof. exact users_settings. Qed.
Print Assumptions C81_v1_settings.
Theorem C81_v1_valid_settings : forall p x st, v1_history p x st -> params_ok (s_params st) /\ NoDup (s_ask_hooks st) /\ NoDup (s_bid_hooks st) /\
  NoDup (s_sale_hooks st) /\ s_cbid_hooks st = [].
Proof. exact params_form. Qed.
Print Assumptions C81_v1_valid_settings.
Example C81_case x : v1_history p1 x (w_st (vw1 x)) /\ is_ok (call1 x "carol" [us 1000] buy1) = true /\
  sp_trading_fee (s_params (w_st (vw1 x))) = 2000000000000000000 /\ sp_operators (s_params (w_st (vw1 x))) = ["admin"; "opera"].
Proof. split; [apply vw1_history|]. by vm_compute. Qed.

(** * C82: false; UpdateParams ignores its list of operators *)
Theorem C82_v1_update_operators_refuted : forall x, exists w st', v1_reachable p1 x w /\
  sudo p1 (view_of p1 w) (env_of w) (w_st w) (UpdateParams new_operators) = Ok (st', []) /\
  ~ operator st' "carol" /\ operator st' "opera".
Proof. exact operators_ignored. Qed.
Print Assumptions C82_v1_update_operators_refuted.
Theorem C82_v1_add_operator_partial : forall p v e st a st' msgs, sudo p v e st (AddOperator a) = Ok (st', msgs) ->
  ~ operator st a /\ (forall o, operator st' o <-> operator st o \/ o = a).
Proof. exact add_operator_form. Qed.
Print Assumptions C82_v1_add_operator_partial.
Theorem C82_v1_remove_operator_partial : forall p x v e st a st' msgs, v1_history p x st -> sudo p v e st (RemoveOperator a) = Ok (st', msgs) ->
  operator st a /\ (forall o, operator st' o <-> operator st o /\ o <> a).
Proof. exact remove_operator_form. Qed.
Print Assumptions C82_v1_remove_operator_partial.
Example C82_case x : v1_history p1 x (w_st (vw1 x)) /\
  is_ok (run_acts p1 x (vw1 x) [Sudo (AddOperator "carol"); Sudo (RemoveOperator "opera")]) = true /\
  is_ok (run_acts p1 x (vw1 x) [Sudo (AddOperator "opera")]) = false.
Proof. split; [apply vw1_history|]. by vm_compute. Qed.

(** * C83: false; a stale bid whose reward rounds to zero cannot be removed by anyone but the bidder *)
Theorem C83_v1_can_clean_refuted : forall x, exists w b, v1_reachable p1 x w /\ bidding (w_st w) b /\ operator (w_st w) "opera" /\
  stale (w_st w) (w_time w) (b_expires b) /\ p_blocked p1 (b_bidder b) = false /\
  forall op f w', ~ texec p1 (execute p1 x) op f (RemoveStaleBid (b_coll b) (b_tok b) (b_bidder b)) w w'.
Proof. exact cannot_clean. Qed.
Print Assumptions C83_v1_can_clean_refuted.
Theorem C83_v1_can_clean_partial : forall p x w op coll tok who b, v1_reachable p x w -> operator (w_st w) op ->
  s_bids (w_st w) !! (coll, tok, who) = Some b ->
  stale (w_st w) (w_time w) (b_expires b) -> let reward := b_price b * sp_reward (s_params (w_st w)) / 10 ^ 20 in
  0 < reward < b_price b -> op <> p_self p -> p_blocked p op = false -> p_blocked p who = false -> p_valid p who = true ->
  w_time w <= U64_MAX -> 100 * b_price b <= U128_MAX ->
  exists w', run_tx p (execute p x) w op [] (RemoveStaleBid coll tok who) = Ok w'.
Proof. exact clean_runs. Qed.
Print Assumptions C83_v1_can_clean_partial.
Theorem C83_v1_can_clean_collection_partial : forall p x w op coll who b, v1_reachable p x w -> operator (w_st w) op ->
  s_cbids (w_st w) !! (coll, who) = Some b ->
  stale (w_st w) (w_time w) (cb_expires b) -> let reward := cb_price b * sp_reward (s_params (w_st w)) / 10 ^ 20 in
  0 < reward < cb_price b -> op <> p_self p -> p_blocked p op = false -> p_blocked p who = false -> p_valid p who = true ->
  w_time w <= U64_MAX -> 100 * cb_price b <= U128_MAX ->
  exists w', run_tx p (execute p x) w op [] (RemoveStaleCollectionBid coll who) = Ok w'.
Proof. exact cclean_runs. Qed.
Print Assumptions C83_v1_can_clean_collection_partial.
Example C83_case x : v1_reachable p1 x (vw2 x) /\ operator (w_st (vw2 x)) "opera" /\
  s_bids (w_st (vw2 x)) !! ("coll1", 1, "bobby") = Some bid1 /\ stale (w_st (vw2 x)) (w_time (vw2 x)) (b_expires bid1) /\
  b_price bid1 * sp_reward (s_params (w_st (vw2 x))) / 10 ^ 20 = 47.
Proof.
  split; [apply vw2_reachable|]. split.
  { unfold operator. assert (sp_operators (s_params (w_st (vw2 x))) = ["admin"; "opera"]) as -> by (by vm_compute). right. by left. }
  split; [by vm_compute|]. split; [exists 600; split; by vm_compute|by vm_compute].
Qed.

(** * C84 *)
Theorem C84_v1_ask_listings : forall p x st, v1_history p x st -> forall inactive who limit fuel,
  limit <> Some 0 -> (size (s_asks st) < fuel)%nat -> p_valid p who = true ->
  lists_all ask_by_price (fun a => listed st a /\ k_coll a = who /\ visible inactive a)
    (page_walk (fun start => query_asks_sorted_by_price p st who inactive start limit) (fun a => (k_price a, k_tok a)) None fuel) /\
  lists_all (fun a b => ask_by_price b a) (fun a => listed st a /\ k_coll a = who /\ visible inactive a)
    (page_walk (fun start => reverse_query_asks_sorted_by_price p st who inactive start limit) (fun a => (k_price a, k_tok a)) None fuel) /\
  lists_all ask_by_nft (fun a => listed st a /\ k_seller a = who /\ visible inactive a)
    (page_walk (fun start => query_asks_by_seller p st who inactive start limit) (fun a => (k_coll a, k_tok a)) None fuel).
Proof. exact ask_walks_form. Qed.
Print Assumptions C84_v1_ask_listings.
Theorem C84_v1_bid_listings : forall p x st, v1_history p x st -> forall who limit fuel,
  limit <> Some 0 -> (size (s_bids st) < fuel)%nat -> p_valid p who = true ->
  lists_all bid_by_price (fun b => bidding st b /\ b_coll b = who)
    (page_walk (fun start => query_bids_sorted_by_price p st who start limit) (fun b => (b_price b, b_tok b, b_bidder b)) None fuel) /\
  lists_all (fun a b => bid_by_price b a) (fun b => bidding st b /\ b_coll b = who)
    (page_walk (fun start => reverse_query_bids_sorted_by_price p st who start limit) (fun b => (b_price b, b_tok b, b_bidder b)) None fuel) /\
  lists_all bid_by_nft (fun b => bidding st b /\ b_bidder b = who)
    (page_walk (fun start => query_bids_by_bidder p st who start limit) (fun b => (b_coll b, b_tok b)) None fuel) /\
  lists_all bid_by_expiry (fun b => bidding st b /\ b_bidder b = who)
    (page_walk (fun start => query_bids_by_bidder_sorted_by_expiry p st who start limit) (fun b => (b_coll b, b_tok b)) None fuel).
Proof. exact bid_walks_form. Qed.
Print Assumptions C84_v1_bid_listings.
Theorem C84_v1_collection_bid_listings : forall p x st, v1_history p x st -> forall who limit fuel,
  limit <> Some 0 -> (size (s_cbids st) < fuel)%nat -> p_valid p who = true ->
  lists_all cbid_by_coll (fun b => cbidding st b /\ cb_bidder b = who)
    (page_walk (fun start => query_collection_bids_by_bidder p st who start limit) cb_coll None fuel) /\
  lists_all cbid_by_expiry (fun b => cbidding st b /\ cb_bidder b = who)
    (page_walk (fun start => query_collection_bids_by_bidder_sorted_by_expiry p st who start limit) (fun b => (cb_coll b, cb_bidder b)) None fuel) /\
  ((forall b, cbidding st b -> p_valid p (cb_bidder b) = true) ->
   lists_all cbid_by_price (fun b => cbidding st b /\ cb_coll b = who)
     (page_walk (fun start => query_collection_bids_sorted_by_price p st who start limit) (fun b => (cb_price b, cb_bidder b)) None fuel) /\
   lists_all (fun a b => cbid_by_price b a) (fun b => cbidding st b /\ cb_coll b = who)
     (page_walk (fun start => reverse_query_collection_bids_sorted_by_price p st who start limit) (fun b => (cb_price b, cb_bidder b)) None fuel)).
Proof. exact cbid_walks_form. Qed.
Print Assumptions C84_v1_collection_bid_listings.
Example C84_case x : v1_history p1 x (w_st (vw1 x)) /\
  page_walk (fun start => query_asks_sorted_by_price p1 (w_st (vw1 x)) "coll1" None start (Some 1)) (fun a => (k_price a, k_tok a)) None 4 = [ask2; ask3; ask1] /\
  page_walk (fun start => query_bids_sorted_by_price p1 (w_st (vw1 x)) "coll1" start (Some 1)) (fun b => (b_price b, b_tok b, b_bidder b)) None 4 = [bid2; bid1] /\
  page_walk (fun start => reverse_query_collection_bids_sorted_by_price p1 (w_st (vw1 x)) "coll1" start (Some 1)) (fun b => (cb_price b, cb_bidder b)) None 4 =
    [cbid1; CBid "coll1" "bobby" 400 None (sec 1500)].
Proof. split; [apply vw1_history|]. by vm_compute. Qed.

(** * C85 *)
Theorem C85_v1_pages : forall p st who tok inactive limit,
  short_pages (fun start => query_asks p st who inactive start limit) limit /\
  short_pages (fun start => reverse_query_asks p st who inactive start limit) limit /\
  short_pages (fun start => query_asks_sorted_by_price p st who inactive start limit) limit /\
  short_pages (fun start => reverse_query_asks_sorted_by_price p st who inactive start limit) limit /\
  short_pages (fun start => query_asks_by_seller p st who inactive start limit) limit /\
  short_pages (fun start => query_bids p st who tok start limit) limit /\
  short_pages (fun start => query_bids_by_bidder p st who start limit) limit /\
  short_pages (fun start => query_bids_sorted_by_price p st who start limit) limit /\
  short_pages (fun start => reverse_query_bids_sorted_by_price p st who start limit) limit /\
  short_pages (fun start => query_bids_by_bidder_sorted_by_expiry p st who start limit) limit /\
  short_pages (fun start => query_collection_bids_sorted_by_price p st who start limit) limit /\
  short_pages (fun start => reverse_query_collection_bids_sorted_by_price p st who start limit) limit /\
  short_pages (fun start => query_collection_bids_by_bidder p st who start limit) limit /\
  short_pages (fun start => query_collection_bids_by_bidder_sorted_by_expiry p st who start limit) limit.
Proof. exact short_form. Qed.
Print Assumptions C85_v1_pages.
Example C85_case x : query_asks p1 (w_st (vw1 x)) "coll1" None None (Some 2) = Ok [ask1; ask2] /\ page_size (Some 2) = 2%nat /\
  page_size None = 10%nat /\ page_size (Some 1000) = 100%nat.
Proof. by vm_compute. Qed.

(** * C86: false; ReverseAsks without an offset lists nothing *)
Theorem C86_v1_reverse_asks_refuted : forall x, exists w a, v1_reachable p1 x w /\ listed (w_st w) a /\ k_active a = true /\
  forall limit, query_asks p1 (w_st w) (k_coll a) None None None <> Ok [] /\ reverse_query_asks p1 (w_st w) (k_coll a) None None limit = Ok [].
Proof. exact reverse_asks_blank. Qed.
Print Assumptions C86_v1_reverse_asks_refuted.
Theorem C86_v1_reverse_asks_partial : forall p x st, v1_history p x st -> forall coll inactive top limit fuel,
  p_valid p coll = true -> limit <> Some 0 -> (size (s_asks st) < fuel)%nat ->
  lists_all (fun a b => ask_by_token b a) (fun a => listed st a /\ k_coll a = coll /\ visible inactive a /\ k_tok a < top)
    (page_walk (fun start => reverse_query_asks p st coll inactive (Some (default top start)) limit) k_tok None fuel).
Proof. exact reverse_asks_walk_form. Qed.
Print Assumptions C86_v1_reverse_asks_partial.
Example C86_case x : v1_history p1 x (w_st (vw1 x)) /\
  page_walk (fun start => reverse_query_asks p1 (w_st (vw1 x)) "coll1" None (Some (default 3 start)) (Some 1)) k_tok None 4 = [ask2; ask1].
Proof. split; [apply vw1_history|]. by vm_compute. Qed.

(** * C87: false; a collection appears once per ask *)
Theorem C87_v1_collections_refuted : forall x, exists w rows, v1_reachable p1 x w /\ query_collections p1 (w_st w) None None = Ok rows /\ ~ NoDup rows.
Proof. exact collections_repeat. Qed.
Print Assumptions C87_v1_collections_refuted.
Theorem C87_v1_collections_partial : forall p x st, v1_history p x st -> forall limit fuel, limit <> Some 0 -> (size (s_asks st) < fuel)%nat ->
  forall c, c ∈ page_walk (fun start => query_collections p st start limit) (fun c => c) None fuel <-> exists a, listed st a /\ k_coll a = c.
Proof. exact collections_form. Qed.
Print Assumptions C87_v1_collections_partial.
Example C87_case x : v1_history p1 x (w_st (vw1 x)) /\
  page_walk (fun start => query_collections p1 (w_st (after x (vw1 x) cheap_ask)) start (Some 2)) (fun c => c) None 5 = ["coll1"; "coll1"; "coll2"].
Proof. split; [apply vw1_history|]. by vm_compute. Qed.

(** * C88: false; the second page of the bids on an NFT is always empty *)
Theorem C88_v1_bids_refuted : forall x, exists w b1 b2, v1_reachable p1 x w /\ query_bids p1 (w_st w) "coll2" 1 None (Some 1) = Ok [b1] /\
  bidding (w_st w) b2 /\ b_coll b2 = "coll2" /\ b_tok b2 = 1 /\ b2 <> b1 /\ bytes_before (b_bidder b1) (b_bidder b2) /\
  query_bids p1 (w_st w) "coll2" 1 (Some (b_bidder b1)) (Some 1) = Ok [].
Proof. exact bids_stop. Qed.
Print Assumptions C88_v1_bids_refuted.

(** * C89: false; reading by expiry starts again when the bid of the offset is gone *)
Theorem C89_v1_expiry_paging_refuted : forall x, exists w w' b0 b1 b2, v1_reachable p1 x w /\
  query_bids_by_bidder_sorted_by_expiry p1 (w_st w) "bobby" None (Some 2) = Ok [b0; b1] /\
  texec p1 (execute p1 x) "bobby" [] (RemoveBid (b_coll b1) (b_tok b1)) w w' /\
  query_bids_by_bidder_sorted_by_expiry p1 (w_st w') "bobby" (Some (b_coll b1, b_tok b1)) (Some 2) = Ok [b0; b2].
Proof. exact expiry_restarts. Qed.
Print Assumptions C89_v1_expiry_paging_refuted.

(** * C90: the answer is a 32-bit number; it is the number of asks as long as that is one. *)
Theorem C90_v1_ask_count : forall p x st, v1_history p x st -> forall coll n, query_ask_count p st coll = Ok n ->
  exists rows, NoDup rows /\ (forall a, a ∈ rows <-> listed st a /\ k_coll a = coll) /\
    n = N.of_nat (length rows) mod 4294967296 /\ (N.of_nat (length rows) < 4294967296 -> n = N.of_nat (length rows)).
Proof. exact count_form. Qed.
Print Assumptions C90_v1_ask_count.
Example C90_case x : v1_history p1 x (w_st (vw1 x)) /\ query_ask_count p1 (w_st (vw1 x)) "coll1" = Ok 3.
Proof. split; [apply vw1_history|]. by vm_compute. Qed.

(** * C91 *)
Theorem C91_v1_sale_hook : forall p x v e s f st m st' ms c t who, v1_history p x st -> execute_sub p x v e s f st m = Ok (st', ms) ->
  SPlain (MNft c t who) ∈ ms ->
  exists d ci, closes v e s f st m d /\ c = d_coll d /\ t = pretty (d_tok d) /\ who = d_buyer_to d /\
    ms = map SPlain (deal_msgs x st m s ci d) ++
         map (fun h => SHook h (HSale (d_coll d) (d_tok d) (native (d_price d)) (d_seller d) (d_buyer d))) (s_sale_hooks st).
Proof. exact hook_data_form. Qed.
Print Assumptions C91_v1_sale_hook.
Example C91_case x : v1_history p1 x (w_st (vw1 x)) /\
  match execute_sub p1 x (view_of p1 (vw1 x)) (env_of (vw1 x)) "carol" [us 1000] (w_st (vw1 x)) buy1 with
  | Ok (_, ms) => last ms = Some (SHook "hook1" (HSale "coll1" 1 (us 1000) "alice" "carol")) | Err _ => False end.
Proof. split; [apply vw1_history|]. by vm_compute. Qed.

(** * C92 *)
Theorem C92_v1_governance : forall p v e st m st' msgs, sudo p v e st m = Ok (st', msgs) ->
  s_asks st' = s_asks st /\ s_bids st' = s_bids st /\ s_cbids st' = s_cbids st /\ msgs = [].
Proof. exact sudo_orders. Qed.
Print Assumptions C92_v1_governance.
Example C92_case x : is_ok (run_acts p1 x (vw1 x) [Sudo (UpdateParams (ParamsUpdate (Some 300) None None None None None None None None))]) = true.
Proof. by vm_compute. Qed.

(** * C93: depends on the chain; if it refuses to burn nothing, sales below 1 / trading fee fail *)
Theorem C93_v1_cheap_sale_refuted : exists w d, v1_reachable p1 (Ext false) w /\
  closes (view_of p1 w) (env_of w) "carol" [us 40] (w_st w) (BuyNow "coll2" 1 (sec 2500) None None) d /\
  can_transfer w "coll2" "1" "marke" = true /\
  forall w', ~ texec p1 (execute p1 (Ext false)) "carol" [us 40] (BuyNow "coll2" 1 (sec 2500) None None) w w'.
Proof. exact cheap_sale_fails. Qed.
Print Assumptions C93_v1_cheap_sale_refuted.
Theorem C93_v1_cheap_sale_partial : forall p x w s f m w' d ci, v1_reachable p x w -> texec p (execute p x) s f m w w' ->
  closes (view_of p w) (env_of w) s f (w_st w) m d -> o_info (w_ora w) (d_coll d) = Some ci -> x_zero_burn x = false ->
  0 < x_fee (deal_split (w_st w) ci d).
Proof. exact zero_fee_blocks. Qed.
Print Assumptions C93_v1_cheap_sale_partial.
Example C93_case x : v1_reachable p1 (Ext false) (vw1 (Ext false)) /\
  texec p1 (execute p1 x) "carol" [us 1000] buy1 (vw1 x) (after x (vw1 x) [Tx "carol" [us 1000] buy1]) /\
  closes (view_of p1 (vw1 x)) (env_of (vw1 x)) "carol" [us 1000] (w_st (vw1 x)) buy1 deal1 /\
  o_info (w_ora (vw1 x)) "coll1" = Some info1 /\ x_fee (deal_split (w_st (vw1 x)) info1 deal1) = 20.
Proof.
  split; [apply vw1_reachable|]. split; [refine (after_texec x (vw1 x) _ _ _ _); by vm_compute|]. split; [apply deal1_closes|]. by vm_compute.
Qed.

(** * C94 *)
Theorem C94_v1_reject_effect : forall p x w s f coll tok who w', v1_reachable p x w -> texec p (execute p x) s f (RejectBid coll tok who) w w' ->
  f = [] /\ owns (view_of p w) s coll tok /\ exists b w1, s_bids (w_st w) !! (coll, tok, who) = Some b /\ paid_back p w w1 who (b_price b) /\
    only_bid_gone (w_st w) (w_st w1) coll tok who /\ dispatch p (execute p x) w1 (hook_msgs (s_bid_hooks (w_st w))) w'.
Proof. exact reject_form. Qed.
Print Assumptions C94_v1_reject_effect.
Theorem C94_v1_reject : forall p x w s coll tok who b, v1_reachable p x w -> s <> p_self p -> owns (view_of p w) s coll tok ->
  s_bids (w_st w) !! (coll, tok, who) = Some b -> p_blocked p who = false -> p_valid p who = true ->
  exists w', run_tx p (execute p x) w s [] (RejectBid coll tok who) = Ok w'.
Proof. exact reject_runs. Qed.
Print Assumptions C94_v1_reject.
Example C94_case x : v1_reachable p1 x (vw1 x) /\ owns (view_of p1 (vw1 x)) "alice" "coll1" 1 /\
  s_bids (w_st (vw1 x)) !! ("coll1", 1, "bobby") = Some bid1 /\
  texec p1 (execute p1 x) "alice" [] (RejectBid "coll1" 1 "bobby") (vw1 x) (after x (vw1 x) [Tx "alice" [] (RejectBid "coll1" 1 "bobby")]) /\
  w_bank (after x (vw1 x) [Tx "alice" [] (RejectBid "coll1" 1 "bobby")]) "bobby" "ustars" = w_bank (vw1 x) "bobby" "ustars" + 950.
Proof.
  split; [apply vw1_reachable|]. split; [by vm_compute|]. split; [by vm_compute|].
  split; [refine (after_texec x (vw1 x) _ _ _ _); by vm_compute|by vm_compute].
Qed.

(** * C95 *)
Theorem C95_v1_keeps_nothing : forall p x v e s f st m st' msgs, v1_history p x st -> execute p x v e s f st m = Ok (st', msgs) ->
  let before := bids_total st + cbids_total st + amt f "ustars" in
  let after := bids_total st' + cbids_total st' + out msgs "ustars" in
  after = before \/ after + 1 = before.
Proof. exact balance_form. Qed.
Print Assumptions C95_v1_keeps_nothing.
Example C95_case x : v1_history p1 x (w_st (vw1 x)) /\ bids_total (w_st (vw1 x)) + cbids_total (w_st (vw1 x)) = 2650 /\
  match call1 x "carol" [us 1000] buy1 with
  | Ok (st', ms) => bids_total st' + cbids_total st' = 2650 /\ out ms "ustars" = 1000 | Err _ => False end /\
  match call1 x "alice" [] (AcceptBid "coll1" 1 "bobby" None) with
  | Ok (st', ms) => bids_total st' + cbids_total st' = 1700 /\ out ms "ustars" = 949 | Err _ => False end.
Proof. split; [apply vw1_history|]. by vm_compute. Qed.

(** * C106 *)
Theorem C106_v1_listing_calls : forall p x v e s f st m st' ms, v1_history p x st -> no_overflow e f st -> is_listing m ->
  execute_sub p x v e s f st m = Ok (st', ms) <-> listing_does p v e s f st m st' ms.
Proof. exact listing_exact. Qed.
Print Assumptions C106_v1_listing_calls.
Lemma no_overflow_by e f st :
  (e_time e + er_max (sp_ask_expiry (s_params st)) * 1000000000 <=? U64_MAX) && (e_time e + er_max (sp_bid_expiry (s_params st)) * 1000000000 <=? U64_MAX) &&
  (100 * amt f "ustars" <=? U128_MAX) && forallb (fun y => 100 * b_price (snd y) <=? U128_MAX) (map_to_list (s_bids st)) &&
  forallb (fun y => 100 * cb_price (snd y) <=? U128_MAX) (map_to_list (s_cbids st)) = true -> no_overflow e f st.
Proof.
  rewrite !andb_true_iff, !N.leb_le, !forallb_forall. intros ((((H1&H2)&H3)&H4)&H5). split; try done.
  - intros k b H. apply elem_of_map_to_list, elem_of_list_In, H4 in H. by apply N.leb_le in H.
  - intros k b H. apply elem_of_map_to_list, elem_of_list_In, H5 in H. by apply N.leb_le in H.
Qed.
(** alice lists another NFT for the listing fee, changes the price of one and takes one down; the ask hook hears of it. *)
Example C106_case x : v1_history p1 x (w_st (vw1 x)) /\ no_overflow (env_of (vw1 x)) [us 10] (w_st (vw1 x)) /\
  (let a := Ask FixedPrice "coll1" 4 "alice" 70 None (Some "carol") (Some 30) (sec 5000) true in
   match execute_sub p1 x (view_of p1 (vw1 x)) (env_of (vw1 x)) "alice" [us 10] (w_st (vw1 x))
     (SetAsk FixedPrice "coll1" 4 (us 70) None (Some "carol") (Some 30) (sec 5000)) with
   | Ok (st', ms) => s_asks st' !! ("coll1", 4) = Some a /\ ms = [SPlain (MFairBurn (us 10)); SHook "hook3" (HAsk a HCreate)] | Err _ => False end) /\
  match execute_sub p1 x (view_of p1 (vw1 x)) (env_of (vw1 x)) "alice" [] (w_st (vw1 x)) (UpdateAskPrice "coll1" 1 (us 77)) with
   | Ok (st', ms) => option_map k_price (s_asks st' !! ("coll1", 1)) = Some 77 /\ length ms = 1%nat | Err _ => False end /\
  match execute_sub p1 x (view_of p1 (vw1 x)) (env_of (vw1 x)) "alice" [] (w_st (vw1 x)) (RemoveAsk "coll1" 1) with
   | Ok (st', ms) => s_asks st' !! ("coll1", 1) = None /\ ms = [SHook "hook3" (HAsk ask1 HDelete)] | Err _ => False end.
Proof. split; [apply vw1_history|]. split; [apply no_overflow_by; by vm_compute|]. by vm_compute. Qed.

(** * C107 *)
Theorem C107_v1_bidding_calls : forall p x v e s f st m st' ms, v1_history p x st -> no_overflow e f st -> is_bidding m ->
  execute_sub p x v e s f st m = Ok (st', ms) <-> bidding_does p x v e s f st m st' ms.
Proof. exact bidding_exact. Qed.
Print Assumptions C107_v1_bidding_calls.
(** bobby raises the bid on NFT 1, then buys it. *)
Example C107_case x : v1_history p1 x (w_st (vw1 x)) /\ no_overflow (env_of (vw1 x)) [us 1000] (w_st (vw1 x)) /\
  (let b := Bid "coll1" 1 "bobby" 960 (Some 70) (sec 2600) in
   match execute_sub p1 x (view_of p1 (vw1 x)) (env_of (vw1 x)) "bobby" [us 960] (w_st (vw1 x)) (SetBid "coll1" 1 (sec 2600) None (Some 70)) with
   | Ok (st', ms) => s_bids st' !! ("coll1", 1, "bobby") = Some b /\ ms = [SPlain (pay "bobby" 950); SHook "hook2" (HBid b HCreate)] | Err _ => False end) /\
  match execute_sub p1 x (view_of p1 (vw1 x)) (env_of (vw1 x)) "bobby" [us 1000] (w_st (vw1 x)) (BuyNow "coll1" 1 (sec 2600) (Some "daver") None) with
   | Ok (st', ms) => s_bids st' !! ("coll1", 1, "bobby") = None /\ s_asks st' !! ("coll1", 1) = None /\
       ms = map SPlain [pay "bobby" 950; MFairBurn (us 20); pay "daver" 10; pay "royal" 50; pay "alice" 920; MNft "coll1" "1" "bobby"] ++
            [SHook "hook1" (HSale "coll1" 1 (us 1000) "alice" "bobby")]
   | Err _ => False end.
Proof. split; [apply vw1_history|]. split; [apply no_overflow_by; by vm_compute|]. by vm_compute. Qed.

(** * C108 *)
Theorem C108_v1_answering_calls : forall p x v e s f st m st' ms, v1_history p x st -> no_overflow e f st -> is_answer m ->
  execute_sub p x v e s f st m = Ok (st', ms) <-> answer_does p x v e s f st m st' ms.
Proof. exact answer_exact. Qed.
Print Assumptions C108_v1_answering_calls.
Example C108_case x : v1_history p1 x (w_st (vw1 x)) /\ no_overflow (env_of (vw1 x)) [] (w_st (vw1 x)) /\
  match execute_sub p1 x (view_of p1 (vw1 x)) (env_of (vw1 x)) "alice" [] (w_st (vw1 x)) (AcceptBid "coll1" 1 "bobby" (Some "erika")) with
   | Ok (st', ms) => s_bids st' !! ("coll1", 1, "bobby") = None /\ s_asks st' !! ("coll1", 1) = None /\
       ms = map SPlain [MFairBurn (us 19); pay "erika" 4; pay "royal" 47; pay "alice" 879; MNft "coll1" "1" "bobby"] ++
            [SHook "hook1" (HSale "coll1" 1 (us 950) "alice" "bobby")]
   | Err _ => False end /\
  match execute_sub p1 x (view_of p1 (vw1 x)) (env_of (vw1 x)) "alice" [] (w_st (vw1 x)) (AcceptCollectionBid "coll1" 2 "daver" None) with
   | Ok (st', ms) => s_cbids st' !! ("coll1", "daver") = None /\ s_asks st' !! ("coll1", 2) = None /\ length ms = 5%nat
   | Err _ => False end /\
  match execute_sub p1 x (view_of p1 (vw1 x)) (env_of (vw1 x)) "bobby" [] (w_st (vw1 x)) (RemoveBid "coll1" 1) with
   | Ok (st', ms) => ms = [SPlain (pay "bobby" 950); SHook "hook2" (HBid bid1 HDelete)] | Err _ => False end.
Proof. split; [apply vw1_history|]. split; [apply no_overflow_by; by vm_compute|]. by vm_compute. Qed.

(** * C109 *)
Theorem C109_v1_upkeep_calls : forall p x v e s f st m st' ms, v1_history p x st -> no_overflow e f st -> is_upkeep m ->
  execute_sub p x v e s f st m = Ok (st', ms) <-> upkeep_does p v e s f st m st' ms.
Proof. exact upkeep_exact. Qed.
Print Assumptions C109_v1_upkeep_calls.
(** alice revokes an approval; an operator deactivates the ask.  Later the bid on NFT 1 is stale. *)
Definition revoked (x : ext) : world state := after x (vw1 x) [Approve "coll1" "1" "alice" "marke" false; At (sec 3200)].
Lemma revoked_history x : v1_history p1 x (w_st (revoked x)).
Proof. apply reachable_history, after_reachable; [apply vw1_reachable|by vm_compute]. Qed.
Example C109_case x : v1_history p1 x (w_st (revoked x)) /\ no_overflow (env_of (revoked x)) [] (w_st (revoked x)) /\
  match execute_sub p1 x (view_of p1 (revoked x)) (env_of (revoked x)) "opera" [] (w_st (revoked x)) (SyncAsk "coll1" 1) with
   | Ok (st', ms) => option_map k_active (s_asks st' !! ("coll1", 1)) = Some false /\ length ms = 1%nat | Err _ => False end /\
  match execute_sub p1 x (view_of p1 (revoked x)) (env_of (revoked x)) "opera" [] (w_st (revoked x)) (RemoveStaleAsk "coll1" 3) with
   | Ok (st', ms) => s_asks st' !! ("coll1", 3) = None /\ ms = [SHook "hook3" (HAsk ask3 HDelete)] | Err _ => False end /\
  match execute_sub p1 x (view_of p1 (revoked x)) (env_of (revoked x)) "opera" [] (w_st (revoked x)) (RemoveStaleBid "coll1" 1 "bobby") with
   | Ok (st', ms) => ms = [SPlain (pay "bobby" 903); SPlain (pay "opera" 47); SHook "hook2" (HBid bid1 HDelete)] | Err _ => False end.
Proof. split; [apply revoked_history|]. split; [apply no_overflow_by; by vm_compute|]. by vm_compute. Qed.

(** * C110 *)
Theorem C110_v1_governance_calls : forall p v e st m st' msgs, sudo p v e st m = Ok (st', msgs) <-> governs p st m st' /\ msgs = [].
Proof. exact governs_exact. Qed.
Print Assumptions C110_v1_governance_calls.
Theorem C110_v1_set_up : forall p m st, instantiate p m = Ok st <-> sets_up p m st.
Proof. exact sets_up_exact. Qed.
Print Assumptions C110_v1_set_up.
Example C110_case x : instantiate p1 config1 = Ok vst0 /\ sp_operators (s_params vst0) = ["admin"; "opera"] /\
  match sudo p1 (view_of p1 (vw1 x)) (env_of (vw1 x)) (w_st (vw1 x)) (RemoveOperator "admin") with
  | Ok (st', ms) => sp_operators (s_params st') = ["opera"] | Err _ => False end /\
  match sudo p1 (view_of p1 (vw1 x)) (env_of (vw1 x)) (w_st (vw1 x))
    (UpdateParams (ParamsUpdate (Some 300) None None (Some ["bobby"]) None (Some 6) (Some 9) None (Some 11))) with
  | Ok (st', ms) => s_params st' = SudoParams (3 * 10 ^ 18) (ExpiryRange 60 86400) (ExpiryRange 60 86400) ["admin"; "opera"] (10 ^ 19) 6 (DTime 9) (5 * 10 ^ 18) 11
  | Err _ => False end.
Proof. by vm_compute. Qed.

(** * C111 *)
Theorem C111_v1_lookups : forall p x st coll tok who, v1_history p x st -> p_valid p coll = true -> p_valid p who = true ->
  query_ask p st coll tok = Ok (s_asks st !! (coll, tok)) /\ query_bid p st coll tok who = Ok (s_bids st !! (coll, tok, who)) /\
  query_collection_bid p st coll who = Ok (s_cbids st !! (coll, who)).
Proof. exact lookups_exact. Qed.
Print Assumptions C111_v1_lookups.
Example C111_case x : v1_history p1 x (w_st (vw1 x)) /\ query_ask p1 (w_st (vw1 x)) "coll1" 1 = Ok (Some ask1) /\
  query_bid p1 (w_st (vw1 x)) "coll1" 2 "carol" = Ok (Some bid2) /\ query_collection_bid p1 (w_st (vw1 x)) "coll1" "daver" = Ok (Some cbid1) /\
  query_bid p1 (w_st (vw1 x)) "coll1" 2 "daver" = Ok None.
Proof. split; [apply vw1_history|]. by vm_compute. Qed.
