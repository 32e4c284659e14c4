(** Transactions of marketplace v2 on the executable chain (TxSpec). *)
From stdpp Require Import relations.
From Verif Require Import Base BaseFacts Common Chain ChainFacts LedgerSpec TxSpec TxFacts QuerySpec V2Model V2Spec V2Facts
  V2Inv V2Sale V2Reach V2Final V2Live V2ExactSpec V2Exact.

(** The payees of a sale can receive coins and the NFT can be moved. *)
Definition sale_arrives (p : params) (w : world state) (a : ask) (mb : matching_bid) (ask_first : bool) : Prop :=
  (forall to n, (to, n) ∈ sale_payments p (view_of p w) (s_config (w_st w)) a mb ask_first -> p_blocked p to = false) /\
  a_coll a <> p_self p /\ (p_honest p (a_coll a) = true -> may_move w (a_coll a) (a_tok a) (p_self p)).

Section V2Tx.
Context (p : params).

Lemma one_nft ms : (nfts ms <= 1)%nat -> NoDup (honest_out p ms).
Proof.
  assert (forall ms, nfts ms = 0%nat -> honest_out p ms = []) as H0.
  { clear. induction ms as [|m ms IH]; intros H; [done|]. unfold honest_out. destruct m; cbn in *; try done; by apply IH. }
  induction ms as [|m ms IH]; intros H; [constructor|]. destruct m; cbn [nfts] in H; try (apply IH; done).
  assert (nfts ms = 0%nat) as Hn by lia. specialize (H0 ms Hn). unfold honest_out in *. cbn. rewrite H0.
  destruct (p_honest p coll); repeat constructor. apply not_elem_of_nil.
Qed.
Lemma paid_leaving ms d : paid_out ms d = leaving d ms.
Proof. by rewrite paid_out_out, leaving_out. Qed.
Lemma go_iff (w : world state) ms : Forall fine ms -> Forall (goes_through p w) ms <-> receivable p ms /\ movable p w ms.
Proof.
  intros Hf. rewrite Forall_forall in Hf. rewrite Forall_forall. split.
  - intros H. split.
    + intros to cs Hin. by destruct (H _ Hin) as (_&_&?).
    + intros c t to Hin. destruct (H _ Hin) as [H1 H2]. split; [done|]. intros Hh. by apply may_move_spec, H2.
  - intros [Hr Hm] m Hin. specialize (Hf m Hin). destruct m as [to cs|c t to|r c|c|h]; cbn in *; try done.
    + destruct Hf. split_and!; try done. by eapply Hr.
    + destruct (Hm c t to Hin) as [H1 H2]. split; [done|]. intros Hh. by apply may_move_spec, H2.
Qed.

Lemma tx_goes w sender funds m : reachable p w ->
  (exists w', run_tx p (execute p) w sender funds m = Ok w') <->
  affords p w sender funds /\ exists st' msgs,
    execute p (view_of p w) (env_of w) sender funds (w_st w) m = Ok (st', msgs) /\ receivable p msgs /\ movable p w msgs.
Proof.
  intros Hre. pose proof (reachable_wf _ _ Hre) as Hwf. rewrite run_tx_ok.
  - split; intros (Hp&st'&msgs&He&H); (split; [done|]); exists st', msgs; (split; [done|]);
      destruct (response_fine _ _ _ _ _ _ _ _ _ Hwf He) as [Hf _]; by apply (go_iff w msgs Hf).
  - intros st' msgs Hp He. destruct (response_fine _ _ _ _ _ _ _ _ _ Hwf He) as [_ Hn]. split; [by apply one_nft|].
    intros d. pose proof (wf_conservation p _ _ _ _ _ _ _ _ d Hwf He) as Hcon.
    pose proof (reachable_escrow p w d Hre) as Hesc. rewrite paid_leaving in Hcon.
    rewrite coins_of_amt, <-coins_in_amt. destruct (no_coin_call m); lia.
Qed.
Lemma tx_settled w sender funds m w' : run_tx p (execute p) w sender funds m = Ok w' ->
  exists st' msgs, execute p (view_of p w) (env_of w) sender funds (w_st w) m = Ok (st', msgs) /\
    settled_as p w sender funds st' msgs w'.
Proof. intros H. by apply run_tx_settled in H as [_ H]. Qed.

Context (Hcf : collision_free p) (Hpf : prefix_free p) (Hsl : slash_free p).

Lemma order_tx_goes w sender funds m : reachable p w -> small_history p (w_st w) -> small_call funds m -> admin_call m = false ->
  (exists w', run_tx p (execute p) w sender funds m = Ok w') <->
  affords p w sender funds /\ exists st' msgs,
    does p (view_of p w) (env_of w) sender funds (w_st w) m st' msgs /\ receivable p msgs /\ movable p w msgs.
Proof.
  intros Hre Hh Hc Hm. rewrite tx_goes by done. split; intros (Hp&st'&msgs&He&H); (split; [done|]); exists st', msgs; (split; [|done]);
    by apply (order_calls_exact p Hcf Hpf Hsl).
Qed.
Lemma order_tx_settled w sender funds m w' : small_history p (w_st w) -> small_call funds m -> admin_call m = false ->
  run_tx p (execute p) w sender funds m = Ok w' ->
  exists st' msgs, does p (view_of p w) (env_of w) sender funds (w_st w) m st' msgs /\ settled_as p w sender funds st' msgs w'.
Proof.
  intros Hh Hc Hm (st'&msgs&He&H)%tx_settled. exists st', msgs. split; [|done]. by apply (order_calls_exact p Hcf Hpf Hsl).
Qed.

(** ** Sales *)
Lemma no_send_registration v cfg coll to cs : MSend to cs ∉ registration p v cfg coll.
Proof.
  unfold registration. intros H.
  repeat case_match; try (by apply elem_of_nil in H); apply elem_of_list_singleton in H; discriminate.
Qed.
Lemma no_nft_registration v cfg coll c t to : MNft c t to ∉ registration p v cfg coll.
Proof.
  unfold registration. intros H.
  repeat case_match; try (by apply elem_of_nil in H); apply elem_of_list_singleton in H; discriminate.
Qed.
Lemma sale_receivable v cfg a mb f : receivable p (sale_sends p v cfg a mb f) <->
  forall to n, (to, n) ∈ sale_payments p v cfg a mb f -> p_blocked p to = false.
Proof.
  unfold sale_sends. split.
  - intros H to n Hin. apply (H to [Coin (c_denom (trade_price a mb f)) n]). rewrite !elem_of_app. right; left.
    apply elem_of_list_fmap. by exists (to, n).
  - intros H to cs. rewrite !elem_of_app. intros [Hin|[Hin|Hin]].
    + by apply no_send_registration in Hin.
    + apply elem_of_list_fmap in Hin as ([x n]&[= -> ->]&Hin). by eapply H.
    + apply elem_of_list_singleton in Hin. discriminate.
Qed.
Lemma sale_movable w v cfg a mb f : movable p w (sale_sends p v cfg a mb f) <->
  a_coll a <> p_self p /\ (p_honest p (a_coll a) = true -> may_move w (a_coll a) (a_tok a) (p_self p)).
Proof.
  unfold sale_sends. split.
  - intros H. destruct (H (a_coll a) (a_tok a) (nft_to mb)) as [H1 H2].
    { rewrite !elem_of_app. right; right. by apply elem_of_list_singleton. }
    split; [done|]. intros Hh. by apply may_move_spec, H2.
  - intros [H1 H2] c t to. rewrite !elem_of_app. intros [Hin|[Hin|Hin]].
    + by apply no_nft_registration in Hin.
    + apply elem_of_list_fmap in Hin as ([x n]&?&Hin). discriminate.
    + apply elem_of_list_singleton in Hin. injection Hin as -> -> ->. split; [done|]. intros Hh. by apply may_move_spec, H2.
Qed.
Lemma receivable_app ms1 ms2 : receivable p (ms1 ++ ms2) <-> receivable p ms1 /\ receivable p ms2.
Proof.
  unfold receivable. split.
  - intros H. split; intros to cs Hin; apply (H to cs); rewrite elem_of_app; auto.
  - intros [H1 H2] to cs. rewrite elem_of_app. intros [?|?]; eauto.
Qed.
Lemma movable_app w ms1 ms2 : movable p w (ms1 ++ ms2) <-> movable p w ms1 /\ movable p w ms2.
Proof.
  unfold movable. split.
  - intros H. split; intros c t to Hin; apply (H c t to); rewrite elem_of_app; auto.
  - intros [H1 H2] c t to. rewrite elem_of_app. intros [?|?]; eauto.
Qed.
Lemma receivable_one to cs : receivable p [MSend to cs] <-> p_blocked p to = false.
Proof.
  unfold receivable. split; [intros H; apply (H to cs); by apply elem_of_list_singleton|].
  intros H to' cs' Hin%elem_of_list_singleton. by injection Hin as -> ->.
Qed.
Lemma movable_sends w ms : (forall c t to, MNft c t to ∉ ms) -> movable p w ms.
Proof. intros H c t to Hin. by apply H in Hin. Qed.
Lemma receivable_returned sender cs : receivable p (returned sender cs) <-> (returned sender cs <> [] -> p_blocked p sender = false).
Proof.
  destruct cs as [|c cs]; cbn [returned].
  - split; [done|]. intros _ to cs' H. by apply elem_of_nil in H.
  - rewrite receivable_one. naive_solver.
Qed.
Lemma movable_returned w sender cs : movable p w (returned sender cs).
Proof.
  apply movable_sends. intros c t to H. destruct cs; cbn in H; [by apply elem_of_nil in H|].
  apply elem_of_list_singleton in H. discriminate.
Qed.

(** Selling at once: the best bid decides. *)
Lemma sell_tx w sender funds m coll tok d mb : reachable p w -> small_history p (w_st w) -> small_call funds m ->
  (m = SetAsk coll tok d \/ m = SellNft coll tok d) -> top_bid (w_st w) coll tok (d_price d) mb ->
  let v := view_of p w in let st := w_st w in let a := Ask (ask_name p coll tok) sender coll tok d in
  (exists w', run_tx p (execute p) w sender funds m = Ok w') <->
  affords p w sender funds /\ listing p v (env_of w) sender funds st coll tok d /\ sale_goes p v (s_config st) a mb false /\
  p_blocked p (cf_fee_manager (s_config st)) = false /\ sale_arrives p w a mb false.
Proof.
  intros Hre Hh Hc Hm Ht v st a. rewrite order_tx_goes; [|done..|by destruct Hm; subst m]. subst v st. unfold sale_arrives.
  rewrite <-sale_receivable, <-(sale_movable w (view_of p w) (s_config (w_st w)) a mb false). split.
  - intros (Hp&st'&msgs&Hd&Hr&Hmv). split; [done|].
    assert (exists mb', top_bid (w_st w) coll tok (d_price d) mb' /\
      listing p (view_of p w) (env_of w) sender funds (w_st w) coll tok d /\
      sale_goes p (view_of p w) (s_config (w_st w)) a mb' false /\
      msgs = MSend (cf_fee_manager (s_config (w_st w))) funds :: sale_sends p (view_of p w) (s_config (w_st w)) a mb' false)
      as (mb'&Ht'&Hl&Hg&->).
    { inversion Hd; subst; try (by destruct Hm); try (by destruct_or!; simplify_eq).
      - exfalso. destruct Hm as [[= -> -> ->]|[=]]. destruct Ht as [Ht _]. naive_solver.
      - match goal with H : _ \/ _, H' : _ \/ _ |- _ => destruct H; destruct H'; simplify_eq end; eauto 10. }
    rewrite (top_bid_unique _ _ _ _ _ _ Ht Ht'). change (?x :: ?l) with ([x] ++ l) in Hr, Hmv.
    apply receivable_app in Hr as [Hr1 Hr2]. apply movable_app in Hmv as [_ Hm2]. apply receivable_one in Hr1. done.
  - intros (Hp&Hl&Hg&Hb&Hr&Hmv). split; [done|].
    exists (sold (w_st w) (s_nonce (w_st w)) a mb), (MSend (cf_fee_manager (s_config (w_st w))) funds :: sale_sends p (view_of p w) (s_config (w_st w)) a mb false).
    split; [by eapply DoListSell|]. change (?x :: ?l) with ([x] ++ l). rewrite receivable_app, movable_app, receivable_one.
    split_and!; try done. apply movable_sends. intros c t to H%elem_of_list_singleton. discriminate.
Qed.

(** Buying at once: the cheapest listing decides; the NFT is in escrow. *)
Lemma escrowed_arrives w a mb f : reachable p w -> p_reg_reenters p = false -> s_asks (w_st w) !! a_id a = Some a ->
  sale_arrives p w a mb f <->
  (forall to n, (to, n) ∈ sale_payments p (view_of p w) (s_config (w_st w)) a mb f -> p_blocked p to = false) /\ a_coll a <> p_self p.
Proof.
  intros Hre Hg Ha. unfold sale_arrives. split; [naive_solver|]. intros [H1 H2]. split_and!; [done..|]. intros Hh.
  exists (p_self p). split; [by eapply custody_ask|]. by left.
Qed.
Lemma buy_tx w sender funds m coll tok d a : reachable p w -> p_reg_reenters p = false -> small_history p (w_st w) -> small_call funds m ->
  (m = SetBid coll tok d \/ m = BuySpecificNft coll tok d) -> first_ask (w_st w) coll (Some tok) (d_price d) a ->
  let v := view_of p w in let st := w_st w in
  let mb := MBid (Bid (bid_name_of p (env_of w) st (coll +:+ tok)) sender coll tok d) in
  (exists w', run_tx p (execute p) w sender funds m = Ok w') <->
  affords p w sender funds /\ opening p v (env_of w) st coll d /\ sale_goes p v (s_config st) a mb true /\
  (exists back, pays sender funds None (d_price (a_det a)) back /\ (back <> [] -> p_blocked p sender = false)) /\
  (forall to n, (to, n) ∈ sale_payments p v (s_config st) a mb true -> p_blocked p to = false) /\ coll <> p_self p.
Proof.
  intros Hre Hg0 Hh Hc Hm Ht v st mb. rewrite order_tx_goes; [|done..|by destruct Hm; subst m]. subst v st.
  assert (s_asks (w_st w) !! a_id a = Some a /\ a_coll a = coll) as [Ha Hcoll].
  { destruct Ht as [Ho _]. unfold offered in Ho. naive_solver. }
  pose proof (escrowed_arrives w a mb true Hre Hg0 Ha) as Harr. unfold sale_arrives in Harr.
  rewrite <-sale_receivable, <-(sale_movable w (view_of p w) (s_config (w_st w)) a mb true), Hcoll in Harr. split.
  - intros (Hp&st'&msgs&Hd&Hr&Hmv). split; [done|].
    assert (exists a' back, first_ask (w_st w) coll (Some tok) (d_price d) a' /\ opening p (view_of p w) (env_of w) (w_st w) coll d /\
      sale_goes p (view_of p w) (s_config (w_st w)) a' mb true /\ pays sender funds None (d_price (a_det a')) back /\
      msgs = sale_sends p (view_of p w) (s_config (w_st w)) a' mb true ++ back) as (a'&back&Ht'&Ho&Hg&Hpay&->).
    { inversion Hd; subst; try (by destruct Hm); try (by destruct_or!; simplify_eq).
      - exfalso. destruct Hm as [[= -> -> ->]|[=]]. destruct Ht as [Ht _]. naive_solver.
      - match goal with H : _ \/ _, H' : _ \/ _ |- _ => destruct H; destruct H'; simplify_eq end; eauto 15. }
    rewrite (first_ask_unique _ _ _ _ _ _ Ht' Ht) in *.
    apply receivable_app in Hr as [Hr1 Hr2]. apply movable_app in Hmv as [Hm1 _].
    split_and!; [done..| |by apply sale_receivable|by apply Harr].
    exists back. split; [done|]. destruct Hpay as (_&cs&_&->). by apply receivable_returned.
  - intros (Hp&Ho&Hg&(back&Hpay&Hback)&Hr&Hn). split; [done|].
    exists (sold (w_st w) (next_count (w_st w)) a mb), (sale_sends p (view_of p w) (s_config (w_st w)) a mb true ++ back).
    split; [by eapply DoBidBuy|]. rewrite receivable_app, movable_app. pose proof Hpay as (_&cs&_&->).
    split_and!; [by apply sale_receivable|by apply receivable_returned| |apply movable_returned].
    apply Harr. split; [by apply sale_receivable|done].
Qed.

(** Taking an order back. *)
Lemma small_plain m : msg_coin m = None -> small_call [] m.
Proof. intros H. split; [constructor|]. congruence. Qed.
Lemma withdraw_bid_tx w sender funds i b : reachable p w -> small_history p (w_st w) -> s_bids (w_st w) !! i = Some b ->
  (exists w', run_tx p (execute p) w sender funds (RemoveBid i) = Ok w') <->
  sender <> p_self p /\ funds = [] /\ sender = b_creator b /\ p_blocked p sender = false.
Proof.
  intros Hre Hh Hb. split.
  - intros [w' H]. assert (funds = []) as ->.
    { apply tx_settled in H as (st'&msgs&He&_). cbn [execute] in He. apply seq_iff in He as [He _]. by apply nonpayable_iff in He. }
    assert (exists w', run_tx p (execute p) w sender [] (RemoveBid i) = Ok w') as H' by eauto.
    apply order_tx_goes in H'; [|done..|by apply small_plain|done]. destruct H' as ([Hs _]&st'&msgs&Hd&Hr&_).
    inversion Hd; subst; try (by destruct_or!; simplify_eq). simplify_eq. apply receivable_one in Hr. done.
  - intros (Hs&->&->&Hbl). apply order_tx_goes; [done..|by apply small_plain|done|].
    split; [split; [done|intros d; cbn; lia]|]. do 2 eexists. split; [by eapply DoRemoveBid|].
    split; [by apply receivable_one|]. apply movable_sends. intros c t to H%elem_of_list_singleton. discriminate.
Qed.
Lemma withdraw_cbid_tx w sender funds i b : reachable p w -> small_history p (w_st w) -> s_cbids (w_st w) !! i = Some b ->
  (exists w', run_tx p (execute p) w sender funds (RemoveCollectionBid i) = Ok w') <->
  sender <> p_self p /\ funds = [] /\ sender = cb_creator b /\ p_blocked p sender = false.
Proof.
  intros Hre Hh Hb. split.
  - intros [w' H]. assert (funds = []) as ->.
    { apply tx_settled in H as (st'&msgs&He&_). cbn [execute] in He. apply seq_iff in He as [He _]. by apply nonpayable_iff in He. }
    assert (exists w', run_tx p (execute p) w sender [] (RemoveCollectionBid i) = Ok w') as H' by eauto.
    apply order_tx_goes in H'; [|done..|by apply small_plain|done]. destruct H' as ([Hs _]&st'&msgs&Hd&Hr&_).
    inversion Hd; subst; try (by destruct_or!; simplify_eq). simplify_eq. apply receivable_one in Hr. done.
  - intros (Hs&->&->&Hbl). apply order_tx_goes; [done..|by apply small_plain|done|].
    split; [split; [done|intros d; cbn; lia]|]. do 2 eexists. split; [by eapply DoRemoveCBid|].
    split; [by apply receivable_one|]. apply movable_sends. intros c t to H%elem_of_list_singleton. discriminate.
Qed.
Lemma withdraw_ask_tx w sender funds i a : reachable p w -> p_reg_reenters p = false -> small_history p (w_st w) -> s_asks (w_st w) !! i = Some a ->
  (exists w', run_tx p (execute p) w sender funds (RemoveAsk i) = Ok w') <->
  sender <> p_self p /\ funds = [] /\ sender = a_creator a /\ a_coll a <> p_self p.
Proof.
  intros Hre Hg Hh Hb. split.
  - intros [w' H]. assert (funds = []) as ->.
    { apply tx_settled in H as (st'&msgs&He&_). cbn [execute] in He. apply seq_iff in He as [He _]. by apply nonpayable_iff in He. }
    assert (exists w', run_tx p (execute p) w sender [] (RemoveAsk i) = Ok w') as H' by eauto.
    apply order_tx_goes in H'; [|done..|by apply small_plain|done]. destruct H' as ([Hs _]&st'&msgs&Hd&_&Hm).
    inversion Hd; subst; try (by destruct_or!; simplify_eq). simplify_eq. destruct (Hm (a_coll a) (a_tok a) (proceeds_to a)) as [Hm1 _].
    { by apply elem_of_list_singleton. } done.
  - intros (Hs&->&->&Hc). apply order_tx_goes; [done..|by apply small_plain|done|].
    split; [split; [done|intros d; cbn; lia]|]. do 2 eexists. split; [by eapply DoRemoveAsk|]. split.
    + intros to cs H%elem_of_list_singleton. discriminate.
    + intros c t to H%elem_of_list_singleton. injection H as -> -> ->. split; [done|]. intros Hho. apply may_move_spec.
      exists (p_self p). split; [by eapply custody_ask|]. by left.
Qed.
End V2Tx.
