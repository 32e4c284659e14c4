(** Transactions of marketplace v2 on the executable chain: when they go through, and every balance and NFT afterwards. *)
From stdpp Require Import relations.
From Verif Require Import Base BaseFacts Common Chain ChainFacts LedgerSpec TxSpec QuerySpec V2Model V2Spec V2Examples V2Properties
  V2ExactSpec V2ExactProperties V2Tx.

(** * C130: a transaction goes through exactly when the sender can pay, the contract accepts the call, all recipients can
    receive coins and the NFT can be moved. *)
Theorem C130_goes_exactly : forall p w sender funds m, reachable p w ->
  (exists w', run_tx p (execute p) w sender funds m = Ok w') <->
  affords p w sender funds /\ exists st' msgs,
    execute p (view_of p w) (env_of w) sender funds (w_st w) m = Ok (st', msgs) /\ receivable p msgs /\ movable p w msgs.
Proof. exact tx_goes. Qed.
Print Assumptions C130_goes_exactly.
Theorem C130_order_goes_exactly : forall p w sender funds m, collision_free p -> prefix_free p -> slash_free p ->
  reachable p w -> small_history p (w_st w) -> small_call funds m -> admin_call m = false ->
  (exists w', run_tx p (execute p) w sender funds m = Ok w') <->
  affords p w sender funds /\ exists st' msgs,
    does p (view_of p w) (env_of w) sender funds (w_st w) m st' msgs /\ receivable p msgs /\ movable p w msgs.
Proof. intros p w sender funds m Hc Hp Hs. exact (order_tx_goes p Hc Hp Hs w sender funds m). Qed.
Print Assumptions C130_order_goes_exactly.
(** The chain afterwards: every balance, owner and approval. *)
Theorem C130_books : forall p w sender funds m w', run_tx p (execute p) w sender funds m = Ok w' ->
  exists st' msgs, execute p (view_of p w) (env_of w) sender funds (w_st w) m = Ok (st', msgs) /\
    settled_as p w sender funds st' msgs w'.
Proof. exact tx_settled. Qed.
Print Assumptions C130_books.
Theorem C130_order_books : forall p w sender funds m w', collision_free p -> prefix_free p -> slash_free p ->
  small_history p (w_st w) -> small_call funds m -> admin_call m = false -> run_tx p (execute p) w sender funds m = Ok w' ->
  exists st' msgs, does p (view_of p w) (env_of w) sender funds (w_st w) m st' msgs /\ settled_as p w sender funds st' msgs w'.
Proof. intros p w sender funds m w' Hc Hp Hs. exact (order_tx_settled p Hc Hp Hs w sender funds m w'). Qed.
Print Assumptions C130_order_books.
(** Selling into the best bid: exactly when it goes through (C29 is false because the last two conditions can fail). *)
Theorem C130_sell_exactly : forall p w sender funds m coll tok d mb, collision_free p -> prefix_free p -> slash_free p ->
  reachable p w -> small_history p (w_st w) -> small_call funds m ->
  (m = SetAsk coll tok d \/ m = SellNft coll tok d) -> top_bid (w_st w) coll tok (d_price d) mb ->
  let v := view_of p w in let st := w_st w in let a := Ask (ask_name p coll tok) sender coll tok d in
  (exists w', run_tx p (execute p) w sender funds m = Ok w') <->
  affords p w sender funds /\ listing p v (env_of w) sender funds st coll tok d /\ sale_goes p v (s_config st) a mb false /\
  p_blocked p (cf_fee_manager (s_config st)) = false /\ sale_arrives p w a mb false.
Proof. intros p w sender funds m coll tok d mb Hc Hp Hs. exact (sell_tx p Hc Hp Hs w sender funds m coll tok d mb). Qed.
Print Assumptions C130_sell_exactly.
Theorem C130_buy_exactly : forall p w sender funds m coll tok d a, collision_free p -> prefix_free p -> slash_free p ->
  reachable p w -> p_reg_reenters p = false -> small_history p (w_st w) -> small_call funds m ->
  (m = SetBid coll tok d \/ m = BuySpecificNft coll tok d) -> first_ask (w_st w) coll (Some tok) (d_price d) a ->
  let v := view_of p w in let st := w_st w in
  let mb := MBid (Bid (bid_name_of p (env_of w) st (coll +:+ tok)) sender coll tok d) in
  (exists w', run_tx p (execute p) w sender funds m = Ok w') <->
  affords p w sender funds /\ opening p v (env_of w) st coll d /\ sale_goes p v (s_config st) a mb true /\
  (exists back, pays sender funds None (d_price (a_det a)) back /\ (back <> [] -> p_blocked p sender = false)) /\
  (forall to n, (to, n) ∈ sale_payments p v (s_config st) a mb true -> p_blocked p to = false) /\ coll <> p_self p.
Proof. intros p w sender funds m coll tok d a Hc Hp Hs. exact (buy_tx p Hc Hp Hs w sender funds m coll tok d a). Qed.
Print Assumptions C130_buy_exactly.
(** Orders can be taken back by their creators, always and only by them. *)
Theorem C130_withdraw_exactly : forall p w sender funds, collision_free p -> prefix_free p -> slash_free p ->
  reachable p w -> small_history p (w_st w) ->
  (forall i b, s_bids (w_st w) !! i = Some b ->
    (exists w', run_tx p (execute p) w sender funds (RemoveBid i) = Ok w') <->
    sender <> p_self p /\ funds = [] /\ sender = b_creator b /\ p_blocked p sender = false) /\
  (forall i b, s_cbids (w_st w) !! i = Some b ->
    (exists w', run_tx p (execute p) w sender funds (RemoveCollectionBid i) = Ok w') <->
    sender <> p_self p /\ funds = [] /\ sender = cb_creator b /\ p_blocked p sender = false) /\
  (forall i a, p_reg_reenters p = false -> s_asks (w_st w) !! i = Some a ->
    (exists w', run_tx p (execute p) w sender funds (RemoveAsk i) = Ok w') <->
    sender <> p_self p /\ funds = [] /\ sender = a_creator a /\ a_coll a <> p_self p).
Proof.
  intros p w sender funds Hc Hp Hs Hre Hh. split_and!.
  - intros i b. exact (withdraw_bid_tx p Hc Hp Hs w sender funds i b Hre Hh).
  - intros i b. exact (withdraw_cbid_tx p Hc Hp Hs w sender funds i b Hre Hh).
  - intros i a Hg. exact (withdraw_ask_tx p Hc Hp Hs w sender funds i a Hre Hg Hh).
Qed.
Print Assumptions C130_withdraw_exactly.
(** Alice sells token 2 to carol, who bid 900 for the collection: alice pays the listing fee of 5 and receives 837. *)
Definition w130 : world state := after w1 [("alice", [us 5], sell2)].
Example C130_case :
  collision_free p0 /\ prefix_free p0 /\ slash_free p0 /\ reachable p0 w1 /\ small_history p0 (w_st w1) /\ small_call [us 5] sell2 /\
  top_bid (w_st w1) "coll1" "2" (us 700) (MCBid cbid1) /\ p_reg_reenters p0 = false /\
  is_ok (run_tx p0 (execute p0) w1 "alice" [us 5] sell2) = true /\
  w_bank w130 "alice" "ustars" + 5 = w_bank w1 "alice" "ustars" + 837 /\
  w_bank w130 "feemg" "ustars" = w_bank w1 "feemg" "ustars" + 23 /\ w_bank w130 "royal" "ustars" = w_bank w1 "royal" "ustars" + 45 /\
  w_bank w130 "mrktp" "ustars" + 900 = w_bank w1 "mrktp" "ustars" /\ w_bank w130 "bobby" "ustars" = w_bank w1 "bobby" "ustars" /\
  w_nft w1 "coll1" "2" = Some "alice" /\ w_nft w130 "coll1" "2" = Some "carol" /\ w_nft w130 "coll1" "1" = Some "mrktp" /\
  w_appr w1 "coll1" "2" "mrktp" || w_oper w1 "coll1" "alice" "mrktp" = true.
Proof.
  split; [exact p0_collision_free|]. split; [exact p0_prefix_free|]. split; [exact p0_slash_free|]. split; [exact w1_reachable|].
  split; [exact st1_small|]. split; [apply small_sell2; unfold U128_MAX; lia|]. split; [apply C121_case|]. split; [done|].
  by vm_compute.
Qed.
(** Nobody sells the NFT of somebody else; a bid is taken back by its creator only. *)
Example C130_case_fails :
  ~ (exists w', run_tx p0 (execute p0) w1 "bobby" [us 5] sell2 = Ok w') /\
  ~ (exists w', run_tx p0 (execute p0) w1 "david" [] (RemoveBid bid_id) = Ok w') /\
  (exists w', run_tx p0 (execute p0) w1 "bobby" [] (RemoveBid bid_id) = Ok w').
Proof.
  split; [|split].
  - intros [w' H]. assert (is_ok (run_tx p0 (execute p0) w1 "bobby" [us 5] sell2) = false) as E by by vm_compute. by rewrite H in E.
  - intros H. apply (proj1 (C130_withdraw_exactly p0 w1 "david" [] p0_collision_free p0_prefix_free p0_slash_free w1_reachable st1_small)) with (b := bid1) in H;
      [by destruct H as (_&_&?&_)|exact (proj1 (proj2 st1_orders))].
  - apply (proj1 (C130_withdraw_exactly p0 w1 "bobby" [] p0_collision_free p0_prefix_free p0_slash_free w1_reachable st1_small)) with (b := bid1);
      [exact (proj1 (proj2 st1_orders))|]. split_and!; by vm_compute.
Qed.
