(** Transactions of marketplace v1 on the executable chain: when they go through, and every balance and NFT afterwards. *)
From stdpp Require Import relations pretty.
From Verif Require Import Base BaseFacts Common Chain ChainFacts LedgerSpec TxSpec V1Model V1Spec V1Examples V1Properties V1Tx.

(** * C132: a transaction goes through exactly when the sender can pay, the call does something (C106-C109), all recipients
    can receive coins and the NFT can be moved; nothing depends on the hooks. *)
Theorem C132_goes_exactly : forall p x w s f m, v1_reachable p x w -> no_overflow (env_of w) f (w_st w) ->
  (exists w', run_tx p (execute p x) w s f m = Ok w') <->
  affords p w s f /\ exists st' ms, v1_does p x (view_of p w) (env_of w) s f (w_st w) m st' ms /\ Forall (goes_through p w) (must_go ms).
Proof. exact tx_goes. Qed.
Print Assumptions C132_goes_exactly.
Theorem C132_books : forall p x w s f m w', v1_reachable p x w -> no_overflow (env_of w) f (w_st w) ->
  run_tx p (execute p x) w s f m = Ok w' ->
  exists st' ms, v1_does p x (view_of p w) (env_of w) s f (w_st w) m st' ms /\ settled_as p w s f st' (must_go ms) w'.
Proof. exact tx_settled. Qed.
Print Assumptions C132_books.
(** Cleaning up stale bids (C83 is false because the reward can be zero or the whole bid). *)
Theorem C132_clean_exactly : forall p x w s f coll tok who b, v1_reachable p x w -> no_overflow (env_of w) f (w_st w) ->
  s_bids (w_st w) !! (coll, tok, who) = Some b ->
  let reward := b_price b * sp_reward (s_params (w_st w)) / 10 ^ 20 in
  (exists w', run_tx p (execute p x) w s f (RemoveStaleBid coll tok who) = Ok w') <->
  s <> p_self p /\ f = [] /\ operator (w_st w) s /\ p_valid p who = true /\ stale (w_st w) (w_time w) (b_expires b) /\
  0 < reward < b_price b /\ p_blocked p who = false /\ p_blocked p s = false.
Proof. exact clean_tx. Qed.
Print Assumptions C132_clean_exactly.
Theorem C132_clean_collection_exactly : forall p x w s f coll who b, v1_reachable p x w -> no_overflow (env_of w) f (w_st w) ->
  s_cbids (w_st w) !! (coll, who) = Some b ->
  let reward := cb_price b * sp_reward (s_params (w_st w)) / 10 ^ 20 in
  (exists w', run_tx p (execute p x) w s f (RemoveStaleCollectionBid coll who) = Ok w') <->
  s <> p_self p /\ f = [] /\ operator (w_st w) s /\ p_valid p who = true /\ stale (w_st w) (w_time w) (cb_expires b) /\
  0 < reward < cb_price b /\ p_blocked p who = false /\ p_blocked p s = false.
Proof. exact cclean_tx. Qed.
Print Assumptions C132_clean_collection_exactly.
(** Bids can be taken back at any time, and turned down by the owner of the NFT. *)
Theorem C132_withdraw_exactly : forall p x w s f coll, v1_reachable p x w -> no_overflow (env_of w) f (w_st w) ->
  (forall tok b, s_bids (w_st w) !! (coll, tok, s) = Some b ->
    (exists w', run_tx p (execute p x) w s f (RemoveBid coll tok) = Ok w') <-> s <> p_self p /\ f = [] /\ p_blocked p s = false) /\
  (forall b, s_cbids (w_st w) !! (coll, s) = Some b ->
    (exists w', run_tx p (execute p x) w s f (RemoveCollectionBid coll) = Ok w') <-> s <> p_self p /\ f = [] /\ p_blocked p s = false) /\
  (forall tok who b, s_bids (w_st w) !! (coll, tok, who) = Some b ->
    (exists w', run_tx p (execute p x) w s f (RejectBid coll tok who) = Ok w') <->
    s <> p_self p /\ f = [] /\ p_valid p who = true /\ owns (view_of p w) s coll tok /\ p_blocked p who = false).
Proof.
  intros p x w s f coll Hr Ho. split_and!.
  - intros tok b. exact (withdraw_tx p x w s f coll tok b Hr Ho).
  - intros b. exact (cwithdraw_tx p x w s f coll b Hr Ho).
  - intros tok who b. exact (reject_tx p x w s f coll tok who b Hr Ho).
Qed.
Print Assumptions C132_withdraw_exactly.
(** Selling into a bid, and buying at the price of a listing (C93 is false because the parts of the sale may not arrive). *)
Theorem C132_sell_exactly : forall p x w s f coll tok who finder b, v1_reachable p x w -> no_overflow (env_of w) f (w_st w) ->
  s_bids (w_st w) !! (coll, tok, who) = Some b ->
  let rate := sp_trading_fee (s_params (w_st w)) in
  (exists w', run_tx p (execute p x) w s f (AcceptBid coll tok who finder) = Ok w') <->
  s <> p_self p /\ f = [] /\ p_valid p who = true /\ known p finder /\ owns (view_of p w) s coll tok /\
  tradable (view_of p w) (env_of w) coll /\ live (env_of w) (b_expires b) /\
  (exists ci, q_info (view_of p w) coll = Some ci /\ pays_off rate (b_price b) finder (b_finders b) (ci_royalty ci) /\
    parts_arrive p x (split_of rate (b_price b) finder (b_finders b) (ci_royalty ci)) finder s) /\
  coll <> p_self p /\ (p_honest p coll = true -> may_move w coll (pretty tok) (p_self p)).
Proof. exact accept_tx. Qed.
Print Assumptions C132_sell_exactly.
Theorem C132_buy_exactly : forall p x w s f m ba a, v1_reachable p x w -> no_overflow (env_of w) f (w_st w) -> bid_call m = Some ba ->
  s_asks (w_st w) !! (ba_coll ba, ba_tok ba) = Some a -> k_type a = FixedPrice -> f = [native (k_price a)] ->
  let rate := sp_trading_fee (s_params (w_st w)) in
  (exists w', run_tx p (execute p x) w s f m = Ok w') <->
  affords p w s f /\ (p_valid p (ba_coll ba) = true /\ known p (ba_finder ba) /\ known p (ba_to ba)) /\
  (0 < k_price a /\ sp_min_price (s_params (w_st w)) <= k_price a) /\ ba_finder ba <> Some s /\ finder_allowed (w_st w) (ba_bps ba) /\
  in_window (sp_bid_expiry (s_params (w_st w))) (w_time w) (ba_expires ba) /\
  live (env_of w) (k_expires a) /\ k_active a = true /\ (forall r, k_reserve a = Some r -> r = s) /\
  owns (view_of p w) (k_seller a) (ba_coll ba) (ba_tok ba) /\
  (forall b, s_bids (w_st w) !! (ba_coll ba, ba_tok ba, s) = Some b -> p_blocked p s = false) /\
  (exists ci, q_info (view_of p w) (ba_coll ba) = Some ci /\ pays_off rate (k_price a) (ba_finder ba) (k_finders a) (ci_royalty ci) /\
    parts_arrive p x (split_of rate (k_price a) (ba_finder ba) (k_finders a) (ci_royalty ci)) (ba_finder ba) (default (k_seller a) (k_recipient a))) /\
  ba_coll ba <> p_self p /\ (p_honest p (ba_coll ba) = true -> may_move w (ba_coll ba) (pretty (ba_tok ba)) (p_self p)).
Proof. exact buy_tx. Qed.
Print Assumptions C132_buy_exactly.
(** Alice takes bobby's bid for token 1; carol buys it instead at the listed 1000. *)
Example C132_case x : v1_reachable p1 x (vw1 x) /\ no_overflow (env_of (vw1 x)) [] (w_st (vw1 x)) /\
  no_overflow (env_of (vw1 x)) [us 1000] (w_st (vw1 x)) /\ s_bids (w_st (vw1 x)) !! ("coll1", 1, "bobby") = Some bid1 /\
  is_ok (run_tx p1 (execute p1 x) (vw1 x) "alice" [] (AcceptBid "coll1" 1 "bobby" None)) = true /\
  is_ok (run_tx p1 (execute p1 x) (vw1 x) "david" [] (AcceptBid "coll1" 1 "bobby" None)) = false /\
  is_ok (run_tx p1 (execute p1 x) (vw1 x) "carol" [us 1000] buy1) = true /\
  is_ok (run_tx p1 (execute p1 x) (vw1 x) "bobby" [] (RemoveBid "coll1" 1)) = true /\
  is_ok (run_tx p1 (execute p1 x) (vw1 x) "alice" [] (RejectBid "coll1" 1 "bobby")) = true.
Proof.
  split; [apply vw1_reachable|]. split; [apply no_overflow_by; by vm_compute|]. split; [apply no_overflow_by; by vm_compute|].
  split; [by vm_compute|]. split; [by vm_compute|]. split; [by vm_compute|]. split; [by vm_compute|]. split; by vm_compute.
Qed.
Example C132_case_books x : let w' := after x (vw1 x) [Tx "carol" [us 1000] buy1] in
  (exists a, s_asks (w_st (vw1 x)) !! ("coll1", 1) = Some a /\ k_type a = FixedPrice /\ k_price a = 1000) /\
  w_bank w' "carol" "ustars" + 1000 = w_bank (vw1 x) "carol" "ustars" /\ w_nft w' "coll1" "1" = Some "carol" /\
  w_bank w' "alice" "ustars" > w_bank (vw1 x) "alice" "ustars" /\ w_bank w' "marke" "ustars" = w_bank (vw1 x) "marke" "ustars".
Proof. cbv zeta. split; [eexists; split; [by vm_compute|done]|]. by vm_compute. Qed.
(** After the grace period the operator removes bobby's bid, and nobody else does. *)
Example C132_case_clean x : no_overflow (env_of (vw2 x)) [] (w_st (vw2 x)) /\
  (exists w', run_tx p1 (execute p1 x) (vw2 x) "opera" [] (RemoveStaleBid "coll1" 1 "bobby") = Ok w') /\
  ~ (exists w', run_tx p1 (execute p1 x) (vw2 x) "carol" [] (RemoveStaleBid "coll1" 1 "bobby") = Ok w').
Proof.
  assert (no_overflow (env_of (vw2 x)) [] (w_st (vw2 x))) as Ho by (apply no_overflow_by; by vm_compute).
  destruct (C83_case x) as (Hr&Hop&Hb&Hst&Hrw). split; [done|]. split.
  - rewrite (C132_clean_exactly p1 x _ _ _ _ _ _ _ Hr Ho Hb). cbv zeta. rewrite Hrw. split; [by vm_compute|]. split; [done|]. split; [done|]. split; [by vm_compute|]. split; [done|]. split; [split; by vm_compute|]. split; by vm_compute.
  - rewrite (C132_clean_exactly p1 x _ _ _ _ _ _ _ Hr Ho Hb). intros (_&_&Hc&_). unfold operator in Hc.
    assert (sp_operators (s_params (w_st (vw2 x))) = ["admin"; "opera"]) as E by (by vm_compute). rewrite E in Hc. clear -Hc. apply elem_of_cons in Hc as [?|[?|Hc%elem_of_nil]%elem_of_cons]; done.
Qed.
