(** Transactions and block hooks of the reserve auction on the executable chain: when they go through, and every balance and
    NFT afterwards. *)
From stdpp Require Import relations.
From Verif Require Import Base BaseFacts Common Chain ChainFacts LedgerSpec TxSpec QuerySpec RAModel RASpec RAReach RAExamples RARefute
  RAProperties RAExactSpec RAExactProperties RATx.

(** * C131 *)
Theorem C131_goes_exactly : forall p lb w sender funds m, ra_reachable p lb w -> (forall c, c ∈ funds -> c_amount c <= U128_MAX) ->
  (exists w', run_tx p (execute p lb) w sender funds m = Ok w') <->
  affords p w sender funds /\ exists st' msgs,
    calls p lb (view_of p w) (w_time w) sender funds (w_st w) m st' msgs /\ Forall (goes_through p w) msgs.
Proof. exact tx_goes. Qed.
Print Assumptions C131_goes_exactly.
Theorem C131_books : forall p lb w sender funds m w', ra_reachable p lb w -> (forall c, c ∈ funds -> c_amount c <= U128_MAX) ->
  run_tx p (execute p lb) w sender funds m = Ok w' ->
  exists st' msgs, calls p lb (view_of p w) (w_time w) sender funds (w_st w) m st' msgs /\ settled_as p w sender funds st' msgs w'.
Proof. exact tx_settled. Qed.
Print Assumptions C131_books.
(** Block hooks and governance: nobody attaches coins. *)
Theorem C131_sudo_goes_exactly : forall p lb w m, ra_reachable p lb w -> t_seconds (w_time w) < U64_MAX ->
  (exists w', run_sudo p lb w m = Ok w') <->
  exists st' msgs, sudo_calls p lb (view_of p w) (w_time w) (w_st w) m st' msgs /\ Forall (goes_through p w) msgs.
Proof. exact sudo_tx_goes. Qed.
Print Assumptions C131_sudo_goes_exactly.
Theorem C131_sudo_books : forall p lb w m w', ra_reachable p lb w -> t_seconds (w_time w) < U64_MAX -> run_sudo p lb w m = Ok w' ->
  exists st' msgs, sudo_calls p lb (view_of p w) (w_time w) (w_st w) m st' msgs /\ settled_as p w (p_self p) [] st' msgs w'.
Proof. exact sudo_tx_settled. Qed.
Print Assumptions C131_sudo_books.
(** Single calls: a bid fails on the chain for one reason more than in the contract, a blocked leader; the seller can take
    back an auction without bids; anyone can settle an auction that can be finished. *)
Theorem C131_bid_exactly : forall p lb w sender funds coll tok a, ra_reachable p lb w -> (forall c, c ∈ funds -> c_amount c <= U128_MAX) ->
  s_auctions (w_st w) !! (coll, tok) = Some a ->
  (exists w', run_tx p (execute p lb) w sender funds (PlaceBid coll tok) = Ok w') <->
  affords p w sender funds /\ a_seller a <> sender /\
  (forall hb, a_high a = Some hb -> p_blocked p (hb_bidder hb) = false) /\
  exists n, funds = [Coin (c_denom (a_reserve a)) n] /\ 0 < n /\
    exists a' ms, bid_result (w_time w) (s_config (w_st w)) sender n a a' ms /\ forall t, a_end a' = Some t -> t <= U64_MAX.
Proof. exact bid_tx. Qed.
Print Assumptions C131_bid_exactly.
Theorem C131_cancel_exactly : forall p lb w sender funds coll tok a, ra_reachable p lb w -> (forall c, c ∈ funds -> c_amount c <= U128_MAX) ->
  s_auctions (w_st w) !! (coll, tok) = Some a -> coll <> p_self p ->
  (exists w', run_tx p (execute p lb) w sender funds (CancelAuction coll tok) = Ok w') <->
  sender <> p_self p /\ funds = [] /\ sender = a_seller a /\ a_high a = None.
Proof. exact cancel_tx. Qed.
Print Assumptions C131_cancel_exactly.
Theorem C131_open_exactly : forall p lb w sender funds coll tok reserve duration recipient,
  ra_reachable p lb w -> (forall c, c ∈ funds -> c_amount c <= U128_MAX) ->
  (exists w', run_tx p (execute p lb) w sender funds (CreateAuction coll tok reserve duration recipient) = Ok w') <->
  affords p w sender funds /\ may_open p lb (view_of p w) (w_time w) sender (w_st w) coll tok reserve duration recipient /\
  pays_fee (cf_create_fee (s_config (w_st w))) funds /\
  coll <> p_self p /\ (p_honest p coll = true -> may_move w coll tok (p_self p)).
Proof. exact open_tx. Qed.
Print Assumptions C131_open_exactly.
Theorem C131_settle_exactly : forall p lb w sender funds coll tok a, ra_reachable p lb w -> (forall c, c ∈ funds -> c_amount c <= U128_MAX) ->
  s_auctions (w_st w) !! (coll, tok) = Some a -> coll <> p_self p ->
  (exists w', run_tx p (execute p lb) w sender funds (SettleAuction coll tok) = Ok w') <->
  sender <> p_self p /\ funds = [] /\
  can_finish p lb (view_of p w) (w_time w) (s_config (w_st w)) (s_halt (w_st w)) a.
Proof. exact settle_tx. Qed.
Print Assumptions C131_settle_exactly.
(** Carol leads with 105; bobby's 111 returns those.  At the end anyone settles: 2 are burnt, 5 are royalties, alice gets the
    rest and carol the NFT; EndBlock does the same. *)
Definition outbid : world state := after lib1 w1 [Tx "bobby" [us 111] (PlaceBid "coll1" "1")].
Definition settled131 : world state := after lib1 w_over [Tx "dave1" [] (SettleAuction "coll1" "1")].
Definition ended131 : world state := after lib1 w_over [Sudo EndBlock].
Example C131_case :
  ra_reachable p1 lib1 w1 /\ s_auctions (w_st w1) !! ("coll1", "1") = Some auction1 /\
  is_ok (run_tx p1 (execute p1 lib1) w1 "bobby" [us 111] (PlaceBid "coll1" "1")) = true /\
  w_bank outbid "carol" "ustars" = w_bank w1 "carol" "ustars" + 105 /\ w_bank outbid "bobby" "ustars" + 111 = w_bank w1 "bobby" "ustars" /\
  w_bank outbid (p_self p1) "ustars" = w_bank w1 (p_self p1) "ustars" + 6 /\
  ra_reachable p1 lib1 w_over /\ t_seconds (w_time w_over) < U64_MAX /\ s_auctions (w_st w_over) !! ("coll1", "1") = Some auction1 /\
  is_ok (run_tx p1 (execute p1 lib1) w_over "dave1" [] (SettleAuction "coll1" "1")) = true /\
  w_bank settled131 "alice" "ustars" = w_bank w_over "alice" "ustars" + 98 /\
  w_bank settled131 "royal" "ustars" = w_bank w_over "royal" "ustars" + 5 /\
  w_bank settled131 (p_self p1) "ustars" + 105 = w_bank w_over (p_self p1) "ustars" /\
  w_nft w_over "coll1" "1" = Some (p_self p1) /\ w_nft settled131 "coll1" "1" = Some "carol" /\
  is_ok (run_sudo p1 lib1 w_over EndBlock) = true /\ w_nft ended131 "coll1" "1" = Some "carol" /\
  w_bank ended131 "alice" "ustars" = w_bank w_over "alice" "ustars" + 98.
Proof.
  split; [exact w1_reachable|]. split; [by vm_compute|]. split; [by vm_compute|]. split; [by vm_compute|]. split; [by vm_compute|].
  split; [by vm_compute|]. split; [exact w_over_reachable|]. by vm_compute.
Qed.
(** In [blocked_world] the recipient of auction 2 is blocked: the contract agrees to settle it, the chain does not. *)
Example C131_case_blocked : ra_reachable p1 lib1 blocked_world /\
  is_ok (execute p1 lib1 (view_of p1 blocked_world) (env_of blocked_world) "dave1" [] (w_st blocked_world) (SettleAuction "coll1" "2")) = true /\
  exists a, s_auctions (w_st blocked_world) !! ("coll1", "2") = Some a /\
    ~ can_finish p1 lib1 (view_of p1 blocked_world) (w_time blocked_world) (s_config (w_st blocked_world)) (s_halt (w_st blocked_world)) a.
Proof.
  assert (ra_reachable p1 lib1 blocked_world) as Hb by (apply after_reachable; [apply rw0_reachable|by vm_compute]).
  split; [done|]. split; [by vm_compute|].
  assert (is_Some (s_auctions (w_st blocked_world) !! (("coll1", "2") : akey))) as [a Ha] by (by vm_compute; eexists).
  exists a. split; [done|]. intros Hc.
  destruct (proj2 (C131_settle_exactly p1 lib1 blocked_world "dave1" [] "coll1" "2" a Hb ltac:(by intros c ?%elem_of_nil) Ha ltac:(done)))
    as [w' Hw]; [done|].
  assert (is_ok (run_tx p1 (execute p1 lib1) blocked_world "dave1" [] (SettleAuction "coll1" "2")) = false) as E by by vm_compute.
  by rewrite Hw in E.
Qed.
