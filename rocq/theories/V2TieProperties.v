(** First come, first served at equal prices (C148 of properties.jsonl): false, and what is true instead.  Each theorem is closed by a lemma
    proved elsewhere; what it rests on is printed beneath it, and an example shows a concrete case meeting its hypotheses. *)
From stdpp Require Import relations.
From Verif Require Import Base BaseFacts Common Chain ChainFacts QuerySpec V2Model V2Spec V2Facts V2Inv V2Reach V2Examples
  V2Properties V2ExactSpec V2Exact V2ExactProperties V2TieSpec V2Tie.

(** * C148 *)
(** Bobby bids 800, then carol; alice sells, and carol's bid is served while bobby's waits. *)
Theorem C148_bids_refuted : exists p, collision_free p /\ prefix_free p /\ slash_free p /\ ~ bids_first_come p.
Proof.
  exists p0. split; [exact p0_collision_free|]. split; [exact p0_prefix_free|]. split; [exact p0_slash_free|exact bids_refuted].
Qed.
Print Assumptions C148_bids_refuted.
(** Alice lists token 2, then token 1, for 800 each; who buys any of the collection gets token 1. *)
Theorem C148_listings_refuted : exists p, collision_free p /\ prefix_free p /\ slash_free p /\ ~ listings_first_come p.
Proof.
  exists p0. split; [exact p0_collision_free|]. split; [exact p0_prefix_free|]. split; [exact p0_slash_free|exact listings_refuted].
Qed.
Print Assumptions C148_listings_refuted.
(** Whatever the hash: of two bids on a token at the same price, one that is traded has the greater id. *)
Theorem C148_bid_ties_partial : forall p v e sender funds st m st' msgs coll tok price b1 b2,
  collision_free p -> prefix_free p -> slash_free p ->
  small_history p st -> small_call funds m -> ask_call st m coll tok price -> execute p v e sender funds st m = Ok (st', msgs) ->
  s_bids st !! b_id b1 = Some b1 -> s_bids st !! b_id b2 = Some b2 -> b_coll b1 = b_coll b2 -> b_tok b1 = b_tok b2 ->
  d_price (b_det b1) = d_price (b_det b2) -> b1 <> b2 -> s_bids st' !! b_id b2 = None ->
  id_before (b_id b1) (b_id b2).
Proof. intros p v e sender funds st m st' msgs coll tok price b1 b2 Hcf Hpf Hsl. by apply bid_tie. Qed.
Print Assumptions C148_bid_ties_partial.
(** The same for bids on a collection. *)
Theorem C148_collection_bid_ties_partial : forall p v e sender funds st m st' msgs coll tok price b1 b2,
  collision_free p -> prefix_free p -> slash_free p ->
  small_history p st -> small_call funds m -> ask_call st m coll tok price -> execute p v e sender funds st m = Ok (st', msgs) ->
  s_cbids st !! cb_id b1 = Some b1 -> s_cbids st !! cb_id b2 = Some b2 -> cb_coll b1 = cb_coll b2 ->
  d_price (cb_det b1) = d_price (cb_det b2) -> b1 <> b2 -> s_cbids st' !! cb_id b2 = None ->
  id_before (cb_id b1) (cb_id b2).
Proof. intros p v e sender funds st m st' msgs coll tok price b1 b2 Hcf Hpf Hsl. by apply cbid_tie. Qed.
Print Assumptions C148_collection_bid_ties_partial.
(** Of two listings at the same price, the one whose collection and token have the smaller hash is bought, whenever it was listed. *)
Theorem C148_listing_ties_partial : forall p v e sender funds st m st' msgs coll price a1 a2,
  collision_free p -> prefix_free p -> slash_free p ->
  small_history p st -> small_call funds m -> bid_call st m coll None price -> execute p v e sender funds st m = Ok (st', msgs) ->
  s_asks st !! a_id a1 = Some a1 -> s_asks st !! a_id a2 = Some a2 -> a_coll a1 = a_coll a2 ->
  d_price (a_det a1) = d_price (a_det a2) -> a1 <> a2 -> s_asks st' !! a_id a2 = None ->
  id_before (p_hash p (a_coll a2 +:+ a_tok a2)) (p_hash p (a_coll a1 +:+ a_tok a1)).
Proof. intros p v e sender funds st m st' msgs coll price a1 a2 Hcf Hpf Hsl. by apply ask_tie. Qed.
Print Assumptions C148_listing_ties_partial.
(** The book does not even remember which of two NFTs was listed first. *)
Theorem C148_listing_order_lost_partial :
  forall p v1 v2 v3 v4 e1 e2 e3 e4 s1 s2 f1 f2 coll1 coll2 tok1 tok2 d1 d2 st stA stB stA' stB' ms1 ms2 ms1' ms2',
  collision_free p -> prefix_free p -> slash_free p ->
  small_history p st -> small_history p stA -> small_history p stA' ->
  small_call f1 (SetAsk coll1 tok1 d1) -> small_call f2 (SetAsk coll2 tok2 d2) ->
  execute p v1 e1 s1 f1 st (SetAsk coll1 tok1 d1) = Ok (stA, ms1) -> execute p v2 e2 s2 f2 stA (SetAsk coll2 tok2 d2) = Ok (stB, ms2) ->
  execute p v3 e3 s2 f2 st (SetAsk coll2 tok2 d2) = Ok (stA', ms2') -> execute p v4 e4 s1 f1 stA' (SetAsk coll1 tok1 d1) = Ok (stB', ms1') ->
  is_Some (s_asks stA !! p_hash p (coll1 +:+ tok1)) -> is_Some (s_asks stB !! p_hash p (coll2 +:+ tok2)) ->
  is_Some (s_asks stA' !! p_hash p (coll2 +:+ tok2)) -> is_Some (s_asks stB' !! p_hash p (coll1 +:+ tok1)) ->
  stB = stB'.
Proof.
  intros p v1 v2 v3 v4 e1 e2 e3 e4 s1 s2 f1 f2 coll1 coll2 tok1 tok2 d1 d2 st stA stB stA' stB' ms1 ms2 ms1' ms2' Hcf Hpf Hsl.
  by apply listing_order.
Qed.
Print Assumptions C148_listing_order_lost_partial.

(** The ties of the two stories, and both orders of listing. *)
Definition other_way : world state :=
  after wf5 [("alice", [us 5], SetAsk "coll1" "1" (det 800)); ("alice", [us 5], SetAsk "coll1" "2" (det 800))].
Example C148_case :
  reachable p0 two_bids /\ bobbys <> carols /\ id_before (b_id bobbys) (b_id carols) /\
  s_bids (w_st two_bids) !! b_id bobbys = Some bobbys /\ s_bids (w_st two_bids) !! b_id carols = Some carols /\
  s_bids (w_st bid_sold) !! b_id bobbys = Some bobbys /\ s_bids (w_st bid_sold) !! b_id carols = None /\
  reachable p0 two_asks /\ s_asks (w_st ask_sold) !! a_id first_listed = Some first_listed /\ s_asks (w_st ask_sold) !! a_id then_listed = None /\
  map_to_list (s_asks (w_st two_asks)) = map_to_list (s_asks (w_st other_way)) /\ length (map_to_list (s_asks (w_st two_asks))) = 2%nat.
Proof.
  split.
  { change two_bids with (after one_bid [("carol", [us 800], SetBid "coll1" "2" (det 800))]).
    eapply (steps_reachable p0 one_bid); [|eapply run_txs_steps; apply after_run; vm_compute; reflexivity].
    eapply (steps_reachable p0 wf5); [exact wf5_reachable|eapply run_txs_steps; apply after_run; vm_compute; reflexivity]. }
  split; [discriminate|]. split; [vm_compute; reflexivity|]. split; [vm_compute; reflexivity|]. split; [vm_compute; reflexivity|].
  split; [vm_compute; reflexivity|]. split; [vm_compute; reflexivity|]. split.
  { eapply (steps_reachable p0 one_ask); [|eapply run_txs_steps; apply after_run; vm_compute; reflexivity].
    eapply (steps_reachable p0 wf5); [exact wf5_reachable|eapply run_txs_steps; apply after_run; vm_compute; reflexivity]. }
  split; [vm_compute; reflexivity|]. split; [vm_compute; reflexivity|]. split; vm_compute; reflexivity.
Qed.
