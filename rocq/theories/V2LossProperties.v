(** Nobody loses coins to transactions of others but for an NFT, in v2 (C169 of properties.jsonl).  What the theorems rest on is printed
    beneath, and an example shows a concrete case meeting their hypotheses. *)
From stdpp Require Import relations.
From Verif Require Import Base BaseFacts Common Chain ChainFacts LedgerSpec Ledger TxSpec TxFacts LossFacts V2Model V2Spec V2Facts V2Inv V2Reach V2Live
  V2Examples V2Properties V2ExactProperties V2LedgerSpec V2Ledger V2Tx V2TxProperties V2LossSpec.

(** * C169 *)
(** A transaction of somebody else costs an account at most the bids of it that leave the book. *)
Theorem C169_v2_kept : forall p n w sender funds m w' u d, collision_free p -> N.of_nat n < U64_MAX -> v2_history p n (w_st w) ->
  u <> sender -> u <> p_self p -> run_tx p (execute p) w sender funds m = Ok w' -> worth u d w <= worth u d w' + taken u d w w'.
Proof.
  intros p n w sender funds m w' u d Hcf Hn Hh Hs Hu (st'&ms&He&H)%tx_settled. unfold worth, taken. rewrite (sa_storage _ _ _ _ _ _ _ H).
  rewrite (bank_kept _ _ _ _ _ _ _ u d H Hs Hu). destruct (history_trace _ _ _ Hh) as (l&Ht&Hl).
  pose proof (step_books p u d _ l _ _ _ _ _ _ _ Hcf ltac:(rewrite Hl; done) Ht He) as E. cbv zeta in E. unfold paid_in, paid_back, spent, own in E.
  cbn [en_by en_funds en_msg en_before en_after en_msgs] in E. rewrite bool_decide_eq_false_2 in E by done. cbn [andb] in E. lia.
Qed.
Print Assumptions C169_v2_kept.
(** Whoever loses a bid so has the NFT, or who the bid names. *)
Theorem C169_v2_bid_for_nft : forall p n w sender funds m w' i b, collision_free p -> prefix_free p -> slash_free p -> N.of_nat n + 1 < U64_MAX ->
  v2_history p n (w_st w) -> run_tx p (execute p) w sender funds m = Ok w' ->
  s_bids (w_st w) !! i = Some b -> s_bids (w_st w') !! i = None -> b_creator b <> sender -> p_honest p (b_coll b) = true ->
  w_nft w' (b_coll b) (b_tok b) = Some (to_whom (b_creator b) (b_det b)).
Proof.
  intros p n w sender funds m w' i b Hcf Hpf Hsl Hn Hh ([Hs _]&st'&ms&He&H)%run_tx_settled Hb Hb' Hc Hho.
  rewrite (sa_storage _ _ _ _ _ _ _ H) in Hb'. destruct (history_trace _ _ _ Hh) as (l&Ht&Hl).
  assert (trace p st' (l ++ [Entry sender funds m (w_st w) st' ms])) as Ht' by (by eapply tr_next).
  eapply delivered; [exact H|done| |].
  - apply one_nft. by destruct (response_fine _ _ _ _ _ _ _ _ _ (history_wf _ _ _ Hh) He) as [_ ?].
  - refine (proj1 (bid_taken p _ _ (Entry sender funds m (w_st w) st' ms) i b Hcf Hpf Hsl _ Ht' _ _ Hb Hb')).
    + rewrite app_length, Hl. cbn [length]. lia.
    + apply elem_of_app. right. left.
    + unfold own. cbn [en_by]. by rewrite bool_decide_eq_false_2.
Qed.
Print Assumptions C169_v2_bid_for_nft.
Theorem C169_v2_collection_bid_for_nft : forall p n w sender funds m w' i b, collision_free p -> prefix_free p -> slash_free p ->
  N.of_nat n + 1 < U64_MAX -> v2_history p n (w_st w) -> run_tx p (execute p) w sender funds m = Ok w' ->
  s_cbids (w_st w) !! i = Some b -> s_cbids (w_st w') !! i = None -> cb_creator b <> sender -> p_honest p (cb_coll b) = true ->
  exists t, w_nft w' (cb_coll b) t = Some (to_whom (cb_creator b) (cb_det b)).
Proof.
  intros p n w sender funds m w' i b Hcf Hpf Hsl Hn Hh ([Hs _]&st'&ms&He&H)%run_tx_settled Hb Hb' Hc Hho.
  rewrite (sa_storage _ _ _ _ _ _ _ H) in Hb'. destruct (history_trace _ _ _ Hh) as (l&Ht&Hl).
  assert (trace p st' (l ++ [Entry sender funds m (w_st w) st' ms])) as Ht' by (by eapply tr_next).
  assert (N.of_nat (length (l ++ [Entry sender funds m (w_st w) st' ms])) < U64_MAX) as Hlen by (rewrite app_length, Hl; cbn [length]; lia).
  assert (Entry sender funds m (w_st w) st' ms ∈ l ++ [Entry sender funds m (w_st w) st' ms]) as Hin by (apply elem_of_app; right; left).
  assert (own (cb_creator b) (Entry sender funds m (w_st w) st' ms) = false) as Ho by (unfold own; cbn [en_by]; by rewrite bool_decide_eq_false_2).
  destruct (cbid_taken p _ _ _ i b Hcf Hpf Hsl Hlen Ht' Hin Ho Hb Hb') as (t&Hm&_). exists t.
  eapply delivered; [exact H|done| |exact Hm].
  apply one_nft. by destruct (response_fine _ _ _ _ _ _ _ _ _ (history_wf _ _ _ Hh) He) as [_ ?].
Qed.
Print Assumptions C169_v2_collection_bid_for_nft.

(** Alice sells token 2 into carol's bid of 900 for the collection: carol loses 900 and has the token; bobby, outbid, loses nothing. *)
Example C169_v2_case : collision_free p0 /\ prefix_free p0 /\ slash_free p0 /\ v2_history p0 4 (w_st w1) /\
  is_ok (run_tx p0 (execute p0) w1 "alice" [us 5] sell2) = true /\ p_honest p0 "coll1" = true /\
  worth "carol" "ustars" w1 = worth "carol" "ustars" w130 + 900 /\ taken "carol" "ustars" w1 w130 = 900 /\ w_nft w130 "coll1" "2" = Some "carol" /\
  worth "bobby" "ustars" w130 = worth "bobby" "ustars" w1 /\ taken "bobby" "ustars" w1 w130 = 0.
Proof.
  split; [exact p0_collision_free|]. split; [exact p0_prefix_free|]. split; [exact p0_slash_free|]. split; [exact st1_history|].
  split_and!; by vm_compute.
Qed.
