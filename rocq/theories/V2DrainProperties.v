(** Everybody can withdraw from marketplace v2 (C141 of properties.jsonl).  Each theorem is closed by a lemma proved elsewhere; what it
    rests on is printed beneath it, and an example shows a concrete case meeting its hypotheses. *)
From stdpp Require Import relations.
From Verif Require Import Base BaseFacts Common Chain ChainFacts LedgerSpec V2Model V2Spec V2Facts V2Inv V2Reach V2Examples
  V2DrainSpec V2Drain.

(** * C141 *)
(** The creators of any resting orders withdraw them one after the other, in any order: every call goes through, everybody gets what
    the order held, and nobody else is affected. *)
Theorem C141_v2_any_order : forall p w os, reachable p w -> p_reg_reenters p = false -> NoDup os ->
  (forall o, o ∈ os -> in_book (w_st w) o /\ returnable p o) ->
  exists w', run_txs p (execute p) w (map withdrawal os) = Ok w' /\ reachable p w' /\ withdrawn p w os w'.
Proof. exact withdraw_any. Qed.
Print Assumptions C141_v2_any_order.
(** If these are all the orders, none is left. *)
Theorem C141_v2_emptied : forall p w os, reachable p w -> p_reg_reenters p = false -> NoDup os ->
  (forall o, o ∈ os <-> in_book (w_st w) o) -> (forall o, o ∈ os -> returnable p o) ->
  exists w', run_txs p (execute p) w (map withdrawal os) = Ok w' /\ withdrawn p w os w' /\
    s_asks (w_st w') = ∅ /\ s_bids (w_st w') = ∅ /\ s_cbids (w_st w') = ∅.
Proof. exact withdraw_everything. Qed.
Print Assumptions C141_v2_emptied.

(** Last come, first served. *)
Definition os1 : list order := [OCbid cbid_id cbid1; OBid bid_id bid1; OAsk ask1_id ask1].
Example C141_case : reachable p0 w1 /\ p_reg_reenters p0 = false /\ NoDup os1 /\ (forall o, o ∈ os1 <-> in_book (w_st w1) o) /\
  (forall o, o ∈ os1 -> returnable p0 o) /\
  let w' := after w1 (map withdrawal os1) in
  w_bank w1 (p_self p0) "ustars" = 1700 /\ w_bank w' (p_self p0) "ustars" = 0 /\
  w_bank w' "bobby" "ustars" = w_bank w1 "bobby" "ustars" + 800 /\ w_bank w' "carol" "ustars" = w_bank w1 "carol" "ustars" + 900 /\
  w_nft w1 "coll1" "1" = Some (p_self p0) /\ w_nft w' "coll1" "1" = Some "alice".
Proof.
  split; [exact w1_reachable|]. split; [done|]. split; [by repeat (constructor; [rewrite ?elem_of_cons, elem_of_nil; naive_solver|]); constructor|].
  split.
  { destruct st1_orders as (Ha&Hb&Hc). intros o. unfold os1. rewrite !elem_of_cons, elem_of_nil. split.
    - intros [->|[->|[->|[]]]]; done.
    - destruct o as [i a|i b|i c]; intros H.
      + destruct (one_entry (s_asks st1) ask1_id ask1 i a) as [-> ->]; [vm_compute; reflexivity|done|tauto].
      + destruct (one_entry (s_bids st1) bid_id bid1 i b) as [-> ->]; [vm_compute; reflexivity|done|tauto].
      + destruct (one_entry (s_cbids st1) cbid_id cbid1 i c) as [-> ->]; [vm_compute; reflexivity|done|tauto]. }
  split.
  { intros o. unfold os1. rewrite !elem_of_cons, elem_of_nil. intros [->|[->|[->|[]]]]; done. }
  vm_compute. split_and!; reflexivity.
Qed.
