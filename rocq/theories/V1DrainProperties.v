(** Everybody can withdraw from marketplace v1 (C141 of properties.jsonl).  Each theorem is closed by a lemma proved elsewhere; what it
    rests on is printed beneath it, and an example shows a concrete case meeting its hypotheses. *)
From stdpp Require Import relations.
From Verif Require Import Base BaseFacts Common Chain ChainFacts LedgerSpec V1Model V1Spec V1Facts V1Inv V1Reach V1Examples
  V1DrainSpec V1Drain.

(** * C141 *)
(** Any bidders withdraw any of their bids one after the other, in any order: every call goes through. *)
Theorem C141_v1_any_order : forall p x w os, v1_reachable p x w -> NoDup os ->
  (forall o, o ∈ os -> in_book (w_st w) o /\ p_blocked p (bidder_of o) = false) ->
  exists w', run_txs p (execute p x) w (map withdrawal os) = Ok w' /\ v1_reachable p x w' /\ withdrawn p w os w'.
Proof. exact withdraw_any. Qed.
Print Assumptions C141_v1_any_order.
Theorem C141_v1_emptied : forall p x w os, v1_reachable p x w -> NoDup os -> (forall o, o ∈ os <-> in_book (w_st w) o) ->
  (forall o, o ∈ os -> p_blocked p (bidder_of o) = false) ->
  exists w', run_txs p (execute p x) w (map withdrawal os) = Ok w' /\ withdrawn p w os w' /\ s_bids (w_st w') = ∅ /\ s_cbids (w_st w') = ∅.
Proof. exact withdraw_everything. Qed.
Print Assumptions C141_v1_emptied.

(** The whole book of the story, last come first served. *)
Definition cbid2 : cbid := CBid "coll1" "bobby" 400 None (sec 1500).
Definition os1 : list order := [OCbid cbid2; OCbid cbid1; OBid bid2; OBid bid1].
Example C141_case x : v1_reachable p1 x (vw1 x) /\ NoDup os1 /\ (forall o, o ∈ os1 <-> in_book (w_st (vw1 x)) o) /\
  (forall o, o ∈ os1 -> p_blocked p1 (bidder_of o) = false) /\
  let w' := after x (vw1 x) (map (fun c => Tx c.1.1 c.1.2 c.2) (map withdrawal os1)) in
  w_bank w' "bobby" "ustars" = w_bank (vw1 x) "bobby" "ustars" + 1350 /\ w_bank w' "carol" "ustars" = w_bank (vw1 x) "carol" "ustars" + 600 /\
  w_bank w' "daver" "ustars" = w_bank (vw1 x) "daver" "ustars" + 700 /\
  w_bank (vw1 x) (p_self p1) "ustars" = 2650 /\ w_bank w' (p_self p1) "ustars" = 0.
Proof.
  split; [apply vw1_reachable|]. split; [by repeat (constructor; [rewrite ?elem_of_cons, elem_of_nil; naive_solver|]); constructor|].
  split.
  { intros o. unfold os1. split.
    - intros H. apply elem_of_cons in H as [->|H]; [vm_compute; reflexivity|]. apply elem_of_cons in H as [->|H]; [apply vw1_cbid1|].
      apply elem_of_cons in H as [->|H]; [apply vw1_bid2|]. apply elem_of_cons in H as [->|H]; [apply vw1_bid1|]. by apply elem_of_nil in H.
    - destruct o as [b|b]; cbn [in_book]; intros H%elem_of_map_to_list; apply (elem_of_list_fmap_1 snd) in H; cbn [snd] in H.
      + assert ((map_to_list (s_bids (w_st (vw1 x)))).*2 = [bid1; bid2]) as E by (vm_compute; reflexivity).
        rewrite E in H. clear E. repeat (apply elem_of_cons in H as [->|H]; [repeat (left || right)|]). by apply elem_of_nil in H.
      + assert ((map_to_list (s_cbids (w_st (vw1 x)))).*2 = [cbid1; cbid2]) as E by (vm_compute; reflexivity).
        rewrite E in H. clear E. repeat (apply elem_of_cons in H as [->|H]; [repeat (left || right)|]). by apply elem_of_nil in H. }
  split.
  { intros o. unfold os1. rewrite !elem_of_cons, elem_of_nil. intros [->|[->|[->|[->|[]]]]]; done. }
  vm_compute. split_and!; reflexivity.
Qed.
