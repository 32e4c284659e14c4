(** What a group of accounts owns on the chain, with the reserve auction (C168 of properties.jsonl).  What the theorems rest on is printed
    beneath, and an example shows a concrete case meeting their hypotheses. *)
From stdpp Require Import relations.
From Verif Require Import Base BaseFacts Common Chain ChainFacts LedgerSpec Ledger TxSpec TxFacts PurseSpec PurseFacts QuerySpec RAModel RASpec RAReach
  RAExamples RAProperties RALedgerSpec RAWealthSpec RAWealth RATx RATxProperties RAPurseSpec.

(** * C168 *)
(** A transaction makes a group richer by no more than what outsiders pay for the auctions that are over after it; so does a block. *)
Theorem C168_ra_wealth : forall p lb (G : list addr) d w sender funds m w', ra_reachable p lb w -> group_of p G ->
  run_tx p (execute p lb) w sender funds m = Ok w' -> wealth G d w' <= wealth G d w + won_by_outsiders G d w w'.
Proof.
  intros p lb G d w sender funds m w' Hr HG ([Hs _]&st'&msgs&He&H)%run_tx_settled.
  pose proof (purse_after p G d w sender funds st' msgs w' HG H) as Hb. unfold wealth, won_by_outsiders. rewrite (sa_storage _ _ _ _ _ _ _ H).
  pose proof (step_gain p lb (member G) d _ _ _ (reachable_history p lb w Hr) (rec_user p lb _ _ _ _ _ _ _ _ Hs He)) as Hg.
  unfold got, put, sales in Hg. cbn [e_msgs e_before e_after] in Hg. unfold got_by in Hb. lia.
Qed.
Print Assumptions C168_ra_wealth.
Theorem C168_ra_block : forall p lb (G : list addr) d w m w', ra_reachable p lb w -> group_of p G ->
  run_sudo p lb w m = Ok w' -> wealth G d w' <= wealth G d w + won_by_outsiders G d w w'.
Proof.
  intros p lb G d w m w' Hr HG H. unfold run_sudo in H. apply bind_Ok in H as ([st' msgs]&He&H). cbn [fst snd] in H.
  apply run_msgs_settled in H as (H1&H2&H3&H4&H5&H6&H7&H8).
  assert (settled_as p w (p_self p) [] st' msgs w') as H.
  { constructor; try done. intros x d'. specialize (H2 x d'). cbn [w_bank set_st] in H2. rewrite coins_of_nil. destruct (decide (x = p_self p)); lia. }
  pose proof (purse_after p G d w (p_self p) [] st' msgs w' HG H) as Hb. unfold wealth, won_by_outsiders. rewrite (sa_storage _ _ _ _ _ _ _ H).
  rewrite coins_of_nil in Hb.
  pose proof (step_gain p lb (member G) d _ _ _ (reachable_history p lb w Hr) (rec_chain p lb _ _ _ _ _ _ He)) as Hg.
  unfold got, put, sales in Hg. cbn [e_msgs e_before e_after] in Hg. unfold got_by in Hb. destruct (member G (p_self p)); lia.
Qed.
Print Assumptions C168_ra_block.

(** Carol wins alice's auction with 105.  Alice gains 98 of them; alice and carol together lose the fee and the royalty.  Before, bobby
    outbids carol, and nobody owns more or less. *)
Example C168_ra_case : group_of p1 ["alice"] /\ group_of p1 ["alice"; "carol"] /\ group_of p1 ["bobby"; "carol"] /\
  ra_reachable p1 lib1 w1 /\ ra_reachable p1 lib1 w_over /\
  is_ok (run_tx p1 (execute p1 lib1) w1 "bobby" [us 111] (PlaceBid "coll1" "1")) = true /\ is_ok (run_sudo p1 lib1 w_over EndBlock) = true /\
  wealth ["bobby"; "carol"] "ustars" outbid = wealth ["bobby"; "carol"] "ustars" w1 /\
  wealth ["alice"] "ustars" ended131 = wealth ["alice"] "ustars" w_over + 98 /\ won_by_outsiders ["alice"] "ustars" w_over ended131 = 105 /\
  wealth ["alice"; "carol"] "ustars" ended131 + 7 = wealth ["alice"; "carol"] "ustars" w_over /\
  won_by_outsiders ["alice"; "carol"] "ustars" w_over ended131 = 0.
Proof.
  split; [split; [by apply (bool_decide_unpack _); vm_compute|by apply (bool_decide_unpack _); vm_compute]|].
  split; [split; [by apply (bool_decide_unpack _); vm_compute|by apply (bool_decide_unpack _); vm_compute]|].
  split; [split; [by apply (bool_decide_unpack _); vm_compute|by apply (bool_decide_unpack _); vm_compute]|].
  split; [exact w1_reachable|]. split; [exact w_over_reachable|]. split_and!; by vm_compute.
Qed.
