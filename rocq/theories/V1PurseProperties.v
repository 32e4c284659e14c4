(** What a group of accounts owns on the chain, with v1 (C168 of properties.jsonl).  What the theorem rests on is printed beneath, and an
    example shows a concrete case meeting its hypotheses. *)
From stdpp Require Import relations.
From Verif Require Import Base BaseFacts Common Chain ChainFacts LedgerSpec Ledger TxSpec TxFacts PurseSpec PurseFacts V1Model V1Spec V1Reach V1Examples
  V1Properties V1LedgerSpec V1WealthSpec V1Wealth V1Tx V1TxProperties V1PurseSpec.

(** * C168 *)
(** A transaction makes a group richer by no more than what an outsider pays for an NFT and what the operator keeps of an outsider's
    stale bid. *)
Theorem C168_v1_wealth : forall p x (G : list addr) d w sender funds m w', v1_reachable p x w -> group_of p G ->
  run_tx p (execute p x) w sender funds m = Ok w' ->
  exists msgs, execute p x (view_of p w) (env_of w) sender funds (w_st w) m = Ok (w_st w', msgs) /\
    let h := User sender funds m (w_st w) (w_st w') msgs in
    wealth G d w' <= wealth G d w + sales (member G) d h + kept (member G) d h.
Proof.
  intros p x G d w sender funds m w' Hr HG ([Hs _]&st'&msgs&He&H)%run_tx_settled. exists msgs.
  pose proof (purse_after p G d w sender funds st' msgs w' HG H) as Hb. unfold wealth. cbv zeta. rewrite (sa_storage _ _ _ _ _ _ _ H). split; [done|].
  pose proof (step_gain p x (member G) d _ _ _ (reachable_history p x w Hr) (rec_user p x _ _ _ _ _ _ _ _ Hs He)) as Hg.
  unfold got, put in Hg. cbn [e_msgs] in Hg. unfold got_by in Hb. lia.
Qed.
Print Assumptions C168_v1_wealth.

(** Carol buys alice's NFT at 1000.  Alice gains 920 of that; alice and carol together lose the other 80. *)
Example C168_v1_case x : group_of p1 ["alice"] /\ group_of p1 ["alice"; "carol"] /\ v1_reachable p1 x (vw1 x) /\
  is_ok (run_tx p1 (execute p1 x) (vw1 x) "carol" [us 1000] buy1) = true /\
  let w' := after x (vw1 x) [Tx "carol" [us 1000] buy1] in
  wealth ["alice"] "ustars" w' = wealth ["alice"] "ustars" (vw1 x) + 920 /\
  wealth ["alice"; "carol"] "ustars" w' + 80 = wealth ["alice"; "carol"] "ustars" (vw1 x).
Proof.
  split; [split; [by apply (bool_decide_unpack _); vm_compute|by apply (bool_decide_unpack _); vm_compute]|].
  split; [split; [by apply (bool_decide_unpack _); vm_compute|by apply (bool_decide_unpack _); vm_compute]|].
  split; [apply vw1_reachable|]. split; [by vm_compute|]. cbv zeta.
  split; by vm_compute.
Qed.
