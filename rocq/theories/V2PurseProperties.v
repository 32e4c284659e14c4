(** What a group of accounts owns on the chain, with v2 (C168 of properties.jsonl).  What the theorems rest on is printed beneath, and an
    example shows a concrete case meeting their hypotheses. *)
From stdpp Require Import relations.
From Verif Require Import Base BaseFacts Common Chain ChainFacts LedgerSpec Ledger TxSpec TxFacts PurseSpec PurseFacts QuerySpec V2Model V2Spec V2Facts V2Inv V2Reach
  V2Examples V2Properties V2ExactSpec V2Exact V2ExactProperties V2QuoteSpec V2Tx V2TxProperties V2WealthSpec V2Wealth V2PurseSpec.

(** * C168 *)
(** A transaction makes a group richer by no more than the listing fee that an outsider pays to the fee manager, if it is a member, and
    the price, if an outsider buys. *)
Theorem C168_v2_wealth : forall p (G : list addr) d w sender funds m w',
  collision_free p -> prefix_free p -> slash_free p -> group_of p G -> small_history p (w_st w) -> small_call funds m ->
  run_tx p (execute p) w sender funds m = Ok w' ->
  wealth G d w' <= wealth G d w + fee_income G d w sender funds m \/
  exists msgs buyer price, buys p (view_of p w) sender (w_st w) (w_st w') msgs buyer price /\ buyer ∉ G /\
    wealth G d w' <= wealth G d w + fee_income G d w sender funds m + of_denom d price.
Proof.
  intros p G d w sender funds m w' Hcf Hpf Hsl HG Hh Hc (st'&msgs&He&Hs)%tx_settled.
  pose proof (purse_after p G d w sender funds st' msgs w' HG Hs) as Hb. unfold wealth, fee_income. rewrite (sa_storage _ _ _ _ _ _ _ Hs).
  change (got_by (member G) d msgs) with (got (member G) d msgs) in Hb.
  destruct (member G (cf_fee_manager (s_config (w_st w)))) eqn:E.
  - pose proof (manager_gain p Hcf Hpf Hsl (member G) d _ _ _ _ _ _ _ _ Hh Hc He) as [H|(buyer&price&H1&H2&H)]; unfold put in H.
    + left. lia.
    + right. exists msgs, buyer, price. split; [done|]. split; [by apply bool_decide_eq_false in H2|lia].
  - pose proof (group_gain p Hcf Hpf Hsl (member G) d _ _ _ _ _ _ _ _ Hh Hc E He) as [H|(buyer&price&H1&H2&H)]; unfold put in H.
    + left. lia.
    + right. exists msgs, buyer, price. split; [done|]. split; [by apply bool_decide_eq_false in H2|lia].
Qed.
Print Assumptions C168_v2_wealth.

(** Alice sells token 2 into carol's bid of 900: alice and the fee manager gain 855, at most the price; alice and carol together lose. *)
Example C168_v2_case : group_of p0 ["alice"; "feemg"] /\ group_of p0 ["alice"; "carol"] /\ small_history p0 (w_st w1) /\ small_call [us 5] sell2 /\
  is_ok (run_tx p0 (execute p0) w1 "alice" [us 5] sell2) = true /\
  wealth ["alice"; "feemg"] "ustars" w130 = wealth ["alice"; "feemg"] "ustars" w1 + 855 /\
  wealth ["alice"; "carol"] "ustars" w130 + 68 = wealth ["alice"; "carol"] "ustars" w1.
Proof.
  split; [split; [by apply (bool_decide_unpack _); vm_compute|by apply (bool_decide_unpack _); vm_compute]|].
  split; [split; [by apply (bool_decide_unpack _); vm_compute|by apply (bool_decide_unpack _); vm_compute]|].
  split; [exact st1_small|]. split; [apply small_sell2; unfold U128_MAX; lia|]. split; [by vm_compute|]. split; by vm_compute.
Qed.
