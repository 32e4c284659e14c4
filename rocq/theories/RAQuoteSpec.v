(** What the list of auctions by end time says about the next block (C144). *)
From Verif Require Import Base Common Chain IndexRange RAModel RASpec.

Global Instance due_dec now a : Decision (due now a).
Proof.
  destruct (a_end a) as [t|] eqn:E.
  - destruct (decide (t_seconds t <= t_seconds now)) as [H|H]; [left; exists t; done|right; intros (t'&Ht&Hle); apply H; rewrite E in Ht; by injection Ht as ->].
  - right. intros (t&Ht&_). by rewrite E in Ht.
Defined.
(** The first rows of the list, as many as one block settles, without those whose time is not over. *)
Definition next_up (st : state) (now : N) : list auction :=
  filter (due now) (query_auctions_by_end_time st 0 None (Some (cf_max_settle (s_config st))) None).
