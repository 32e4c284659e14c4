(** The coins in the accounts of a group after a transaction. *)
From Verif Require Import Base BaseFacts Common Chain LedgerSpec Ledger TxSpec PurseSpec.

Lemma sum_over_add {A} (f g : A -> N) l : sum_over (fun x => f x + g x) l = sum_over f l + sum_over g l.
Proof. induction l as [|x l IH]; [done|]. cbn [sum_over]. lia. Qed.
Lemma sum_one (G : list addr) s n : NoDup G -> sum_over (fun x => if decide (x = s) then n else 0) G = if member G s then n else 0.
Proof.
  unfold member. induction 1 as [|x G Hx _ IH]; [done|]. cbn [sum_over]. rewrite IH. destruct (decide (x = s)) as [E|E]; [subst x|].
  - rewrite bool_decide_eq_false_2 by done. rewrite bool_decide_eq_true_2 by left. lia.
  - rewrite N.add_0_l. rewrite (bool_decide_ext (s ∈ x :: G) (s ∈ G)); [done|]. rewrite elem_of_cons. naive_solver.
Qed.
Definition got_by (G : addr -> bool) (d : denom) (ms : list cmsg) : N :=
  sum_over (fun m => match m with MSend to cs => if G to then coins_of d cs else 0 | _ => 0 end) ms.
Lemma sum_sent G d ms : NoDup G -> sum_over (fun x => sent_to x d ms) G = got_by (member G) d ms.
Proof.
  intros HG. unfold sent_to, got_by. induction ms as [|m ms IH]; [by apply sum_over_zero|].
  cbn [sum_over]. rewrite sum_over_add, IH. f_equal.
  destruct m as [to cs| | | |]; try (by apply sum_over_zero).
  rewrite <- (sum_one G to (coins_of d cs) HG). apply sum_over_ext. intros x _. by repeat case_decide; subst.
Qed.
Lemma purse_after {S} p G d (w : world S) sender funds st' ms w' : group_of p G -> settled_as p w sender funds st' ms w' ->
  purse G d w' + (if member G sender then coins_of d funds else 0) = purse G d w + got_by (member G) d ms.
Proof.
  intros [HG Hs] H. rewrite <- (sum_one G sender _ HG), <- (sum_sent G d ms HG). unfold purse. rewrite <- !sum_over_add.
  apply sum_over_ext. intros x Hx. pose proof (sa_bank _ _ _ _ _ _ _ H x d) as E.
  assert (x <> p_self p) as Hn by (by intros ->). rewrite !(decide_False (P := x = p_self p)) in E by done. lia.
Qed.
