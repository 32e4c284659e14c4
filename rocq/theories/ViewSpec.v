(** The questions the contracts put to other contracts and to the chain (C153, C154, C155). *)
From Verif Require Import Base Common.

Inductive question : Type :=
  | WhoOwns (coll : addr) (tok : token)
  | MayMove (coll : addr) (tok : token) (spender : addr)
  | AboutCollection (coll : addr)
  | RoyaltyOf (registry coll : addr) (protocol : option addr)
  | WhoAdmins.
Global Instance question_eq_dec : EqDecision question. Proof. solve_decision. Defined.
Definition same_answer (v v' : view) (q : question) : Prop :=
  match q with
  | WhoOwns coll tok => q_owner v' coll tok = q_owner v coll tok
  | MayMove coll tok spender => q_approval v' coll tok spender = q_approval v coll tok spender
  | AboutCollection coll => q_info v' coll = q_info v coll
  | RoyaltyOf registry coll protocol => q_royalty v' registry coll protocol = q_royalty v registry coll protocol
  | WhoAdmins => q_admin v' = q_admin v
  end.
(** All questions of the list are answered alike; anything else may be answered differently. *)
Definition answer_alike (v v' : view) (l : list question) : Prop := forall q, q ∈ l -> same_answer v v' q.
(** A view that answers the questions of a list as another does, and fails to answer any other. *)
Definition asked (q : question) (l : list question) : bool := bool_decide (q ∈ l).
Definition only_answers (l : list question) (v : view) : view := View
  (fun c t => if asked (WhoOwns c t) l then q_owner v c t else None)
  (fun c t s => asked (MayMove c t s) l && q_approval v c t s)
  (fun c => if asked (AboutCollection c) l then q_info v c else None)
  (fun r c pr => if asked (RoyaltyOf r c pr) l then q_royalty v r c pr else Err EStd)
  (if asked WhoAdmins l then q_admin v else None).
Lemma only_answers_alike l v : answer_alike v (only_answers l v) l.
Proof.
  intros q Hq. destruct q; cbn; unfold asked; by rewrite bool_decide_eq_true_2 by done.
Qed.
