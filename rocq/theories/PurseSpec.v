(** What a group of accounts owns on the chain (C168): the coins in its accounts. *)
From Verif Require Import Base Common Chain LedgerSpec.

Definition member (G : list addr) (x : addr) : bool := bool_decide (x ∈ G).
(** A group: different accounts, none of them the contract. *)
Definition group_of (p : params) (G : list addr) : Prop := NoDup G /\ p_self p ∉ G.
Definition purse {S} (G : list addr) (d : denom) (w : world S) : N := sum_over (fun x => w_bank w x d) G.
