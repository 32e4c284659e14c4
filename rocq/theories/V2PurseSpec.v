(** What a group of accounts owns (C168): the coins in its accounts and those in escrow for its bids (v2). *)
From Verif Require Import Base Common Chain LedgerSpec PurseSpec V2Model V2WealthSpec.

Definition wealth (G : list addr) (d : denom) (w : world state) : N := purse G d w + escrowed (member G) d (w_st w).
(** What the fee manager gains from a listing by an outsider, if it is in the group. *)
Definition fee_income (G : list addr) (d : denom) (w : world state) (sender : addr) (funds : list coin) (m : msg) : N :=
  if member G (cf_fee_manager (s_config (w_st w))) then outside_fee (member G) d sender funds m else 0.
