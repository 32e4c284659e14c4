(** What a group of accounts owns (C168): the coins in its accounts and those in escrow for its bids (v1). *)
From Verif Require Import Base Common Chain LedgerSpec PurseSpec V1Model V1WealthSpec.

Definition wealth (G : list addr) (d : denom) (w : world state) : N := purse G d w + escrowed (member G) d (w_st w).
