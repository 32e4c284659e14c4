(** What an account owns (C169), in v1. *)
From Verif Require Import Base Common Chain LedgerSpec V1Model V1LedgerSpec.

(** The coins in the account of [u] and those in escrow for bids of [u]. *)
Definition worth (u : addr) (d : denom) (w : world state) : N := w_bank w u d + in_escrow u d (w_st w).
(** The bids of [u] that leave the book. *)
Definition taken (u : addr) (d : denom) (w w' : world state) : N :=
  gone (bid_worth u d) (s_bids (w_st w)) (s_bids (w_st w')) + gone (cbid_worth u d) (s_cbids (w_st w)) (s_cbids (w_st w')).
