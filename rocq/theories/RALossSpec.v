(** What an account owns, and what it loses to a transaction of somebody else (C169), in the reserve auction. *)
From Verif Require Import Base Common Chain LedgerSpec RAModel RALedgerSpec.

(** The coins in the account of [u] and those that [u] leads with. *)
Definition worth (u : addr) (d : denom) (w : world state) : N := w_bank w u d + leading u d (w_st w).
(** What [u] led with in the auctions that are over. *)
Definition taken (u : addr) (d : denom) (w w' : world state) : N := gone (lead u d) (s_auctions (w_st w)) (s_auctions (w_st w')).
