(** What a group of accounts owns (C168): the coins in its accounts and those it leads with (reserve auction). *)
From Verif Require Import Base Common Chain LedgerSpec PurseSpec RAModel RAWealthSpec.

Definition wealth (G : list addr) (d : denom) (w : world state) : N := purse G d w + escrowed (member G) d (w_st w).
(** What outsiders lead with in the auctions that are over between two states. *)
Definition won_by_outsiders (G : list addr) (d : denom) (w w' : world state) : N :=
  gone (fun _ a => match a_high a with Some hb => if member G (hb_bidder hb) then 0 else of_denom d (hb_coin hb) | None => 0 end)
    (s_auctions (w_st w)) (s_auctions (w_st w')).
