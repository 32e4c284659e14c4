(** The coins of a group of accounts in the reserve auction (C166): what it put in, leads with, and got out. *)
From Verif Require Import Base Common LedgerSpec RAModel RALedgerSpec.

Section Group.
Context (G : addr -> bool) (d : denom).
(** What a response sends to members of the group. *)
Definition got (h : entry) : N :=
  sum_over (fun m => match m with MSend to cs => if G to then coins_of d cs else 0 | _ => 0 end) (e_msgs h).
(** What a member attaches to a call. *)
Definition put (h : entry) : N := match h with User s f _ _ _ _ => if G s then coins_of d f else 0 | Chain _ _ _ _ => 0 end.
(** What members lead with, over all auctions. *)
Definition escrowed (st : state) : N :=
  total (fun _ a => match a_high a with Some hb => if G (hb_bidder hb) then of_denom d (hb_coin hb) else 0 | None => 0 end) (s_auctions st).
(** What outsiders pay for the auctions that are over after this call. *)
Definition sales (h : entry) : N :=
  gone (fun _ a => match a_high a with Some hb => if G (hb_bidder hb) then 0 else of_denom d (hb_coin hb) | None => 0 end)
    (s_auctions (e_before h)) (s_auctions (e_after h)).
End Group.
