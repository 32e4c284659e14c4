(** The coins of a group of accounts in marketplace v1 (C167): what it put in, has in escrow, and got out. *)
From Verif Require Import Base Common LedgerSpec V1Model V1LedgerSpec.

Section Group.
Context (G : addr -> bool) (d : denom).
(** What a response sends to members of the group. *)
Definition got (h : entry) : N :=
  sum_over (fun m => match m with MSend to cs => if G to then coins_of d cs else 0 | _ => 0 end) (e_msgs h).
(** What a member attaches to a call. *)
Definition put (h : entry) : N := match h with User s f _ _ _ _ => if G s then coins_of d f else 0 | Chain _ _ _ _ => 0 end.
(** What is in escrow for bids of accounts that [who] picks. *)
Definition bids_of (who : addr -> bool) (_ : addr * N * addr) (b : bid) : N := if who (b_bidder b) then stars d (b_price b) else 0.
Definition cbids_of (who : addr -> bool) (_ : addr * addr) (b : cbid) : N := if who (cb_bidder b) then stars d (cb_price b) else 0.
Definition escrowed (st : state) : N := total (bids_of G) (s_bids st) + total (cbids_of G) (s_cbids st).
(** What an outsider pays for an NFT: in a buyer's call by an outsider, the price of the listing that leaves the book; in a seller's
    call that sends an NFT, the bid of an outsider that leaves the book. *)
Definition outsider (x : addr) : bool := negb (G x).
Definition sales (h : entry) : N :=
  match h with
  | Chain _ _ _ _ => 0
  | User s _ m st st' _ =>
      if sells h then
        if buyers m then if G s then 0 else gone (ask_worth d) (s_asks st) (s_asks st')
        else gone (bids_of outsider) (s_bids st) (s_bids st') + gone (cbids_of outsider) (s_cbids st) (s_cbids st')
      else 0
  end.
(** What the operator keeps of a stale bid of an outsider: all messages after the first. *)
Definition kept (h : entry) : N :=
  match h with
  | User _ _ (RemoveStaleBid _ _ w) _ _ ms | User _ _ (RemoveStaleCollectionBid _ w) _ _ ms => if G w then 0 else leaving d (drop 1 ms)
  | _ => 0
  end.
End Group.
