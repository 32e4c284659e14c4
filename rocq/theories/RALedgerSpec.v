(** The books of the reserve auction over a whole history.  Nothing here uses the handlers except as the thing that was
    called: every entry of the books is read off the storage before and after a call, its coins and its messages. *)
From Verif Require Import Base Common LedgerSpec RAModel.

(** One thing that happened. *)
Inductive entry : Type :=
  | User (sender : addr) (funds : list coin) (m : msg) (before after : state) (msgs : list cmsg)
  | Chain (m : sudo_msg) (before after : state) (msgs : list cmsg).
Definition e_before (h : entry) : state := match h with User _ _ _ st _ _ | Chain _ st _ _ => st end.
Definition e_after (h : entry) : state := match h with User _ _ _ _ st _ | Chain _ _ st _ => st end.
Definition e_msgs (h : entry) : list cmsg := match h with User _ _ _ _ _ ms | Chain _ _ _ ms => ms end.
(** [h] is a successful call on [st] that leads to [st']. *)
Inductive recorded (p : params) (lb : lib) (st st' : state) : entry -> Prop :=
  | rec_user v e sender funds m msgs :
      sender <> p_self p ->
      execute p lb v e sender funds st m = Ok (st', msgs) -> recorded p lb st st' (User sender funds m st st' msgs)
  | rec_chain v e m msgs :
      sudo p lb v e st m = Ok (st', msgs) -> recorded p lb st st' (Chain m st st' msgs).
(** Everything that happened since the contract was set up. *)
Inductive trace (p : params) (lb : lib) : state -> list entry -> Prop :=
  | tr_start c mins st : instantiate p c mins = Ok st -> trace p lb st []
  | tr_next st l h st' : trace p lb st l -> recorded p lb st st' h -> trace p lb st' (l ++ [h]).

Section Books.
Context (u : addr) (d : denom).
(** What [u] bids, and what comes back to [u] when somebody bids more. *)
Definition bid_in (h : entry) : N :=
  match h with User s f (PlaceBid _ _) _ _ _ => if decide (s = u) then coins_of d f else 0 | _ => 0 end.
Definition bid_back (h : entry) : N := match h with User _ _ (PlaceBid _ _) _ _ ms => sent_to u d ms | _ => 0 end.
(** What [u] leads with. *)
Definition lead (_ : akey) (a : auction) : N :=
  match a_high a with Some hb => if decide (hb_bidder hb = u) then of_denom d (hb_coin hb) else 0 | None => 0 end.
Definition leading (st : state) : N := total lead (s_auctions st).
(** What [u] led with on auctions that are over. *)
Definition won (h : entry) : N := gone lead (s_auctions (e_before h)) (s_auctions (e_after h)).
End Books.

(** All coins that come in, and all that leave. *)
Definition comes_in (d : denom) (h : entry) : N := match h with User _ f _ _ _ _ => coins_of d f | Chain _ _ _ _ => 0 end.
Definition goes_out (d : denom) (h : entry) : N := leaving d (e_msgs h).
Definition all_leads (d : denom) (st : state) : N :=
  total (fun _ a => match a_high a with Some hb => of_denom d (hb_coin hb) | None => 0 end) (s_auctions st).
(** What a creation fee was overpaid by stays in the contract. *)
Definition overpaid (d : denom) (h : entry) : N :=
  match h with User _ f (CreateAuction _ _ _ _ _) _ _ ms => coins_of d f - leaving d ms | _ => 0 end.
(** The high bids of auctions that are over. *)
Definition all_won (d : denom) (h : entry) : N :=
  gone (fun _ a => match a_high a with Some hb => of_denom d (hb_coin hb) | None => 0 end)
    (s_auctions (e_before h)) (s_auctions (e_after h)).
Definition over (h : entry) (k : akey) (hb : high_bid) : Prop :=
  exists a, s_auctions (e_before h) !! k = Some a /\ s_auctions (e_after h) !! k = None /\ a_high a = Some hb.
(** Calls that bring coins: bids, and new auctions with their fee. *)
Definition brings (h : entry) : bool :=
  match h with User _ _ (PlaceBid _ _ | CreateAuction _ _ _ _ _) _ _ _ => true | _ => false end.
