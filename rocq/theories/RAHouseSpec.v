(** What the configuration of the reserve auction, the clock and the answers of other contracts do not decide (C163). *)
From Verif Require Import Base Common Chain QuerySpec RAModel RASpec.

(** The same auction but for the times: when the first bid came, if one did, and when the auction ends. *)
Definition same_but_times (a b : auction) : Prop :=
  a_coll a = a_coll b /\ a_tok a = a_tok b /\ a_seller a = a_seller b /\ a_reserve a = a_reserve b /\ a_duration a = a_duration b /\
  a_recipient a = a_recipient b /\ a_high a = a_high b /\ (a_first a = None <-> a_first b = None).
Definition same_auctions (s t : state) : Prop :=
  forall k, match s_auctions s !! k, s_auctions t !! k with
            | Some a, Some b => same_but_times a b
            | None, None => True
            | _, _ => False
            end.
(** The NFTs that change hands. *)
Definition nft_moves (ms : list cmsg) : list (addr * token * addr) :=
  omap (fun m => match m with MNft c t to => Some (c, t, to) | _ => None end) ms.
(** The call of somebody who wants an auction settled. *)
Definition settles (m : msg) : bool := match m with SettleAuction _ _ => true | _ => false end.
