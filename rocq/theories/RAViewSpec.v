(** Whom the reserve auction asks what (C155). *)
From Verif Require Import Base Common RAModel ViewSpec.

(** The collection about the NFT when it is put up, and about itself then and when it is sold. *)
Definition questions (p : params) (m : msg) : list question :=
  match m with
  | CreateAuction coll tok _ _ _ => [WhoOwns coll tok; MayMove coll tok (p_self p); AboutCollection coll]
  | SettleAuction coll _ => [AboutCollection coll]
  | UpdateReservePrice _ _ _ | CancelAuction _ _ | PlaceBid _ _ => []
  end.
(** The chain's calls ask only at the end of a block, and only collections with an auction that has ended by then, to the second. *)
Definition sudo_questions (now : N) (st : state) (m : sudo_msg) : list question :=
  match m with
  | EndBlock =>
      (fun x => AboutCollection (a_coll (snd x))) <$>
        List.filter (fun x => match a_end (snd x) with Some t => t / 1000000000 <=? now / 1000000000 | None => false end)
          (map_to_list (s_auctions st))
  | BeginBlock | UpdateParams _ | SetMinReservePrices _ | UnsetMinReservePrices _ | Migrate => []
  end.
