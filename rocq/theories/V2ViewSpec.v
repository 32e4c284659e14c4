(** Whom marketplace v2 asks what (C153). *)
From Verif Require Import Base Common V2Model ViewSpec.

Definition is_listed (st : state) (coll : addr) (tok : token) : bool :=
  existsb (fun x => bool_decide (a_coll (snd x) = coll) && bool_decide (a_tok (snd x) = tok)) (map_to_list (s_asks st)).
(** The collection itself and the royalty registry, about a collection. *)
Definition trade_questions (p : params) (st : state) (coll : addr) : list question :=
  [AboutCollection coll; RoyaltyOf (cf_registry (s_config st)) coll (Some (p_self p))].
(** Who owns an NFT matters only while the contract does not hold it. *)
Definition owner_questions (st : state) (coll : addr) (tok : token) : list question :=
  if is_listed st coll tok then [] else [WhoOwns coll tok].
Definition questions (p : params) (st : state) (m : msg) : list question :=
  match m with
  | UpdateConfig _ | UpdateCollectionDenom _ _ | SetListingFee _ | RemoveListingFee _ => [WhoAdmins]
  | RemoveAsk _ | RemoveBid _ | RemoveCollectionBid _ => []
  | SetAsk coll tok _ | SellNft coll tok _ => WhoOwns coll tok :: trade_questions p st coll
  | SetBid coll _ _ | BuySpecificNft coll _ _ | SetCollectionBid coll _ | BuyCollectionNft coll _ => trade_questions p st coll
  | UpdateAsk i _ | AcceptAsk i _ => match s_asks st !! i with Some a => trade_questions p st (a_coll a) | None => [] end
  | UpdateBid i _ => match s_bids st !! i with Some b => trade_questions p st (b_coll b) | None => [] end
  | AcceptBid i _ =>
      match s_bids st !! i with
      | Some b => owner_questions st (b_coll b) (b_tok b) ++ trade_questions p st (b_coll b)
      | None => []
      end
  | UpdateCollectionBid i _ => match s_cbids st !! i with Some b => trade_questions p st (cb_coll b) | None => [] end
  | AcceptCollectionBid i tok _ =>
      match s_cbids st !! i with
      | Some b => owner_questions st (cb_coll b) tok ++ trade_questions p st (cb_coll b)
      | None => []
      end
  end.
