(** What one call of marketplace v2 does with an NFT, read off the storage before and after it. *)
From Verif Require Import Base Common NftBooksSpec V2Model V2Spec V2LedgerSpec.

Definition listed (st : state) (k : nft) : Prop := exists i a, s_asks st !! i = Some a /\ (a_coll a, a_tok a) = k.

(** The call [h] orders these moves of [k]: none; or it lists [k]; or the seller takes the listing back; or it sells
    [k] to the winning side of a trade. *)
Inductive nft_step (self : addr) (h : entry) (k : nft) : list addr -> Prop :=
  | keeps : (listed (en_before h) k <-> listed (en_after h) k) -> nft_step self h k []
  | lists d : en_msg h = SetAsk (fst k) (snd k) d -> ~ listed (en_before h) k -> listed (en_after h) k -> nft_step self h k [self]
  | withdraws i a : en_msg h = RemoveAsk i -> s_asks (en_before h) !! i = Some a -> (a_coll a, a_tok a) = k ->
      a_creator a = en_by h -> ~ listed (en_after h) k -> nft_step self h k [to_whom (a_creator a) (a_det a)]
  | sells_it a mb f : trade (en_by h) (en_before h) (en_msg h) a mb f -> (a_coll a, a_tok a) = k ->
      ~ listed (en_after h) k -> nft_step self h k [nft_to mb].
(** Everything that was ordered for [k] in a history. *)
Definition all_moves (k : nft) (l : list entry) : list addr := concat ((fun h => moves k (en_msgs h)) <$> l).
