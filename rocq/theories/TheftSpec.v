(** NFTs that a transaction leaves alone (C170). *)
From Verif Require Import Base Common Chain.

(** The NFT is where it was, with the same approvals. *)
Definition nft_left {S} (w w' : world S) (c : addr) (t : token) : Prop :=
  w_nft w' c t = w_nft w c t /\ forall x, w_appr w' c t x = w_appr w c t x.
