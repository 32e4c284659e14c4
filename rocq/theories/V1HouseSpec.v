(** What the parameters of v1 and the answers of other contracts do not decide (C162). *)
From Verif Require Import Base Common Chain QuerySpec V1Model V1Spec.

(** Two storages with the same listings, bids and collection bids; parameters, operators and listeners may differ. *)
Definition same_book (s t : state) : Prop := s_asks s = s_asks t /\ s_bids s = s_bids t /\ s_cbids s = s_cbids t.
(** The NFTs that change hands. *)
Definition nft_moves (ms : list cmsg) : list (addr * token * addr) :=
  omap (fun m => match m with MNft c t to => Some (c, t, to) | _ => None end) ms.
