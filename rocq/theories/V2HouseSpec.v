(** What the settings of v2 and the answers of other contracts do not decide (C161). *)
From Verif Require Import Base Common Chain QuerySpec V2Model V2Spec.

(** Two storages with the same orders and the same counter; the settings (configuration, denoms of collections, listing fees) may differ. *)
Definition same_book (s t : state) : Prop :=
  s_nonce s = s_nonce t /\ s_asks s = s_asks t /\ s_bids s = s_bids t /\ s_cbids s = s_cbids t.
(** The NFTs that change hands. *)
Definition nft_moves (ms : list cmsg) : list (addr * token * addr) :=
  omap (fun m => match m with MNft c t to => Some (c, t, to) | _ => None end) ms.
