(** Changing an order of v2 against taking it back and placing it again (C156). *)
From Verif Require Import Base Common Chain V2Model V2Spec.

(** Two storages that agree in everything but the counter and the name of at most one bid of the same terms: [i] in the first, [j] in the second. *)
Definition same_but_bid (i j : order_id) (s t : state) : Prop :=
  s_config s = s_config t /\ s_denoms s = s_denoms t /\ s_fees s = s_fees t /\ s_asks s = s_asks t /\ s_cbids s = s_cbids t /\
  (s_bids s = s_bids t \/
   exists who coll tok d, s_bids s !! i = Some (Bid i who coll tok d) /\ s_bids t !! j = Some (Bid j who coll tok d) /\
     delete i (s_bids s) = delete j (s_bids t)).
Definition same_but_cbid (i j : order_id) (s t : state) : Prop :=
  s_config s = s_config t /\ s_denoms s = s_denoms t /\ s_fees s = s_fees t /\ s_asks s = s_asks t /\ s_bids s = s_bids t /\
  (s_cbids s = s_cbids t \/
   exists who coll d, s_cbids s !! i = Some (CBid i who coll d) /\ s_cbids t !! j = Some (CBid j who coll d) /\
     delete i (s_cbids s) = delete j (s_cbids t)).

(** The same answers, but the collection says that [who] owns the NFT. *)
Definition now_owned_by (v : view) (coll : addr) (tok : token) (who : addr) : view :=
  View (fun c t => if decide (c = coll /\ t = tok) then Some who else q_owner v c t)
       (q_approval v) (q_info v) (q_royalty v) (q_admin v).
(** The NFT is put into custody if the order rests, not if it is sold at once. *)
Definition custody (p : params) (st' : state) (i : order_id) (coll : addr) (tok : token) : list cmsg :=
  match s_asks st' !! i with Some _ => [MNft coll tok (p_self p)] | None => [] end.
