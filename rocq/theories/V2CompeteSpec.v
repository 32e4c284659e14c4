(** What more offers mean for the other side of a trade in v2 (C164). *)
From Verif Require Import Base Common Chain QuerySpec V2Model V2Spec V2ExactSpec.

(** [t] is [s] with more bids in the book; the counter and the settings other than the configuration may differ. *)
Definition more_bids (s t : state) : Prop :=
  s_config t = s_config s /\ s_asks t = s_asks s /\
  (forall i b, s_bids s !! i = Some b -> s_bids t !! i = Some b) /\ (forall i b, s_cbids s !! i = Some b -> s_cbids t !! i = Some b).
(** [t] is [s] with more listings. *)
Definition more_asks (s t : state) : Prop :=
  s_config t = s_config s /\ s_nonce t = s_nonce s /\ s_bids t = s_bids s /\ s_cbids t = s_cbids s /\
  (forall i a, s_asks s !! i = Some a -> s_asks t !! i = Some a).
