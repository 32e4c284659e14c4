(** A chain with any number of instances of the three contracts of the repository. *)
From stdpp Require Import relations.
From Verif Require Import Base Common Chain ChainFacts JointSpec.
From Verif Require V1Model V1Spec V2Model V2Spec RAModel RASpec.

(** Which code an instance runs, with what is left open about the external crates it uses. *)
Inductive code : Type := CodeV1 (x : V1Model.ext) | CodeV2 | CodeRA (lb : RAModel.lib).
Definition state_of (c : code) : Type :=
  match c with CodeV1 _ => V1Model.state | CodeV2 => V2Model.state | CodeRA _ => RAModel.state end.
Definition msg_of (c : code) : Type :=
  match c with CodeV1 _ => V1Model.msg | CodeV2 => V2Model.msg | CodeRA _ => RAModel.msg end.
Definition smsg_of (c : code) : Type :=
  match c with CodeV1 _ => V1Model.sudo_msg | CodeV2 => unit | CodeRA _ => RAModel.sudo_msg end.
(** The entry points: marketplace/src/execute.rs:107-310, stargaze-marketplace-v2/src/execute.rs:28-149, reserve-auction/src/execute.rs:24-79;
    marketplace/src/sudo.rs and reserve-auction/src/sudo.rs.  Marketplace v2 has no sudo, only its migration. *)
Definition runs (c : code) (p : params) : view -> env -> addr -> list coin -> state_of c -> msg_of c -> result (state_of c * list cmsg) :=
  match c with CodeV1 x => V1Model.execute p x | CodeV2 => V2Model.execute p | CodeRA lb => RAModel.execute p lb end.
Definition governs_of (c : code) (p : params) : view -> env -> state_of c -> smsg_of c -> result (state_of c * list cmsg) :=
  match c with CodeV1 _ => V1Model.sudo p | CodeV2 => V2Spec.v2_sudo | CodeRA lb => RAModel.sudo p lb end.
(** A new instance, and any instance on a chain of its own. *)
Definition fresh (c : code) (p : params) : world (state_of c) -> Prop :=
  match c with CodeV1 _ => V1Spec.v1_init p | CodeV2 => V2Spec.v2_init p | CodeRA _ => RASpec.ra_init p end.
Definition alone (c : code) (p : params) : world (state_of c) -> Prop :=
  match c with CodeV1 x => V1Spec.v1_reachable p x | CodeV2 => V2Spec.reachable p | CodeRA lb => RASpec.ra_reachable p lb end.

(** What an instance owes its bidders, and the NFTs it offers out of its own custody. *)
Definition owes (c : code) : state_of c -> denom -> N :=
  match c with
  | CodeV1 _ => fun st d => if decide (d = "ustars") then V1Spec.bids_total st + V1Spec.cbids_total st else 0
  | CodeV2 => V2Spec.escrow
  | CodeRA _ => RASpec.high_total
  end.
Definition offers (c : code) : state_of c -> addr -> token -> Prop :=
  match c with
  | CodeV1 _ => fun _ _ _ => False
  | CodeV2 => fun st coll tok => exists i a, V2Model.s_asks st !! i = Some a /\ V2Model.a_coll a = coll /\ V2Model.a_tok a = tok
  | CodeRA _ => fun st coll tok => exists k a, RAModel.s_auctions st !! k = Some a /\ RAModel.a_coll a = coll /\ RAModel.a_tok a = tok
  end.

Section Three.
Context {I : Type} (kind : I -> code) (P : I -> params).
Definition joint3 : Type := joint (fun i => state_of (kind i)).
Definition exec3 := j_exec P (fun i => runs (kind i) (P i)).
Definition dispatch3 := j_dispatch P (fun i => runs (kind i) (P i)).
Definition step3 : joint3 -> joint3 -> Prop := j_step P (fun i => runs (kind i) (P i)) (fun i => governs_of (kind i) (P i)).
Definition init3 (W : joint3) : Prop := forall i, fresh (kind i) (P i) (seen i W).
Definition reachable3 (W : joint3) : Prop := exists W0, init3 W0 /\ rtc step3 W0 W.
(** The instances have different addresses. *)
Definition apart : Prop := forall i j, p_self (P i) = p_self (P j) -> i = j.
End Three.
