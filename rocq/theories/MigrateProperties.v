(** Upgrades of the three contracts (C119 of properties.jsonl).  Each theorem is closed by a lemma proved elsewhere; what it rests
    on is printed beneath it, and an example shows a concrete case meeting its hypotheses. *)
From stdpp Require Import relations pretty.
From Verif Require Import Base Common Chain ChainFacts Migrate.
From Verif Require V1Model V1Spec V1Examples V2Model V2Spec V2Examples RAModel RASpec RAExamples.

Section Contracts.
Context (p : params).
Definition v1_started (d : V1Model.state) : Prop := exists m, V1Model.instantiate p m = Ok d.
Definition v2_started (d : V2Model.state) : Prop := exists c, V2Model.instantiate p c = Ok d.
Definition ra_started (d : RAModel.state) : Prop := exists c mins, RAModel.instantiate p c mins = Ok d.
Context {V : Type} (parse : string -> option V) (leb : V -> V -> bool).
Definition v1_moves x : stored V1Model.state -> stored V1Model.state -> Prop := moves (v1_migrate parse leb) (V1Spec.v1_call p x).
Definition v1_lives x : stored V1Model.state -> Prop := lives v1_name (v1_migrate parse leb) v1_started (V1Spec.v1_call p x).
End Contracts.
Definition v2_moves p : stored V2Model.state -> stored V2Model.state -> Prop := moves v2_migrate (hstep p (V2Model.execute p)).
Definition v2_lives p : stored V2Model.state -> Prop := lives v2_name v2_migrate (v2_started p) (hstep p (V2Model.execute p)).
Definition ra_moves p lb : stored RAModel.state -> stored RAModel.state -> Prop := moves ra_migrate (RASpec.ra_call p lb).
Definition ra_lives p lb : stored RAModel.state -> Prop := lives ra_name ra_migrate (ra_started p) (RASpec.ra_call p lb).

(** ** Forms *)
Lemma grow_form p x V (parse : string -> option V) leb :
  (forall a b c, leb a b = true -> leb b c = true -> leb a c = true) ->
  forall sd sd', v1_lives p parse leb x sd -> rtc (v1_moves p parse leb x) sd sd' ->
  (exists v v', sd_cw2 sd = Some (Cw2 "crates.io:sg-marketplace" v) /\ sd_cw2 sd' = Some (Cw2 "crates.io:sg-marketplace" v') /\
     (v' = v \/ newer parse leb v v')) /\
  rtc (V1Spec.v1_call p x) (sd_data sd) (sd_data sd').
Proof. intros Htr sd sd' Hl H. exact (lives_grow parse leb _ _ Htr sd sd' Hl H). Qed.
Lemma return_form p x V (parse : string -> option V) leb :
  (forall a b c, leb a b = true -> leb b c = true -> leb a c = true) ->
  forall sd sd' v old, v1_lives p parse leb x sd -> rtc (v1_moves p parse leb x) sd sd' ->
  sd_cw2 sd = Some (Cw2 "crates.io:sg-marketplace" v) -> newer parse leb old v -> forall sd'', v1_migrate parse leb old sd' <> Ok sd''.
Proof. intros Htr sd sd' v old Hl H Hv Ho. exact (lives_no_return parse leb _ _ Htr sd sd' old v Hl H Hv Ho). Qed.
Lemma exact_form V (parse : string -> option V) leb S new (sd sd' : stored S) : v1_migrate parse leb new sd = Ok sd' <->
  sd_data sd' = sd_data sd /\ exists v a b, sd_cw2 sd = Some (Cw2 "crates.io:sg-marketplace" v) /\ parse v = Some a /\ parse new = Some b /\
    leb a b = true /\ sd_cw2 sd' = Some (Cw2 "crates.io:sg-marketplace" (if leb b a then v else new)).
Proof. exact (v1_migrate_exact parse leb new sd sd'). Qed.
Lemma v2_down : exists sd sd' v v', v2_lives V2Examples.p0 sd /\ v2_moves V2Examples.p0 sd sd' /\
  sd_cw2 sd = Some (Cw2 v2_name v) /\ sd_cw2 sd' = Some (Cw2 v2_name v') /\ newer release release_leb v' v.
Proof.
  exists (Stored (Some (Cw2 v2_name "0.8.0")) V2Examples.st0), (Stored (Some (Cw2 v2_name v2_version)) V2Examples.st0), "0.8.0", v2_version.
  split. { eexists. split; [|apply rtc_refl]. exists "0.8.0", V2Examples.st0. split; [|done]. exists V2Examples.cfg0. by vm_compute. }
  split; [by apply (by_migration _ _ _ v2_version)|]. split; [done|]. split; [done|]. exists (0, 7, 0), (0, 8, 0). by vm_compute.
Qed.
Lemma ra_down lb : exists sd sd' v v', ra_lives RAExamples.p1 lb sd /\ ra_moves RAExamples.p1 lb sd sd' /\
  sd_cw2 sd = Some (Cw2 ra_name v) /\ sd_cw2 sd' = Some (Cw2 ra_name v') /\ newer release release_leb v' v.
Proof.
  exists (Stored (Some (Cw2 ra_name "1.0.10")) RAExamples.rst0), (Stored (Some (Cw2 ra_name ra_version)) RAExamples.rst0), "1.0.10", ra_version.
  split. { eexists. split; [|apply rtc_refl]. exists "1.0.10", RAExamples.rst0. split; [|done]. exists RAExamples.cfg1, [RAExamples.us 50]. by vm_compute. }
  split; [by apply (by_migration _ _ _ ra_version)|]. split; [done|]. split; [done|]. exists (1, 0, 2), (1, 0, 10). by vm_compute.
Qed.
Lemma foreign_witness : exists sd : stored V1Model.state, v1_lives V1Examples.p1 release release_leb (V1Model.Ext true) sd /\
  sd_cw2 sd = Some (Cw2 "crates.io:sg-marketplace" "1.4.0") /\
  v2_migrate v2_version sd = Ok (Stored (Some (Cw2 "stargaze-marketplace-v2" "0.7.0")) (sd_data sd)) /\
  ra_migrate ra_version sd = Ok (Stored (Some (Cw2 "crates.io:stargaze-reserve-auction" "1.0.2")) (sd_data sd)).
Proof.
  exists (Stored (Some (Cw2 v1_name v1_version)) V1Examples.vst0). split; [|done].
  eexists. split; [|apply rtc_refl]. exists v1_version, V1Examples.vst0. split; [|done]. exists V1Examples.config1. by vm_compute.
Qed.
Lemma blind_form S new (sd : stored S) :
  v2_migrate new sd = Ok (Stored (Some (Cw2 "stargaze-marketplace-v2" new)) (sd_data sd)) /\
  ra_migrate new sd = Ok (Stored (Some (Cw2 "crates.io:stargaze-reserve-auction" new)) (sd_data sd)).
Proof. done. Qed.

(** * C119: marketplace v1 never goes back to an older version and never becomes another contract *)
Theorem C119_v1_versions_grow : forall p x V (parse : string -> option V) leb,
  (forall a b c, leb a b = true -> leb b c = true -> leb a c = true) ->
  forall sd sd', v1_lives p parse leb x sd -> rtc (v1_moves p parse leb x) sd sd' ->
  (exists v v', sd_cw2 sd = Some (Cw2 "crates.io:sg-marketplace" v) /\ sd_cw2 sd' = Some (Cw2 "crates.io:sg-marketplace" v') /\
     (v' = v \/ newer parse leb v v')) /\
  rtc (V1Spec.v1_call p x) (sd_data sd) (sd_data sd').
Proof. exact grow_form. Qed.
Print Assumptions C119_v1_versions_grow.
Theorem C119_v1_no_return : forall p x V (parse : string -> option V) leb,
  (forall a b c, leb a b = true -> leb b c = true -> leb a c = true) ->
  forall sd sd' v old, v1_lives p parse leb x sd -> rtc (v1_moves p parse leb x) sd sd' ->
  sd_cw2 sd = Some (Cw2 "crates.io:sg-marketplace" v) -> newer parse leb old v -> forall sd'', v1_migrate parse leb old sd' <> Ok sd''.
Proof. exact return_form. Qed.
Print Assumptions C119_v1_no_return.
Theorem C119_v1_migrate_exact : forall V (parse : string -> option V) leb S new (sd sd' : stored S),
  v1_migrate parse leb new sd = Ok sd' <->
  sd_data sd' = sd_data sd /\ exists v a b, sd_cw2 sd = Some (Cw2 "crates.io:sg-marketplace" v) /\ parse v = Some a /\ parse new = Some b /\
    leb a b = true /\ sd_cw2 sd' = Some (Cw2 "crates.io:sg-marketplace" (if leb b a then v else new)).
Proof. exact exact_form. Qed.
Print Assumptions C119_v1_migrate_exact.
(** Version 1.4.0 is deployed and migrated to 1.10.0; the way back and anything that is not a version are refused. *)
Definition at_version (v : string) : stored V1Model.state := Stored (Some (Cw2 v1_name v)) V1Examples.vst0.
Example C119_v1_case x : (forall a b c, release_leb a b = true -> release_leb b c = true -> release_leb a c = true) /\
  v1_lives V1Examples.p1 release release_leb x (at_version v1_version) /\
  rtc (v1_moves V1Examples.p1 release release_leb x) (at_version v1_version) (at_version "1.10.0") /\
  newer release release_leb "1.4.0" "1.10.0" /\ newer release release_leb "1.3.9" "1.4.0" /\
  v1_migrate release release_leb "1.3.9" (at_version "1.10.0") = Err EStd /\
  v1_migrate release release_leb "1.x" (at_version "1.10.0") = Err EStd /\
  v1_migrate release release_leb "2.0.0" (Stored (Some (Cw2 v2_name "0.7.0")) V1Examples.vst0) = Err EStd.
Proof.
  split; [apply release_leb_trans|]. split.
  { eexists. split; [|apply rtc_refl]. exists v1_version, V1Examples.vst0. split; [|done]. exists V1Examples.config1. by vm_compute. }
  split. { apply rtc_once, (by_migration _ _ _ "1.10.0"). by vm_compute. }
  split; [exists (1, 4, 0), (1, 10, 0); by vm_compute|]. split; [exists (1, 3, 9), (1, 4, 0); by vm_compute|].
  split; [by vm_compute|]. split; by vm_compute.
Qed.

(** False of marketplace v2 and the reserve auction: both accept older code, and both take over the storage of another contract. *)
Theorem C119_v2_migrate_refuted : exists sd sd' v v', v2_lives V2Examples.p0 sd /\ v2_moves V2Examples.p0 sd sd' /\
  sd_cw2 sd = Some (Cw2 v2_name v) /\ sd_cw2 sd' = Some (Cw2 v2_name v') /\ newer release release_leb v' v.
Proof. exact v2_down. Qed.
Print Assumptions C119_v2_migrate_refuted.
Theorem C119_ra_migrate_refuted : forall lb, exists sd sd' v v', ra_lives RAExamples.p1 lb sd /\ ra_moves RAExamples.p1 lb sd sd' /\
  sd_cw2 sd = Some (Cw2 ra_name v) /\ sd_cw2 sd' = Some (Cw2 ra_name v') /\ newer release release_leb v' v.
Proof. exact ra_down. Qed.
Print Assumptions C119_ra_migrate_refuted.
Theorem C119_foreign_storage_refuted : exists sd : stored V1Model.state, v1_lives V1Examples.p1 release release_leb (V1Model.Ext true) sd /\
  sd_cw2 sd = Some (Cw2 "crates.io:sg-marketplace" "1.4.0") /\
  v2_migrate v2_version sd = Ok (Stored (Some (Cw2 "stargaze-marketplace-v2" "0.7.0")) (sd_data sd)) /\
  ra_migrate ra_version sd = Ok (Stored (Some (Cw2 "crates.io:stargaze-reserve-auction" "1.0.2")) (sd_data sd)).
Proof. exact foreign_witness. Qed.
Print Assumptions C119_foreign_storage_refuted.
(** What remains for these two: the record then names the code running, and everything else is kept. *)
Theorem C119_v2_ra_migrate_partial : forall S new (sd : stored S),
  v2_migrate new sd = Ok (Stored (Some (Cw2 "stargaze-marketplace-v2" new)) (sd_data sd)) /\
  ra_migrate new sd = Ok (Stored (Some (Cw2 "crates.io:stargaze-reserve-auction" new)) (sd_data sd)).
Proof. exact blind_form. Qed.
Print Assumptions C119_v2_ra_migrate_partial.
