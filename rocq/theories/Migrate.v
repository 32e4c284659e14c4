(** Upgrading the three contracts: the cw2 version record and [migrate].

    The storage of a contract is its version record, if there is one, and everything else.  The comparison of versions is the
    semver crate's, which is not in the repository: it enters as a function [parse] from texts to versions and a comparison
    [leb] of versions. *)
From stdpp Require Import relations pretty.
From Verif Require Import Base Common Chain.

(** cw2::ContractVersion *)
Record cw2 := Cw2 { cw_contract : string; cw_version : string }.
Record stored (S : Type) := Stored { sd_cw2 : option cw2; sd_data : S }.
Arguments Stored {S} _ _.
Arguments sd_cw2 {S} _.
Arguments sd_data {S} _.

(** marketplace/src/execute.rs:31, reserve-auction/src/instantiate.rs:12, stargaze-marketplace-v2/src/constants.rs:1 with the
    package names and versions of the three Cargo.toml *)
Definition v1_name : string := "crates.io:sg-marketplace".
Definition ra_name : string := "crates.io:stargaze-reserve-auction".
Definition v2_name : string := "stargaze-marketplace-v2".
Definition v1_version : string := "1.4.0".
Definition ra_version : string := "1.0.2".
Definition v2_version : string := "0.7.0".

Section Semver.
Context {V : Type} (parse : string -> option V) (leb : V -> V -> bool).

(** marketplace/src/execute.rs:1463-1487.  [new] is the CONTRACT_VERSION of the code migrated to.  Two versions are the same if
    each is at most the other. *)
Definition v1_migrate {S} (new : string) (sd : stored S) : result (stored S) :=
  match sd_cw2 sd with
  | None => Err EStd
  | Some c =>
      if bool_decide (cw_contract c = v1_name) then
        match parse (cw_version c), parse new with
        | Some v, Some n =>
            if negb (leb v n) then Err EStd
            else if leb n v then Ok sd
            else Ok (Stored (Some (Cw2 v1_name new)) (sd_data sd))
        | _, _ => Err EStd
        end
      else Err EStd
  end.
End Semver.

(** stargaze-marketplace-v2/src/migrate.rs:16-23 *)
Definition v2_migrate {S} (new : string) (sd : stored S) : result (stored S) :=
  Ok (Stored (Some (Cw2 v2_name new)) (sd_data sd)).
(** reserve-auction/src/migrate.rs:11-16 *)
Definition ra_migrate {S} (new : string) (sd : stored S) : result (stored S) :=
  Ok (Stored (Some (Cw2 ra_name new)) (sd_data sd)).

(** * Specification *)
Section Life.
Context {S : Type} (name : string) (migrate : string -> stored S -> result (stored S)) (init : S -> Prop) (call : S -> S -> Prop).
(** A contract is deployed by code of some version, which records itself first (marketplace/src/execute.rs:46,
    stargaze-marketplace-v2/src/instantiate.rs:22, reserve-auction/src/instantiate.rs:22); no call writes the record; and it may
    be migrated to code of any version that has the same [migrate]. *)
Definition deployed (sd : stored S) : Prop := exists v d, init d /\ sd = Stored (Some (Cw2 name v)) d.
Inductive moves (sd : stored S) : stored S -> Prop :=
  | by_call d : call (sd_data sd) d -> moves sd (Stored (sd_cw2 sd) d)
  | by_migration new sd' : migrate new sd = Ok sd' -> moves sd sd'.
Definition lives (sd : stored S) : Prop := exists sd0, deployed sd0 /\ rtc moves sd0 sd.
End Life.

Section Newer.
Context {V : Type} (parse : string -> option V) (leb : V -> V -> bool).
Definition newer (v v' : string) : Prop :=
  exists a b, parse v = Some a /\ parse v' = Some b /\ leb a b = true /\ leb b a = false.
End Newer.

(** * Proofs *)
Section Proofs.
Context {V : Type} (parse : string -> option V) (leb : V -> V -> bool).
Context {S : Type} (init : S -> Prop) (call : S -> S -> Prop).
Local Notation migr := (v1_migrate (S := S) parse leb).
Local Notation newer := (newer parse leb).

Lemma v1_migrate_exact new (sd sd' : stored S) : migr new sd = Ok sd' <->
  sd_data sd' = sd_data sd /\ exists v a b, sd_cw2 sd = Some (Cw2 v1_name v) /\ parse v = Some a /\ parse new = Some b /\ leb a b = true /\
    sd_cw2 sd' = Some (Cw2 v1_name (if leb b a then v else new)).
Proof.
  unfold v1_migrate. destruct sd as [[[n v]|] d], sd' as [c' d']; cbn [sd_cw2 sd_data cw_contract cw_version].
  2: { split; [done|]. by intros (_&?&?&?&?&_). }
  split.
  - case_bool_decide as En; [|done]. subst n. destruct (parse v) as [a|] eqn:Ea; [|done]. destruct (parse new) as [b|] eqn:Eb; [|done].
    destruct (leb a b) eqn:El; cbn [negb]; [|done]. destruct (leb b a) eqn:El'; intros [= <- <-]; (split; [done|]); exists v, a, b; by rewrite El'.
  - intros (->&v'&a&b&[= -> ->]&Ea&Eb&El&->). rewrite bool_decide_true by done. rewrite Ea, Eb, El. cbn [negb]. by destruct (leb b a).
Qed.
Lemma moves_data (sd sd' : stored S) : rtc (moves migr call) sd sd' -> rtc call (sd_data sd) (sd_data sd').
Proof.
  induction 1 as [|sd sd1 sd2 Hm _ IH]; [constructor|]. destruct Hm as [d Hd|new sd1 Hm]; [by econstructor|].
  apply v1_migrate_exact in Hm as [Hd _]. by rewrite <-Hd.
Qed.
Context (Htr : forall a b c, leb a b = true -> leb b c = true -> leb a c = true).
Lemma newer_trans u v w : newer u v -> newer v w -> newer u w.
Proof.
  intros (a&b&Ha&Hb&H1&H2) (b'&c&Hb'&Hc&H3&H4). assert (b' = b) as -> by congruence. exists a, c. split_and!; try done; [by eapply Htr|].
  destruct (leb c a) eqn:E; [|done]. by rewrite (Htr c a b) in H4.
Qed.
Lemma moves_grow (sd sd' : stored S) v : sd_cw2 sd = Some (Cw2 v1_name v) -> rtc (moves migr call) sd sd' ->
  exists v', sd_cw2 sd' = Some (Cw2 v1_name v') /\ (v' = v \/ newer v v').
Proof.
  intros Hv H. revert v Hv. induction H as [|sd sd1 sd2 Hm _ IH]; intros v Hv; [exists v; auto|].
  assert (exists u, sd_cw2 sd1 = Some (Cw2 v1_name u) /\ (u = v \/ newer v u)) as (u&Hu&Hn).
  { destruct Hm as [d Hd|new sd1 Hm]; [exists v; auto|].
    apply v1_migrate_exact in Hm as (_&v0&a&b&Hv0&Ha&Hb&Hl&->). assert (v0 = v) as -> by congruence.
    destruct (leb b a) eqn:E; [exists v; auto|]. exists new. split; [done|]. right. by exists a, b. }
  destruct (IH u Hu) as (v'&Hv'&Hn'). exists v'. split; [done|].
  destruct Hn as [->|Hn]; [done|]. destruct Hn' as [->|Hn']; [by right|]. right. by eapply newer_trans.
Qed.
Lemma lives_grow (sd sd' : stored S) : lives v1_name migr init call sd -> rtc (moves migr call) sd sd' ->
  (exists v v', sd_cw2 sd = Some (Cw2 v1_name v) /\ sd_cw2 sd' = Some (Cw2 v1_name v') /\ (v' = v \/ newer v v')) /\
  rtc call (sd_data sd) (sd_data sd').
Proof.
  intros (sd0&(v0&d0&_&->)&H0) H. split; [|by apply moves_data].
  destruct (moves_grow (Stored (Some (Cw2 v1_name v0)) d0) _ v0 eq_refl H0) as (v&Hv&_). destruct (moves_grow _ _ v Hv H) as (v'&Hv'&Hn). by exists v, v'.
Qed.
(** Code older than the recorded version, or of a version that once was left behind, is refused ever after. *)
Lemma lives_no_return (sd sd' : stored S) old v : lives v1_name migr init call sd -> rtc (moves migr call) sd sd' ->
  sd_cw2 sd = Some (Cw2 v1_name v) -> newer old v -> forall sd'', migr old sd' <> Ok sd''.
Proof.
  intros Hl H Hv Ho sd'' Hm. destruct (moves_grow _ _ v Hv H) as (v'&Hv'&Hn).
  apply v1_migrate_exact in Hm as (_&u&a&b&Hu&Ha&Hb&Hle&_). assert (u = v') as -> by congruence.
  assert (newer old v') as (b'&a'&Hb'&Ha'&_&Hne) by (destruct Hn as [->|Hn]; [done|by eapply newer_trans]).
  assert (a' = a) as -> by congruence. assert (b' = b) as -> by congruence. congruence.
Qed.
End Proofs.

(** * Plain release versions, for examples: three decimal numbers separated by dots *)
Fixpoint read_number (s : string) (acc : option N) : option (N * string) :=
  match s with
  | EmptyString => (fun n => (n, s)) <$> acc
  | String c r =>
      let d := N_of_ascii c in
      if (48 <=? d) && (d <=? 57) then read_number r (Some (10 * default 0 acc + (d - 48))) else (fun n => (n, s)) <$> acc
  end.
Definition read_dot (s : string) : option string :=
  match s with String c r => if bool_decide (c = "."%char) then Some r else None | EmptyString => None end.
Definition release (s : string) : option (N * N * N) :=
  '(a, s) ← read_number s None; s ← read_dot s; '(b, s) ← read_number s None; s ← read_dot s; '(c, s) ← read_number s None;
  match s with EmptyString => Some (a, b, c) | _ => None end.
Definition release_leb (x y : N * N * N) : bool :=
  let '(a, b, c) := x in let '(a', b', c') := y in (a <? a') || ((a =? a') && ((b <? b') || ((b =? b') && (c <=? c')))).
Lemma release_leb_trans x y z : release_leb x y = true -> release_leb y z = true -> release_leb x z = true.
Proof.
  destruct x as [[a b] c], y as [[a' b'] c'], z as [[a'' b''] c'']. unfold release_leb.
  rewrite !orb_true_iff, !andb_true_iff, !orb_true_iff, !andb_true_iff, !N.ltb_lt, !N.eqb_eq, !N.leb_le. lia.
Qed.
