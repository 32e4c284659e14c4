(** Locality of the reserve auction (RALocalSpec). *)
From stdpp Require Import relations.
From Verif Require Import Base BaseFacts Common Chain RAModel RASpec RAFacts RAReach RAExamples RALocalSpec RALocal.

(** * C127: a call looks only at the auction it is about, at the configuration and at the record of halts, and changes only
    that auction; calls about different NFTs can be exchanged, and but for the end of a block an auction does not depend on
    calls about other NFTs. *)
Theorem C127_depends : forall p lb v e s f st st0 m, ra_history p lb st -> same_at (about m) st st0 ->
  let r := execute p lb v e s f st m in let r0 := execute p lb v e s f st0 m in
  answer r = answer r0 /\
  forall k : string * string, s_auctions st !! k = s_auctions st0 !! k -> s_auctions (next st r) !! k = s_auctions (next st0 r0) !! k.
Proof. intros p lb v e s f st st0 m H. apply depends. by eapply history_keyed. Qed.
Print Assumptions C127_depends.
Theorem C127_changes : forall p lb v e s f st m, ra_history p lb st -> let st' := next st (execute p lb v e s f st m) in
  same_rules st st' /\ forall k : string * string, k <> about m -> s_auctions st' !! k = s_auctions st !! k.
Proof. intros p lb v e s f st m H. apply changes. by eapply history_keyed. Qed.
Print Assumptions C127_changes.
Theorem C127_exchange : forall p lb v1 e1 s1 f1 m1 v2 e2 s2 f2 m2 st st1 ms1 st2 ms2, ra_history p lb st -> about m1 <> about m2 ->
  execute p lb v1 e1 s1 f1 st m1 = Ok (st1, ms1) -> execute p lb v2 e2 s2 f2 st1 m2 = Ok (st2, ms2) ->
  exists st3, execute p lb v2 e2 s2 f2 st m2 = Ok (st3, ms2) /\ execute p lb v1 e1 s1 f1 st3 m1 = Ok (st2, ms1).
Proof. intros p lb v1 e1 s1 f1 m1 v2 e2 s2 f2 m2 st st1 ms1 st2 ms2 H. apply exchange. by eapply history_keyed. Qed.
Print Assumptions C127_exchange.
(** In any sequence of calls of users, of governance and at the beginning of blocks, failed ones included, the calls that
    concern an NFT have the same answers and leave the same auction as if the calls about other NFTs had never been made. *)
Theorem C127_undisturbed : forall p lb (k : string * string) l st, ra_history p lb st ->
  Forall (fun c => ends_block c = false) l ->
  let l0 := filter (fun c => concerns k c = true) l in
  seen p lb (concerns k) st l = seen p lb (concerns k) st l0 /\ same_at k (run p lb st l) (run p lb st l0).
Proof. intros p lb k l st H%history_keyed Hl. by apply undisturbed. Qed.
Print Assumptions C127_undisturbed.
(** The end of a block is different: an auction of a rogue collection keeps another one from being settled. *)
Definition at1 (o : oracle) (t : N) (s : addr) (f : list coin) (m : msg) : call :=
  ByUser (UCall (view_of p1 (set_ora rw0 o)) (Env 10 (sec t)) s f m).
Definition crowd : list call := [
  at1 royalty1 1000 "mally" [us 10] (CreateAuction "rogue" "1" (us 50) 60 None);
  at1 royalty1 1000 "alice" [us 10] (CreateAuction "coll1" "1" (us 100) 3600 None);
  at1 royalty1 1000 "bobby" [us 50] (PlaceBid "rogue" "1");
  at1 royalty1 1000 "carol" [us 100] (PlaceBid "coll1" "1");
  ByChain (view_of p1 (set_ora rw0 royalty2)) (Env 10 (sec 4700)) EndBlock].
Lemma rst0_history lb : ra_history p1 lb rst0.
Proof. change rst0 with (w_st rw0). apply reachable_history. apply rw0_reachable. Qed.
Theorem C127_end_block_refuted : exists p lb (k : string * string) l st, ra_history p lb st /\
  let l0 := filter (fun c => concerns k c = true) l in
  s_auctions (run p lb st l) !! k <> None /\ s_auctions (run p lb st l0) !! k = None.
Proof. exists p1, lib1, ("coll1", "1"), crowd, rst0. split; [apply rst0_history|split; by vm_compute]. Qed.
Print Assumptions C127_end_block_refuted.

(** Two auctions with bids, a halt, a failed cancellation, and a settlement by hand. *)
Definition quiet : list call := take 4 crowd ++ [
  at1 royalty1 1010 "alice" [] (CancelAuction "coll1" "1");
  ByChain (view_of p1 rw0) (Env 10 (sec 1020)) BeginBlock;
  at1 royalty1 1030 "edith" [us 200] (PlaceBid "rogue" "1");
  at1 royalty1 1040 "daver" [us 200] (PlaceBid "coll1" "1");
  at1 royalty1 4700 "daver" [] (SettleAuction "coll1" "1")].
Example C127_case : Forall (fun c => ends_block c = false) quiet /\
  length (filter (fun c => concerns ("coll1", "1") c = true) quiet) = 6%nat /\
  map (fun r => is_ok (snd r)) (seen p1 lib1 (concerns ("coll1", "1")) rst0 quiet) = [true; true; false; true; true; true] /\
  (exists a, s_auctions (run p1 lib1 rst0 quiet) !! (("rogue", "1") : akey) = Some a /\
     a_high a = Some (HighBid (us 200) "edith")) /\
  s_auctions (run p1 lib1 rst0 (take 8 quiet)) !! (("coll1", "1") : akey) <> None /\
  s_auctions (run p1 lib1 rst0 quiet) !! (("coll1", "1") : akey) = None.
Proof.
  split; [by repeat constructor|]. split; [by vm_compute|]. split; [by vm_compute|].
  split; [eexists; split; [by vm_compute|done]|]. split; by vm_compute.
Qed.
