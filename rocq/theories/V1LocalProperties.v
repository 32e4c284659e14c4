(** Locality of marketplace v1 (V1LocalSpec). *)
From stdpp Require Import relations.
From Verif Require Import Base BaseFacts Common Chain V1Model V1Spec V1Facts V1Examples V1LocalSpec V1Local.

(** * C126: a call looks only at the places it is about and changes only them, so that calls about different places can be
    exchanged, and what happens to a collection does not depend on calls about other collections. *)
Theorem C126_depends : forall p x v e s f st st0 m, same_at (fun k => k ∈ places s m) st st0 ->
  let r := execute_sub p x v e s f st m in let r0 := execute_sub p x v e s f st0 m in
  answer r = answer r0 /\ forall k, holds st k = holds st0 k -> holds (next st r) k = holds (next st0 r0) k.
Proof. exact depends_on_places. Qed.
Print Assumptions C126_depends.
Theorem C126_changes : forall p x v e s f st m, let st' := next st (execute_sub p x v e s f st m) in
  same_rules st st' /\ forall k, k ∉ places s m -> holds st' k = holds st k.
Proof. exact changes_places. Qed.
Print Assumptions C126_changes.
Theorem C126_exchange : forall p x v1 e1 s1 f1 m1 v2 e2 s2 f2 m2 st st1 ms1 st2 ms2,
  (forall k, k ∈ places s1 m1 -> k ∉ places s2 m2) ->
  execute_sub p x v1 e1 s1 f1 st m1 = Ok (st1, ms1) -> execute_sub p x v2 e2 s2 f2 st1 m2 = Ok (st2, ms2) ->
  exists st3, execute_sub p x v2 e2 s2 f2 st m2 = Ok (st3, ms2) /\ execute_sub p x v1 e1 s1 f1 st3 m1 = Ok (st2, ms1).
Proof. exact exchange. Qed.
Print Assumptions C126_exchange.
(** In any sequence of calls, failed ones included, the calls that concern a collection have the same outcomes and leave the
    same book as if the calls about other collections had never been made. *)
Theorem C126_undisturbed : forall p x coll l st,
  let l0 := filter (fun c => concerns coll c = true) l in
  seen p x (concerns coll) st l = seen p x (concerns coll) st l0 /\
  same_at (fun k => slot_coll k = coll) (run p x st l) (run p x st l0).
Proof. intros p x coll l st. apply undisturbed. by repeat split. Qed.
Print Assumptions C126_undisturbed.

(** Alice lists and Bobby bids for one token; Carol bids for another, twice; someone fails; governance raises the minimum
    price; Carol's last bid is too low, and Bobby buys. *)
Definition at1 (t : N) (s : addr) (f : list coin) (m : msg) : call :=
  ByUser (UCall (view_of p1 vw0) (Env 10 (sec t)) s f m).
Definition raise_min : sudo_msg := UpdateParams (ParamsUpdate None None None None None (Some 500) None None None).
Definition busy : list call := [
  at1 1000 "alice" [us 10] (SetAsk FixedPrice "coll1" 1 (us 1010) None None (Some 100) (sec 2000));
  at1 1000 "carol" [us 600] (SetCollectionBid "coll2" (sec 2500) None);
  at1 1010 "bobby" [us 900] (SetBid "coll1" 1 (sec 2500) None None);
  at1 1010 "carol" [us 600] (SetBid "coll2" 2 (sec 2500) None None);
  at1 1020 "carol" [us 600] (BuyNow "coll2" 3 (sec 2500) None None);
  ByChain (view_of p1 vw0) (Env 10 (sec 1030)) raise_min;
  at1 1040 "carol" [us 400] (SetBid "coll1" 2 (sec 2500) None None);
  at1 1040 "carol" [us 700] (SetBid "coll2" 2 (sec 2500) None None);
  at1 1050 "bobby" [us 1010] (BuyNow "coll1" 1 (sec 2500) None None)].
Example C126_case : let x := Ext true in
  length (filter (fun c => concerns "coll1" c = true) busy) = 5%nat /\
  map (fun r => is_ok (snd r)) (seen p1 x (concerns "coll1") vst0 busy) = [true; true; true; false; true] /\
  map (fun r => is_ok (snd r)) (seen p1 x (concerns "coll2") vst0 busy) = [true; true; false; true; true] /\
  (exists st, st = run p1 x vst0 (take 4 busy) /\ s_asks st !! ("coll1", 1) <> None /\ s_bids st !! ("coll1", 1, "bobby") <> None /\
     s_cbids st !! ("coll2", "carol") <> None /\ s_bids st !! ("coll2", 2, "carol") <> None) /\
  (let st := run p1 x vst0 (take 1 busy) in
   let m1 := SetBid "coll1" 1 (sec 2500) None None in let m2 := SetBid "coll1" 2 (sec 2500) None None in
   (forall k, k ∈ places "bobby" m1 -> k ∉ places "bobby" m2) /\
   exists st1 ms1, execute_sub p1 x (view_of p1 vw0) (Env 10 (sec 1010)) "bobby" [us 900] st m1 = Ok (st1, ms1) /\
   is_ok (execute_sub p1 x (view_of p1 vw0) (Env 10 (sec 1010)) "bobby" [us 800] st1 m2) = true).
Proof.
  cbv zeta. split; [by vm_compute|]. split; [by vm_compute|]. split; [by vm_compute|].
  split; [eexists; split; [reflexivity|]; split_and!; by vm_compute|]. split.
  - cbn [places]. intros k. rewrite !elem_of_cons, elem_of_nil. intros H1 H2. destruct_or! H1; destruct_or! H2; congruence.
  - destruct (execute_sub p1 (Ext true) (view_of p1 vw0) (Env 10 (sec 1010)) "bobby" [us 900] (run p1 (Ext true) vst0 (take 1 busy))
      (SetBid "coll1" 1 (sec 2500) None None)) as [[st1 ms1]|er] eqn:E.
    + exists st1, ms1. split; [done|]. assert (match execute_sub p1 (Ext true) (view_of p1 vw0) (Env 10 (sec 1010)) "bobby" [us 900] (run p1 (Ext true) vst0 (take 1 busy))
      (SetBid "coll1" 1 (sec 2500) None None) with Ok (st1, _) => is_ok (execute_sub p1 (Ext true) (view_of p1 vw0) (Env 10 (sec 1010)) "bobby" [us 800] st1
       (SetBid "coll1" 2 (sec 2500) None None)) | Err _ => false end = true) as H by by vm_compute. by rewrite E in H.
    + exfalso. assert (is_ok (execute_sub p1 (Ext true) (view_of p1 vw0) (Env 10 (sec 1010)) "bobby" [us 900] (run p1 (Ext true) vst0 (take 1 busy))
      (SetBid "coll1" 1 (sec 2500) None None)) = true) as H by by vm_compute. by rewrite E in H.
Qed.
