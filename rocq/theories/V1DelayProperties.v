(** The clock and the calls of v1 (C151 of properties.jsonl).  Each theorem is closed by a lemma proved elsewhere; what it rests on is printed
    beneath it, and an example shows a concrete case meeting its hypotheses. *)
From stdpp Require Import relations.
From Verif Require Import Base BaseFacts Common Chain V1Model V1Spec V1Reach V1Examples V1Properties V1DelaySpec V1Delay.

(** * C151 *)
(** A call that goes through at one time goes through at a later one with the same effect, calls of hooks included, exactly when its deadlines
    have not passed by then.  The height of the block never matters. *)
Theorem C151_delay_harmless_before_deadline : forall p x v e e' sender funds st m r,
  e_time e <= e_time e' -> execute_sub p x v e sender funds st m = Ok r ->
  execute_sub p x v e' sender funds st m = Ok r <-> in_time st (e_time e') m.
Proof. intros p x v e e' sender funds st m r Ht He. split; [apply goes_in_time|]. intros Hi. by eapply later_goes. Qed.
Print Assumptions C151_delay_harmless_before_deadline.
(** Nothing goes through after its deadline. *)
Theorem C151_deadlines : forall p x v e sender funds st m r,
  execute_sub p x v e sender funds st m = Ok r -> in_time st (e_time e) m.
Proof. exact goes_in_time. Qed.
Print Assumptions C151_deadlines.

(** carol buys token 1, listed until 2000 s, with an expiry of 2500 s; bids must run for 60 s at least.  At 1999 s it is not too late, at 2000 s it
    is.  A bid that expires at 2500 s must be there before 2440 s.  Stale bids may be removed from 3100 s on, bids taken back at any time. *)
Definition sub_at (x : ext) (height t : N) (s : addr) (f : list coin) (m : msg) : option (list (string * N * ask) * list (string * N * string * bid) * list smsg) :=
  match execute_sub p1 x (view_of p1 (vw1 x)) (Env height t) s f (w_st (vw1 x)) m with
  | Ok (st, ms) => Some (map_to_list (s_asks st), map_to_list (s_bids st), ms) | Err _ => None end.
Definition bid5 : msg := SetBid "coll1" 5 (sec 2500) None None.
Definition drop1 : msg := RemoveStaleBid "coll1" 1 "bobby".
Definition back1 : msg := RemoveBid "coll1" 1.
Example C151_case x : v1_history p1 x (w_st (vw1 x)) /\
  sub_at x 12 (sec 1100) "carol" [us 1000] buy1 <> None /\
  sub_at x 13 (sec 2000 - 1) "carol" [us 1000] buy1 = sub_at x 12 (sec 1100) "carol" [us 1000] buy1 /\
  sub_at x 13 (sec 2000) "carol" [us 1000] buy1 = None /\
  sub_at x 12 (sec 1100) "carol" [us 77] bid5 <> None /\
  sub_at x 13 (sec 2440 - 1) "carol" [us 77] bid5 = sub_at x 12 (sec 1100) "carol" [us 77] bid5 /\
  sub_at x 13 (sec 2440) "carol" [us 77] bid5 = None /\
  sub_at x 13 (sec 3100 - 1) "opera" [] drop1 = None /\ sub_at x 13 (sec 3100) "opera" [] drop1 <> None /\
  sub_at x 99 (sec 9999) "opera" [] drop1 = sub_at x 13 (sec 3100) "opera" [] drop1 /\
  sub_at x 12 (sec 1100) "bobby" [] back1 <> None /\ sub_at x 99 (sec 9999) "bobby" [] back1 = sub_at x 12 (sec 1100) "bobby" [] back1.
Proof. split; [apply vw1_history|]. destruct x as [[|]]; vm_compute; split_and!; (reflexivity || discriminate). Qed.
