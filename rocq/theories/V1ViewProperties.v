(** Whom v1 asks (C154 of properties.jsonl).  Each theorem is closed by a lemma proved elsewhere; what it rests on is printed beneath it, and an
    example shows a concrete case meeting its hypotheses. *)
From stdpp Require Import relations pretty.
From Verif Require Import Base BaseFacts Common Chain V1Model V1Spec V1Reach V1Examples V1Properties ViewSpec V1ViewSpec V1View.

(** * C154 *)
(** The result of a call, calls of hooks and errors included, depends on nothing outside the contract but the answers to the questions of
    V1ViewSpec. *)
Theorem C154_asks_only : forall p x v v' e sender funds st m,
  v1_history p x st -> answer_alike v v' (questions p st m) ->
  execute_sub p x v' e sender funds st m = execute_sub p x v e sender funds st m.
Proof. exact history_view. Qed.
Print Assumptions C154_asks_only.
(** So the call goes the same way when nothing else is answered at all. *)
Theorem C154_answers_suffice : forall p x v e sender funds st m,
  v1_history p x st ->
  execute_sub p x (only_answers (questions p st m) v) e sender funds st m = execute_sub p x v e sender funds st m.
Proof. intros p x v e sender funds st m Hh. apply history_view; [done|]. apply only_answers_alike. Qed.
Print Assumptions C154_answers_suffice.
(** Whoever takes a bid back, or removes a stale one, needs nobody's answer. *)
Theorem C154_withdrawals_ask_nobody : forall p x v v' e sender funds st m,
  (exists coll tok, m = RemoveBid coll tok) \/ (exists coll, m = RemoveCollectionBid coll) \/
  (exists coll tok bidder, m = RemoveStaleBid coll tok bidder) \/ (exists coll bidder, m = RemoveStaleCollectionBid coll bidder) ->
  execute_sub p x v' e sender funds st m = execute_sub p x v e sender funds st m.
Proof. by intros p x v v' e sender funds st m [(?&?&->)|[(?&->)|[(?&?&?&->)|(?&?&->)]]]. Qed.
Print Assumptions C154_withdrawals_ask_nobody.

(** carol buys token 1 for the price of 1000: the collection must say who owns it and what its royalty is, and either failure stops the purchase.  A bid of
    carol for token 5, which is not listed, needs no answer, and neither does bobby's withdrawal. *)
Definition told (x : ext) (l : list question) (s : addr) (f : list coin) (m : msg) : option (list smsg) :=
  match execute_sub p1 x (only_answers l (view_of p1 (vw1 x))) (Env 12 (sec 1100)) s f (w_st (vw1 x)) m with
  | Ok (_, ms) => Some ms | Err _ => None end.
Definition fully_told (x : ext) (s : addr) (f : list coin) (m : msg) : option (list smsg) :=
  match execute_sub p1 x (view_of p1 (vw1 x)) (Env 12 (sec 1100)) s f (w_st (vw1 x)) m with Ok (_, ms) => Some ms | Err _ => None end.
Definition q_own : question := WhoOwns "coll1" "1".
Definition q_coll : question := AboutCollection "coll1".
Definition bid5 : msg := SetBid "coll1" 5 (sec 2500) None None.
Example C154_case x : v1_history p1 x (w_st (vw1 x)) /\ questions p1 (w_st (vw1 x)) buy1 = [q_own; q_coll] /\
  fully_told x "carol" [us 1000] buy1 <> None /\ told x [q_own; q_coll] "carol" [us 1000] buy1 = fully_told x "carol" [us 1000] buy1 /\
  told x [q_coll] "carol" [us 1000] buy1 = None /\ told x [q_own] "carol" [us 1000] buy1 = None /\
  questions p1 (w_st (vw1 x)) bid5 = [] /\ fully_told x "carol" [us 77] bid5 <> None /\
  told x [] "carol" [us 77] bid5 = fully_told x "carol" [us 77] bid5 /\
  fully_told x "bobby" [] (RemoveBid "coll1" 1) <> None /\
  told x [] "bobby" [] (RemoveBid "coll1" 1) = fully_told x "bobby" [] (RemoveBid "coll1" 1) /\
  questions p1 (w_st (vw1 x)) (SyncAsk "coll1" 1) = [MayMove "coll1" "1" (p_self p1)].
Proof. split; [apply vw1_history|]. destruct x as [[|]]; vm_compute; split_and!; (reflexivity || discriminate). Qed.
