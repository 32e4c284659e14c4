(** Whom the reserve auction asks (C155 of properties.jsonl).  Each theorem is closed by a lemma proved elsewhere; what it rests on is printed
    beneath it, and an example shows a concrete case meeting its hypotheses. *)
From stdpp Require Import relations.
From Verif Require Import Base BaseFacts Common Chain ChainFacts QuerySpec RAModel RASpec RAFacts RAInv RAReach RAExamples RARefute
  RAProperties ViewSpec RAViewSpec RAView.

(** * C155 *)
(** The result of a call, be it a success or an error, depends on nothing outside the contract but the answers to the questions of RAViewSpec. *)
Theorem C155_asks_only : forall p lb v v' e sender funds st m,
  ra_history p lb st -> answer_alike v v' (questions p m) ->
  execute p lb v' e sender funds st m = execute p lb v e sender funds st m.
Proof. exact history_view. Qed.
Print Assumptions C155_asks_only.
(** The end of a block asks only collections with an ended auction; the other calls of the chain ask nobody. *)
Theorem C155_chain_asks_only : forall p lb v v' e st m,
  ra_history p lb st -> answer_alike v v' (sudo_questions (e_time e) st m) ->
  sudo p lb v' e st m = sudo p lb v e st m.
Proof. exact history_view_sudo. Qed.
Print Assumptions C155_chain_asks_only.
(** So bids, cancellations and new reserve prices go the same way when nobody answers. *)
Theorem C155_bidding_asks_nobody : forall p lb v v' e sender funds st m,
  (exists coll tok, m = PlaceBid coll tok) \/ (exists coll tok, m = CancelAuction coll tok) \/
  (exists coll tok price, m = UpdateReservePrice coll tok price) ->
  execute p lb v' e sender funds st m = execute p lb v e sender funds st m.
Proof. by intros p lb v v' e sender funds st m [(?&?&->)|[(?&?&->)|(?&?&?&->)]]. Qed.
Print Assumptions C155_bidding_asks_nobody.

(** The auction of token 1 of collection 1 ends at 4600 s.  Until then the end of a block asks nobody, and then it asks collection 1, without whose answer
    the block's settlements fail under this library.  Bobby bids 200 without anybody's answer. *)
Definition told (l : list question) (t : N) (s : addr) (f : list coin) (m : msg) : result (state * list cmsg) :=
  execute p1 lib1 (only_answers l (view_of p1 w1)) (Env 20 t) s f st1 m.
Definition told_end (l : list question) (t : N) : result (state * list cmsg) :=
  sudo p1 lib1 (only_answers l (view_of p1 w1)) (Env 20 t) st1 EndBlock.
Definition sent (r : result (state * list cmsg)) : option (list cmsg) := match r with Ok (_, ms) => Some ms | Err _ => None end.
Definition q_coll : question := AboutCollection "coll1".
Example C155_case : ra_history p1 lib1 st1 /\
  sent (told [] (sec 2000) "bobby" [us 200] (PlaceBid "coll1" "1")) = Some [MSend "carol" [us 105]] /\
  sudo_questions (sec 4600 - 1) st1 EndBlock = [] /\ sent (told_end [] (sec 4600 - 1)) = Some [] /\
  sudo_questions (sec 4600) st1 EndBlock = [q_coll] /\ sent (told_end [] (sec 4600)) = None /\
  sent (told_end [q_coll] (sec 4600)) =
    Some [MFairBurn (us 2); MSend "royal" [us 5]; MSend "alice" [us 98]; MNft "coll1" "1" "carol"] /\
  sent (told [q_coll] (sec 4600) "dave1" [] (SettleAuction "coll1" "1")) = sent (told_end [q_coll] (sec 4600)) /\
  sent (told [] (sec 4600) "dave1" [] (SettleAuction "coll1" "1")) = None /\
  questions p1 (CreateAuction "coll1" "2" (us 100) 3600 None) = [WhoOwns "coll1" "2"; MayMove "coll1" "2" (p_self p1); q_coll].
Proof. split; [exact st1_history|]. vm_compute. split_and!; reflexivity. Qed.
