(** The end of a block is nothing but settlements (C147 of properties.jsonl).  Each theorem is closed by a lemma proved elsewhere; what it
    rests on is printed beneath it, and an example shows a concrete case meeting its hypotheses. *)
From stdpp Require Import relations.
From Verif Require Import Base BaseFacts Common Chain ChainFacts QuerySpec RAModel RASpec RAFacts RAIndex RAInv RAReach RAFinal RAExamples
  RAProperties RAExactSpec RAExact RABlockSpec RABlock.

(** * C147 *)
(** Take the auctions EndBlock is to process, the first due ones up to the limit, and any callers: if these settle the auctions one by one
    in this order, that goes through exactly when EndBlock does, with the same messages in the same order and the same storage, but for
    the halt windows, which only EndBlock tidies. *)
Theorem C147_end_block_is_settling : forall p lb v e whos l st st2 ms,
  ra_history p lb st -> t_seconds (e_time e) < U64_MAX -> first_due st (e_time e) (cf_max_settle (s_config st)) l ->
  length whos = length l -> p_self p ∉ whos ->
  settling p lb v e whos l st st2 ms <->
  s_halt st2 = s_halt st /\ exists st', sudo p lb v e st EndBlock = Ok (st', ms) /\ same_but_windows st' st2.
Proof. intros p lb v e whos l st st2 ms Hh Hm. apply block_settles; [done|lia]. Qed.
Print Assumptions C147_end_block_is_settling.

(** Two auctions have ended; EndBlock takes the first token first, since both ended in the same second.  Dave and bobby settling them in this order send
    the same messages. *)
Definition w_two : world state := after lib1 rw0 (take 6 same_second ++ [At (sec 1061)]).
Definition settle_call (s : addr) (tok : token) (st : state) : result (state * list cmsg) :=
  execute p1 lib1 (view_of p1 w_two) (env_of w_two) s [] st (SettleAuction "coll1" tok).
Definition two_calls : result (state * list cmsg) :=
  r1 ← settle_call "dave1" "1" (w_st w_two); r2 ← settle_call "bobby" "2" (fst r1); Ok (fst r2, snd r1 ++ snd r2).
Definition block_call : result (state * list cmsg) := sudo p1 lib1 (view_of p1 w_two) (env_of w_two) (w_st w_two) EndBlock.
Definition seen (r : result (state * list cmsg)) : option (list (akey * auction) * list cmsg) :=
  match r with Ok (st, ms) => Some (map_to_list (s_auctions st), ms) | Err _ => None end.
Example C147_case :
  ra_history p1 lib1 (w_st w_two) /\ t_seconds (w_time w_two) < U64_MAX /\
  (exists l, first_due (w_st w_two) (w_time w_two) (cf_max_settle (s_config (w_st w_two))) l /\ map a_key l = [("coll1", "1"); ("coll1", "2")]) /\
  seen two_calls = seen block_call /\
  match seen block_call with Some (au, ms) => au = [] /\
      ms = [MFairBurn (us 2); MSend "royal" [us 5]; MSend "alice" [us 93]; MNft "coll1" "1" "bobby";
            MFairBurn (us 2); MSend "royal" [us 5]; MSend "alice" [us 93]; MNft "coll1" "2" "bobby"] | None => False end.
Proof.
  assert (ra_reachable p1 lib1 w_two) as Hr by (apply after_reachable; [apply rw0_reachable|vm_compute; reflexivity]).
  pose proof (reachable_history _ _ _ Hr) as Hh. split; [done|]. split; [vm_compute; reflexivity|]. split.
  - eexists. split; [apply (due_first p1); [by eapply history_wf|vm_compute; discriminate]|]. vm_compute. reflexivity.
  - split; [vm_compute; reflexivity|]. vm_compute. split; reflexivity.
Qed.
