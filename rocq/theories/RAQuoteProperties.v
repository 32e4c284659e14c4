(** The list of auctions by end time and the next block (C144 of properties.jsonl).  The theorem is closed by a lemma proved elsewhere;
    what it rests on is printed beneath it, and an example shows a concrete case meeting its hypotheses. *)
From stdpp Require Import relations.
From Verif Require Import Base BaseFacts Common Chain ChainFacts IndexRange RAModel RASpec RAFacts RAInv RAReach RAExactSpec RAExamples
  RAQuoteSpec RAQuote.

(** * C144 *)
(** The end of the block processes exactly the first rows of the list of auctions by end time, in this order, and no others. *)
Theorem C144_ra_block_as_listed : forall p lb w w',
  ra_reachable p lb w -> p_valid p "" = false -> cf_max_settle (s_config (w_st w)) <= 100 -> t_seconds (w_time w) < U64_MAX ->
  run_sudo p lb w EndBlock = Ok w' ->
  let l := next_up (w_st w) (w_time w) in
  exists os, Forall2 (fun a o => handled p lb (view_of p w) (w_time w) (s_config (w_st w)) (s_halt (w_st w)) a (fst o) (snd o)) l os /\
    processed (w_st w) (w_st w') l os.
Proof. exact next_settled. Qed.
Print Assumptions C144_ra_block_as_listed.

(** Four auctions: two are over, the one with more time left was opened first; one has just started and one has no bid. *)
Definition story144 : list act := [
  Tx "alice" [us 10] (CreateAuction "coll1" "1" (us 100) 70 None);
  Tx "alice" [us 10] (CreateAuction "coll1" "2" (us 100) 60 None);
  Tx "alice" [us 10] (CreateAuction "coll1" "3" (us 100) 60 None);
  Tx "alice" [us 10] (CreateAuction "coll1" "4" (us 100) 60 None);
  Tx "bobby" [us 100] (PlaceBid "coll1" "1");
  Tx "carol" [us 100] (PlaceBid "coll1" "2");
  At (sec 1070);
  Tx "carol" [us 100] (PlaceBid "coll1" "3")].
Definition w144 : world state := after lib1 rw0 story144.
Example C144_ra_case : ra_reachable p1 lib1 w144 /\ p_valid p1 "" = false /\ cf_max_settle (s_config (w_st w144)) = 10 /\
  t_seconds (w_time w144) = 1070 /\ is_ok (run_sudo p1 lib1 w144 EndBlock) = true /\
  a_tok <$> next_up (w_st w144) (w_time w144) = ["2"; "1"] /\
  a_tok <$> query_auctions_by_end_time (w_st w144) 0 None (Some 10) None = ["2"; "1"; "3"] /\
  match run_sudo p1 lib1 w144 EndBlock with Ok w' => a_tok <$> query_auctions_by_end_time (w_st w') 0 None (Some 10) None = ["3"] | Err _ => False end.
Proof.
  split; [apply after_reachable; [apply rw0_reachable|by vm_compute]|]. split; [done|]. split; [vm_compute; reflexivity|]. split; [vm_compute; reflexivity|].
  split; [vm_compute; reflexivity|]. split; [vm_compute; reflexivity|]. split; vm_compute; reflexivity.
Qed.
