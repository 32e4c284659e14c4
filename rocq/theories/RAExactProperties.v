(** The calls and block hooks of the reserve auction as an exact transition relation (RAExactSpec). *)
From stdpp Require Import relations.
From Verif Require Import Base BaseFacts Common Chain ChainFacts QuerySpec RAModel RASpec RAFacts RAInv RAReach RAExamples RARefute
  RAProperties RAExactSpec RAExact.

(** * C122: a user's call succeeds exactly under the conditions of RAExactSpec, and then it does exactly what is written
    there.  Amounts sent are 128-bit numbers. *)
Theorem C122_calls_exact : forall p lb st v e sender funds m st' msgs,
  ra_history p lb st -> (forall c, c ∈ funds -> c_amount c <= U128_MAX) ->
  execute p lb v e sender funds st m = Ok (st', msgs) <-> calls p lb v (e_time e) sender funds st m st' msgs.
Proof. intros p lb st v e sender funds m st' msgs Hst. by apply calls_exact. Qed.
Print Assumptions C122_calls_exact.
Theorem C122_refused_exactly : forall p lb st v e sender funds m,
  ra_history p lb st -> (forall c, c ∈ funds -> c_amount c <= U128_MAX) ->
  (exists er, execute p lb v e sender funds st m = Err er) <->
  forall st' msgs, ~ calls p lb v (e_time e) sender funds st m st' msgs.
Proof.
  intros p lb st v e sender funds m Hst Hs. split.
  - intros [er Her] st' msgs H. apply (calls_exact p lb st Hst) in H; [congruence|done].
  - intros H. destruct (execute p lb v e sender funds st m) as [[st' msgs]|er] eqn:E; [|eauto].
    apply (calls_exact p lb st Hst) in E; [|done]. by apply H in E.
Qed.
Print Assumptions C122_refused_exactly.
(** Carol leads with 105.  Bobby's 111 is taken and returns those; 110 is one too few.  At 4600 s anyone can settle, one
    nanosecond earlier nobody can. *)
Lemma one_small n : n <= U128_MAX -> forall c, c ∈ [us n] -> c_amount c <= U128_MAX.
Proof. intros H c ->%elem_of_list_singleton. exact H. Qed.
Definition almost : env := Env 20 (sec 4600 - 1).
Example C122_calls_case :
  ra_history p1 lib1 st1 /\
  calls p1 lib1 (view_of p1 w1) (sec 4000) "bobby" [us 111] st1 (PlaceBid "coll1" "1")
    (state_of (call (late 4000) "bobby" [us 111] (PlaceBid "coll1" "1"))) [MSend "carol" [us 105]] /\
  (forall st' msgs, ~ calls p1 lib1 (view_of p1 w1) (sec 4000) "bobby" [us 110] st1 (PlaceBid "coll1" "1") st' msgs) /\
  calls p1 lib1 (view_of p1 w1) (sec 4600) "dave1" [] st1 (SettleAuction "coll1" "1")
    (state_of (call (late 4600) "dave1" [] (SettleAuction "coll1" "1")))
    [MFairBurn (us 2); MSend "royal" [us 5]; MSend "alice" [us 98]; MNft "coll1" "1" "carol"] /\
  (forall st' msgs, ~ calls p1 lib1 (view_of p1 w1) (sec 4600 - 1) "dave1" [] st1 (SettleAuction "coll1" "1") st' msgs) /\
  (forall st' msgs, ~ calls p1 lib1 (view_of p1 w1) (sec 1020) "alice" [] st1 (CancelAuction "coll1" "1") st' msgs).
Proof.
  assert (forall c, c ∈ (@nil coin) -> c_amount c <= U128_MAX) as Hnil by (by intros c ?%elem_of_nil).
  split; [exact st1_history|]. split; [|split; [|split; [|split]]].
  - apply (C122_calls_exact p1 lib1 st1 (view_of p1 w1) (late 4000)); [exact st1_history|apply one_small; unfold U128_MAX; lia|].
    rewrite call_ok by (by vm_compute). f_equal.
  - apply (C122_refused_exactly p1 lib1 st1 (view_of p1 w1) (late 4000)); [exact st1_history|apply one_small; unfold U128_MAX; lia|].
    apply not_ok. by vm_compute.
  - apply (C122_calls_exact p1 lib1 st1 (view_of p1 w1) (late 4600)); [exact st1_history|exact Hnil|].
    rewrite call_ok by (by vm_compute). f_equal.
  - apply (C122_refused_exactly p1 lib1 st1 (view_of p1 w1) almost); [exact st1_history|exact Hnil|].
    apply not_ok. by vm_compute.
  - apply (C122_refused_exactly p1 lib1 st1 (view_of p1 w1) (late 1020)); [exact st1_history|exact Hnil|].
    apply not_ok. by vm_compute.
Qed.

(** The same for block hooks and governance.  The clock is a 64-bit number of nanoseconds, so the bound on seconds
    always holds on a chain. *)
Theorem C122_sudo_exact : forall p lb st v e m st' msgs,
  ra_history p lb st -> t_seconds (e_time e) < U64_MAX ->
  sudo p lb v e st m = Ok (st', msgs) <-> sudo_calls p lb v (e_time e) st m st' msgs.
Proof. intros p lb st v e m st' msgs Hst Hm. apply sudo_exact; [done|lia]. Qed.
Print Assumptions C122_sudo_exact.
(** EndBlock fails exactly when one of the first due auctions, up to the limit, cannot be processed. *)
Theorem C122_end_block_fails_exactly : forall p lb st v e,
  ra_history p lb st -> t_seconds (e_time e) < U64_MAX ->
  (exists er, sudo p lb v e st EndBlock = Err er) <->
  exists l a, first_due st (e_time e) (cf_max_settle (s_config st)) l /\ a ∈ l /\
    ~ can_handle p lb v (e_time e) (s_config st) (s_halt st) a.
Proof. intros p lb st v e Hst Hm. apply end_fails; [done|lia]. Qed.
Print Assumptions C122_end_block_fails_exactly.
(** On the chain, when all due auctions are of honest collections: EndBlock goes through exactly when all of the first
    due auctions can be processed and nobody they pay is a blocked account. *)
Theorem C122_block_ends_exactly : forall p lb w,
  ra_reachable p lb w -> t_seconds (w_time w) < U64_MAX ->
  (forall k a, s_auctions (w_st w) !! k = Some a -> due (w_time w) a -> p_honest p (a_coll a) = true /\ a_coll a <> p_self p) ->
  (exists w', run_sudo p lb w EndBlock = Ok w') <->
  exists l, first_due (w_st w) (w_time w) (cf_max_settle (s_config (w_st w))) l /\
    forall a, a ∈ l -> can_finish p lb (view_of p w) (w_time w) (s_config (w_st w)) (s_halt (w_st w)) a.
Proof. exact block_ends. Qed.
Print Assumptions C122_block_ends_exactly.

(** A halt from 1010 s to 4700 s, then EndBlock: auction 1 is postponed.  Two auctions that end in the same second: the
    one that is not over yet stops the block.  A blocked recipient stops it too, although the contract agrees. *)
Definition w_same : world state := after lib1 rw0 same_second.
Definition sudo_of (w : world state) (m : sudo_msg) : state :=
  match sudo p1 lib1 (view_of p1 w) (env_of w) (w_st w) m with Ok (s, _) => s | Err _ => w_st w end.
Example C122_sudo_case :
  ra_history p1 lib1 (w_st w_halt) /\ t_seconds (w_time w_halt) < U64_MAX /\
  sudo_calls p1 lib1 (view_of p1 w_halt) (w_time w_halt) (w_st w_halt) EndBlock (sudo_of w_halt EndBlock) [] /\
  s_auctions (sudo_of w_halt EndBlock) !! ("coll1", "1") = Some (with_end auction1 (sec 8300)) /\
  ra_history p1 lib1 (w_st w_same) /\ t_seconds (w_time w_same) < U64_MAX /\
  (exists l a, first_due (w_st w_same) (w_time w_same) (cf_max_settle (s_config (w_st w_same))) l /\ a ∈ l /\
     ~ can_handle p1 lib1 (view_of p1 w_same) (w_time w_same) (s_config (w_st w_same)) (s_halt (w_st w_same)) a).
Proof.
  assert (ra_reachable p1 lib1 w_halt) as Hh by (apply after_reachable; [exact w1_reachable|by vm_compute]).
  assert (ra_reachable p1 lib1 w_same) as Hs by (apply after_reachable; [apply rw0_reachable|by vm_compute]).
  assert (t_seconds (w_time w_halt) < U64_MAX) as Hth by by vm_compute.
  assert (t_seconds (w_time w_same) < U64_MAX) as Hts by by vm_compute.
  split; [by apply reachable_history|]. split; [done|]. split; [|split; [by vm_compute|split; [by apply reachable_history|split; [done|]]]].
  - apply (C122_sudo_exact p1 lib1 (w_st w_halt) (view_of p1 w_halt) (env_of w_halt)); [by apply reachable_history|exact Hth|].
    unfold sudo_of.
    assert (match sudo p1 lib1 (view_of p1 w_halt) (env_of w_halt) (w_st w_halt) EndBlock with Ok (_, ms) => Some ms | Err _ => None end = Some [])
      as E by by vm_compute.
    destruct (sudo p1 lib1 (view_of p1 w_halt) (env_of w_halt) (w_st w_halt) EndBlock) as [[s ms]|]; [by injection E as ->|done].
  - apply (C122_end_block_fails_exactly p1 lib1 (w_st w_same) (view_of p1 w_same) (env_of w_same)); [by apply reachable_history|exact Hts|].
    apply not_ok. by vm_compute.
Qed.
Example C122_block_case :
  ra_reachable p1 lib1 w_over /\
  (exists l, first_due (w_st w_over) (w_time w_over) (cf_max_settle (s_config (w_st w_over))) l /\ l <> [] /\
    forall a, a ∈ l -> can_finish p1 lib1 (view_of p1 w_over) (w_time w_over) (s_config (w_st w_over)) (s_halt (w_st w_over)) a) /\
  ra_reachable p1 lib1 blocked_world /\
  is_ok (sudo p1 lib1 (view_of p1 blocked_world) (env_of blocked_world) (w_st blocked_world) EndBlock) = true /\
  (forall l, first_due (w_st blocked_world) (w_time blocked_world) (cf_max_settle (s_config (w_st blocked_world))) l ->
    ~ forall a, a ∈ l -> can_finish p1 lib1 (view_of p1 blocked_world) (w_time blocked_world) (s_config (w_st blocked_world))
        (s_halt (w_st blocked_world)) a).
Proof.
  assert (ra_reachable p1 lib1 blocked_world) as Hb by (apply after_reachable; [apply rw0_reachable|by vm_compute]).
  assert (forall w k a, s_auctions (w_st w) !! k = Some a ->
    forallb (fun x : akey * auction => bool_decide (a_coll (snd x) = "coll1")) (map_to_list (s_auctions (w_st w))) = true ->
    p_honest p1 (a_coll a) = true /\ a_coll a <> p_self p1) as Hcoll.
  { intros w k a Ha Hf. apply elem_of_map_to_list in Ha. rewrite forallb_forall in Hf. apply elem_of_list_In in Ha.
    apply Hf in Ha. cbn [snd] in Ha. apply bool_decide_eq_true in Ha. rewrite Ha. done. }
  split; [exact w_over_reachable|]. split; [|split; [done|split; [by vm_compute|]]].
  - destruct (proj1 (C122_block_ends_exactly p1 lib1 w_over w_over_reachable ltac:(by vm_compute)
      ltac:(intros k a Ha _; apply (Hcoll w_over k a Ha); by vm_compute))) as (l&Hl&Hall).
    { eexists. apply after_sudo. by vm_compute. }
    exists l. split; [done|]. split; [|done]. intros ->.
    destruct (fd_complete _ _ _ _ Hl auction1) as [Hin|[Hlen _]]; [by vm_compute| |by apply elem_of_nil in Hin|by vm_compute in Hlen].
    exists (sec 4600). split; [done|by vm_compute].
  - intros l Hl Hall.
    destruct (proj2 (C122_block_ends_exactly p1 lib1 blocked_world Hb ltac:(by vm_compute)
      ltac:(intros k a Ha _; apply (Hcoll blocked_world k a Ha); by vm_compute))) as [w' Hw]; [by exists l|].
    assert (is_ok (run_sudo p1 lib1 blocked_world EndBlock) = false) as E by by vm_compute. by rewrite Hw in E.
Qed.
