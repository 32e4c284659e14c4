(** Claims about the reserve auction that are false, with their witnesses. *)
From stdpp Require Import relations.
From Verif Require Import Base BaseFacts Common Chain ChainFacts IndexRange QuerySpec IndexWalk RAModel RASpec RAFacts RAIndex
  RAInv RAReach RAFinal RAHalt RAQuery RAExamples.

Lemma ra_reachable_history lb w : ra_reachable p1 lb w -> ra_history p1 lb (w_st w).
Proof. apply reachable_history. Qed.

(** One auction on a rogue collection stops EndBlock at every later time, whatever the other queries answer. *)
Lemma end_block_poisoned lb : exists w a t, ra_reachable p1 lb w /\ s_auctions (w_st w) !! ("coll1", "1") = Some a /\
  p_honest p1 "coll1" = true /\ a_end a = Some t /\ t < w_time w /\ ~ halted (s_halt (w_st w)) t /\
  0 < cf_max_settle (s_config (w_st w)) /\
  forall e r, w_time w <= e_time e -> sudo p1 lb (view_of p1 w) e (w_st w) EndBlock <> Ok r.
Proof.
  exists (poisoned lb), victim, (sec 4600).
  assert (ra_reachable p1 lb (poisoned lb)) as Hr by (apply after_reachable; [apply rw0_reachable|apply poisoned_ok]).
  split; [done|]. split; [by vm_compute|]. split; [done|]. split; [done|]. split; [by vm_compute|].
  assert (forall t, ~ halted (s_halt (w_st (poisoned lb))) t) as Hh.
  { intros t (x&Hx&_). assert (hm_windows (s_halt (w_st (poisoned lb))) = []) as E by (by vm_compute).
    rewrite E in Hx. by apply elem_of_nil in Hx. }
  split; [apply Hh|]. split; [by vm_compute|]. intros e r Ht.
  assert (w_time (poisoned lb) = sec 4700) as Et by (by vm_compute). rewrite Et in Ht.
  apply end_block_blocked with (a := bait) (t := sec 1060).
  - by apply ra_reachable_history.
  - by vm_compute.
  - done.
  - transitivity (t_seconds (sec 4700)); [by vm_compute|]. unfold t_seconds. apply N.div_le_mono; [done|exact Ht].
  - by vm_compute.
  - intros k b Hb _ Hne. apply elem_of_map_to_list in Hb.
    assert (b = victim \/ b = bait) as [->| ->].
    { destruct (poisoned_auctions lb) as [E|E].
      - assert ((k, b) ∈ [(("coll1", "1"), victim); (("rogue", "1"), bait)]) as Hb' by (rewrite <-E; exact Hb).
        rewrite elem_of_cons, elem_of_list_singleton in Hb'. destruct Hb' as [Hb'|Hb']; injection Hb' as _ ->; auto.
      - assert ((k, b) ∈ [(("rogue", "1"), bait); (("coll1", "1"), victim)]) as Hb' by (rewrite <-E; exact Hb).
        rewrite elem_of_cons, elem_of_list_singleton in Hb'. destruct Hb' as [Hb'|Hb']; injection Hb' as _ ->; auto. }
    + left. by vm_compute.
    + done.
  - right. split; [apply Hh|]. exists None, "??", 50000000000000000. split; [by vm_compute|done].
Qed.

(** Naming a blocked module account as recipient has the same effect, on any collection: the settlement messages fail. *)
Definition blocked_world : world state := after lib1 rw0 blocked_recipient.
Lemma end_block_blocked_recipient : exists w a t, ra_reachable p1 lib1 w /\ s_auctions (w_st w) !! ("coll1", "1") = Some a /\
  a_end a = Some t /\ t < w_time w /\
  (exists w', run_tx p1 (execute p1 lib1) w "carol" [] (SettleAuction "coll1" "1") = Ok w') /\
  forall st' msgs w', sudo p1 lib1 (view_of p1 w) (env_of w) (w_st w) EndBlock = Ok (st', msgs) ->
    ~ dispatch p1 (execute p1 lib1) (set_st w st') msgs w'.
Proof.
  exists blocked_world, victim, (sec 4600).
  split; [apply after_reachable; [apply rw0_reachable|by vm_compute]|]. split; [by vm_compute|]. split; [done|].
  split; [by vm_compute|]. split; [apply ok_some; by vm_compute|].
  intros st' msgs w' H Hd.
  assert ((snd <$> sudo p1 lib1 (view_of p1 blocked_world) (env_of blocked_world) (w_st blocked_world) EndBlock) =
    Ok [MFairBurn (us 2); MSend "royal" [us 5]; MSend "block" [us 93]; MNft "coll1" "2" "bobby";
        MFairBurn (us 2); MSend "royal" [us 5]; MSend "alice" [us 93]; MNft "coll1" "1" "carol"]) as E by (by vm_compute).
  rewrite H in E. cbn in E. injection E as ->.
  inversion Hd as [| | | | | |?????? Hd1|]; subst. inversion Hd1 as [|?????? ? Hd2| | | | | |]; subst.
  inversion Hd2 as [|????? Hs| | | | | |]; subst. vm_compute in Hs. done.
Qed.

(** A halt window is dropped although an auction ends inside it. *)
Definition halt_world : world state := after lib1 rw0 halt_begin.
Lemma halt_protection_lost : exists w k a t w1 w2, ra_reachable p1 lib1 w /\
  s_auctions (w_st w) !! k = Some a /\ a_end a = Some t /\ halted (s_halt (w_st w)) t /\
  run_sudo p1 lib1 w EndBlock = Ok w1 /\ s_auctions (w_st w1) !! k = Some a /\
  run_acts p1 lib1 w1 [At (t + NANOS); Sudo BeginBlock; Sudo EndBlock] = Ok w2 /\
  s_auctions (w_st w2) !! k = None /\ w_nft w2 "coll1" "1" = Some "bobby".
Proof.
  set (w1 := after lib1 halt_world [Sudo EndBlock]).
  exists halt_world, ("coll1", "1"), (Auction "coll1" "1" "alice" (us 100) 3600 (Some (sec 4600)) None (Some (HighBid (us 100) "bobby")) (Some (sec 1000))),
    (sec 4600), w1, (after lib1 w1 [At (sec 4600 + NANOS); Sudo BeginBlock; Sudo EndBlock]).
  split; [apply after_reachable; [apply rw0_reachable|by vm_compute]|].
  split; [by vm_compute|]. split; [done|]. split; [apply within_halted; by vm_compute|].
  split; [apply after_sudo; by vm_compute|]. split; [by vm_compute|].
  split; [apply after_ok; by vm_compute|]. split; by vm_compute.
Qed.

(** The first bid can leave less time than the extension. *)
Lemma short_auction lb : exists w w' a' t', ra_reachable p1 lb w /\
  run_tx p1 (execute p1 lb) w "bobby" [us 100] (PlaceBid "coll1" "1") = Ok w' /\
  s_auctions (w_st w') !! ("coll1", "1") = Some a' /\ a_end a' = Some t' /\
  t_seconds t' < t_seconds (w_time w) + cf_extend (s_config (w_st w)).
Proof.
  set (w := after lb rw0 [Tx "alice" [us 10] (CreateAuction "coll1" "1" (us 100) 60 None)]).
  exists w, (after lb w [Tx "bobby" [us 100] (PlaceBid "coll1" "1")]),
    (Auction "coll1" "1" "alice" (us 100) 60 (Some (sec 1060)) None (Some (HighBid (us 100) "bobby")) (Some (sec 1000))), (sec 1060).
  split; [apply after_reachable; [apply rw0_reachable|by vm_compute]|].
  split; [apply after_tx; by vm_compute|]. split; [by vm_compute|]. split; [done|]. by vm_compute.
Qed.

(** Coins attached to CreateAuction beyond the fee are kept. *)
Lemma overpaid_fee lb : exists w w', ra_reachable p1 lb w /\
  run_tx p1 (execute p1 lb) w "alice" [us 15] (CreateAuction "coll1" "1" (us 100) 60 None) = Ok w' /\
  cf_create_fee (s_config (w_st w)) = us 10 /\ w_bank w "aucti" "ustars" = 0 /\
  w_bank w' "aucti" "ustars" = 5 /\ high_total (w_st w') "ustars" = 0.
Proof.
  exists rw0, (after lb rw0 [Tx "alice" [us 15] (CreateAuction "coll1" "1" (us 100) 60 None)]).
  split; [apply rw0_reachable|]. split; [apply after_tx; by vm_compute|]. by vm_compute.
Qed.

(** Paging by end time with the end time left as it was returns the same entry again. *)
Lemma end_time_paging_repeats lb : exists w a, ra_reachable p1 lb w /\
  query_auctions_by_end_time (w_st w) 0 None (Some 1) None = [a] /\
  query_auctions_by_end_time (w_st w) 0 None (Some 1) (Some (a_key a)) = [a].
Proof. exists (rw1 lb), auction1. split; [apply rw1_reachable|]. by vm_compute. Qed.
