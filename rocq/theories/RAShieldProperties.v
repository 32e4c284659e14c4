(** Halts over whole histories (C145).  Each theorem is closed by a lemma proved elsewhere; what it rests on is printed
    beneath it, and examples show concrete cases meeting its hypotheses. *)
From stdpp Require Import relations.
From Verif Require Import Base BaseFacts Common Chain ChainFacts RAModel RASpec RAFacts RAInv RAReach RAExamples RAProperties
  RALedgerSpec RALedger RALedgerProperties RAShieldSpec RAShield.

(** * C145: an auction that ended during a halt is left alone until it is postponed, whatever happens afterwards. *)
Theorem C145_shield : forall p lb st st' k a t w,
  ra_history p lb st -> s_auctions st !! k = Some a -> a_end a = Some t ->
  w ∈ hm_windows (s_halt st) -> hw_start w < t_seconds t < hw_end w ->
  rtc (later p lb (t_seconds t)) st st' -> untouched_until_postponed p lb (t_seconds t) k a st st'.
Proof. exact shield. Qed.
Print Assumptions C145_shield.
(** So it is after every halt for all auctions that were to end in it. *)
Theorem C145_after_halt : forall p lb v e st st1 msgs st' k a t,
  ra_history p lb st -> sudo p lb v e st BeginBlock = Ok (st1, msgs) ->
  0 < hm_prev (s_halt st) -> hm_prev (s_halt st) + cf_halt_threshold (s_config st) <= t_seconds (e_time e) ->
  s_auctions st !! k = Some a -> a_end a = Some t ->
  hm_prev (s_halt st) < t_seconds t <= t_seconds (e_time e) -> t_seconds t < t_seconds (e_time e) + cf_halt_buffer (s_config st) ->
  rtc (later p lb (t_seconds t)) st1 st' -> untouched_until_postponed p lb (t_seconds t) k a st1 st'.
Proof. exact after_halt. Qed.
Print Assumptions C145_after_halt.
(** The window stays as long as the auction has not been postponed. *)
Theorem C145_window_stays : forall p lb st st' k a t w,
  ra_history p lb st -> s_auctions st !! k = Some a -> a_end a = Some t ->
  w ∈ hm_windows (s_halt st) -> hw_start w < t_seconds t < hw_end w ->
  rtc (fun x y => later p lb (t_seconds t) x y /\ s_auctions y !! k = Some a) st st' -> w ∈ hm_windows (s_halt st').
Proof. exact window_stays. Qed.
Print Assumptions C145_window_stays.
(** The windows on record are the latest of those noticed, in order: they leave one by one, the oldest first. *)
Theorem C145_queue : forall p lb st l, trace p lb st l ->
  (length (List.filter drops l) <= length (concat (map halt_noticed l)))%nat /\
  hm_windows (s_halt st) = drop (length (List.filter drops l)) (concat (map halt_noticed l)).
Proof. exact windows_queue. Qed.
Print Assumptions C145_queue.

(** A history whose entries are all late enough and find room in EndBlock. *)
Definition roomy (h : entry) : bool := 0 <? cf_max_settle (s_config (e_before h)).
Lemma record_later s xs : forall st st' l, record st xs = Ok (st', l) -> forallb (fun x => s <=? t_seconds (sec (fst x))) xs = true ->
  forallb roomy l = true -> rtc (later p1 lib1 s) st st'.
Proof.
  induction xs as [|[t x] xs IH]; intros st st' l H Hs Hl; cbn [record] in H.
  - injection H as <- <-. apply rtc_refl.
  - apply bind_Ok in H as ([st1 h]&H1&H). apply bind_Ok in H as ([st2 l2]&H2&H). injection H as <- <-.
    cbn [forallb] in Hs, Hl. apply andb_prop in Hs as [Hs1 Hs2]. apply andb_prop in Hl as [Hl1 Hl2].
    apply N.leb_le in Hs1. cbn [fst] in Hs1.
    eapply rtc_l; [|by eapply IH]. exists (sec t). split; [done|].
    destruct x as [[[s0 f] m]|m]; apply bind_Ok in H1 as ([s1 ms]&He&H1).
    + apply bind_Ok in H1 as (?&Hu&H1). apply ensure_Ok, negb_true_iff, bool_decide_eq_false in Hu. injection H1 as <- <-.
      apply N.ltb_lt in Hl1. split; [exact Hl1|]. eapply happens_user; [exact Hu| |exact He]. done.
    + injection H1 as <- <-. apply N.ltb_lt in Hl1. split; [exact Hl1|]. eapply happens_chain; [|exact He]. done.
Qed.
Definition run1 (xs : list step1) : state * list entry := match record rst0 xs with Ok r => r | Err _ => (rst0, []) end.
Lemma run1_trace xs : is_ok (record rst0 xs) = true -> trace p1 lib1 (fst (run1 xs)) (snd (run1 xs)).
Proof.
  intros Hok. unfold run1. destruct (record rst0 xs) as [[st l]|] eqn:E; [|done]. cbn [fst snd]. change l with ([] ++ l).
  eapply record_trace; [|exact E]. apply (tr_start _ _ cfg1 [us 50]). by vm_compute.
Qed.
(** The auction of token 1 is to end at 4600 s; the chain stops from 1010 s to 4700 s. *)
Definition halt1 : list step1 := [
  (1000, inr BeginBlock); (1000, inl ("alice", [us 10], CreateAuction "coll1" "1" (us 100) 3600 None));
  (1000, inl ("bobby", [us 100], PlaceBid "coll1" "1")); (1010, inr BeginBlock); (4700, inr BeginBlock)].
Definition then1 (xs : list step1) : state * list entry :=
  match record (fst (run1 halt1)) xs with Ok r => r | Err _ => (fst (run1 halt1), []) end.
(** Afterwards another auction is opened; token 1 is postponed to 4710 s plus an hour and then sold to bobby. *)
Definition then_all : list step1 := [
  (4700, inl ("alice", [us 10], CreateAuction "coll1" "2" (us 100) 3600 None)); (4710, inr EndBlock); (8310, inr EndBlock)].
Definition the1 : auction := Auction "coll1" "1" "alice" (us 100) 3600 (Some (sec 4600)) None (Some (HighBid (us 100) "bobby")) (Some (sec 1000)).
Example C145_case :
  ra_history p1 lib1 (fst (run1 halt1)) /\ s_auctions (fst (run1 halt1)) !! ("coll1", "1") = Some the1 /\
  hm_windows (s_halt (fst (run1 halt1))) = [HaltWindow 1010 5300] /\
  rtc (later p1 lib1 (t_seconds (sec 4600))) (fst (run1 halt1)) (fst (then1 then_all)) /\
  s_auctions (fst (then1 (take 1 then_all))) !! ("coll1", "1") = Some the1 /\
  (a_end <$> s_auctions (fst (then1 (take 2 then_all))) !! ("coll1", "1")) = Some (Some (sec 8310)) /\
  s_auctions (fst (then1 then_all)) !! ("coll1", "1") = None.
Proof.
  split. { eapply trace_history, run1_trace. by vm_compute. }
  split; [by vm_compute|]. split; [by vm_compute|]. split; [|split_and!; by vm_compute].
  assert (is_ok (record (fst (run1 halt1)) then_all) = true) as Hok by by vm_compute.
  assert (forallb roomy (snd (then1 then_all)) = true) as Hr by by vm_compute.
  unfold then1 in *. destruct (record (fst (run1 halt1)) then_all) as [[st l]|] eqn:E; [|done]. cbn [fst snd] in *.
  eapply record_later; [exact E|by vm_compute|exact Hr].
Qed.
(** The room in EndBlock is needed: without any, EndBlock sees no auction, drops the window, and the auction is sold. *)
Definition no_room : params_update := ParamsUpdate None None None None None None (Some 0) None None None.
Example C145_room_needed :
  is_ok (record (fst (run1 halt1)) [(4700, inr (UpdateParams no_room)); (4700, inr EndBlock); (4710, inl ("dave1", [], SettleAuction "coll1" "1"))]) = true /\
  hm_windows (s_halt (fst (then1 [(4700, inr (UpdateParams no_room)); (4700, inr EndBlock)]))) = [] /\
  s_auctions (fst (then1 [(4700, inr (UpdateParams no_room)); (4700, inr EndBlock)])) !! ("coll1", "1") = Some the1 /\
  s_auctions (fst (then1 [(4700, inr (UpdateParams no_room)); (4700, inr EndBlock); (4710, inl ("dave1", [], SettleAuction "coll1" "1"))]))
    !! ("coll1", "1") = None.
Proof. split_and!; by vm_compute. Qed.
(** A second halt; an EndBlock with nothing due drops the window of the first. *)
Definition halts2 : list step1 := halt1 ++ [
  (6000, inr BeginBlock); (6000, inl ("dave1", [], SettleAuction "coll1" "1")); (6000, inr EndBlock)].
Example C145_queue_case : trace p1 lib1 (fst (run1 halts2)) (snd (run1 halts2)) /\ length (snd (run1 halts2)) = 8%nat /\
  concat (map halt_noticed (snd (run1 halts2))) = [HaltWindow 1010 5300; HaltWindow 4700 6600] /\
  length (List.filter drops (snd (run1 halts2))) = 1%nat /\
  hm_windows (s_halt (fst (run1 halts2))) = [HaltWindow 4700 6600].
Proof. split; [apply run1_trace; by vm_compute|]. split_and!; by vm_compute. Qed.
