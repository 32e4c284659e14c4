(** No bid is used twice, and what the coins attached to a call decide (C159 and C160 of properties.jsonl).  Each theorem is closed by a lemma
    proved elsewhere; what it rests on is printed beneath it, and an example shows a concrete case meeting its hypotheses. *)
From stdpp Require Import relations.
From Verif Require Import Base BaseFacts Common Chain ChainFacts QuerySpec V2Model V2Spec V2Facts V2Inv V2Reach V2Examples
  V2Properties V2ExactSpec V2Exact V2ExactProperties V2CoinsSpec V2Coins.

(** * C159 *)
(** Once a bid is gone from the book, filled or taken back, every call naming it fails for ever, whoever makes it. *)
Theorem C159_used_once : forall p n k st st1 st2 i,
  collision_free p -> N.of_nat n + N.of_nat k < U64_MAX -> v2_history p n st ->
  hstep p (execute p) st st1 -> nsteps (hstep p (execute p)) k st1 st2 ->
  (is_Some (s_bids st !! i) -> s_bids st1 !! i = None ->
   forall v e sender funds m r, names_bid i m -> execute p v e sender funds st2 m <> Ok r) /\
  (is_Some (s_cbids st !! i) -> s_cbids st1 !! i = None ->
   forall v e sender funds m r, names_cbid i m -> execute p v e sender funds st2 m <> Ok r).
Proof. intros p n k st st1 st2 i Hcf. by apply used_once. Qed.
Print Assumptions C159_used_once.

(** Bobby takes the bid for token 2 back, carol the one for the collection; bobby places the same bid again in the same block.  The old names
    stay useless, the new one works. *)
Definition gone1 : state := state_of (call1 "bobby" [] (RemoveBid bid_id)).
Definition gone2 : state := state_of (call1 "carol" [] (RemoveCollectionBid cbid_id)).
Definition placed1 : state := state_of (execute p0 (view_of p0 w1) (env_of w1) "bobby" [us 800] gone1 (SetBid "coll1" "2" (det 800))).
Definition on (st : state) (who : addr) (m : msg) : bool := is_ok (execute p0 (view_of p0 w1) (env_of w1) who [] st m).
Lemma gone1_step : hstep p0 (execute p0) st1 gone1.
Proof.
  exists (view_of p0 w1), (env_of w1), "bobby", [], (RemoveBid bid_id), (msgs_of (call1 "bobby" [] (RemoveBid bid_id))). split; [done|].
  unfold gone1. change (execute p0 (view_of p0 w1) (env_of w1) "bobby" [] st1 (RemoveBid bid_id)) with (call1 "bobby" [] (RemoveBid bid_id)).
  assert (is_ok (call1 "bobby" [] (RemoveBid bid_id)) = true) as E by by vm_compute.
  destruct (call1 "bobby" [] (RemoveBid bid_id)) as [[a b]|]; [done|discriminate E].
Qed.
Lemma gone2_step : hstep p0 (execute p0) st1 gone2.
Proof.
  exists (view_of p0 w1), (env_of w1), "carol", [], (RemoveCollectionBid cbid_id), (msgs_of (call1 "carol" [] (RemoveCollectionBid cbid_id))).
  split; [done|]. unfold gone2.
  change (execute p0 (view_of p0 w1) (env_of w1) "carol" [] st1 (RemoveCollectionBid cbid_id)) with (call1 "carol" [] (RemoveCollectionBid cbid_id)).
  assert (is_ok (call1 "carol" [] (RemoveCollectionBid cbid_id)) = true) as E by by vm_compute.
  destruct (call1 "carol" [] (RemoveCollectionBid cbid_id)) as [[a b]|]; [done|discriminate E].
Qed.
Lemma placed1_step : hstep p0 (execute p0) gone1 placed1.
Proof.
  exists (view_of p0 w1), (env_of w1), "bobby", [us 800], (SetBid "coll1" "2" (det 800)),
    (msgs_of (execute p0 (view_of p0 w1) (env_of w1) "bobby" [us 800] gone1 (SetBid "coll1" "2" (det 800)))). split; [done|]. unfold placed1.
  assert (is_ok (execute p0 (view_of p0 w1) (env_of w1) "bobby" [us 800] gone1 (SetBid "coll1" "2" (det 800))) = true) as E by by vm_compute.
  destruct (execute p0 (view_of p0 w1) (env_of w1) "bobby" [us 800] gone1 (SetBid "coll1" "2" (det 800))) as [[a b]|]; [done|discriminate E].
Qed.
Definition placed_name : order_id := "#coll12" +:+ be8 10 +:+ be8 3.
Example C159_case :
  collision_free p0 /\ N.of_nat 4 + N.of_nat 1 < U64_MAX /\ v2_history p0 4 st1 /\
  hstep p0 (execute p0) st1 gone1 /\ nsteps (hstep p0 (execute p0)) 1 gone1 placed1 /\ hstep p0 (execute p0) st1 gone2 /\
  (exists b, s_bids st1 !! bid_id = Some b) /\ s_bids gone1 !! bid_id = None /\
  (exists b, s_cbids st1 !! cbid_id = Some b) /\ s_cbids gone2 !! cbid_id = None /\
  on st1 "bobby" (RemoveBid bid_id) = true /\ on gone1 "bobby" (RemoveBid bid_id) = false /\
  on placed1 "bobby" (RemoveBid bid_id) = false /\ on placed1 "bobby" (RemoveBid placed_name) = true /\
  on gone2 "carol" (RemoveCollectionBid cbid_id) = false.
Proof.
  split; [exact p0_collision_free|]. split; [by vm_compute|]. split; [exact st1_history|].
  split; [exact gone1_step|]. split; [by eapply nsteps_l; [exact placed1_step|constructor]|]. split; [exact gone2_step|].
  vm_compute. split_and!; (reflexivity || (eexists; reflexivity)).
Qed.

(** * C160 *)
(** There is one price that the coins attached must cover, together with what is in escrow already; apart from the change the call does the
    same whatever is attached. *)
Theorem C160_coins_decide : forall p v e sender funds st m st' msgs,
  collision_free p -> prefix_free p -> slash_free p -> small_history p st -> small_call funds m -> paying_call m = true ->
  execute p v e sender funds st m = Ok (st', msgs) ->
  exists price front, 0 < c_amount price /\ small price /\ forall funds', Forall small funds' -> forall st2 msgs2,
    execute p v e sender funds' st m = Ok (st2, msgs2) <->
      exists back, pays sender funds' (stands st m) price back /\ st2 = st' /\ msgs2 = front ++ back.
Proof. intros p v e sender funds st m st' msgs Hcf Hpf Hsl. by apply coins_decide. Qed.
Print Assumptions C160_coins_decide.
(** Coins of any denom attached on top come back in full. *)
Theorem C160_more_coins : forall p v e sender funds st m st' msgs,
  collision_free p -> prefix_free p -> slash_free p -> small_history p st -> small_call funds m -> paying_call m = true ->
  execute p v e sender funds st m = Ok (st', msgs) ->
  exists front cs, msgs = front ++ returned sender cs /\ forall extra, Forall small extra ->
    (forall d, coins_in (funds ++ extra) d + opt_in_denom d (stands st m) <= U128_MAX) ->
    exists cs', execute p v e sender (funds ++ extra) st m = Ok (st', front ++ returned sender cs') /\
      forall d, coins_in cs' d = coins_in cs d + coins_in extra d.
Proof. intros p v e sender funds st m st' msgs Hcf Hpf Hsl. by apply more_coins. Qed.
Print Assumptions C160_more_coins.
(** A call that changes no bid would also have gone with exactly what it cost, and without change. *)
Theorem C160_exact_coins : forall p v e sender funds st m st' msgs,
  collision_free p -> prefix_free p -> slash_free p -> small_history p st -> small_call funds m -> paying_call m = true ->
  stands st m = None -> execute p v e sender funds st m = Ok (st', msgs) ->
  exists price front cs, msgs = front ++ returned sender cs /\ (forall d, coins_in funds d = coins_in cs d + in_denom d price) /\
    execute p v e sender [price] st m = Ok (st', front).
Proof. intros p v e sender funds st m st' msgs Hcf Hpf Hsl. by apply exact_coins. Qed.
Print Assumptions C160_exact_coins.

(** Carol buys token 1 for 1000 and attaches 1000, or 1020 and some coins of another denom; bobby raises the bid of 800 to 850 with 50 coins,
    or 70. *)
Definition uatom (n : N) : coin := Coin "uatom" n.
Example C160_case :
  collision_free p0 /\ prefix_free p0 /\ slash_free p0 /\ small_history p0 st1 /\
  small_call [us 1000] (AcceptAsk ask1_id (det 1000)) /\ small_call [us 50] (UpdateBid bid_id (det 850)) /\
  Forall small [us 20; uatom 7] /\
  stands st1 (AcceptAsk ask1_id (det 1000)) = None /\ stands st1 (UpdateBid bid_id (det 850)) = Some (us 800) /\
  (let one := call1 "carol" [us 1000] (AcceptAsk ask1_id (det 1000)) in
   let two := call1 "carol" ([us 1000] ++ [us 20; uatom 7]) (AcceptAsk ask1_id (det 1000)) in
   is_ok one = true /\ is_ok (call1 "carol" [us 999] (AcceptAsk ask1_id (det 1000))) = false /\
   msgs_of two = msgs_of one ++ [MSend "carol" [uatom 7; us 20]] /\
   map_to_list (s_asks (state_of one)) = map_to_list (s_asks (state_of two))) /\
  (let one := call1 "bobby" [us 50] (UpdateBid bid_id (det 850)) in
   let two := call1 "bobby" ([us 50] ++ [us 20; uatom 7]) (UpdateBid bid_id (det 850)) in
   is_ok one = true /\ is_ok (call1 "bobby" [us 49] (UpdateBid bid_id (det 850))) = false /\
   msgs_of one = [] /\ msgs_of two = [MSend "bobby" [uatom 7; us 20]] /\
   map_to_list (s_bids (state_of one)) = map_to_list (s_bids (state_of two))).
Proof.
  split; [exact p0_collision_free|]. split; [exact p0_prefix_free|]. split; [exact p0_slash_free|]. split; [exact st1_small|].
  unfold small_call, small. repeat (split; [split; [repeat constructor; vm_compute; discriminate|intros c [= <-]; vm_compute; discriminate]|]).
  split; [repeat constructor; vm_compute; discriminate|].
  vm_compute. split_and!; (reflexivity || discriminate).
Qed.
