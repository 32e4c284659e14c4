(** The order calls of marketplace v2 as an exact transition relation (V2ExactSpec). *)
From stdpp Require Import relations.
From Verif Require Import Base BaseFacts Common Chain ChainFacts QuerySpec V2Model V2Spec V2Facts V2Inv V2Reach V2Examples
  V2Properties V2ExactSpec V2Exact.

(** The story of V2Examples is a history of 128-bit amounts. *)
Lemma run_tx_call w s f m w' : run_tx p0 (execute p0) w s f m = Ok w' ->
  exists msgs, s <> p_self p0 /\ execute p0 (view_of p0 (pay_in p0 w s f)) (env_of w) s f (w_st w) m = Ok (w_st w', msgs).
Proof.
  intros H. assert (run_txs p0 (execute p0) w [(s, f, m)] = Ok w') as H1 by (cbn [run_txs]; by rewrite H).
  unfold run_tx in H. apply bind_Ok in H as (u&Hu&H). apply bind_Ok in H as ([st' msgs]&He&H).
  apply ensure_Ok in Hu. apply andb_prop in Hu as [Hs _]. apply negb_true_iff, bool_decide_eq_false in Hs.
  exists msgs. split; [done|]. cbn [fst snd] in H.
  assert (forall (w : world state) ms w', run_msgs p0 w ms = Ok w' -> w_st w' = w_st w) as Hst.
  { clear. intros w ms. revert w. induction ms as [|m ms IH]; intros w w' H.
    - cbn in H. by injection H as ->.
    - destruct m; cbn [run_msgs] in H.
      + apply bind_Ok in H as (?&_&H). by apply IH in H.
      + apply bind_Ok in H as (?&_&H). destruct (p_honest p0 coll); [apply bind_Ok in H as (?&_&H)|]; by apply IH in H.
      + by apply IH in H.
      + apply bind_Ok in H as (?&_&H). by apply IH in H.
      + by apply IH in H. }
  apply Hst in H. rewrite H. cbn [w_st set_st]. exact He.
Qed.
Lemma run_txs_small w txs w' : run_txs p0 (execute p0) w txs = Ok w' -> Forall (fun t => small_call t.1.2 t.2) txs ->
  rtc (fun s s' => exists v e sender funds m msgs,
         sender <> p_self p0 /\ small_call funds m /\ execute p0 v e sender funds s m = Ok (s', msgs)) (w_st w) (w_st w').
Proof.
  revert w. induction txs as [|[[s f] m] txs IH]; intros w H Hs.
  - cbn in H. by injection H as ->.
  - cbn [run_txs] in H. apply bind_Ok in H as (w1&H1&H). apply Forall_cons in Hs as [Hm Hs].
    eapply rtc_l; [|by apply (IH w1)]. apply run_tx_call in H1 as (msgs&Hn&He). eauto 10.
Qed.
Lemma st1_small : small_history p0 st1.
Proof.
  exists cfg0, st0. split; [by vm_compute|]. unfold st1, w1, after.
  assert (is_ok (run_txs p0 (execute p0) w0 story) = true) as Hok by by vm_compute.
  destruct (run_txs p0 (execute p0) w0 story) as [w|] eqn:E; [|done].
  apply (run_txs_small w0 story w E). unfold story, small_call, small, us, det.
  repeat constructor; cbn; try lia; intros c [= <-]; cbn; lia.
Qed.

(** * C121: an order call succeeds exactly under the conditions of V2ExactSpec, and then it does exactly what is
    written there. *)
Theorem C121_order_calls_exact : forall p v e sender funds st m st' msgs,
  collision_free p -> prefix_free p -> slash_free p -> small_history p st -> small_call funds m -> admin_call m = false ->
  execute p v e sender funds st m = Ok (st', msgs) <-> does p v e sender funds st m st' msgs.
Proof. intros p v e sender funds st m st' msgs Hcf Hpf Hsl. by apply (order_calls_exact p Hcf Hpf Hsl). Qed.
Print Assumptions C121_order_calls_exact.
Theorem C121_refused_exactly : forall p v e sender funds st m,
  collision_free p -> prefix_free p -> slash_free p -> small_history p st -> small_call funds m -> admin_call m = false ->
  (exists er, execute p v e sender funds st m = Err er) <-> forall st' msgs, ~ does p v e sender funds st m st' msgs.
Proof.
  intros p v e sender funds st m Hcf Hpf Hsl Hh Hc Hm. split.
  - intros [er Her] st' msgs H. apply (order_calls_exact p Hcf Hpf Hsl) in H; [congruence|done..].
  - intros H. destruct (execute p v e sender funds st m) as [[st' msgs]|er] eqn:E; [|eauto].
    apply (order_calls_exact p Hcf Hpf Hsl) in E; [|done..]. by apply H in E.
Qed.
Print Assumptions C121_refused_exactly.
(** Alice sells token 2, which nobody has listed, for at least 700: carol's bid of 900 for the collection outranks
    bobby's of 800 for the token.  For at least 950 nobody buys, and the call is refused. *)
Lemma small_sell2 n : n <= U128_MAX -> small_call [us 5] (SellNft "coll1" "2" (det n)).
Proof. intros H. split; [|by intros c [= <-]]. constructor; [|done]. unfold small. cbn. lia. Qed.
Example C121_case :
  collision_free p0 /\ prefix_free p0 /\ slash_free p0 /\ small_history p0 st1 /\ small_call [us 5] sell2 /\
  top_bid st1 "coll1" "2" (us 700) (MCBid cbid1) /\ fits st1 "coll1" "2" (us 700) (MBid bid1) /\
  does p0 (view_of p0 w1) (env_of w1) "alice" [us 5] st1 sell2 (state_of sold2)
    [MSend "feemg" [us 5]; MRegInit "regis" "coll1"; MSend "feemg" [us 18]; MSend "royal" [us 45]; MSend "alice" [us 837];
     MNft "coll1" "2" "carol"] /\
  (forall st' msgs, ~ does p0 (view_of p0 w1) (env_of w1) "alice" [us 5] st1 (SellNft "coll1" "2" (det 950)) st' msgs).
Proof.
  split; [exact p0_collision_free|]. split; [exact p0_prefix_free|]. split; [exact p0_slash_free|]. split; [exact st1_small|].
  assert (small_call [us 5] sell2) as Hc by (apply small_sell2; unfold U128_MAX; lia).
  split; [exact Hc|]. split; [|split; [|split]].
  - split; [by vm_compute|]. intros [b|b] (H&_); [right|left].
    + apply (one_entry _ bid_id bid1) in H as [_ ->]; [|by vm_compute]. left. by vm_compute.
    + apply (one_entry _ cbid_id cbid1) in H as [_ ->]; [done|by vm_compute].
  - by vm_compute.
  - apply C121_order_calls_exact; [exact p0_collision_free|exact p0_prefix_free|exact p0_slash_free|exact st1_small|exact Hc|done|].
    rewrite sold2_ok. by vm_compute.
  - apply C121_refused_exactly;
      [exact p0_collision_free|exact p0_prefix_free|exact p0_slash_free|exact st1_small|apply small_sell2; unfold U128_MAX; lia|done|].
    apply not_ok. by vm_compute.
Qed.
