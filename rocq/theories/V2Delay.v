(** Proofs for C150 (V2DelaySpec). *)
From stdpp Require Import relations.
From Verif Require Import Base BaseFacts Common Chain ChainFacts QuerySpec V2Model V2Spec V2Facts V2Inv V2Reach V2Final V2ExactSpec V2Exact
  V2DelaySpec.

Section Delay.
Context (p : params).

Lemma tradable_ok v e coll : ~ not_yet_tradable v e coll <-> only_tradable v e coll = Ok tt.
Proof.
  unfold only_tradable, not_yet_tradable. split.
  - intros H. destruct (q_info v coll) as [ci|] eqn:E; [|done]. destruct (ci_start ci) as [start|] eqn:E2; [|done].
    destruct (N.ltb_spec (e_time e) start); [|done]. exfalso. apply H. by exists ci, start.
  - intros H (ci&start&E1&E2&Ht). rewrite E1, E2 in H. by rewrite (proj2 (N.ltb_lt _ _) Ht) in H.
Qed.
Lemma later_tradable v e e' coll : e_time e <= e_time e' -> ~ not_yet_tradable v e coll -> ~ not_yet_tradable v e' coll.
Proof. intros Ht H (ci&start&E1&E2&Hlt). apply H. exists ci, start. split_and!; [done..|lia]. Qed.

(** When trading is open at both times, they answer alike at the same height. *)
Lemma clock_only v e e' sender funds st m :
  e_height e' = e_height e -> trading_open v e m -> trading_open v e' m ->
  execute p v e' sender funds st m = execute p v e sender funds st m.
Proof.
  intros Hh H H'.
  assert (forall coll, new_order_in m = Some coll -> only_tradable v e coll = Ok tt /\ only_tradable v e' coll = Ok tt) as Ht.
  { intros coll Hc. split; apply tradable_ok; auto. }
  clear H H'. destruct m; try done; cbn [execute new_order_in] in *.
  all: try (destruct (Ht _ eq_refl) as [H1 H2]; unfold addr_validate; destruct (p_valid p coll); [|done]; cbn [mbind result_bind];
    destruct (details_str_to_addr p d); [|done]; cbn [mbind result_bind]).
  - unfold execute_set_ask. by rewrite H1, H2.
  - destruct (details_str_to_addr p d); [|done]. cbn [mbind result_bind]. unfold execute_accept_ask. by rewrite Hh.
  - unfold execute_set_bid. by rewrite H1, H2, Hh.
  - unfold execute_set_collection_bid. by rewrite H1, H2, Hh.
  - unfold execute_set_ask. by rewrite H1, H2.
  - unfold execute_set_bid. by rewrite H1, H2, Hh.
  - unfold execute_set_collection_bid. by rewrite H1, H2, Hh.
Qed.
Lemma goes_open v e sender funds st m r : execute p v e sender funds st m = Ok r -> trading_open v e m.
Proof.
  intros He coll Hc. apply tradable_ok.
  destruct m; try discriminate Hc; injection Hc as ->; cbn [execute] in He;
    apply bind_Ok in He as (c&Hv&He); apply bind_Ok in He as (d'&_&He); unfold addr_validate in Hv;
    destruct (p_valid p coll); try discriminate Hv; injection Hv as <-.
  all: unfold execute_set_ask, execute_set_bid, execute_set_collection_bid in He.
  all: destruct (only_tradable v e coll) as [[]|] eqn:E; [done|].
  all: repeat first [discriminate He | apply bind_Ok in He as (?&?&He)]; done.
Qed.
Lemma later_same v e e' sender funds st m r :
  e_height e' = e_height e -> e_time e <= e_time e' ->
  execute p v e sender funds st m = Ok r -> execute p v e' sender funds st m = Ok r.
Proof.
  intros Hh Ht He. pose proof (goes_open _ _ _ _ _ _ _ He) as Ho.
  rewrite <- He. apply clock_only; [done..|]. intros coll Hc. eapply later_tradable; [exact Ht|]. by apply Ho.
Qed.

Context (Hcf : collision_free p) (Hpf : prefix_free p) (Hsl : slash_free p).
Lemma name_fresh n st e w : v2_history p n st -> N.of_nat n < U64_MAX ->
  s_bids st !! bid_name_of p e st w = None /\ s_cbids st !! bid_name_of p e st w = None.
Proof.
  intros H Hn. destruct (history_ids _ _ _ H) as (Hw&Hi&Hk); [lia|].
  eapply new_id_fresh; [done| |done|]; [lia|]. exists (w +:+ be8 (e_height e)). unfold bid_name_of.
  by rewrite <-str_app_assoc.
Qed.
Lemma later_opening v e e' st coll d : e_time e <= e_time e' -> opening p v e st coll d -> opening p v e' st coll d.
Proof. intros Ht (H1&H2&H3&H4). split_and!; try done. by eapply later_tradable. Qed.

Lemma later_does n v e e' sender funds st m st' msgs :
  N.of_nat n < U64_MAX -> v2_history p n st -> e_time e <= e_time e' ->
  does p v e sender funds st m st' msgs ->
  exists st'', does p v e' sender funds st m st'' msgs /\ same_but_name st st' st''.
Proof.
  intros Hn Hh Ht H.
  pose proof (fun coll d => later_opening v e e' st coll d Ht) as Ho.
  pose proof (fun w => name_fresh n st e w Hh Hn) as Hf. pose proof (fun w => name_fresh n st e' w Hh Hn) as Hf'.
  destruct H.
  - eexists. split; [|apply same_all]. apply DoList; try done. destruct H as (H&?&?). split_and!; auto.
  - eexists. split; [|apply same_all]. eapply DoListSell; try done. destruct H0 as (H0&?&?). split_and!; auto.
  - eexists. split; [|apply same_all]. by eapply DoUpdateAsk.
  - eexists. split; [|apply same_all]. by eapply DoUpdateAskSell.
  - eexists. split; [|apply same_all]. by eapply DoRemoveAsk.
  - exists (sold st (next_count st) a (MBid b)). split; [|apply same_all].
    set (b' := Bid (bid_name_of p e' st (a_coll a +:+ a_tok a)) sender (a_coll a) (a_tok a) d).
    replace (sold st (next_count st) a (MBid b)) with (sold st (next_count st) a (MBid b')).
    2:{ unfold sold. subst b b'. cbn [b_id]. by rewrite (delete_notin _ _ (proj1 (Hf (a_coll a +:+ a_tok a)))), (delete_notin _ _ (proj1 (Hf' (a_coll a +:+ a_tok a)))). }
    subst b. by apply (DoAcceptAsk p v e' sender funds st i d a b' back).
  - set (b' := Bid (bid_name_of p e' st (coll +:+ tok)) sender coll tok d).
    exists (with_bids st (next_count st) (<[b_id b' := b']> (s_bids st))). split.
    + eapply DoBid; try done; [by apply Ho|]. apply Hf'.
    + subst b. apply same_but_bid; [apply Hf|apply Hf'].
  - exists (sold st (next_count st) a (MBid b)). split; [|apply same_all].
    set (b' := Bid (bid_name_of p e' st (coll +:+ tok)) sender coll tok d).
    replace (sold st (next_count st) a (MBid b)) with (sold st (next_count st) a (MBid b')).
    2:{ unfold sold. subst b b'. cbn [b_id]. by rewrite (delete_notin _ _ (proj1 (Hf (coll +:+ tok)))), (delete_notin _ _ (proj1 (Hf' (coll +:+ tok)))). }
    subst b. apply (DoBidBuy p v e' sender funds st m coll tok d b' a back); try done. by apply Ho.
  - eexists. split; [|apply same_all]. by eapply DoUpdateBid.
  - eexists. split; [|apply same_all]. by eapply DoUpdateBidBuy.
  - eexists. split; [|apply same_all]. by eapply DoRemoveBid.
  - eexists. split; [|apply same_all]. by eapply DoAcceptBid.
  - set (b' := CBid (bid_name_of p e' st coll) sender coll d).
    exists (with_cbids st (next_count st) (<[cb_id b' := b']> (s_cbids st))). split.
    + eapply DoCBid; try done; [by apply Ho|]. apply Hf'.
    + subst b. apply same_but_cbid; [apply Hf|apply Hf'].
  - exists (sold st (next_count st) a (MCBid b)). split; [|apply same_all].
    set (b' := CBid (bid_name_of p e' st coll) sender coll d).
    replace (sold st (next_count st) a (MCBid b)) with (sold st (next_count st) a (MCBid b')).
    2:{ unfold sold. subst b b'. cbn [cb_id]. by rewrite (delete_notin _ _ (proj2 (Hf coll))), (delete_notin _ _ (proj2 (Hf' coll))). }
    subst b. apply (DoCBidBuy p v e' sender funds st m coll d b' a back); try done. by apply Ho.
  - eexists. split; [|apply same_all]. by eapply DoUpdateCBid.
  - eexists. split; [|apply same_all]. by eapply DoUpdateCBidBuy.
  - eexists. split; [|apply same_all]. by eapply DoRemoveCBid.
  - eexists. split; [|apply same_all]. by eapply DoAcceptCBid.
Qed.
Lemma later_goes n v e e' sender funds st m st' msgs :
  N.of_nat n < U64_MAX -> v2_history p n st -> small_history p st -> small_call funds m -> e_time e <= e_time e' ->
  execute p v e sender funds st m = Ok (st', msgs) ->
  exists st'', execute p v e' sender funds st m = Ok (st'', msgs) /\ same_but_name st st' st''.
Proof.
  intros Hn Hh Hs Hc Ht He. destruct (admin_call m) eqn:Ha.
  - exists st'. split; [|apply same_all]. rewrite <- He. by destruct m.
  - apply (order_calls_exact p Hcf Hpf Hsl) in He; [|done..].
    destruct (later_does n _ _ e' _ _ _ _ _ _ Hn Hh Ht He) as (st''&Hd&Hsame).
    exists st''. split; [|done]. by apply (order_calls_exact p Hcf Hpf Hsl).
Qed.
End Delay.
