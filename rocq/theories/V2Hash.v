(** Marketplace v2 uses the hash and the address check only on the strings of V2HashSpec: a contract whose hash is free of
    collisions everywhere stands in for one whose hash is free of them there. *)
From stdpp Require Import relations.
From Verif Require Import Base BaseFacts Common Chain ChainFacts IndexFacts V2Model V2Spec V2Facts V2Inv V2ExactSpec V2Exact V2LocalSpec V2HashSpec.

(** * Two parameter sets that agree on what a call uses *)
Section Same.
Context (p q : params).
Definition same_on (S A : list string) : Prop :=
  p_self q = p_self p /\ (forall x, x ∈ S -> p_hash q x = p_hash p x) /\ (forall x, x ∈ A -> p_valid q x = p_valid p x).
Lemma same_on_sub S A S' A' : same_on S A -> S' ⊆ S -> A' ⊆ A -> same_on S' A'.
Proof. intros (?&H1&H2) ??. split_and!; [done| |]; intros x Hx; [apply H1|apply H2]; set_solver. Qed.

Lemma same_validate S A s : same_on S A -> s ∈ A -> addr_validate q s = addr_validate p s.
Proof. intros (_&_&H) Hs. unfold addr_validate. by rewrite H. Qed.
Lemma same_details S A d : same_on S A -> in_details d ⊆ A -> details_str_to_addr q d = details_str_to_addr p d.
Proof.
  intros Hs Hd. unfold details_str_to_addr.
  assert (forall o, option_list o ⊆ A -> maybe_addr q o = maybe_addr p o) as Hm.
  { intros [s|] Ho; [|done]. cbn. rewrite (same_validate S A) by (done || apply Ho; set_solver). done. }
  unfold in_details in Hd. rewrite !Hm by set_solver. done.
Qed.
Lemma same_config S A c : same_on S A -> in_config c ⊆ A -> config_str_to_addr q c = config_str_to_addr p c.
Proof.
  intros Hs Hc. unfold config_str_to_addr, in_config in *. rewrite !(same_validate S A) by (done || set_solver). done.
Qed.
Lemma same_sale S A v st a cfg mb f resp : same_on S A -> royal v (a_coll a) ⊆ A ->
  finalize_sale q v st a cfg mb f resp = finalize_sale p v st a cfg mb f resp.
Proof.
  intros Hs Hr. unfold finalize_sale, fetch_or_set_royalties. rewrite (proj1 Hs). unfold royal in Hr.
  destruct (q_info v (a_coll a)) as [ci|]; [|done]. destruct (ci_royalty ci) as [[pa sh]|]; [|done].
  rewrite (same_validate S A) by (done || set_solver). done.
Qed.

Lemma sub_bind_royal v st m coll A : addresses v st m ⊆ A ->
  (market st m = Some coll \/ exists i a, s_asks st !! i = Some a /\ a_coll a = coll) -> royal v coll ⊆ A.
Proof.
  intros HA H x Hx. apply HA. unfold addresses. rewrite !elem_of_app. right.
  destruct H as [H|(i&a&Ha&<-)]; [left|right].
  - rewrite H. cbn. rewrite app_nil_r. done.
  - apply elem_of_list_bind. exists (a_coll a). split; [done|]. apply elem_of_list_fmap. exists (i, a). split; [done|].
    by apply elem_of_map_to_list.
Qed.

Lemma bind_same {X Y} (r : result X) (f g : X -> result Y) : (forall x, r = Ok x -> f x = g x) -> r ≫= f = r ≫= g.
Proof. intros H. destruct r as [x|]; [by apply H|done]. Qed.
Lemma validate_same s a : addr_validate p s = Ok a -> a = s.
Proof. unfold addr_validate. destruct (p_valid p s); congruence. Qed.
Lemma asks_collection st coll dn o : forall a, a ∈ query_asks_by_collection_denom st coll dn o -> exists i, s_asks st !! i = Some a.
Proof.
  intros a Ha. unfold query_asks_by_collection_denom in Ha. apply elem_of_list_fmap in Ha as ([i a']&->&Hi).
  apply index_range_elem in Hi as [Hi _]. apply elem_of_list_In, filter_In in Hi as [Hi _]. apply elem_of_list_In, elem_of_map_to_list in Hi. eauto.
Qed.
Lemma cbid_match_stored st cb o a : cbid_match_with_ask st cb = Ok o -> o = Some a -> exists i, s_asks st !! i = Some a.
Proof.
  intros H ->. unfold cbid_match_with_ask in H. apply bind_Ok in H as (b&_&[= H]). unfold vec_pop in H.
  apply last_Some_elem_of in H. by eapply asks_collection.
Qed.

Section Calls.
Context (v : view) (e : env) (sender : addr) (funds : list coin) (st : state) (m : msg).
Context (Hs : same_on (hashed e st m) (addresses v st m)).
Lemma Hmsg : in_msg m ⊆ addresses v st m.
Proof. intros x. unfold addresses. rewrite !elem_of_app. auto. Qed.
Lemma same_sale_market st' a cfg mb f resp : market st m = Some (a_coll a) ->
  finalize_sale q v st' a cfg mb f resp = finalize_sale p v st' a cfg mb f resp.
Proof. intros H. eapply same_sale; [exact Hs|]. eapply sub_bind_royal; [done|by left]. Qed.
Lemma same_sale_listed st' a cfg mb f resp i : s_asks st !! i = Some a ->
  finalize_sale q v st' a cfg mb f resp = finalize_sale p v st' a cfg mb f resp.
Proof. intros H. eapply same_sale; [exact Hs|]. eapply sub_bind_royal; [done|right; eauto]. Qed.
Lemma same_ask_id coll tok : coll +:+ tok ∈ hashed e st m -> generate_id q [coll; tok] = generate_id p [coll; tok].
Proof. intros H. rewrite !ask_name_eq. unfold ask_name. by apply Hs. Qed.
Lemma same_bid_id coll tok : (coll +:+ tok) +:+ be8 (e_height e) +:+ be8 (next_count st) ∈ hashed e st m ->
  generate_id q [coll; tok; be8 (e_height e); be8 (next_nonce st)] = generate_id p [coll; tok; be8 (e_height e); be8 (next_nonce st)].
Proof. intros H. rewrite !bid_name_eq. unfold bid_name_of. by apply Hs. Qed.
Lemma same_cbid_id coll : coll +:+ be8 (e_height e) +:+ be8 (next_count st) ∈ hashed e st m ->
  generate_id q [coll; be8 (e_height e); be8 (next_nonce st)] = generate_id p [coll; be8 (e_height e); be8 (next_nonce st)].
Proof. intros H. rewrite !cbid_name_eq. unfold bid_name_of. by apply Hs. Qed.

Lemma same_set_ask coll tok d b : hashed e st m = [coll +:+ tok] -> market st m = Some coll ->
  execute_set_ask q v e sender funds st coll tok d b = execute_set_ask p v e sender funds st coll tok d b.
Proof.
  intros Hh Hm. unfold execute_set_ask, ask_new. rewrite (same_ask_id coll tok) by (rewrite Hh; set_solver).
  repeat (apply bind_same; intros ? _). rewrite (proj1 Hs). cbv zeta. destruct (match_with_bid _ _); [|done].
  by apply same_sale_market.
Qed.
Lemma same_bid_ask b : b_coll b +:+ b_tok b ∈ hashed e st m -> bid_match_with_ask q st b = bid_match_with_ask p st b.
Proof. intros H. unfold bid_match_with_ask. by rewrite (same_ask_id (b_coll b) (b_tok b)). Qed.
Lemma bid_ask_stored b a : bid_match_with_ask p st b = Some a -> exists i, s_asks st !! i = Some a.
Proof. unfold bid_match_with_ask. destruct (s_asks st !! _) eqn:E; [|done]. case_match; [|done]. intros [= <-]. eauto. Qed.
Lemma same_set_bid coll tok d b :
  hashed e st m = [coll +:+ tok; (coll +:+ tok) +:+ be8 (e_height e) +:+ be8 (next_count st)] ->
  execute_set_bid q v e sender funds st coll tok d b = execute_set_bid p v e sender funds st coll tok d b.
Proof.
  intros Hh. unfold execute_set_bid, bid_new. rewrite (same_bid_id coll tok) by (rewrite Hh; set_solver).
  repeat (apply bind_same; intros ? _). cbv zeta.
  set (b' := Bid _ _ _ _ _).
  assert (forall x, bid_match_with_ask x (set_nonce st (next_nonce st)) b' = bid_match_with_ask x st b') as E by done.
  rewrite !E, same_bid_ask by (cbn; rewrite Hh; set_solver).
  destruct (bid_match_with_ask p st b') as [a|] eqn:Ea; [|done]. apply bid_ask_stored in Ea as [i Hi].
  apply bind_same; intros ? _. by erewrite same_sale_listed.
Qed.
Lemma same_update_bid i d : (forall b, s_bids st !! i = Some b -> hashed e st m = [b_coll b +:+ b_tok b]) ->
  execute_update_bid q v sender funds st i d = execute_update_bid p v sender funds st i d.
Proof.
  intros Hh. unfold execute_update_bid. destruct (s_bids st !! i) as [b|]; [|done].
  apply bind_same; intros b0 [= <-]. specialize (Hh _ eq_refl). repeat (apply bind_same; intros ? _). cbv zeta.
  rewrite same_bid_ask by (cbn; rewrite Hh; set_solver).
  destruct (bid_match_with_ask p st _) as [a|] eqn:Ea; [|done]. apply bid_ask_stored in Ea as [j Hi].
  apply bind_same; intros ? _. by erewrite same_sale_listed.
Qed.
Lemma same_accept_ask i d :
  (forall a, s_asks st !! i = Some a -> (a_coll a +:+ a_tok a) +:+ be8 (e_height e) +:+ be8 (next_count st) ∈ hashed e st m) ->
  execute_accept_ask q v e sender funds st i d = execute_accept_ask p v e sender funds st i d.
Proof.
  intros Hh. unfold execute_accept_ask. apply bind_same; intros ? _. destruct (s_asks st !! i) as [a|] eqn:Ea; [|done].
  apply bind_same; intros a0 [= <-]. specialize (Hh _ eq_refl). repeat (apply bind_same; intros ? _). cbv zeta.
  unfold bid_new. rewrite (same_bid_id (a_coll a) (a_tok a)) by done. by erewrite same_sale_listed.
Qed.
Lemma same_update_ask i d : execute_update_ask q v sender funds st i d = execute_update_ask p v sender funds st i d.
Proof.
  unfold execute_update_ask. apply bind_same; intros ? _. cbv zeta. destruct (s_asks st !! i) as [a|] eqn:Ea; [|done].
  apply bind_same; intros a0 [= <-]. repeat (apply bind_same; intros ? _). destruct (match_with_bid _ _); [|done].
  eapply same_sale; [exact Hs|]. eapply sub_bind_royal; [done|right; eauto].
Qed.
Lemma same_accept_bid_ask coll tok d : coll +:+ tok ∈ hashed e st m ->
  accept_bid_ask q v sender st coll tok d = accept_bid_ask p v sender st coll tok d.
Proof. intros H. unfold accept_bid_ask, ask_new. by rewrite (same_ask_id coll tok). Qed.
Lemma accepted_royal coll tok d a : market st m = Some coll -> accept_bid_ask p v sender st coll tok d = Ok a ->
  royal v (a_coll a) ⊆ addresses v st m.
Proof.
  intros Hm H. unfold accept_bid_ask in H. eapply sub_bind_royal; [done|]. destruct (s_asks st !! _) eqn:E.
  - apply bind_Ok in H as (?&_&[= ->]). right. eauto.
  - apply bind_Ok in H as (?&_&[= <-]). by left.
Qed.
Lemma same_accept_bid i d :
  (forall b, s_bids st !! i = Some b -> hashed e st m = [b_coll b +:+ b_tok b] /\ market st m = Some (b_coll b)) ->
  execute_accept_bid q v sender st i d = execute_accept_bid p v sender st i d.
Proof.
  intros Hh. unfold execute_accept_bid. destruct (s_bids st !! i) as [b|]; [|done].
  apply bind_same; intros b0 [= <-]. destruct (Hh _ eq_refl) as [Hh1 Hm]. apply bind_same; intros ? _.
  rewrite same_accept_bid_ask by (rewrite Hh1; set_solver). apply bind_same; intros a Ha.
  eapply same_sale; [exact Hs|]. by eapply accepted_royal.
Qed.
Lemma same_accept_cbid i tok d :
  (forall b, s_cbids st !! i = Some b -> hashed e st m = [cb_coll b +:+ tok] /\ market st m = Some (cb_coll b)) ->
  execute_accept_collection_bid q v sender st i tok d = execute_accept_collection_bid p v sender st i tok d.
Proof.
  intros Hh. unfold execute_accept_collection_bid. destruct (s_cbids st !! i) as [b|]; [|done].
  apply bind_same; intros b0 [= <-]. destruct (Hh _ eq_refl) as [Hh1 Hm]. apply bind_same; intros ? _.
  rewrite same_accept_bid_ask by (rewrite Hh1; set_solver). apply bind_same; intros a Ha.
  eapply same_sale; [exact Hs|]. by eapply accepted_royal.
Qed.
Lemma same_set_cbid coll d b :
  hashed e st m = [coll +:+ be8 (e_height e) +:+ be8 (next_count st)] ->
  execute_set_collection_bid q v e sender funds st coll d b = execute_set_collection_bid p v e sender funds st coll d b.
Proof.
  intros Hh. unfold execute_set_collection_bid, cbid_new. rewrite (same_cbid_id coll) by (rewrite Hh; set_solver).
  repeat (apply bind_same; intros ? ?H). cbv zeta in *.
  match goal with |- context [match ?o with Some _ => _ | None => _ end] => destruct o as [a|] eqn:Ea; [|done] end.
  match goal with H : cbid_match_with_ask _ _ = _ |- _ => eapply cbid_match_stored in H; [|done]; destruct H as [i Hi] end.
  cbn [s_asks set_nonce] in Hi. apply bind_same; intros ? _. by erewrite same_sale_listed.
Qed.
Lemma same_update_cbid i d :
  execute_update_collection_bid q v sender funds st i d = execute_update_collection_bid p v sender funds st i d.
Proof.
  unfold execute_update_collection_bid. repeat (apply bind_same; intros ? ?H). cbv zeta in *.
  match goal with |- context [match ?o with Some _ => _ | None => _ end] => destruct o as [a|] eqn:Ea; [|done] end.
  match goal with H : cbid_match_with_ask _ _ = _ |- _ => eapply cbid_match_stored in H; [|done]; destruct H as [j Hi] end.
  apply bind_same; intros ? _. by erewrite same_sale_listed.
Qed.
Lemma same_det {X} d (f g : details -> result X) : in_details d ⊆ in_msg m -> (forall d', f d' = g d') ->
  details_str_to_addr q d ≫= f = details_str_to_addr p d ≫= g.
Proof.
  intros Hd Hf. erewrite same_details; [|exact Hs|by etrans; [|apply Hmsg]]. by apply bind_same.
Qed.
Lemma same_coll {X} coll (f g : addr -> result X) : coll ∈ in_msg m -> f coll = g coll ->
  addr_validate q coll ≫= f = addr_validate p coll ≫= g.
Proof.
  intros Hd Hf. erewrite same_validate; [|exact Hs|by apply Hmsg]. apply bind_same. by intros x ->%validate_same.
Qed.
End Calls.

Lemma same_execute v e sender funds st m : same_on (hashed e st m) (addresses v st m) ->
  execute q v e sender funds st m = execute p v e sender funds st m.
Proof.
  intros Hs. destruct m; cbn [execute].
  - erewrite same_config; [done|exact Hs|]. exact (Hmsg v st (UpdateConfig c)).
  - erewrite same_validate; [done|exact Hs|]. apply (Hmsg v st (UpdateCollectionDenom coll dn)). cbn. set_solver.
  - done.
  - done.
  - eapply same_coll; [exact Hs|set_solver|]. eapply same_det; [exact Hs|set_solver|]. intros d'. by eapply same_set_ask.
  - done.
  - eapply same_det; [exact Hs|set_solver|]. intros d'. by eapply same_update_ask.
  - eapply same_det; [exact Hs|set_solver|]. intros d'. eapply same_accept_ask; [exact Hs|]. intros a Ha. cbn. rewrite Ha. set_solver.
  - eapply same_coll; [exact Hs|set_solver|]. eapply same_det; [exact Hs|set_solver|]. intros d'. by eapply same_set_bid.
  - done.
  - eapply same_det; [exact Hs|set_solver|]. intros d'. eapply same_update_bid; [exact Hs|]. intros a Ha. cbn. by rewrite Ha.
  - eapply same_det; [exact Hs|set_solver|]. intros d'. eapply same_accept_bid; [exact Hs|]. intros a Ha. cbn. by rewrite Ha.
  - eapply same_coll; [exact Hs|set_solver|]. eapply same_det; [exact Hs|set_solver|]. intros d'. by eapply same_set_cbid.
  - done.
  - eapply same_det; [exact Hs|set_solver|]. intros d'. by eapply same_update_cbid.
  - eapply same_det; [exact Hs|set_solver|]. intros d'. eapply same_accept_cbid; [exact Hs|]. intros a Ha. cbn. by rewrite Ha.
  - eapply same_coll; [exact Hs|set_solver|]. eapply same_det; [exact Hs|set_solver|]. intros d'. by eapply same_set_ask.
  - eapply same_coll; [exact Hs|set_solver|]. eapply same_det; [exact Hs|set_solver|]. intros d'. by eapply same_set_bid.
  - eapply same_coll; [exact Hs|set_solver|]. eapply same_det; [exact Hs|set_solver|]. intros d'. by eapply same_set_cbid.
Qed.

(** ** The exact relation *)
Lemma same_named S A d : same_on S A -> in_details d ⊆ A -> named_ok p d -> named_ok q d.
Proof.
  intros (_&_&Hv) Hd [Hr Hf]. unfold in_details in Hd.
  split; intros x Hx; (rewrite Hv; [auto|]); apply Hd; rewrite Hx; cbn; set_solver.
Qed.
Lemma same_opening S A v e st coll d : same_on S A -> coll :: in_details d ⊆ A -> opening p v e st coll d -> opening q v e st coll d.
Proof.
  intros Hs Hd (Hc&Hn&?&?). split_and!; try done.
  - destruct Hs as (_&_&Hv). rewrite Hv; [done|]. set_solver.
  - eapply same_named; [exact Hs| |done]. set_solver.
Qed.
Lemma same_dues v cfg a mb f : p_self q = p_self p -> sale_dues q v cfg a mb f = sale_dues p v cfg a mb f.
Proof. intros H. unfold sale_dues, royalty_due. by rewrite H. Qed.
Lemma same_payments v cfg a mb f : p_self q = p_self p -> sale_payments q v cfg a mb f = sale_payments p v cfg a mb f.
Proof. intros H. unfold sale_payments. by rewrite same_dues. Qed.
Lemma same_sends v cfg a mb f : p_self q = p_self p -> sale_sends q v cfg a mb f = sale_sends p v cfg a mb f.
Proof. intros H. unfold sale_sends, registration. by rewrite same_payments, H. Qed.
Lemma same_goes S A v cfg a mb f : same_on S A -> royal v (a_coll a) ⊆ A -> sale_goes p v cfg a mb f -> sale_goes q v cfg a mb f.
Proof.
  intros (Hself&_&Hv) Hr (H1&H2&H3). unfold sale_goes. rewrite Hself, same_dues by done. split_and!; try done.
  intros Hn ci pa sh Hi Hro. rewrite Hv; [by eapply H2|]. apply Hr. unfold royal. rewrite Hi, Hro. set_solver.
Qed.
Lemma same_settles v cfg sender funds m msgs a mb f : p_self q = p_self p ->
  settles q v cfg sender funds m msgs a mb f -> settles p v cfg sender funds m msgs a mb f.
Proof.
  intros H (pre&post&H1&H2). exists pre, post. rewrite <-same_payments by done. rewrite <-same_dues by done. done.
Qed.
Lemma market_royal v st m a : market st m = Some (a_coll a) -> royal v (a_coll a) ⊆ addresses v st m.
Proof. intros H. eapply sub_bind_royal; [done|by left]. Qed.

Lemma same_does v e sender funds st m st' msgs : same_on (hashed e st m) (addresses v st m) ->
  does p v e sender funds st m st' msgs -> does q v e sender funds st m st' msgs.
Proof.
  intros Hs H. pose proof Hs as (Hself&Hh&_).
  assert (forall a mb f, market st m = Some (a_coll a) -> sale_goes p v (s_config st) a mb f -> sale_goes q v (s_config st) a mb f) as Hg.
  { intros a mb f Hm. eapply same_goes; [exact Hs|]. by apply market_royal. }
  pose proof (Hmsg v st m) as Hm.
  assert (forall d, in_details d ⊆ in_msg m -> named_ok p d -> named_ok q d) as Hn.
  { intros d Hd. eapply same_named; [exact Hs|]. by etrans. }
  assert (forall coll d, coll :: in_details d ⊆ in_msg m -> opening p v e st coll d -> opening q v e st coll d) as Ho.
  { intros coll d Hd. eapply same_opening; [exact Hs|]. by etrans. }
  assert (forall coll tok, coll +:+ tok ∈ hashed e st m -> ask_name p coll tok = ask_name q coll tok) as Ha.
  { intros coll tok Hc. symmetry. by apply Hh. }
  assert (forall what, what +:+ be8 (e_height e) +:+ be8 (next_count st) ∈ hashed e st m ->
            bid_name_of p e st what = bid_name_of q e st what) as Hb.
  { intros coll Hc. symmetry. by apply Hh. }
  assert (forall coll tok d a, coll +:+ tok ∈ hashed e st m -> sellable p v sender st coll tok d a -> sellable q v sender st coll tok d a) as Hsb.
  { intros coll tok d a Hc [?|(?&?&->)]; [by left|right]. by rewrite (Ha coll tok) by done. }
  assert (forall cfg a mb f, sale_sends p v cfg a mb f = sale_sends q v cfg a mb f) as Hss by (intros; symmetry; by apply same_sends).
  assert (forall coll tok d, coll :: in_details d ⊆ in_msg m -> listing p v e sender funds st coll tok d ->
            listing q v e sender funds st coll tok d) as Hl.
  { intros coll tok d Hc (?&?). split; [by apply Ho|done]. }
  assert (forall coll tok mbx a price, sellable p v sender st coll tok price a -> a_coll a = coll \/ mbx) as Hsc.
  { intros coll tok mbx a price [(_&?&_)|(_&_&->)]; by left. }
  destruct H.
  - rewrite (Ha coll tok) in * by left. rewrite <-Hself. by apply DoList; [apply Hl|..].
  - subst a. assert (hashed e st m = [coll +:+ tok] /\ market st m = Some coll /\ in_msg m = coll :: in_details d) as (E1&E2&E3)
      by (by destruct H as [-> | ->]).
    rewrite (Ha coll tok) in * by (rewrite E1; left). rewrite Hss.
    eapply DoListSell; [done|apply Hl; [by rewrite E3|done]|done|done|]. apply Hg; [done|]. done.
  - apply DoUpdateAsk; auto.
  - rewrite Hss. eapply DoUpdateAskSell; eauto. apply Hg; [|done]. subst a. cbn [market]. by rewrite H0.
  - by apply DoRemoveAsk.
  - subst b. rewrite (Hb (a_coll a +:+ a_tok a)) in * by (cbn [hashed]; rewrite H; left). rewrite Hss.
    eapply DoAcceptAsk; eauto. apply Hg; [|done]. cbn [market]. by rewrite H.
  - subst b. rewrite (Hb (coll +:+ tok)) in * by (right; left). eapply DoBid; eauto.
  - subst b. assert ((coll +:+ tok) +:+ be8 (e_height e) +:+ be8 (next_count st) ∈ hashed e st m /\ market st m = Some coll /\
      in_msg m = coll :: in_details d) as (E1&E2&E3) by (destruct H as [-> | ->]; (split; [right; left|done])).
    rewrite (Hb (coll +:+ tok)) in * by done. rewrite Hss.
    assert (a_coll a = coll) by apply H1.
    eapply DoBidBuy; eauto. { apply Ho; [by rewrite E3|done]. } apply Hg; [|done]. congruence.
  - apply DoUpdateBid; auto.
  - rewrite Hss. assert (a_coll a = b_coll b0) by apply H3. eapply DoUpdateBidBuy; eauto. apply Hg; [|done]. cbn [market]. rewrite H. cbn. congruence.
  - by apply DoRemoveBid.
  - rewrite Hss. assert (a_coll a = b_coll b) as Ec by (by destruct (Hsc _ _ False _ _ H2)).
    eapply DoAcceptBid; eauto. { apply Hsb; [|done]. cbn [hashed]. rewrite H. left. } apply Hg; [|done]. cbn [market]. rewrite H. cbn. congruence.
  - subst b. rewrite (Hb coll) in * by left. eapply DoCBid; eauto.
  - subst b. assert (coll +:+ be8 (e_height e) +:+ be8 (next_count st) ∈ hashed e st m /\ market st m = Some coll /\
      in_msg m = coll :: in_details d) as (E1&E2&E3) by (destruct H as [-> | ->]; (split; [left|done])).
    rewrite (Hb coll) in * by done. rewrite Hss.
    assert (a_coll a = coll) by apply H2.
    eapply DoCBidBuy; eauto. { apply Ho; [by rewrite E3|done]. } apply Hg; [|done]. congruence.
  - apply DoUpdateCBid; auto.
  - rewrite Hss. assert (a_coll a = cb_coll b0) by apply H4. eapply DoUpdateCBidBuy; eauto. apply Hg; [|done]. cbn [market]. rewrite H. cbn. congruence.
  - by apply DoRemoveCBid.
  - rewrite Hss. assert (a_coll a = cb_coll b) as Ec by (by destruct (Hsc _ _ False _ _ H2)).
    eapply DoAcceptCBid; eauto. { apply Hsb; [|done]. cbn [hashed]. rewrite H. left. } apply Hg; [|done]. cbn [market]. rewrite H. cbn. congruence.
Qed.
End Same.

(** * The stand-in *)
Fixpoint marks (n : nat) : string := match n with O => "" | S n => String "x" (marks n) end.
Definition longest (l : list string) : nat := foldr (fun s n => Nat.max (String.length s) n) O l.
Lemma marks_length n : String.length (marks n) = n.
Proof. induction n as [|n IH]; cbn; [done|by rewrite IH]. Qed.
Lemma longest_spec l s : s ∈ l -> (String.length s <= longest l)%nat.
Proof. unfold longest. induction 1 as [s l|s t l _ IH]; cbn [foldr]; [lia|]. lia. Qed.
Lemma app_inj_l (s x y : string) : s +:+ x = s +:+ y -> x = y.
Proof. induction s as [|c s IH]; rewrite ?str_app_nil, ?str_app_cons; [done|]. intros [= H]. by apply IH. Qed.

Section Stand.
Context (p : params) (H A : list string).
Definition stand_in : params := Params (p_self p)
  (fun x => if decide (x ∈ H) then p_hash p x else marks (1 + longest (p_hash p <$> H)) +:+ x)
  (fun s => p_valid p s && bool_decide (s ∈ A)) (p_honest p) (p_blocked p) (p_reg_reenters p).
Lemma stand_in_same : same_on p stand_in H A.
Proof.
  split_and!; [done| |].
  - intros x Hx. cbn. by rewrite decide_True.
  - intros x Hx. cbn. rewrite bool_decide_eq_true_2 by done. apply andb_true_r.
Qed.
Lemma stand_in_collision_free : no_collision p H -> collision_free stand_in.
Proof.
  intros Hn x y. cbn [p_hash stand_in].
  assert (forall x y, x ∈ H -> p_hash p x = marks (1 + longest (p_hash p <$> H)) +:+ y -> False) as Hx.
  { clear. intros x y Hx E. apply (f_equal String.length) in E. rewrite str_length_app, marks_length in E.
    assert (p_hash p x ∈ p_hash p <$> H) as Hl by by apply elem_of_list_fmap_1. apply longest_spec in Hl. lia. }
  destruct (decide (x ∈ H)), (decide (y ∈ H)); intros E.
  - by apply Hn.
  - by apply Hx in E.
  - symmetry in E. by apply Hx in E.
  - by apply app_inj_l in E.
Qed.
Lemma stand_in_prefix_free : no_prefix p A -> prefix_free stand_in.
Proof.
  intros Hn s t r Hs Ht E. cbn in Hs, Ht. apply andb_prop in Hs as [Hs Hs'%bool_decide_eq_true].
  apply andb_prop in Ht as [Ht Ht'%bool_decide_eq_true]. by apply (Hn s t r).
Qed.
Lemma stand_in_slash_free : no_slash p A -> slash_free stand_in.
Proof. intros Hn s Hs. cbn in Hs. apply andb_prop in Hs as [Hs Hs'%bool_decide_eq_true]. by apply Hn. Qed.
Lemma stand_in_execute v e sender funds st m : hashed e st m ⊆ H -> addresses v st m ⊆ A ->
  execute stand_in v e sender funds st m = execute p v e sender funds st m.
Proof. intros. apply same_execute. eapply same_on_sub; [apply stand_in_same|done..]. Qed.
Lemma within_Ok v e sender funds st m r : within p H A v e sender funds st m = Ok r ->
  hashed e st m ⊆ H /\ addresses v st m ⊆ A /\ execute p v e sender funds st m = Ok r /\
  execute stand_in v e sender funds st m = Ok r.
Proof.
  unfold within. case_bool_decide as Hb; [|done]. destruct Hb. intros Hx. rewrite stand_in_execute by done. done.
Qed.
Lemma stand_in_instantiate c : in_config c ⊆ A -> instantiate stand_in c = instantiate p c.
Proof. intros Hc. unfold instantiate. by rewrite (same_config p stand_in H A) by (done || apply stand_in_same). Qed.
Lemma stand_in_steps n st st' : nsteps (hstep p (within p H A)) n st st' -> nsteps (hstep stand_in (execute stand_in)) n st st'.
Proof.
  induction 1 as [|n x y z (v&e&s&f&m&msgs&Hs&Hx) _ IH]; [constructor|]. econstructor; [|exact IH].
  apply within_Ok in Hx as (_&_&_&Hx). exists v, e, s, f, m, msgs. done.
Qed.
Lemma stand_in_history n st : history_over p H A n st -> v2_history stand_in n st.
Proof.
  intros (c&st0&Hi&Hc&Hn). exists c, st0. rewrite stand_in_instantiate by done. split; [done|]. by apply stand_in_steps.
Qed.
Lemma stand_in_small st : small_history_over p H A st -> small_history stand_in st.
Proof.
  intros (c&st0&Hi&Hc&Hn). exists c, st0. rewrite stand_in_instantiate by done. split; [done|].
  eapply rtc_subrel; [|exact Hn]. intros x y (v&e&s&f&m&msgs&Hs&Hm&Hx). apply within_Ok in Hx as (_&_&_&Hx).
  exists v, e, s, f, m, msgs. done.
Qed.
(** Being within [H] and [A] is only a restriction. *)
Lemma over_history n st : history_over p H A n st -> v2_history p n st.
Proof.
  intros (c&st0&Hi&Hc&Hn). exists c, st0. split; [done|]. clear Hi. induction Hn as [|n x y z (v&e&s&f&m&msgs&Hs&Hx) _ IH]; [constructor|].
  econstructor; [|exact IH]. apply within_Ok in Hx as (_&_&Hx&_). exists v, e, s, f, m, msgs. done.
Qed.

(** ** The chain *)
Lemma stand_in_env (w w' : world state) : env_step p w w' -> env_step stand_in w w'.
Proof.
  intros E. destruct E.
  - by apply ES_bank.
  - apply ES_oracle.
  - by eapply ES_transfer.
  - by apply ES_mint.
  - by eapply ES_burn.
  - by eapply ES_approve.
  - by apply ES_approve_all.
Qed.
Lemma stand_in_exec :
  (forall s f m w w', texec p (within p H A) s f m w w' -> texec stand_in (execute stand_in) s f m w w') /\
  (forall w ms w', dispatch p (within p H A) w ms w' -> dispatch stand_in (execute stand_in) w ms w') /\
  (forall w w', adv p (within p H A) w w' -> adv stand_in (execute stand_in) w w').
Proof.
  apply exec_mutind.
  - intros sender funds m w w' st' msgs Hs Hc Hx Hd IH. apply within_Ok in Hx as (_&_&_&Hx). by econstructor.
  - constructor.
  - intros w to cs ms w' H1 H2 Hd IH. by constructor.
  - intros w c t to ms w' H1 H2 H3 Hd IH. by apply DNft.
  - intros w c t to ms w1 w' H1 H2 Ha IHa Hd IH. by eapply DNftRogue.
  - intros w r c ms w1 w' H1 He Hd IH. eapply DReg; [done| |done]. eapply rtc_subrel; [|exact He]. apply stand_in_env.
  - intros w r c ms w1 w' H1 Ha IHa Hd IH. by eapply DRegRe.
  - intros w c ms w' H1 H2 Hd IH. by constructor.
  - intros w h ms w1 w' Ha IHa Hd IH. by eapply DHook.
  - constructor.
  - intros w w1 w' He Ha IHa. eapply adv_env; [by apply stand_in_env|done].
  - intros sender funds m w w1 w' Ht IHt Ha IHa. by eapply adv_call.
Qed.
Lemma stand_in_step w w' : step p (within p H A) v2_sudo w w' -> v2_step stand_in w w'.
Proof.
  destruct stand_in_exec as (Ht&Hd&_). intros E. destruct E as [s f m w w' Hx|w w' He|w h t H1 H2|m w st' msgs w' Hx Hy].
  - eapply step_tx. by apply Ht.
  - apply step_env. by apply stand_in_env.
  - by apply step_block.
  - eapply step_sudo; [exact Hx|]. by apply Hd.
Qed.
Lemma stand_in_reachable w : reachable_over p H A w -> reachable stand_in w.
Proof.
  intros (w0&c&Hi&Hc&Hw&Hr). exists w0. split.
  - split; [|exact Hw]. exists c. by rewrite stand_in_instantiate.
  - eapply rtc_subrel; [|exact Hr]. intros x y. apply stand_in_step.
Qed.
End Stand.
