(** Proofs for C153 (V2ViewSpec). *)
From stdpp Require Import relations.
From Verif Require Import Base BaseFacts Common Chain ChainFacts IndexFacts V2Model V2Spec V2Facts V2Inv V2Reach V2ExactSpec V2Exact V2LocalSpec
  V2Local V2HashSpec V2Hash ViewSpec V2ViewSpec.

Section Views.
Context (p : params) (Hcf : collision_free p) (Hpf : prefix_free p).

Lemma alike_sub v v' l l' : answer_alike v v' l -> l' ⊆ l -> answer_alike v v' l'.
Proof. intros H Hs q Hq. by apply H, Hs. Qed.
Lemma view_owner v v' l sender coll tok : answer_alike v v' l -> WhoOwns coll tok ∈ l ->
  only_owner v' sender coll tok = only_owner v sender coll tok.
Proof. intros H Hq. apply H in Hq. cbn in Hq. unfold only_owner. by rewrite Hq. Qed.
Lemma view_tradable v v' l e coll : answer_alike v v' l -> AboutCollection coll ∈ l ->
  only_tradable v' e coll = only_tradable v e coll.
Proof. intros H Hq. apply H in Hq. cbn in Hq. unfold only_tradable. by rewrite Hq. Qed.
Lemma view_sale v v' st0 st a cfg mb f resp : answer_alike v v' (trade_questions p st0 (a_coll a)) -> cfg = s_config st0 ->
  finalize_sale p v' st a cfg mb f resp = finalize_sale p v st a cfg mb f resp.
Proof.
  intros H ->. unfold finalize_sale, fetch_or_set_royalties, fetch_royalty_entry.
  assert (q_info v' (a_coll a) = q_info v (a_coll a)) as -> by (apply (H (AboutCollection _)); left).
  assert (q_royalty v' (cf_registry (s_config st0)) (a_coll a) (Some (p_self p)) = q_royalty v (cf_registry (s_config st0)) (a_coll a) (Some (p_self p))) as ->
    by (apply (H (RoyaltyOf _ _ _)); right; left).
  done.
Qed.
Lemma view_admin v v' sender : answer_alike v v' [WhoAdmins] -> only_contract_admin v' sender = only_contract_admin v sender.
Proof. intros H. unfold only_contract_admin. rewrite (H WhoAdmins) by left. done. Qed.

Lemma ask_there st coll tok a : wf p st -> p_valid p coll = true -> s_asks st !! generate_id p [coll; tok] = Some a -> a_coll a = coll.
Proof.
  intros Hw Hv E. rewrite ask_name_eq in E. destruct (decide (coll = a_coll a)) as [|Hn]; [done|]. exfalso.
  by eapply (away_name p Hcf Hpf (a_coll a) st coll tok).
Qed.
Lemma bid_ask_coll st b a : wf p st -> p_valid p (b_coll b) = true -> bid_match_with_ask p st b = Some a -> a_coll a = b_coll b.
Proof.
  intros Hw Hv. unfold bid_match_with_ask. destruct (s_asks st !! _) eqn:E; [|done]. case_match; [|done]. intros [= <-].
  by eapply ask_there.
Qed.
Lemma cbid_ask_coll st cb o a : cbid_match_with_ask st cb = Ok o -> o = Some a -> a_coll a = cb_coll cb.
Proof.
  intros H ->. unfold cbid_match_with_ask in H. apply bind_Ok in H as (b&_&[= H]). unfold vec_pop in H.
  apply last_Some_elem_of in H. unfold query_asks_by_collection_denom in H. apply elem_of_list_fmap in H as ([i a']&->&Hi).
  apply index_range_elem in Hi as [Hi _]. apply elem_of_list_In, filter_In in Hi as [_ Hi]. apply andb_prop in Hi as [Hi _].
  by apply bool_decide_eq_true in Hi.
Qed.
Lemma valid_coll coll x : addr_validate p coll = Ok x -> x = coll /\ p_valid p coll = true.
Proof. unfold addr_validate. destruct (p_valid p coll); [|done]. by intros [= <-]. Qed.

Section Calls.
Context (v v' : view) (e : env) (sender : addr) (funds : list coin) (st : state) (Hw : wf p st).
Lemma view_set_ask coll tok d b : answer_alike v v' (WhoOwns coll tok :: trade_questions p st coll) ->
  execute_set_ask p v' e sender funds st coll tok d b = execute_set_ask p v e sender funds st coll tok d b.
Proof.
  intros H. unfold execute_set_ask. rewrite (view_owner v v' _ _ _ _ H) by left. rewrite (view_tradable v v' _ _ _ H) by (right; left).
  repeat (apply bind_same; intros ? _). cbv zeta. destruct (match_with_bid _ _); [|done].
  eapply view_sale; [|done]. eapply alike_sub; [exact H|]. intros q. cbn. by right.
Qed.
Lemma view_update_ask i d : (forall a, s_asks st !! i = Some a -> answer_alike v v' (trade_questions p st (a_coll a))) ->
  execute_update_ask p v' sender funds st i d = execute_update_ask p v sender funds st i d.
Proof.
  intros H. unfold execute_update_ask. apply bind_same; intros ? _. cbv zeta. destruct (s_asks st !! i) as [a|] eqn:Ea; [|done].
  apply bind_same; intros a0 [= <-]. repeat (apply bind_same; intros ? _). destruct (match_with_bid _ _); [|done].
  eapply view_sale; [|done]. exact (H _ eq_refl).
Qed.
Lemma view_accept_ask i d : (forall a, s_asks st !! i = Some a -> answer_alike v v' (trade_questions p st (a_coll a))) ->
  execute_accept_ask p v' e sender funds st i d = execute_accept_ask p v e sender funds st i d.
Proof.
  intros H. unfold execute_accept_ask. apply bind_same; intros ? _. destruct (s_asks st !! i) as [a|] eqn:Ea; [|done].
  apply bind_same; intros a0 [= <-]. repeat (apply bind_same; intros ? _). cbv zeta.
  erewrite view_sale; [done|exact (H _ eq_refl)|done].
Qed.
Lemma view_set_bid coll tok d b : p_valid p coll = true -> answer_alike v v' (trade_questions p st coll) ->
  execute_set_bid p v' e sender funds st coll tok d b = execute_set_bid p v e sender funds st coll tok d b.
Proof.
  intros Hv H. unfold execute_set_bid. rewrite (view_tradable v v' _ _ _ H) by left.
  repeat (apply bind_same; intros ? _). cbv zeta.
  match goal with |- context [match ?o with Some _ => _ | None => _ end] => destruct o as [a|] eqn:Ea; [|done] end.
  apply bid_ask_coll in Ea; [|by apply wf_set_nonce|done].
  apply bind_same; intros ? _. erewrite view_sale; [done| |done]. by rewrite Ea.
Qed.
Lemma view_update_bid i d : (forall b, s_bids st !! i = Some b -> answer_alike v v' (trade_questions p st (b_coll b))) ->
  execute_update_bid p v' sender funds st i d = execute_update_bid p v sender funds st i d.
Proof.
  intros H. unfold execute_update_bid. destruct (s_bids st !! i) as [b|] eqn:Eb; [|done].
  apply bind_same; intros b0 [= <-]. specialize (H _ eq_refl). repeat (apply bind_same; intros ? _). cbv zeta.
  match goal with |- context [match ?o with Some _ => _ | None => _ end] => destruct o as [a|] eqn:Ea; [|done] end.
  apply bid_ask_coll in Ea; [|done|apply (wf_bid _ _ Hw _ _ Eb)].
  apply bind_same; intros ? _. erewrite view_sale; [done| |done]. by rewrite Ea.
Qed.
Lemma view_accepted coll tok d : answer_alike v v' (owner_questions st coll tok) ->
  accept_bid_ask p v' sender st coll tok d = accept_bid_ask p v sender st coll tok d.
Proof.
  intros H. unfold accept_bid_ask. destruct (s_asks st !! generate_id p [coll; tok]) eqn:E; [done|].
  unfold owner_questions in H. destruct (is_listed st coll tok) eqn:El.
  - exfalso. unfold is_listed in El. apply existsb_exists in El as ([i a]&Hi&Hb). apply elem_of_list_In, elem_of_map_to_list in Hi.
    apply andb_prop in Hb as [<-%bool_decide_eq_true <-%bool_decide_eq_true]. cbn [snd] in E.
    destruct (wf_ask _ _ Hw _ _ Hi) as (_&Hid&_). rewrite <-Hid in E. congruence.
  - by rewrite (view_owner v v' _ _ _ _ H) by left.
Qed.
Lemma accepted_coll coll tok d a : p_valid p coll = true -> accept_bid_ask p v sender st coll tok d = Ok a -> a_coll a = coll.
Proof.
  intros Hv H. unfold accept_bid_ask in H. destruct (s_asks st !! _) eqn:E.
  - apply bind_Ok in H as (?&_&[= ->]). by eapply ask_there.
  - by apply bind_Ok in H as (?&_&[= <-]).
Qed.
Lemma view_accept_bid i d :
  (forall b, s_bids st !! i = Some b -> answer_alike v v' (owner_questions st (b_coll b) (b_tok b) ++ trade_questions p st (b_coll b))) ->
  execute_accept_bid p v' sender st i d = execute_accept_bid p v sender st i d.
Proof.
  intros H. unfold execute_accept_bid. destruct (s_bids st !! i) as [b|] eqn:Eb; [|done].
  apply bind_same; intros b0 [= <-]. specialize (H _ eq_refl). apply bind_same; intros ? _.
  rewrite view_accepted by (eapply alike_sub; [exact H|]; intros q Hq; apply elem_of_app; by left).
  apply bind_same; intros a Ha. apply accepted_coll in Ha; [|apply (wf_bid _ _ Hw _ _ Eb)].
  eapply view_sale; [|done]. rewrite Ha. eapply alike_sub; [exact H|]. intros q Hq; apply elem_of_app; by right.
Qed.
Lemma view_accept_cbid i tok d :
  (forall b, s_cbids st !! i = Some b -> answer_alike v v' (owner_questions st (cb_coll b) tok ++ trade_questions p st (cb_coll b))) ->
  execute_accept_collection_bid p v' sender st i tok d = execute_accept_collection_bid p v sender st i tok d.
Proof.
  intros H. unfold execute_accept_collection_bid. destruct (s_cbids st !! i) as [b|] eqn:Eb; [|done].
  apply bind_same; intros b0 [= <-]. specialize (H _ eq_refl). apply bind_same; intros ? _.
  rewrite view_accepted by (eapply alike_sub; [exact H|]; intros q Hq; apply elem_of_app; by left).
  apply bind_same; intros a Ha. apply accepted_coll in Ha; [|apply (wf_cbid _ _ Hw _ _ Eb)].
  eapply view_sale; [|done]. rewrite Ha. eapply alike_sub; [exact H|]. intros q Hq; apply elem_of_app; by right.
Qed.
Lemma view_set_cbid coll d b : answer_alike v v' (trade_questions p st coll) ->
  execute_set_collection_bid p v' e sender funds st coll d b = execute_set_collection_bid p v e sender funds st coll d b.
Proof.
  intros H. unfold execute_set_collection_bid. rewrite (view_tradable v v' _ _ _ H) by left.
  repeat (apply bind_same; intros ? ?H). cbv zeta in *.
  match goal with |- context [match ?o with Some _ => _ | None => _ end] => destruct o as [a|] eqn:Ea; [|done] end.
  match goal with H : cbid_match_with_ask _ _ = _ |- _ => eapply cbid_ask_coll in H; [|done]; rename H into Ec end.
  apply bind_same; intros ? _. erewrite view_sale; [done| |done]. by rewrite Ec.
Qed.
Lemma view_update_cbid i d : (forall b, s_cbids st !! i = Some b -> answer_alike v v' (trade_questions p st (cb_coll b))) ->
  execute_update_collection_bid p v' sender funds st i d = execute_update_collection_bid p v sender funds st i d.
Proof.
  intros H. unfold execute_update_collection_bid. destruct (s_cbids st !! i) as [b|] eqn:Eb; [|done].
  apply bind_same; intros b0 [= <-]. specialize (H _ eq_refl). repeat (apply bind_same; intros ? ?H). cbv zeta in *.
  match goal with |- context [match ?o with Some _ => _ | None => _ end] => destruct o as [a|] eqn:Ea; [|done] end.
  match goal with H : cbid_match_with_ask _ _ = _ |- _ => eapply cbid_ask_coll in H; [|done]; rename H into Ec end.
  apply bind_same; intros ? _. erewrite view_sale; [done| |done]. by rewrite Ec.
Qed.
End Calls.

Lemma view_execute v v' e sender funds st m : wf p st -> answer_alike v v' (questions p st m) ->
  execute p v' e sender funds st m = execute p v e sender funds st m.
Proof.
  intros Hw H. destruct m; cbn [execute questions] in *; try done.
  - apply bind_same; intros ? _. unfold execute_update_config. by rewrite (view_admin v v').
  - apply bind_same; intros ? _. unfold execute_update_collection_denom. by rewrite (view_admin v v').
  - unfold execute_set_listing_fee. by rewrite (view_admin v v').
  - unfold execute_remove_listing_fee. by rewrite (view_admin v v').
  - apply bind_same; intros ? [-> _]%valid_coll. apply bind_same; intros ? _. by apply view_set_ask.
  - apply bind_same; intros ? _. apply view_update_ask. intros a Ea. by rewrite Ea in H.
  - apply bind_same; intros ? _. apply view_accept_ask. intros a Ea. by rewrite Ea in H.
  - apply bind_same; intros ? [-> ?]%valid_coll. apply bind_same; intros ? _. by apply view_set_bid.
  - apply bind_same; intros ? _. apply view_update_bid; [done|]. intros a Ea. by rewrite Ea in H.
  - apply bind_same; intros ? _. apply view_accept_bid; [done|]. intros a Ea. by rewrite Ea in H.
  - apply bind_same; intros ? [-> ?]%valid_coll. apply bind_same; intros ? _. by apply view_set_cbid.
  - apply bind_same; intros ? _. apply view_update_cbid. intros a Ea. by rewrite Ea in H.
  - apply bind_same; intros ? _. apply view_accept_cbid; [done|]. intros a Ea. by rewrite Ea in H.
  - apply bind_same; intros ? [-> ?]%valid_coll. apply bind_same; intros ? _. by apply view_set_ask.
  - apply bind_same; intros ? [-> ?]%valid_coll. apply bind_same; intros ? _. by apply view_set_bid.
  - apply bind_same; intros ? [-> ?]%valid_coll. apply bind_same; intros ? _. by apply view_set_cbid.
Qed.
Lemma history_view n v v' e sender funds st m : v2_history p n st -> answer_alike v v' (questions p st m) ->
  execute p v' e sender funds st m = execute p v e sender funds st m.
Proof. intros Hh. apply view_execute. by eapply history_wf. Qed.
End Views.
