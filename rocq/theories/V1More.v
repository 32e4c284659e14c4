(** Marketplace v1: what users cannot change, stale clean-up and rejection on the chain, further listings. *)
From stdpp Require Import relations pretty.
From Verif Require Import Base Common Chain BaseFacts ChainFacts IndexRange IndexFacts QuerySpec IndexWalk SaleFacts Plain
  V1Model V1Spec V1Facts V1Inv V1Reach V1Hooks V1Live V1Query.

Section More.
Context (p : params) (x : ext).

(** ** Settings *)
Lemma users_settings v e s f st m st' msgs : execute p x v e s f st m = Ok (st', msgs) ->
  s_params st' = s_params st /\ s_ask_hooks st' = s_ask_hooks st /\ s_bid_hooks st' = s_bid_hooks st /\
  s_sale_hooks st' = s_sale_hooks st /\ s_cbid_hooks st' = s_cbid_hooks st.
Proof. intros (ms&H&->)%execute_sub_of. by destruct H. Qed.

(** ** Stale bids *)
Lemma two_pays_split w w1 st' s a1 n1 a2 n2 : dispatch p (execute p x) (set_st (pay_in p w s []) st') [pay a1 n1; pay a2 n2] w1 ->
  cleaned p w w1 a1 n1 a2 n2 /\ w_st w1 = st' /\ 0 < n1 /\ 0 < n2.
Proof.
  intros Hd. assert (0 < n1 /\ 0 < n2) as Hpos.
  { inversion Hd as [|? ? ? ? ? Hs _ Hd'| | | | | |]; subst. inversion Hd' as [|? ? ? ? ? Hs' _ _| | | | | |]; subst. clear -Hs Hs'.
    unfold send_ok in *. cbn in *. rewrite !andb_true_r in *. apply andb_prop in Hs as [Hs _], Hs' as [Hs' _]. split; by apply N.ltb_lt. }
  apply dispatch_plain in Hd as (E1&_&_&_&Hbank&Hnft); [|by repeat constructor].
  split; [|done]. cbn [credit moved out out_one pay] in Hbank.
  assert (forall a dn, w_bank (set_st (pay_in p w s []) st') a dn = w_bank w a dn) as E.
  { intros a dn. cbn [w_bank set_st pay_in set_bank]. pose proof (bank_move_eq (w_bank w) s (p_self p) [] a dn (covers_nil _ _)) as H.
    cbn [amt] in H. repeat case_decide; lia. }
  split_and!.
  - intros a. specialize (Hbank a "ustars"). rewrite !amt_native, E, (bool_decide_eq_true_2 ("ustars" = "ustars")) in Hbank by done.
    repeat case_decide; try congruence; lia.
  - intros a dn Hdn. specialize (Hbank a dn). rewrite !amt_native, E, (bool_decide_eq_false_2 ("ustars" = dn)) in Hbank by congruence. repeat case_decide; lia.
  - intros c t. by rewrite Hnft.
Qed.
Lemma clean_world w op f coll tok who w' : texec p (execute p x) op f (RemoveStaleBid coll tok who) w w' -> v1_reachable p x w ->
  f = [] /\ operator (w_st w) op /\ exists b w1, s_bids (w_st w) !! (coll, tok, who) = Some b /\
    stale (w_st w) (w_time w) (b_expires b) /\ let reward := b_price b * sp_reward (s_params (w_st w)) / 10 ^ 20 in
    0 < reward < b_price b /\ cleaned p w w1 who (b_price b - reward) op reward /\
    w_st w1 = remove_bid (w_st w) coll tok who /\ dispatch p (execute p x) w1 (hook_msgs (s_bid_hooks (w_st w))) w'.
Proof.
  intros H Hr. inversion H as [s0 f0 m0 w0 st' msgs w2 Hs Hcov He Hd]; subst. apply execute_sub_of in He as (ms&He&->).
  inversion He as [| | | | | | | | | | | | |c t bd b reward Hf Hop Hb Hst Hle|]; subst; try done. split; [done|]. split; [done|].
  destruct (wf_bid _ _ (reachable_wf _ _ _ Hr) _ _ Hb) as (Hk&_). assert (b_bidder b = who) as Ew by congruence. rewrite Ew in Hd.
  unfold bid_hooks in Hd. rewrite map_app, erase_plain, erase_hooks in Hd. apply dispatch_split in Hd as (w1&Hd1&Hd2).
  apply two_pays_split in Hd1 as (Hp&E&Hn1&Hn2). exists b, w1. cbv zeta. fold reward. clearbody reward. split_and!; try done; lia.
Qed.
Lemma cclean_world w op f coll who w' : texec p (execute p x) op f (RemoveStaleCollectionBid coll who) w w' -> v1_reachable p x w ->
  f = [] /\ operator (w_st w) op /\ exists b w1, s_cbids (w_st w) !! (coll, who) = Some b /\
    stale (w_st w) (w_time w) (cb_expires b) /\ let reward := cb_price b * sp_reward (s_params (w_st w)) / 10 ^ 20 in
    0 < reward < cb_price b /\ cleaned p w w1 who (cb_price b - reward) op reward /\
    w_st w1 = remove_cbid (w_st w) coll who /\ dispatch p (execute p x) w1 (hook_msgs (s_cbid_hooks (w_st w))) w'.
Proof.
  intros H Hr. inversion H as [s0 f0 m0 w0 st' msgs w2 Hs Hcov He Hd]; subst. apply execute_sub_of in He as (ms&He&->).
  inversion He as [| | | | | | | | | | | | | |c bd b reward Hf Hop Hb Hst Hle]; subst; try done. split; [done|]. split; [done|].
  destruct (wf_cbid _ _ (reachable_wf _ _ _ Hr) _ _ Hb) as (Hk&_). assert (cb_bidder b = who) as Ew by congruence. rewrite Ew in Hd.
  unfold cbid_hooks in Hd. rewrite map_app, erase_plain, erase_hooks in Hd. apply dispatch_split in Hd as (w1&Hd1&Hd2).
  apply two_pays_split in Hd1 as (Hp&E&Hn1&Hn2). exists b, w1. cbv zeta. fold reward. clearbody reward. split_and!; try done; lia.
Qed.

Lemma operator_live st s : operator st s -> only_operator st s = Ok tt.
Proof.
  intros H. unfold only_operator. rewrite (proj2 (existsb_exists _ _)); [done|]. exists s. split; [by apply elem_of_list_In|by apply bool_decide_eq_true].
Qed.
Lemma stale_live st e t : stale st (e_time e) t -> e_time e <= U64_MAX -> stale_check st e t = Ok tt.
Proof.
  intros (secs&Hs&Hle) He. unfold stale_check. rewrite Hs. unfold t_plus_seconds, NANOS. cbv zeta.
  rewrite (proj2 (N.leb_le _ _)) by lia. rewrite bind_ok. by rewrite (proj2 (N.leb_le _ _)) by lia.
Qed.
Lemma reward_live st price : rate_ok (sp_reward (s_params st)) -> 100 * price <= U128_MAX ->
  removal_reward st price = Ok (price * sp_reward (s_params st) / 10 ^ 20).
Proof.
  intros Hr Hp. unfold removal_reward. rewrite mul_floor_live by (done || by apply rate_le). rewrite bind_ok. by rewrite floor_floor.
Qed.
Lemma clean_runs w op coll tok who b : v1_reachable p x w -> operator (w_st w) op -> s_bids (w_st w) !! (coll, tok, who) = Some b ->
  stale (w_st w) (w_time w) (b_expires b) -> let reward := b_price b * sp_reward (s_params (w_st w)) / 10 ^ 20 in
  0 < reward < b_price b -> op <> p_self p -> p_blocked p op = false -> p_blocked p who = false -> p_valid p who = true ->
  w_time w <= U64_MAX -> 100 * b_price b <= U128_MAX ->
  exists w', run_tx p (execute p x) w op [] (RemoveStaleBid coll tok who) = Ok w'.
Proof.
  intros Hr Hop Hl Hst reward Hrw Hself Hb1 Hb2 Hvb Ht Hsz. pose proof (reachable_wf _ _ _ Hr) as Hw.
  destruct (wf_bid _ _ Hw _ _ Hl) as (Hk&Hpos&Hs&Hv&_). injection Hk as -> -> ->. pose proof (wf_params _ _ Hw) as Hpo.
  eapply (accepted_sends p x w _ _ _ _ [pay (b_bidder b) (b_price b - reward); pay op reward]); [done|done|apply covers_nil| |].
  - rewrite execute_of_sub. cbn [execute_sub]. rewrite (valid_ok p _ Hv), bind_ok, (valid_ok p _ Hvb), bind_ok.
    unfold execute_remove_stale_bid. change (nonpayable []) with (Ok tt). rewrite bind_ok, (operator_live _ _ Hop), bind_ok, Hl.
    cbn [load]. rewrite bind_ok, (stale_live _ (env_of w) _ Hst Ht), bind_ok, (reward_live _ _ (po_reward _ Hpo) Hsz), bind_ok.
    fold reward. rewrite sub128_live by lia. rewrite bind_ok. rewrite map_app. unfold prepare_bid_hook, prepare. rewrite erase_hooks. reflexivity.
  - apply List.Forall_cons; [apply pay_sends; [lia|done]|]. apply List.Forall_cons; [apply pay_sends; [lia|done]|apply List.Forall_nil].
Qed.
Lemma cclean_runs w op coll who b : v1_reachable p x w -> operator (w_st w) op -> s_cbids (w_st w) !! (coll, who) = Some b ->
  stale (w_st w) (w_time w) (cb_expires b) -> let reward := cb_price b * sp_reward (s_params (w_st w)) / 10 ^ 20 in
  0 < reward < cb_price b -> op <> p_self p -> p_blocked p op = false -> p_blocked p who = false -> p_valid p who = true ->
  w_time w <= U64_MAX -> 100 * cb_price b <= U128_MAX ->
  exists w', run_tx p (execute p x) w op [] (RemoveStaleCollectionBid coll who) = Ok w'.
Proof.
  intros Hr Hop Hl Hst reward Hrw Hself Hb1 Hb2 Hvb Ht Hsz. pose proof (reachable_wf _ _ _ Hr) as Hw.
  destruct (wf_cbid _ _ Hw _ _ Hl) as (Hk&Hpos&Hs&Hv&_). injection Hk as -> ->. pose proof (wf_params _ _ Hw) as Hpo.
  eapply (accepted_sends p x w _ _ _ _ [pay (cb_bidder b) (cb_price b - reward); pay op reward]); [done|done|apply covers_nil| |].
  - rewrite execute_of_sub. cbn [execute_sub]. rewrite (valid_ok p _ Hv), bind_ok, (valid_ok p _ Hvb), bind_ok.
    unfold execute_remove_stale_collection_bid. change (nonpayable []) with (Ok tt). rewrite bind_ok, (operator_live _ _ Hop), bind_ok, Hl.
    cbn [load]. rewrite bind_ok, (stale_live _ (env_of w) _ Hst Ht), bind_ok, (reward_live _ _ (po_reward _ Hpo) Hsz), bind_ok.
    fold reward. rewrite sub128_live by lia. rewrite bind_ok. rewrite map_app. unfold prepare_cbid_hook, prepare. rewrite erase_hooks. reflexivity.
  - apply List.Forall_cons; [apply pay_sends; [lia|done]|]. apply List.Forall_cons; [apply pay_sends; [lia|done]|apply List.Forall_nil].
Qed.

(** ** Rejecting a bid *)
Lemma pay_back_by w w1 st' s who n : dispatch p (execute p x) (set_st (pay_in p w s []) st') [pay who n] w1 -> paid_back p w w1 who n /\ w_st w1 = st'.
Proof.
  intros Hd. apply dispatch_plain in Hd as (E1&_&_&_&Hbank&Hnft); [|by apply List.Forall_cons; [|apply List.Forall_nil]].
  split; [|done]. cbn [credit moved out out_one pay] in Hbank.
  assert (forall a dn, w_bank (set_st (pay_in p w s []) st') a dn = w_bank w a dn) as E.
  { intros a dn. cbn [w_bank set_st pay_in set_bank]. pose proof (bank_move_eq (w_bank w) s (p_self p) [] a dn (covers_nil _ _)) as H.
    cbn [amt] in H. repeat case_decide; lia. }
  split_and!.
  - intros a. specialize (Hbank a "ustars"). rewrite amt_native, E, (bool_decide_eq_true_2 ("ustars" = "ustars")) in Hbank by done.
    repeat case_decide; try congruence; lia.
  - intros a dn Hdn. specialize (Hbank a dn). rewrite amt_native, E, (bool_decide_eq_false_2 ("ustars" = dn)) in Hbank by congruence. repeat case_decide; lia.
  - intros c t. by rewrite Hnft.
Qed.
Lemma reject_world w s f coll tok who w' : v1_reachable p x w -> texec p (execute p x) s f (RejectBid coll tok who) w w' ->
  f = [] /\ owns (view_of p w) s coll tok /\ exists b w1, s_bids (w_st w) !! (coll, tok, who) = Some b /\ paid_back p w w1 who (b_price b) /\
    w_st w1 = remove_bid (w_st w) coll tok who /\ dispatch p (execute p x) w1 (hook_msgs (s_bid_hooks (w_st w))) w'.
Proof.
  intros Hr H. inversion H as [s0 f0 m0 w0 st' msgs w2 Hs Hcov He Hd]; subst. apply execute_sub_of in He as (ms&He&->).
  inversion He as [| | | | | | |c t bd b Hf Ho Hb| | | | | | |]; subst; try done. split; [done|]. split; [exact Ho|].
  unfold bid_hooks in Hd. rewrite map_app, erase_plain, erase_hooks in Hd. apply dispatch_split in Hd as (w1&Hd1&Hd2).
  apply pay_back_by in Hd1 as [Hp E]. by exists b, w1.
Qed.
(** The owner can always reject, unless the bidder may not receive coins. *)
Lemma reject_runs w s coll tok who b : v1_reachable p x w -> s <> p_self p -> owns (view_of p w) s coll tok ->
  s_bids (w_st w) !! (coll, tok, who) = Some b -> p_blocked p who = false -> p_valid p who = true ->
  exists w', run_tx p (execute p x) w s [] (RejectBid coll tok who) = Ok w'.
Proof.
  intros Hr Hself Ho Hl Hb Hvb. pose proof (reachable_wf _ _ _ Hr) as Hw. destruct (wf_bid _ _ Hw _ _ Hl) as (Hk&Hpos&Hs&Hv&_). injection Hk as -> -> ->.
  eapply (accepted_sends p x w _ _ _ _ [pay (b_bidder b) (b_price b)]); [done|done|apply covers_nil| |].
  - rewrite execute_of_sub. cbn [execute_sub]. rewrite (valid_ok p _ Hv), bind_ok, (valid_ok p _ Hvb), bind_ok.
    unfold execute_reject_bid. change (nonpayable []) with (Ok tt). rewrite bind_ok, (only_owner_live _ _ _ _ Ho), bind_ok, Hl.
    cbn [load]. rewrite bind_ok. rewrite map_app. unfold prepare_bid_hook, prepare. rewrite erase_hooks. reflexivity.
  - apply List.Forall_cons; [by apply pay_sends|apply List.Forall_nil].
Qed.

(** ** A chain that refuses to burn nothing allows no sale with a fee of zero *)
Lemma zero_fee_blocks w s f m w' d ci : v1_reachable p x w -> texec p (execute p x) s f m w w' ->
  closes (view_of p w) (env_of w) s f (w_st w) m d -> o_info (w_ora w) (d_coll d) = Some ci -> x_zero_burn x = false ->
  0 < x_fee (deal_split (w_st w) ci d).
Proof.
  intros Hr H Hc Hci Hz. inversion H as [s0 f0 m0 w0 st' msgs w2 Hs Hcov He Hd]; subst.
  change (view_of p (pay_in p w s f)) with (view_of p w) in He.
  destruct (closes_sells p x _ _ _ _ _ _ _ _ _ (reachable_history _ _ _ Hr) He Hc) as (ci'&Hci'&_&->&_).
  assert (ci' = ci) as -> by (cbn in Hci'; congruence).
  apply dispatch_split in Hd as (w1&Hd&_). unfold deal_msgs in Hd.
  apply dispatch_split in Hd as (w3&_&Hd). apply dispatch_split in Hd as (w4&Hd&_).
  unfold split_msgs in Hd. rewrite Hz, andb_false_r in Hd. by inversion Hd; subst.
Qed.
End More.

(** * Collections *)
(** A listing with repetitions, read on from the last key seen. *)
Section Keys.
Context {K : Type} (leb : K -> K -> bool) (before : K -> K -> Prop) (lin : linear leb before).
Context (L : list K) (n : nat) (query : option K -> result (list K)).
Definition later (start : option K) (k : K) : bool := match start with None => true | Some s => negb (leb k s) end.
Context (Hs : StronglySorted (fun k l => leb k l = true) L) (Hn : n <> 0%nat).
Context (Hq : forall start, (forall s, start = Some s -> s ∈ L) -> query start = Ok (take n (List.filter (later start) L))).

Lemma keys_walk fuel start : (forall s, start = Some s -> s ∈ L) -> (length (List.filter (later start) L) < fuel)%nat ->
  forall k, k ∈ page_walk query (fun k => k) start fuel <-> k ∈ L /\ later start k = true.
Proof.
  revert start. induction fuel as [|fuel IH]; intros start Hst Hf k; [lia|]. cbn [page_walk]. rewrite (Hq start Hst).
  set (F := List.filter (later start) L) in *.
  assert (forall y, y ∈ F <-> y ∈ L /\ later start y = true) as HF by (intros y; apply elem_filter).
  assert (StronglySorted (fun k l => leb k l = true) F) as HsF by (by apply sorted_filter).
  rewrite <-HF. clear HF. destruct (last (take n F)) as [y|] eqn:El.
  - apply last_Some in El as [l El]. assert (F = (l ++ [y]) ++ drop n F) as EF by (by rewrite <-El, take_drop).
    assert (y ∈ L /\ later start y = true) as [HyL Hy].
    { apply elem_filter. fold F. rewrite EF. apply elem_of_app. left. apply elem_of_app. right. by left. }
    assert (List.filter (later (Some y)) L = List.filter (later (Some y)) (drop n F)) as E2.
    { transitivity (List.filter (later (Some y)) F).
      - unfold F. symmetry. apply filter_imp. intros z _ Hz. destruct start as [s|]; [|done]. cbn in *.
        apply negb_true_iff in Hz, Hy. apply negb_true_iff. destruct (leb z s) eqn:E; [|done].
        assert (leb z y = true); [|congruence]. apply (lin_trans _ _ lin) with s; [done|].
        destruct (lin_total _ _ lin s y) as [?|?]; [done|congruence].
      - rewrite EF at 1. rewrite List.filter_app. rewrite (filter_none _ (l ++ [y])); [done|].
        intros z Hz. cbn. apply negb_false_iff. apply elem_of_app in Hz as [Hz|Hz%elem_of_list_singleton].
        + rewrite EF in HsF. apply sorted_app in HsF as (HsF&_&_). apply sorted_app in HsF as (_&_&Hzy). apply Hzy; [done|by left].
        + subst. by destruct (lin_total _ _ lin y y). }
    rewrite elem_of_app, El, IH.
    + rewrite <-(elem_filter (later (Some y)) L), E2, elem_filter. rewrite EF at 2. rewrite !elem_of_app.
      split; [intuition|]. intros [?|Hk]; [by left|]. destruct (later (Some y) k) eqn:Ek; [by right|].
      left. right. apply elem_of_list_singleton. cbn in Ek. apply negb_false_iff in Ek. apply (lin_antisym _ _ lin); [done|].
      rewrite EF in HsF. apply sorted_app in HsF as (_&_&Hyk). apply Hyk; [|done]. apply elem_of_app. right. by left.
    + intros s [= <-]. done.
    + rewrite E2. eapply Nat.le_lt_trans; [apply filter_length_le|].
      assert (length F = length (l ++ [y]) + length (drop n F))%nat by (rewrite EF at 1; apply app_length).
      rewrite app_length in H. cbn in H. lia.
  - apply last_None in El. destruct F as [|z F']; [done|]. destruct n; [done|]. done.
Qed.
End Keys.

Lemma filter_map_bool {A B} (f : A -> B) (q : B -> bool) l : List.filter q (map f l) = map f (List.filter (fun y => q (f y)) l).
Proof. induction l as [|y l IH]; [done|]. cbn. rewrite IH. by destruct (q (f y)). Qed.
Lemma sorted_map_le {A B} (f : A -> B) (R : A -> A -> Prop) (Q : B -> B -> Prop) l : (forall y z, R y z -> Q (f y) (f z)) ->
  StronglySorted R l -> StronglySorted Q (map f l).
Proof.
  intros H. induction 1 as [|y l Hl IH Hy]; cbn; constructor; [done|]. apply Forall_fmap. eapply Forall_impl; [exact Hy|]. intros z. apply H.
Qed.
Lemma collections_walk p st limit fuel : wf p st -> limit <> Some 0 -> (size (s_asks st) < fuel)%nat ->
  forall c, c ∈ page_walk (fun start => query_collections p st start limit) (fun c => c) None fuel <-> exists a, listed st a /\ k_coll a = c.
Proof.
  intros Hwf Hl Hf c.
  set (L := map (fun y : string * N * ask => fst (fst y)) (index_scan ask_leb fst (map_to_list (s_asks st)) (asc None))).
  assert (forall c, c ∈ L <-> exists a, listed st a /\ k_coll a = c) as HL.
  { intros c'. unfold L. rewrite elem_of_list_fmap. split.
    - intros ([k a]&->&Hy). apply index_scan_elem in Hy as [Hy _]. apply elem_of_map_to_list in Hy. exists a.
      pose proof (ask_pk p st Hwf _ _ Hy) as ->. done.
    - intros (a&Ha&<-). exists ((k_coll a, k_tok a), a). split; [done|]. apply index_scan_elem. split; [by apply elem_of_map_to_list|done]. }
  rewrite (keys_walk lenstr_leb coll_before linear_lenstr L (limit_nat limit)).
  - rewrite HL. cbn. tauto.
  - unfold L, index_scan. cbn [asc qo_desc default]. apply sorted_map_le with (kle ask_leb fst).
    + intros y z. unfold kle, ask_leb, lex_leb. case_bool_decide as E; [|done]. intros _. rewrite E.
      by destruct (lin_total _ _ linear_lenstr (fst (fst z)) (fst (fst z))).
    + apply filter_sorted. apply sort_by_sorted; first [apply (lin_total _ _ linear_ask)|apply (lin_trans _ _ linear_ask)|apply (lin_antisym _ _ linear_ask)].
  - by apply limit_pos.
  - intros start Hst. unfold query_collections.
    assert (maybe_addr p start = Ok start) as ->.
    { apply maybe_addr_live. intros a ->. destruct (proj1 (HL a) (Hst a eq_refl)) as (k&Hk&<-). by apply (wf_ask _ _ Hwf) in Hk as (_&_&_&_&_&?). }
    rewrite bind_ok. f_equal. unfold L. rewrite filter_map_bool, firstn_map. f_equal.
  - done.
  - cbn [later]. rewrite filter_true. unfold L. rewrite map_length. unfold index_scan. cbn [asc qo_desc default].
    eapply Nat.le_lt_trans; [apply filter_length_le|]. rewrite (sort_by_perm ask_leb fst). exact Hf.
Qed.
