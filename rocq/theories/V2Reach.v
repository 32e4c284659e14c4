(** Reachable worlds and histories of marketplace v2: invariants, fresh ids, liveness of withdrawals. *)
From stdpp Require Import relations.
From Verif Require Import Base Common Chain BaseFacts ChainFacts IndexRange IndexFacts SaleFacts
  V2Model V2Spec V2Facts V2Match V2Inv V2Sale V2Trade.

Local Arguments be8 : simpl never.
Local Opaque be8 U64_MAX.

Section Reach.
Context (p : params).

(** * Histories *)
Lemma hstep_wf st st' : hstep p (execute p) st st' -> wf p st -> wf p st'.
Proof. intros (v&e&s&f&m&ms&Hs&H) Hwf. by eapply wf_execute. Qed.
Lemma hsteps_wf st st' : rtc (hstep p (execute p)) st st' -> wf p st -> wf p st'.
Proof. induction 1; eauto using hstep_wf. Qed.
Lemma history_wf n st : v2_history p n st -> wf p st.
Proof. intros (c&st0&Hi&H%rtc_nsteps_2). eapply hsteps_wf; [done|]. by eapply wf_instantiate. Qed.

Lemma step_hsteps w w' : v2_step p w w' -> rtc (hstep p (execute p)) (w_st w) (w_st w').
Proof.
  destruct 1 as [s f m w w' H|w w' H|w h t|m w st' msgs w' Hs H].
  - by apply exec_hsteps in H.
  - apply env_step_st in H. by rewrite H.
  - cbn. done.
  - unfold v2_sudo, migrate in Hs. cbn in Hs. injection Hs as <- <-. by apply exec_hsteps in H.
Qed.
Lemma reachable_history w : reachable p w -> exists n, v2_history p n (w_st w).
Proof.
  intros (w0&[[c Hi] _]&H).
  assert (rtc (hstep p (execute p)) (w_st w0) (w_st w)) as Hr.
  { clear Hi. induction H as [|w0 w1 w Hs _ IH]; [done|]. etrans; [by apply step_hsteps|done]. }
  apply rtc_nsteps_1 in Hr as [n Hr]. exists n, c, (w_st w0). done.
Qed.
Lemma reachable_wf w : reachable p w -> wf p (w_st w).
Proof. intros [n H]%reachable_history. by eapply history_wf. Qed.

(** * Solvency *)
Lemma step_solvent w w' : v2_step p w w' ->
  solvent p liab (wf p) (fun _ => 0) w -> solvent p liab (wf p) (fun _ => 0) w'.
Proof.
  assert (forall v e s f st m st' msgs, s <> p_self p -> wf p st ->
            execute p v e s f st m = Ok (st', msgs) -> wf p st') as HI by (intros; by eapply wf_execute).
  assert (forall v e s f st m st' msgs d, s <> p_self p -> wf p st ->
            execute p v e s f st m = Ok (st', msgs) -> liab st' d + out msgs d <= liab st d + amt f d) as HL.
  { intros. by eapply execute_liab. }
  destruct (exec_solvent p (execute p) liab (wf p) HI HL) as (H1&H2&H3).
  destruct 1 as [s f m w w' H|w w' H|w h t|m w st' msgs w' Hs H]; intros Hsol.
  - by eapply H1.
  - destruct Hsol as [Hi Hb]. split; [by rewrite (env_step_st _ _ _ H)|]. intros d.
    rewrite (env_step_st _ _ _ H). etrans; [apply Hb|]. by apply env_step_bank.
  - done.
  - unfold v2_sudo, migrate in Hs. cbn in Hs. injection Hs as <- <-. by eapply H2.
Qed.
Lemma reachable_solvent w : reachable p w -> solvent p liab (wf p) (fun _ => 0) w.
Proof.
  intros (w0&[[c Hi] _]&H).
  assert (solvent p liab (wf p) (fun _ => 0) w0) as H0.
  { split; [by eapply wf_instantiate|]. intros d. unfold instantiate in Hi. inv_ok.
    unfold liab. cbn. rewrite !esc_empty. lia. }
  clear Hi. induction H as [|w0 w1 w Hs _ IH]; [done|]. apply IH. by eapply step_solvent.
Qed.
Lemma reachable_escrow w d : reachable p w -> escrow (w_st w) d <= w_bank w (p_self p) d.
Proof. intros H%reachable_solvent. rewrite escrow_liab. destruct H as [_ H]. specialize (H d). lia. Qed.

(** * Uncrossed book *)
Lemma history_uncrossed n st : v2_history p n st -> uncrossed st.
Proof.
  intros (c&st0&Hi&H%rtc_nsteps_2).
  assert (wf p st0) as Hwf by (by eapply wf_instantiate).
  assert (uncrossed st0) as Hu.
  { unfold instantiate in Hi. inv_ok. intros i a. cbn. by rewrite lookup_empty. }
  clear Hi. induction H as [|st0 st1 st Hs _ IH]; [done|]. apply IH; [by eapply hstep_wf|].
  destruct Hs as (v&e&s&f&m&ms&Hs&H). by eapply uncrossed_effect, execute_effect.
Qed.

(** * Custody *)
Lemma step_custody w w' : p_reg_reenters p = false -> v2_step p w w' ->
  custody p held (wf p) (fun _ _ => False) w -> custody p held (wf p) (fun _ _ => False) w'.
Proof.
  intros Hreg.
  assert (forall v e s f st m st' msgs, s <> p_self p -> wf p st ->
            execute p v e s f st m = Ok (st', msgs) -> wf p st') as HI by (intros; by eapply wf_execute).
  assert (forall v e s f st m st' msgs, s <> p_self p -> wf p st ->
            execute p v e s f st m = Ok (st', msgs) ->
            single_move p held st st' v msgs \/ releases p held st st' msgs) as HL.
  { intros. eapply custody_effect; eauto using execute_effect. }
  destruct (exec_custody p (execute p) held (wf p) HI HL) as (H1&H2&H3).
  destruct 1 as [s f m w w' H|w w' H|w h t|m w st' msgs w' Hs H]; intros Hc.
  - by eapply H1.
  - eapply H3; [|done]. eapply adv_env; [done|constructor].
  - done.
  - unfold v2_sudo, migrate in Hs. cbn in Hs. injection Hs as <- <-. eapply H2; [done|].
    left. split_and!; [by destruct w|constructor|]. intros ? ? Hin. by apply elem_of_nil in Hin.
Qed.
Lemma reachable_custody w : p_reg_reenters p = false -> reachable p w ->
  custody p held (wf p) (fun _ _ => False) w.
Proof.
  intros Hreg (w0&[[c Hi] Hn]&H).
  assert (custody p held (wf p) (fun _ _ => False) w0) as H0.
  { split_and!; [by eapply wf_instantiate|done| |done]. unfold instantiate in Hi. inv_ok.
    intros c0 t _ (i&a&Ha&_). cbn in Ha. by rewrite lookup_empty in Ha. }
  clear Hi Hn. induction H as [|w0 w1 w Hs _ IH]; [done|]. apply IH. by eapply step_custody.
Qed.

(** * Withdrawals *)
Lemma pay_in_nil (w : world state) s a d : bank_move (w_bank w) s (p_self p) [] a d = w_bank w a d.
Proof. unfold bank_move, bank_add, bank_sub. cbn. repeat case_bool_decide; lia. Qed.
Lemma covers_nil b a : covers b a [] = true.
Proof. done. Qed.

Lemma send_one_ok to dn n : 0 < n -> p_blocked p to = false -> send_ok p to [Coin dn n] = true.
Proof. intros Hn Hb. unfold send_ok. rewrite Hb. cbn. by rewrite (proj2 (N.ltb_lt _ _)). Qed.

Lemma withdraw_run (w : world state) who m st' price :
  reachable p w -> who <> p_self p ->
  execute p (view_of p (pay_in p w who [])) (env_of w) who [] (w_st w) m = Ok (st', [MSend who [price]]) ->
  0 < c_amount price -> p_blocked p who = false ->
  c_amount price <= escrow (w_st w) (c_denom price) ->
  exists w', run_tx p (execute p) w who [] m = Ok w' /\ w_st w' = st' /\
    (forall d, w_bank w' who d = w_bank w who d + in_denom d price).
Proof.
  intros Hr Hw He Hp Hb Hle. unfold run_tx. rewrite (bool_decide_eq_false_2 _ Hw), covers_nil. cbn -[execute].
  rewrite He. destruct price as [dn n]. cbn -[covers send_ok bank_move] in *.
  rewrite (send_one_ok _ _ _ Hp Hb).
  assert (covers (bank_move (w_bank w) who (p_self p) []) (p_self p) [Coin dn n] = true) as ->.
  { apply covers_spec. intros d. rewrite pay_in_nil. rewrite amt_one. cbn.
    case_bool_decide; [|lia]. subst d. pose proof (reachable_escrow w dn Hr). lia. }
  cbn -[bank_move]. eexists. split; [done|]. split; [done|]. intros d. cbn -[bank_move in_denom].
  unfold bank_move at 1, bank_add at 1. rewrite bool_decide_eq_true_2 by done. unfold bank_sub at 1.
  rewrite bool_decide_eq_false_2 by done. rewrite pay_in_nil, in_denom_amt. done.
Qed.

Lemma esc_lookup_le {A} (price : A -> coin) (m : gmap string A) i x :
  m !! i = Some x -> c_amount (price x) <= esc price m (c_denom (price x)).
Proof. intros H. pose proof (esc_elem_le price m i x (c_denom (price x)) H) as Hl. rewrite amt_one_same in Hl by done. done. Qed.

Lemma withdraw_bid w i b :
  reachable p w -> s_bids (w_st w) !! i = Some b -> p_blocked p (b_creator b) = false ->
  exists w', run_tx p (execute p) w (b_creator b) [] (RemoveBid i) = Ok w' /\
    s_bids (w_st w') !! i = None /\
    (forall d, w_bank w' (b_creator b) d = w_bank w (b_creator b) d + in_denom d (d_price (b_det b))).
Proof.
  intros Hr Hb Hbl. pose proof (reachable_wf _ Hr) as Hwf.
  destruct (wf_bid _ _ Hwf _ _ Hb) as (Hid&Hpos&_&_&Hns).
  edestruct (withdraw_run w (b_creator b) (RemoveBid i)) as (w'&Hrun&Hst&Hbal); [done|done| | |done| |].
  - cbn. unfold execute_remove_bid. cbn. rewrite Hb. cbn. rewrite bool_decide_eq_true_2 by done. cbn. reflexivity.
  - exact Hpos.
  - rewrite escrow_liab. unfold liab. pose proof (esc_lookup_le b_price _ _ _ Hb). unfold b_price in *. lia.
  - exists w'. split_and!; [done| |done]. rewrite Hst. cbn. rewrite Hid. apply lookup_delete.
Qed.
Lemma withdraw_cbid w i b :
  reachable p w -> s_cbids (w_st w) !! i = Some b -> p_blocked p (cb_creator b) = false ->
  exists w', run_tx p (execute p) w (cb_creator b) [] (RemoveCollectionBid i) = Ok w' /\
    s_cbids (w_st w') !! i = None /\
    (forall d, w_bank w' (cb_creator b) d = w_bank w (cb_creator b) d + in_denom d (d_price (cb_det b))).
Proof.
  intros Hr Hb Hbl. pose proof (reachable_wf _ Hr) as Hwf.
  destruct (wf_cbid _ _ Hwf _ _ Hb) as (Hid&Hpos&_&_&Hns).
  edestruct (withdraw_run w (cb_creator b) (RemoveCollectionBid i)) as (w'&Hrun&Hst&Hbal); [done|done| | |done| |].
  - cbn. unfold execute_remove_collection_bid. cbn. rewrite Hb. cbn. rewrite bool_decide_eq_true_2 by done. cbn. reflexivity.
  - exact Hpos.
  - rewrite escrow_liab. unfold liab. pose proof (esc_lookup_le cb_price _ _ _ Hb). unfold cb_price in *. lia.
  - exists w'. split_and!; [done| |done]. rewrite Hst. cbn. rewrite Hid. apply lookup_delete.
Qed.
Lemma withdraw_ask w i a :
  reachable p w -> p_reg_reenters p = false -> s_asks (w_st w) !! i = Some a ->
  p_honest p (a_coll a) = true -> a_coll a <> p_self p ->
  exists w', run_tx p (execute p) w (a_creator a) [] (RemoveAsk i) = Ok w' /\
    s_asks (w_st w') !! i = None /\ w_nft w' (a_coll a) (a_tok a) = Some (proceeds_to a).
Proof.
  intros Hr Hreg Ha Hh Hcs. pose proof (reachable_wf _ Hr) as Hwf.
  destruct (wf_ask _ _ Hwf _ _ Ha) as (Hid&_&Hpos&_&_&Hns).
  destruct (reachable_custody _ Hreg Hr) as (_&_&Hc&_).
  assert (w_nft w (a_coll a) (a_tok a) = Some (p_self p)) as Hown by (apply Hc; [done|by exists i, a]).
  unfold run_tx. rewrite (bool_decide_eq_false_2 _ Hns), covers_nil. cbn -[execute].
  unfold execute, execute_remove_ask. cbn. rewrite Ha. cbn. rewrite bool_decide_eq_true_2 by done. cbn.
  rewrite (bool_decide_eq_false_2 _ Hcs). cbn. rewrite Hh. unfold can_transfer. cbn. rewrite Hown.
  rewrite (bool_decide_eq_true_2 (p_self p = p_self p)) by done. cbn. eexists. split; [done|]. cbn. split.
  - rewrite Hid. apply lookup_delete.
  - by rewrite bool_decide_eq_true_2.
Qed.

(** * Ids *)
Definition numbered (k : N) (i : order_id) : Prop := exists x n, n <= k /\ i = p_hash p (x +:+ be8 n).
Definition ids_ok (st : state) : Prop :=
  (forall i b, s_bids st !! i = Some b -> numbered (s_nonce st) i) /\
  (forall i b, s_cbids st !! i = Some b -> numbered (s_nonce st) i).

Lemma concat_last l x : String.concat "" (l ++ [x]) = String.concat "" l +:+ x.
Proof.
  induction l as [|y l IH]; [done|]. destruct l as [|z l].
  - cbn. by rewrite str_app_nil.
  - change (String.concat "" ((y :: z :: l) ++ [x])) with (y +:+ ("" +:+ String.concat "" ((z :: l) ++ [x]))).
    rewrite IH. change (String.concat "" (y :: z :: l)) with (y +:+ ("" +:+ String.concat "" (z :: l))).
    by rewrite !str_app_nil, str_app_assoc.
Qed.

Lemma next_nonce_succ st : s_nonce st < U64_MAX -> next_nonce st = s_nonce st + 1.
Proof. intros H. unfold next_nonce, wrapping_succ64. apply N.mod_small. lia. Qed.
Lemma numbered_le k k' i : k <= k' -> numbered k i -> numbered k' i.
Proof. intros Hk (x&n&Hn&->). exists x, n. split; [lia|done]. Qed.
Lemma numbered_fresh k x i : collision_free p -> k < U64_MAX -> numbered k i -> i <> p_hash p (x +:+ be8 (k + 1)).
Proof.
  intros Hc Hk (y&n&Hn&->) E%Hc. apply str_app_inj_r in E as [_ E]; [|by rewrite !be8_length].
  apply be8_inj in E; lia.
Qed.
Lemma bid_id_eq s coll tok d h k : b_id (bid_new p s coll tok d h k) = p_hash p ((coll +:+ tok +:+ be8 h) +:+ be8 k).
Proof.
  unfold bid_new, cbid_new; cbn [b_id cb_id]. unfold generate_id. f_equal. change [coll; tok; be8 h; be8 k] with ([coll; tok; be8 h] ++ [be8 k]).
  rewrite concat_last. cbn [String.concat]. by rewrite !str_app_nil.
Qed.
Lemma cbid_id_eq s coll d h k : cb_id (cbid_new p s coll d h k) = p_hash p ((coll +:+ be8 h) +:+ be8 k).
Proof.
  unfold bid_new, cbid_new; cbn [b_id cb_id]. unfold generate_id. f_equal. change [coll; be8 h; be8 k] with ([coll; be8 h] ++ [be8 k]).
  rewrite concat_last. cbn [String.concat]. by rewrite !str_app_nil.
Qed.

(** What a call does to the sets of resting bids: only removals, or one new id carrying the next number. *)
Definition new_id (st : state) (i : order_id) : Prop := exists x, i = p_hash p (x +:+ be8 (next_nonce st)).
Lemma ids_effect v e sender funds st m st' msgs :
  wf p st -> effect p v e sender funds st m st' msgs ->
  (s_nonce st' = s_nonce st \/ s_nonce st' = next_nonce st) /\
  (forall i b, s_bids st' !! i = Some b -> is_Some (s_bids st !! i) \/ (new_id st i /\ s_nonce st' = next_nonce st)) /\
  (forall i b, s_cbids st' !! i = Some b -> is_Some (s_cbids st !! i) \/ (new_id st i /\ s_nonce st' = next_nonce st)).
Proof.
  intros Hwf H. destruct H; cbn [set_asks set_bids set_cbids set_nonce sale_state s_nonce s_bids s_cbids].
  all: (split; [first [by left | by right | by left; congruence]|]).
  all: split; intros i x.
  all: try (rewrite ?H2, ?H3; intros; left; by eexists).
  all: try (intros Hx; destruct mb; rewrite ?lookup_delete_Some in Hx; left; exists x; tauto).
  all: try (rewrite lookup_delete_Some; intros [_ ?]; left; by eexists).
  all: try (rewrite lookup_insert_Some; intros [[<- <-]|[_ ?]]; [|left; by eexists]).
  all: try (right; split; [|done]; eexists; apply bid_id_eq).
  all: try (right; split; [|done]; eexists; apply cbid_id_eq).
  all: left.
  - destruct (wf_bid _ _ Hwf _ _ H0) as (<-&_). by eexists.
  - destruct (wf_cbid _ _ Hwf _ _ H0) as (<-&_). by eexists.
Qed.

Lemma ids_ok_effect v e sender funds st m st' msgs :
  wf p st -> effect p v e sender funds st m st' msgs -> s_nonce st < U64_MAX -> ids_ok st ->
  ids_ok st' /\ s_nonce st <= s_nonce st' /\ s_nonce st' <= s_nonce st + 1.
Proof.
  intros Hwf H Hn [Hb Hc]. destruct (ids_effect _ _ _ _ _ _ _ _ Hwf H) as (E&H1&H2).
  rewrite next_nonce_succ in E by done. split; [|lia].
  split; intros i x Hi.
  - destruct (H1 _ _ Hi) as [[b Hi']|[[y ->] E']].
    + eapply numbered_le; [|by eapply Hb]. lia.
    + exists y, (next_nonce st). split; [lia|done].
  - destruct (H2 _ _ Hi) as [[b Hi']|[[y ->] E']].
    + eapply numbered_le; [|by eapply Hc]. lia.
    + exists y, (next_nonce st). split; [lia|done].
Qed.

Lemma hsteps_ids n st st' :
  nsteps (hstep p (execute p)) n st st' -> wf p st -> ids_ok st -> s_nonce st + N.of_nat n <= U64_MAX ->
  wf p st' /\ ids_ok st' /\ s_nonce st <= s_nonce st' /\ s_nonce st' <= s_nonce st + N.of_nat n.
Proof.
  induction 1 as [st|n st st1 st' Hs Hn IH]; intros Hwf Hi Hle; [split_and!; try done; lia|].
  pose proof (hstep_wf _ _ Hs Hwf) as Hwf1. destruct Hs as (v&e&s&f&m&ms&Hs&H%execute_effect).
  destruct (ids_ok_effect _ _ _ _ _ _ _ _ Hwf H) as (Hi1&?&?); [lia|done|].
  destruct (IH Hwf1 Hi1) as (?&?&?&?); [lia|]. split_and!; try done; lia.
Qed.

Lemma instantiate_ids c st : instantiate p c = Ok st -> wf p st /\ ids_ok st /\ s_nonce st = 0.
Proof.
  intros H. split; [by eapply wf_instantiate|]. unfold instantiate in H. inv_ok. split; [|done].
  split; intros i b; cbn; by rewrite lookup_empty.
Qed.
Lemma history_ids n st : v2_history p n st -> N.of_nat n <= U64_MAX ->
  wf p st /\ ids_ok st /\ s_nonce st <= N.of_nat n.
Proof.
  intros (c&st0&Hi&H) Hn. apply instantiate_ids in Hi as (Hwf&Hids&E).
  destruct (hsteps_ids _ _ _ H Hwf Hids) as (?&?&?&?); [lia|]. split_and!; try done. lia.
Qed.

Lemma issued_bid_new e st m i : issued_bid p e st m = Some i -> new_id st i.
Proof.
  assert (forall coll tok h, new_id st (generate_id p [coll; tok; be8 h; be8 (next_nonce st)])) as HH.
  { intros. eexists. apply (bid_id_eq "" coll tok (Details (Coin "" 0) None None)). }
  destruct m; cbn; try discriminate.
  - destruct (s_asks st !! id); [|done]. intros [= <-]. apply HH.
  - intros [= <-]. apply HH.
  - intros [= <-]. apply HH.
Qed.
Lemma issued_cbid_new e st m i : issued_cbid p e st m = Some i -> new_id st i.
Proof.
  assert (forall coll h, new_id st (generate_id p [coll; be8 h; be8 (next_nonce st)])) as HH.
  { intros. eexists. apply (cbid_id_eq "" coll (Details (Coin "" 0) None None)). }
  destruct m; cbn; try discriminate; intros [= <-]; apply HH.
Qed.
Lemma new_id_fresh st i : collision_free p -> s_nonce st < U64_MAX -> ids_ok st -> new_id st i ->
  s_bids st !! i = None /\ s_cbids st !! i = None.
Proof.
  intros Hc Hn [Hb Hcb] [x ->]. rewrite next_nonce_succ by done. split.
  - destruct (s_bids st !! _) as [b|] eqn:E; [|done]. apply Hb in E. by apply (numbered_fresh _ x) in E.
  - destruct (s_cbids st !! _) as [b|] eqn:E; [|done]. apply Hcb in E. by apply (numbered_fresh _ x) in E.
Qed.
Lemma history_fresh n st e m :
  collision_free p -> N.of_nat n < U64_MAX -> v2_history p n st -> fresh_ids p e st m.
Proof.
  intros Hc Hn H. destruct (history_ids _ _ H) as (Hwf&Hids&Hle); [lia|]. split; intros i Hi.
  - apply issued_bid_new in Hi. eapply new_id_fresh; eauto. lia.
  - apply issued_cbid_new in Hi. eapply new_id_fresh; eauto. lia.
Qed.

Lemma no_coin_call_eq m : no_coin_call m = ignores_funds m.
Proof. by destruct m. Qed.
Lemma history_conservation n st v e sender funds m st' msgs d :
  collision_free p -> N.of_nat n < U64_MAX -> v2_history p n st ->
  execute p v e sender funds st m = Ok (st', msgs) ->
  escrow st' d + paid_out msgs d = escrow st d + (if no_coin_call m then 0 else coins_in funds d).
Proof.
  intros Hc Hn Hh H%execute_effect. rewrite !escrow_liab, paid_out_out, coins_in_amt, no_coin_call_eq.
  eapply effect_accounting in H as [_ H]; [|by eapply history_wf]. apply H. by eapply history_fresh.
Qed.
Lemma wf_conservation st v e sender funds m st' msgs d :
  wf p st -> execute p v e sender funds st m = Ok (st', msgs) ->
  escrow st' d + paid_out msgs d <= escrow st d + (if no_coin_call m then 0 else coins_in funds d).
Proof.
  intros Hwf H%execute_effect. rewrite !escrow_liab, paid_out_out, coins_in_amt, no_coin_call_eq.
  by eapply effect_accounting in H as [H _].
Qed.

(** Ids are never issued twice. *)
Lemma never_reissued n k st0 st st1 st2 i c :
  collision_free p -> N.of_nat n + N.of_nat k < U64_MAX ->
  instantiate p c = Ok st0 -> nsteps (hstep p (execute p)) n st0 st ->
  (is_Some (s_bids st !! i) \/ is_Some (s_cbids st !! i)) ->
  nsteps (hstep p (execute p)) k st st1 -> hstep p (execute p) st1 st2 ->
  (s_bids st1 !! i = None -> s_bids st2 !! i = None) /\ (s_cbids st1 !! i = None -> s_cbids st2 !! i = None).
Proof.
  intros Hc Hn Hi H0 Hin H1 H2. apply instantiate_ids in Hi as (Hwf&Hids&E).
  destruct (hsteps_ids _ _ _ H0 Hwf Hids) as (Hwf1&Hids1&?&?); [lia|].
  destruct (hsteps_ids _ _ _ H1 Hwf1 Hids1) as (Hwf2&Hids2&?&?); [lia|].
  assert (numbered (s_nonce st1) i) as Hnum.
  { eapply numbered_le; [|destruct Hin as [[b Hb]|[b Hb]]; [by eapply (proj1 Hids1)|by eapply (proj2 Hids1)]]. done. }
  destruct H2 as (v&e&s&f&m&ms&Hs&Hx%execute_effect).
  destruct (ids_effect _ _ _ _ _ _ _ _ Hwf2 Hx) as (_&Hb&Hcb).
  assert (~ new_id st1 i) as Hnn.
  { intros [x Hy]. rewrite next_nonce_succ in Hy by lia. eapply numbered_fresh; [done| |done|done]. lia. }
  split; intros Hnone.
  - destruct (s_bids st2 !! i) as [b|] eqn:Eb; [|done]. destruct (Hb _ _ Eb) as [[? ?]|[? _]]; congruence.
  - destruct (s_cbids st2 !! i) as [b|] eqn:Eb; [|done]. destruct (Hcb _ _ Eb) as [[? ?]|[? _]]; congruence.
Qed.

(** Placing a bid leaves every resting bid alone. *)
Lemma placing_keeps n st v e sender funds m st' msgs :
  collision_free p -> N.of_nat n < U64_MAX -> v2_history p n st ->
  (is_Some (issued_bid p e st m) \/ is_Some (issued_cbid p e st m)) ->
  execute p v e sender funds st m = Ok (st', msgs) ->
  (forall i b, s_bids st !! i = Some b -> s_bids st' !! i = Some b) /\
  (forall i b, s_cbids st !! i = Some b -> s_cbids st' !! i = Some b).
Proof.
  intros Hc Hn Hh Hiss H%execute_effect. pose proof (history_fresh _ _ e m Hc Hn Hh) as [Hf1 Hf2].
  destruct H; cbn in Hiss; try (destruct Hiss as [[? ?]|[? ?]]; discriminate).
  - destruct m; try discriminate H; destruct Hiss as [[? Hq]|[? Hq]]; discriminate Hq.
  - destruct H; subst m; destruct Hiss as [[? ?]|[? ?]]; discriminate.
  - cbn in Hf1. rewrite H0 in Hf1. specialize (Hf1 _ eq_refl).
    split; intros i x Hi; cbn; [|done]. rewrite lookup_delete_ne; [done|]. intros <-. cbn in Hi. congruence.
  - assert (s_bids st !! b_id b = None) as Hf by (destruct H; subst m; by apply Hf1).
    split; intros i x Hi; cbn; [|done]. rewrite lookup_delete_ne; [done|]. intros <-. cbn in Hi, Hf. congruence.
  - split; intros i x Hi; cbn; [|done]. rewrite lookup_insert_ne; [done|]. intros <-. cbn in *. congruence.
  - assert (s_cbids st !! cb_id cb = None) as Hf by (destruct H; subst m; by apply Hf2).
    split; intros i x Hi; cbn; [done|]. rewrite lookup_delete_ne; [done|]. intros <-. cbn in Hi, Hf. congruence.
  - split; intros i x Hi; cbn; [done|]. rewrite lookup_insert_ne; [done|]. intros <-. cbn in *. congruence.
Qed.

(** Ask ids identify NFTs when addresses are prefix free. *)
Lemma ask_id_inj c1 t1 c2 t2 :
  collision_free p -> prefix_free p -> p_valid p c1 = true -> p_valid p c2 = true ->
  generate_id p [c1; t1] = generate_id p [c2; t2] -> c1 = c2 /\ t1 = t2.
Proof.
  intros Hc Hp H1 H2 E. unfold generate_id in E. apply Hc in E. cbn in E. rewrite !str_app_nil in E.
  assert (c1 = c2) as ->.
  { revert E. assert (forall a b x y, a +:+ x = b +:+ y -> (exists r, a +:+ r = b) \/ (exists r, b +:+ r = a)) as Hpre.
    { clear. induction a as [|h a IH]; intros b x y E.
      - left. exists b. by rewrite str_app_nil.
      - destruct b as [|g b].
        + right. exists (String h a). by rewrite str_app_nil.
        + rewrite !str_app_cons in E. injection E as -> E. destruct (IH _ _ _ E) as [[r Hr]|[r Hr]].
          * left. exists r. by rewrite str_app_cons, Hr.
          * right. exists r. by rewrite str_app_cons, Hr. }
    intros E. destruct (Hpre _ _ _ _ E) as [[r Hr]|[r Hr]].
    - by apply (Hp _ _ r).
    - symmetry. by apply (Hp _ _ r). }
  split; [done|]. by apply str_app_inj_l in E as [_ ?].
Qed.
End Reach.
