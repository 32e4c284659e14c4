(** Invariants of the marketplace v2 storage and handler-level accounting. *)
From Verif Require Import Base Common Chain BaseFacts ChainFacts IndexRange IndexFacts SaleFacts V2Model V2Facts V2Match.

Section Inv.
Context (p : params).

(** * Well-formed storage *)
Record wf (st : state) : Prop := {
  wf_ask : forall i a, s_asks st !! i = Some a ->
    a_id a = i /\ i = generate_id p [a_coll a; a_tok a] /\ 0 < a_amt a /\ p_valid p (a_coll a) = true /\
    det_valid p (a_det a) /\ a_creator a <> p_self p;
  wf_bid : forall i b, s_bids st !! i = Some b ->
    b_id b = i /\ 0 < b_amt b /\ p_valid p (b_coll b) = true /\ det_valid p (b_det b) /\ b_creator b <> p_self p;
  wf_cbid : forall i cb, s_cbids st !! i = Some cb ->
    cb_id cb = i /\ 0 < cb_amt cb /\ p_valid p (cb_coll cb) = true /\ det_valid p (cb_det cb) /\
    cb_creator cb <> p_self p;
  wf_config : config_check (s_config st) = Ok tt;
}.

Lemma only_valid_price_Ok st cfg coll c u :
  only_valid_price st cfg coll c = Ok u ->
  0 < c_amount c /\ c_denom c = default (cf_default_denom cfg) (s_denoms st !! coll).
Proof.
  unfold only_valid_price. intros H. inv_ok. apply bool_decide_eq_true in H. split; [lia|done].
Qed.

Lemma wf_instantiate c st : instantiate p c = Ok st -> wf st.
Proof.
  unfold instantiate. intros H. inv_ok. split; cbn; try (intros ? ?; by rewrite lookup_empty). done.
Qed.

Lemma wf_same_asks (st st' : state) :
  wf st -> s_config st' = s_config st -> s_asks st' = s_asks st -> s_bids st' = s_bids st -> s_cbids st' = s_cbids st -> wf st'.
Proof. intros [H1 H2 H3 H4] E0 E1 E2 E3. split; rewrite ?E0, ?E1, ?E2, ?E3; auto. Qed.

Lemma wf_sale_state st a mb : wf st -> wf (sale_state st a mb).
Proof.
  intros [H1 H2 H3 H4]. split; cbn; [| | |done].
  - intros i x. rewrite lookup_delete_Some. intros [_ ?]. auto.
  - intros i x. destruct mb; [rewrite lookup_delete_Some; intros [_ ?]|]; auto.
  - intros i x. destruct mb; [|rewrite lookup_delete_Some; intros [_ ?]]; auto.
Qed.
Lemma wf_set_nonce st n : wf st -> wf (set_nonce st n).
Proof. intros [H1 H2 H3 H4]. by split. Qed.

Ltac vp :=
  repeat match goal with
  | H : only_valid_price _ _ _ _ = Ok _ |- _ => apply only_valid_price_Ok in H as [? ?]
  end.

Lemma wf_effect v e sender funds st m st' msgs :
  sender <> p_self p -> wf st -> effect p v e sender funds st m st' msgs -> wf st'.
Proof.
  intros Hs Hwf H. pose proof Hwf as [Wa Wb Wc Wd]. destruct H; vp; auto using wf_sale_state, wf_set_nonce.
  - split; try congruence.
    + by rewrite H1.
    + by rewrite H2.
    + by rewrite H3.
    + destruct H5 as [->|]; auto.
  - split; cbn; auto. intros i x. rewrite lookup_insert_Some. intros [[<- <-]|[_ ?]]; [|by auto]. done.
  - split; cbn; auto. intros i x. rewrite lookup_insert_Some. intros [[<- <-]|[_ ?]]; [|by auto].
    destruct (Wa _ _ H1) as (?&?&?&?&?&?). split_and!; try done. cbn. congruence.
  - split; cbn; auto. intros i x. rewrite lookup_delete_Some. intros [_ ?]. auto.
  - split; cbn; auto. intros i x. rewrite lookup_insert_Some. intros [[<- <-]|[_ ?]]; [|by auto]. done.
  - split; cbn; auto. intros i x. rewrite lookup_insert_Some. intros [[<- <-]|[_ ?]]; [|by auto].
    destruct (Wb _ _ H0) as (?&?&?&?&?). split_and!; try done.
  - split; cbn; auto. intros i x. rewrite lookup_delete_Some. intros [_ ?]. auto.
  - split; cbn; auto. intros i x. rewrite lookup_insert_Some. intros [[<- <-]|[_ ?]]; [|by auto]. done.
  - split; cbn; auto. intros i x. rewrite lookup_insert_Some. intros [[<- <-]|[_ ?]]; [|by auto].
    destruct (Wc _ _ H0) as (?&?&?&?&?). split_and!; try done.
  - split; cbn; auto. intros i x. rewrite lookup_delete_Some. intros [_ ?]. auto.
Qed.

Lemma wf_execute v e sender funds st m st' msgs :
  sender <> p_self p -> wf st -> execute p v e sender funds st m = Ok (st', msgs) -> wf st'.
Proof. intros ? ? H%execute_effect. by eapply wf_effect. Qed.

(** * Escrow *)
Definition b_price (b : bid) : coin := d_price (b_det b).
Definition cb_price (cb : cbid) : coin := d_price (cb_det cb).
Definition liab (st : state) (d : denom) : N := esc b_price (s_bids st) d + esc cb_price (s_cbids st) d.

Lemma sale_msgs_amt v cfg a mb f reg ps d :
  sale_msgs p v cfg a mb f reg ps -> out (reg ++ (pay_msg <$> ps)) d = amt [sale_price a mb f] d.
Proof.
  intros H. pose proof (sale_msgs_reg _ _ _ _ _ _ _ _ H) as Hreg. destruct H as (pf&r&_&_&H).
  apply build_payments_amt with (d := d) in H. rewrite out_app, out_payments, H.
  destruct Hreg as [-> | ->]; cbn; lia.
Qed.

(** Does the call take coins?  Admin calls and AcceptBid/AcceptCollectionBid ignore attached coins. *)
Definition ignores_funds (m : msg) : bool :=
  match m with
  | UpdateConfig _ | UpdateCollectionDenom _ _ | SetListingFee _ | RemoveListingFee _
  | AcceptBid _ _ | AcceptCollectionBid _ _ _ => true
  | _ => false
  end.
Definition taken (m : msg) (funds : list coin) (d : denom) : N := if ignores_funds m then 0 else amt funds d.

(** The id a call issues for a new bid. *)
Definition issued_bid (e : env) (st : state) (m : msg) : option order_id :=
  match m with
  | SetBid coll tok _ | BuySpecificNft coll tok _ =>
      Some (generate_id p [coll; tok; be8 (e_height e); be8 (next_nonce st)])
  | AcceptAsk id _ =>
      match s_asks st !! id with
      | Some a => Some (generate_id p [a_coll a; a_tok a; be8 (e_height e); be8 (next_nonce st)])
      | None => None
      end
  | _ => None
  end.
Definition issued_cbid (e : env) (st : state) (m : msg) : option order_id :=
  match m with
  | SetCollectionBid coll _ | BuyCollectionNft coll _ =>
      Some (generate_id p [coll; be8 (e_height e); be8 (next_nonce st)])
  | _ => None
  end.
Definition fresh_ids (e : env) (st : state) (m : msg) : Prop :=
  (forall i, issued_bid e st m = Some i -> s_bids st !! i = None) /\
  (forall i, issued_cbid e st m = Some i -> s_cbids st !! i = None).

Lemma match_with_bid_stored st a mb :
  wf st -> match_with_bid st a = Some mb ->
  match mb with
  | MBid b => s_bids st !! b_id b = Some b
  | MCBid cb => s_cbids st !! cb_id cb = Some cb
  end.
Proof.
  intros Hwf H%match_with_bid_some. cbv zeta in H. destruct mb as [b|cb].
  - destruct H as (((i&Hi)&_)&_). by destruct (wf_bid _ Hwf _ _ Hi) as (->&_).
  - destruct H as (((i&Hi)&_)&_). by destruct (wf_cbid _ Hwf _ _ Hi) as (->&_).
Qed.

(** Accounting of one call: [rel] is the relation (≤ in general, = with fresh ids). *)
Lemma effect_accounting v e sender funds st m st' msgs d :
  wf st -> effect p v e sender funds st m st' msgs ->
  liab st' d + out msgs d <= liab st d + taken m funds d /\
  (fresh_ids e st m -> liab st' d + out msgs d = liab st d + taken m funds d).
Proof.
  intros Hwf H. unfold liab.
  assert (forall x y, x = y -> x <= y /\ (fresh_ids e st m -> x = y)) as Heq by (intros; subst; done).
  assert (forall x y z, z <= x -> x + y = z + y -> True) as _ by done.
  destruct H.
  - apply Heq. unfold taken. replace (ignores_funds m) with true by (by destruct m).
    rewrite H2, H3. cbn. lia.
  - apply Heq. subst. unfold taken. cbn. lia.
  - apply Heq. subst. replace (taken m [lp] d) with (amt [lp] d) by (by destruct H; subst).
    pose proof (match_with_bid_stored _ _ _ Hwf H8) as Hst.
    apply sale_msgs_amt with (d := d) in H9. rewrite out_app in H9. cbn [out out_one].
    rewrite !out_app. unfold sale_price in H9. destruct mb as [b|cb]; cbn [sale_state s_bids s_cbids mb_det] in *.
    + rewrite (esc_delete b_price _ _ _ d Hst). unfold b_price at 2. cbn [out out_one]. lia.
    + rewrite (esc_delete cb_price _ _ _ d Hst). unfold cb_price at 2. cbn [out out_one]. lia.
  - apply Heq. subst. unfold taken. cbn. lia.
  - apply Heq. subst. unfold taken. cbn [ignores_funds amt].
    pose proof (match_with_bid_stored _ _ _ Hwf H4) as Hst.
    apply sale_msgs_amt with (d := d) in H5. rewrite out_app in H5.
    rewrite !out_app. unfold sale_price in H5. destruct mb as [b|cb]; cbn [sale_state s_bids s_cbids mb_det] in *.
    + rewrite (esc_delete b_price _ _ _ d Hst). unfold b_price at 2. cbn [out out_one]. lia.
    + rewrite (esc_delete cb_price _ _ _ d Hst). unfold cb_price at 2. cbn [out out_one]. lia.
  - apply Heq. subst. unfold taken. cbn. lia.
  - (* accept ask *)
    apply nb_normalize_amt with (d := d) in H2. apply nb_sub_amt with (d := d) in H3.
    apply sale_msgs_amt with (d := d) in H4. rewrite out_app in H4. unfold sale_price in H4.
    rewrite !out_app. cbn [out out_one]. rewrite out_refund. unfold taken. cbn [ignores_funds sale_state s_bids s_cbids].
    cbn [set_nonce s_bids s_cbids].
    pose proof (esc_delete_le b_price (s_bids st) (b_id b) d). split; [lia|].
    intros [Hf _]. rewrite esc_delete_none; [lia|]. apply Hf. cbn. by rewrite H0.
  - apply nb_normalize_amt with (d := d) in H4. apply nb_sub_amt with (d := d) in H6.
    apply sale_msgs_amt with (d := d) in H7. rewrite out_app in H7. unfold sale_price in H7.
    rewrite !out_app. cbn [out out_one]. rewrite out_refund.
    replace (taken m funds d) with (amt funds d) by (by destruct H; subst).
    cbn [sale_state s_bids s_cbids set_nonce].
    pose proof (esc_delete_le b_price (s_bids st) (b_id b) d). split; [lia|].
    intros [Hf _]. rewrite esc_delete_none; [lia|]. apply Hf. by destruct H; subst.
  - apply Heq. apply nb_normalize_amt with (d := d) in H3. apply nb_sub_amt with (d := d) in H5.
    rewrite out_refund. unfold taken. cbn [ignores_funds set_bids set_nonce s_bids s_cbids].
    rewrite esc_insert_new by done. unfold b_price at 1. cbn [b_det bid_new]. subst b. cbn [bid_new b_det]. lia.
  - apply Heq. apply nb_normalize_amt with (d := d) in H3. apply nb_add_amt with (d := d) in H4.
    apply nb_sub_amt with (d := d) in H6.
    apply sale_msgs_amt with (d := d) in H7. rewrite out_app in H7. unfold sale_price in H7.
    rewrite !out_app. cbn [out out_one]. rewrite out_refund. unfold taken. cbn [ignores_funds sale_state s_bids s_cbids].
    destruct (wf_bid _ Hwf _ _ H0) as (Hid&_). subst b. cbn [b_id]. rewrite Hid.
    rewrite (esc_delete b_price (s_bids st) id _ d H0). unfold b_price at 2. lia.
  - apply Heq. apply nb_normalize_amt with (d := d) in H3. apply nb_add_amt with (d := d) in H4.
    apply nb_sub_amt with (d := d) in H6.
    rewrite out_refund. unfold taken. cbn [ignores_funds set_bids s_bids s_cbids].
    destruct (wf_bid _ Hwf _ _ H0) as (Hid&_). subst b. cbn [b_id]. rewrite Hid.
    pose proof (esc_insert_some b_price (s_bids st) id (Bid id (b_creator b0) (b_coll b0) (b_tok b0) d0) _ d H0) as He.
    unfold b_price at 2 4 in He. cbn [b_det] in He. lia.
  - apply Heq. subst. unfold taken. destruct (wf_bid _ Hwf _ _ H0) as (Hid&_). rewrite Hid. cbn [set_bids s_bids s_cbids].
    rewrite (esc_delete b_price (s_bids st) id _ d H0). unfold b_price at 2. cbn. lia.
  - apply Heq. destruct (wf_bid _ Hwf _ _ H0) as (Hid&_).
    apply sale_msgs_amt with (d := d) in H3. rewrite out_app in H3. unfold sale_price in H3.
    rewrite !out_app. unfold taken. cbn [out out_one ignores_funds sale_state s_bids s_cbids mb_det] in *. rewrite Hid.
    rewrite (esc_delete b_price (s_bids st) id _ d H0). unfold b_price at 2. lia.
  - apply nb_normalize_amt with (d := d) in H4. apply nb_sub_amt with (d := d) in H6.
    apply sale_msgs_amt with (d := d) in H7. rewrite out_app in H7. unfold sale_price in H7.
    rewrite !out_app. cbn [out out_one]. rewrite out_refund.
    replace (taken m funds d) with (amt funds d) by (by destruct H; subst).
    cbn [sale_state s_bids s_cbids set_nonce].
    pose proof (esc_delete_le cb_price (s_cbids st) (cb_id cb) d). split; [lia|].
    intros [_ Hf]. rewrite (esc_delete_none cb_price); [lia|]. apply Hf. by destruct H; subst.
  - apply Heq. apply nb_normalize_amt with (d := d) in H3. apply nb_sub_amt with (d := d) in H5.
    rewrite out_refund. unfold taken. cbn [ignores_funds set_cbids set_nonce s_bids s_cbids].
    rewrite (esc_insert_new cb_price) by done. unfold cb_price at 1. subst cb. cbn [cbid_new cb_det]. lia.
  - apply Heq. apply nb_normalize_amt with (d := d) in H3. apply nb_add_amt with (d := d) in H4.
    apply nb_sub_amt with (d := d) in H6.
    apply sale_msgs_amt with (d := d) in H7. rewrite out_app in H7. unfold sale_price in H7.
    rewrite !out_app. cbn [out out_one]. rewrite out_refund. unfold taken. cbn [ignores_funds sale_state s_bids s_cbids].
    destruct (wf_cbid _ Hwf _ _ H0) as (Hid&_). subst cb. cbn [cb_id]. rewrite Hid.
    rewrite (esc_delete cb_price (s_cbids st) id _ d H0). unfold cb_price at 2. lia.
  - apply Heq. apply nb_normalize_amt with (d := d) in H3. apply nb_add_amt with (d := d) in H4.
    apply nb_sub_amt with (d := d) in H6.
    rewrite out_refund. unfold taken. cbn [ignores_funds set_cbids s_bids s_cbids].
    destruct (wf_cbid _ Hwf _ _ H0) as (Hid&_). subst cb. cbn [cb_id]. rewrite Hid.
    pose proof (esc_insert_some cb_price (s_cbids st) id (CBid id (cb_creator cb0) (cb_coll cb0) d0) _ d H0) as He.
    unfold cb_price at 2 4 in He. cbn [cb_det] in He. lia.
  - apply Heq. subst. unfold taken. destruct (wf_cbid _ Hwf _ _ H0) as (Hid&_). rewrite Hid. cbn [set_cbids s_bids s_cbids].
    rewrite (esc_delete cb_price (s_cbids st) id _ d H0). unfold cb_price at 2. cbn. lia.
  - apply Heq. destruct (wf_cbid _ Hwf _ _ H0) as (Hid&_).
    apply sale_msgs_amt with (d := d) in H3. rewrite out_app in H3. unfold sale_price in H3.
    rewrite !out_app. unfold taken. cbn [out out_one ignores_funds sale_state s_bids s_cbids mb_det] in *. rewrite Hid.
    rewrite (esc_delete cb_price (s_cbids st) id _ d H0). unfold cb_price at 2. lia.
Qed.

Lemma taken_le m funds d : taken m funds d <= amt funds d.
Proof. unfold taken. destruct (ignores_funds m); lia. Qed.

Lemma execute_liab v e sender funds st m st' msgs d :
  wf st -> execute p v e sender funds st m = Ok (st', msgs) ->
  liab st' d + out msgs d <= liab st d + amt funds d.
Proof.
  intros Hwf H%execute_effect. apply effect_accounting with (d := d) in H as [H _]; [|done].
  pose proof (taken_le m funds d). lia.
Qed.

(** * The book is never crossed *)
Definition uncrossed (st : state) : Prop :=
  forall i a, s_asks st !! i = Some a ->
    (forall j b, s_bids st !! j = Some b -> b_coll b = a_coll a -> b_tok b = a_tok a -> b_dn b = a_dn a ->
       b_amt b < a_amt a) /\
    (forall j cb, s_cbids st !! j = Some cb -> cb_coll cb = a_coll a -> cb_dn cb = a_dn a -> cb_amt cb < a_amt a).

Lemma uncrossed_sub st st' :
  uncrossed st ->
  (forall i a, s_asks st' !! i = Some a -> s_asks st !! i = Some a) ->
  (forall i b, s_bids st' !! i = Some b -> s_bids st !! i = Some b) ->
  (forall i cb, s_cbids st' !! i = Some cb -> s_cbids st !! i = Some cb) ->
  uncrossed st'.
Proof. intros H Ha Hb Hc i a Hi%Ha. destruct (H i a Hi) as [H1 H2]. split; eauto. Qed.

Lemma uncrossed_sale st n a mb : uncrossed st -> uncrossed (sale_state (set_nonce st n) a mb).
Proof.
  intros H. eapply uncrossed_sub; [done|..]; cbn.
  - intros i x. rewrite lookup_delete_Some. tauto.
  - intros i x. destruct mb; [rewrite lookup_delete_Some; tauto|done].
  - intros i x. destruct mb; [done|rewrite lookup_delete_Some; tauto].
Qed.
Lemma uncrossed_sale' st a mb : uncrossed st -> uncrossed (sale_state st a mb).
Proof. intros H. apply (uncrossed_sale st (s_nonce st) a mb) in H. exact H. Qed.

Lemma uncrossed_effect v e sender funds st m st' msgs :
  wf st -> uncrossed st -> effect p v e sender funds st m st' msgs -> uncrossed st'.
Proof.
  intros Hwf Hu H. destruct H; auto using uncrossed_sale, uncrossed_sale'.
  - eapply uncrossed_sub; [done|..]; intros ? ?; congruence.
  - apply match_with_bid_none in H7 as [Hb Hc]. intros i x. cbn. rewrite lookup_insert_Some.
    intros [[<- <-]|[_ Hi]]; [|by apply (Hu i x)]. split.
    + intros j y Hj E1 E2 E3. apply Hb. split; [by eexists|]. by rewrite E1, E2.
    + intros j y Hj E1 E3. apply Hc. split; [by eexists|]. done.
  - apply match_with_bid_none in H4 as [Hb Hc]. intros i x. cbn. rewrite lookup_insert_Some.
    intros [[<- <-]|[_ Hi]]; [|by apply (Hu i x)]. split.
    + intros j y Hj E1 E2 E3. apply Hb. split; [by eexists|]. by rewrite E1, E2.
    + intros j y Hj E1 E3. apply Hc. split; [by eexists|]. done.
  - eapply uncrossed_sub; [done|..]; cbn; try done. intros i x. rewrite lookup_delete_Some. tauto.
  - intros i x Hi. cbn in Hi. destruct (Hu i x Hi) as [Hb Hc]. split; [|done].
    intros j y. cbn. rewrite lookup_insert_Some. intros [[<- <-]|[_ Hj]]; [|by eauto].
    intros E1 E2 E3. eapply bid_match_none; [eassumption| |congruence].
    destruct (wf_ask _ Hwf _ _ Hi) as (?&Hg&_). rewrite E1, E2. congruence.
  - intros i x Hi. cbn in Hi. destruct (Hu i x Hi) as [Hb Hc]. split; [|done].
    intros j y. cbn. rewrite lookup_insert_Some. intros [[<- <-]|[_ Hj]]; [|by eauto].
    intros E1 E2 E3. eapply bid_match_none; [eassumption| |congruence].
    destruct (wf_ask _ Hwf _ _ Hi) as (?&Hg&_). rewrite E1, E2. congruence.
  - eapply uncrossed_sub; [done|..]; cbn; try done. intros i x. rewrite lookup_delete_Some. tauto.
  - intros i x Hi. cbn in Hi. destruct (Hu i x Hi) as [Hb Hc]. split; [done|].
    intros j y. cbn. rewrite lookup_insert_Some. intros [[<- <-]|[_ Hj]]; [|by eauto].
    intros E1 E3. eapply cbid_match_none; [eassumption|]. split; [by eexists|]. done.
  - intros i x Hi. cbn in Hi. destruct (Hu i x Hi) as [Hb Hc]. split; [done|].
    intros j y. cbn. rewrite lookup_insert_Some. intros [[<- <-]|[_ Hj]]; [|by eauto].
    intros E1 E3. eapply cbid_match_none; [eassumption|]. split; [by eexists|]. done.
  - eapply uncrossed_sub; [done|..]; cbn; try done. intros i x. rewrite lookup_delete_Some. tauto.
Qed.

(** * Custody *)
Definition held (st : state) (c : addr) (t : token) : Prop :=
  exists i a, s_asks st !! i = Some a /\ a_coll a = c /\ a_tok a = t.

Lemma quiet_payments ps : Forall (quiet p) (pay_msg <$> ps).
Proof. induction ps; cbn; constructor; done. Qed.
Lemma quiet_reg r c reg : p_reg_reenters p = false -> reg = [] \/ reg = [MRegInit r c] -> Forall (quiet p) reg.
Proof. intros H [-> | ->]; repeat constructor. done. Qed.
Lemma honest_out_refund s fs : honest_out p (refund s fs) = [].
Proof. unfold refund. by destruct (nb_is_empty fs). Qed.
Lemma honest_out_quiet ms : Forall (quiet p) ms -> honest_out p ms = [].
Proof.
  induction 1 as [|m ms Hm _ IH]; [done|]. by destruct m.
Qed.
Lemma honest_out_reg r c reg : reg = [] \/ reg = [MRegInit r c] -> honest_out p reg = [].
Proof. intros [-> | ->]; done. Qed.
Lemma honest_out_payments ps : honest_out p (pay_msg <$> ps) = [].
Proof. induction ps; done. Qed.

Lemma only_owner_not_self v sender c t :
  sender <> p_self p -> only_owner v sender c t = Ok tt -> q_owner v c t <> Some (p_self p).
Proof.
  unfold only_owner. intros Hs H Hq. rewrite Hq in H. inv_ok. apply bool_decide_eq_true in H. done.
Qed.

(** A response whose only NFT transfer is (c, t). *)
Lemma shape_move st st' v pre reg ps c t to post r c0 :
  p_reg_reenters p = false ->
  Forall (quiet p) pre -> (reg = [] \/ reg = [MRegInit r c0]) -> honest_out p post = [] ->
  (held st c t \/ q_owner v c t <> Some (p_self p)) ->
  (forall c' t', p_honest p c' = true -> held st' c' t' ->
     (c' = c /\ t' = t /\ to = p_self p) \/ (held st c' t' /\ ~ (c' = c /\ t' = t))) ->
  let msgs := pre ++ reg ++ (pay_msg <$> ps) ++ MNft c t to :: post in
  single_move p held st st' v msgs \/ releases p held st st' msgs.
Proof.
  intros Hre Hq Hreg Hpost Hown Hheld msgs. destruct (p_honest p c) eqn:Ec.
  - left. exists c, t, to, (pre ++ reg ++ (pay_msg <$> ps)), post. unfold msgs. rewrite <-!app_assoc.
    split_and!; try done. rewrite !Forall_app. split_and!; [done|by eapply quiet_reg|apply quiet_payments].
  - right. unfold releases. unfold msgs. rewrite !honest_out_app, (honest_out_quiet pre), (honest_out_reg r c0 reg),
      honest_out_payments by done. cbn. rewrite Ec. cbn.
    change (omap _ post) with (honest_out p post). rewrite Hpost. cbn. split_and!.
    + constructor.
    + intros ? ? H. by apply elem_of_nil in H.
    + intros c' t' Hc' Hh. destruct (Hheld _ _ Hc' Hh) as [(->&_&_)|[? _]]; [congruence|done].
Qed.

Lemma held_sale st a mb c t :
  wf st -> a_id a = generate_id p [a_coll a; a_tok a] ->
  held (sale_state st a mb) c t -> held st c t /\ ~ (c = a_coll a /\ t = a_tok a).
Proof.
  intros Hwf Hid (i&x&Hi&<-&<-). cbn in Hi. apply lookup_delete_Some in Hi as [Hne Hi]. split.
  - by exists i, x.
  - intros [E1 E2]. destruct (wf_ask _ Hwf _ _ Hi) as (_&Hg&_). congruence.
Qed.

Lemma accept_bid_ask_Ok v sender st coll tok d a :
  wf st -> accept_bid_ask p v sender st coll tok d = Ok a ->
  a_creator a = sender /\ a_id a = generate_id p [coll; tok] /\
  ((s_asks st !! a_id a = Some a) \/
   (s_asks st !! generate_id p [coll; tok] = None /\ a = ask_new p sender coll tok d /\
    only_owner v sender coll tok = Ok tt)).
Proof.
  intros Hwf H. unfold accept_bid_ask in H. destruct (s_asks st !! _) as [a'|] eqn:E; inv_ok.
  - apply bool_decide_eq_true in H0. destruct (wf_ask _ Hwf _ _ E) as (Hid&_). rewrite Hid. auto.
  - split_and!; try done. right. auto.
Qed.

Lemma custody_effect v e sender funds st m st' msgs :
  p_reg_reenters p = false -> sender <> p_self p -> wf st ->
  effect p v e sender funds st m st' msgs ->
  single_move p held st st' v msgs \/ releases p held st st' msgs.
Proof.
  intros Hre Hs Hwf H.
  assert (forall st', s_asks st' = s_asks st -> forall fs, releases p held st st' (refund sender fs)) as Hsame.
  { intros st0 E fs. unfold releases. rewrite honest_out_refund. split_and!; [constructor| |].
    - intros ? ? Hin. by apply elem_of_nil in Hin.
    - unfold held. by rewrite E. }
  destruct H; try (right; apply Hsame; done).
  - right. apply (Hsame st' H1 []).
  - (* list *)
    apply (shape_move st _ v [MSend (cf_fee_manager (s_config st)) [lp]] [] [] coll tok (p_self p) [] "" "");
      try done; [by repeat constructor|by left|right; by eapply only_owner_not_self|].
    intros c' t' Hc' (i&x&Hi&<-&<-). cbn in Hi. apply lookup_insert_Some in Hi as [[<- <-]|[Hne Hi]]; [by left|].
    right. split; [by exists i, x|]. intros [E1 E2]. destruct (wf_ask _ Hwf _ _ Hi) as (_&Hg&_).
    apply Hne. rewrite Hg, E1, E2. done.
  - apply (shape_move st _ v [MSend (cf_fee_manager (s_config st)) [lp]] reg ps coll tok (mb_recipient mb) []
             (cf_registry (s_config st)) coll); try done.
    + by repeat constructor.
    + by apply sale_msgs_reg in H9.
    + right. by eapply only_owner_not_self.
    + intros c' t' Hc' Hh. right. by apply held_sale in Hh.
  - (* update ask *) right. unfold releases. split_and!; [constructor| |].
    + intros ? ? Hin. by apply elem_of_nil in Hin.
    + intros c' t' _ (i&x&Hi&<-&<-). cbn in Hi. apply lookup_insert_Some in Hi as [[<- <-]|[Hne Hi]].
      * exists id, a0. done.
      * by exists i, x.
  - apply (shape_move st _ v [] reg ps (a_coll a0) (a_tok a0) (mb_recipient mb) []
             (cf_registry (s_config st)) (a_coll a0)); try done.
    + by apply sale_msgs_reg in H5.
    + left. by exists id, a0.
    + intros c' t' Hc' Hh. right. apply held_sale in Hh; try done.
      cbn. destruct (wf_ask _ Hwf _ _ H1) as (->&?&_). done.
  - apply (shape_move st _ v [] [] [] (a_coll a) (a_tok a) (ask_recipient a) [] "" ""); try done; [by left|..].
    + left. by exists id, a.
    + intros c' t' Hc' (i&x&Hi&<-&<-). cbn in Hi. apply lookup_delete_Some in Hi as [Hne Hi].
      right. split; [by exists i, x|]. intros [E1 E2]. destruct (wf_ask _ Hwf _ _ Hi) as (_&Hg&_).
      destruct (wf_ask _ Hwf _ _ H0) as (?&Hg'&_). congruence.
  - apply (shape_move st _ v [] reg ps (a_coll a) (a_tok a) (bid_recipient b) (refund sender fs)
             (cf_registry (s_config st)) (a_coll a)); try done.
    + by apply sale_msgs_reg in H4.
    + apply honest_out_refund.
    + left. by exists id, a.
    + intros c' t' Hc' Hh. right. eapply held_sale in Hh; [exact Hh|by auto using wf_set_nonce|].
      destruct (wf_ask _ Hwf _ _ H0) as (->&?&_). done.
  - apply bid_match_some in H5 as (Ha&_).
    apply (shape_move st _ v [] reg ps (a_coll a) (a_tok a) (bid_recipient b) (refund sender fs)
             (cf_registry (s_config st)) (a_coll a)); try done.
    + by apply sale_msgs_reg in H7.
    + apply honest_out_refund.
    + left. by exists (generate_id p [b_coll b; b_tok b]), a.
    + intros c' t' Hc' Hh. right. eapply held_sale in Hh; [exact Hh|by auto using wf_set_nonce|].
      destruct (wf_ask _ Hwf _ _ Ha) as (->&?&_). done.
  - apply bid_match_some in H5 as (Ha&_).
    apply (shape_move st _ v [] reg ps (a_coll a) (a_tok a) (bid_recipient b) (refund sender fs)
             (cf_registry (s_config st)) (a_coll a)); try done.
    + by apply sale_msgs_reg in H7.
    + apply honest_out_refund.
    + left. by exists (generate_id p [b_coll b; b_tok b]), a.
    + intros c' t' Hc' Hh. right. eapply held_sale in Hh; [exact Hh|by auto using wf_set_nonce|].
      destruct (wf_ask _ Hwf _ _ Ha) as (->&?&_). done.
  - right. unfold releases. split_and!; [constructor| |done].
    intros ? ? Hin. by apply elem_of_nil in Hin.
  - apply accept_bid_ask_Ok in H2 as (Hcr&Hid&Hcase); [|done].
    assert (a_id a = generate_id p [a_coll a; a_tok a] /\
            (held st (a_coll a) (a_tok a) \/ q_owner v (a_coll a) (a_tok a) <> Some (p_self p))) as [Hg Ho].
    { destruct Hcase as [Ha|(_&->&Ho)].
      - destruct (wf_ask _ Hwf _ _ Ha) as (_&?&_). split; [done|]. left. by exists (a_id a), a.
      - split; [done|]. right. by eapply only_owner_not_self. }
    apply (shape_move st _ v [] reg ps (a_coll a) (a_tok a) (bid_recipient b) []
             (cf_registry (s_config st)) (a_coll a)); try done.
    + by apply sale_msgs_reg in H3.
    + intros c' t' Hc' Hh. right. by apply (held_sale st) in Hh.
  - apply cbid_match_some in H5 as (((i&Ha)&_)&_).
    apply (shape_move st _ v [] reg ps (a_coll a) (a_tok a) (cbid_recipient cb) (refund sender fs)
             (cf_registry (s_config st)) (a_coll a)); try done.
    + by apply sale_msgs_reg in H7.
    + apply honest_out_refund.
    + left. by exists i, a.
    + intros c' t' Hc' Hh. right. eapply held_sale in Hh; [exact Hh|by auto using wf_set_nonce|].
      destruct (wf_ask _ Hwf _ _ Ha) as (->&?&_). done.
  - apply cbid_match_some in H5 as (((i&Ha)&_)&_).
    apply (shape_move st _ v [] reg ps (a_coll a) (a_tok a) (cbid_recipient cb) (refund sender fs)
             (cf_registry (s_config st)) (a_coll a)); try done.
    + by apply sale_msgs_reg in H7.
    + apply honest_out_refund.
    + left. by exists i, a.
    + intros c' t' Hc' Hh. right. eapply held_sale in Hh; [exact Hh|by auto using wf_set_nonce|].
      destruct (wf_ask _ Hwf _ _ Ha) as (->&?&_). done.
  - right. unfold releases. split_and!; [constructor| |done].
    intros ? ? Hin. by apply elem_of_nil in Hin.
  - apply accept_bid_ask_Ok in H2 as (Hcr&Hid&Hcase); [|done].
    assert (a_id a = generate_id p [a_coll a; a_tok a] /\
            (held st (a_coll a) (a_tok a) \/ q_owner v (a_coll a) (a_tok a) <> Some (p_self p))) as [Hg Ho].
    { destruct Hcase as [Ha|(_&->&Ho)].
      - destruct (wf_ask _ Hwf _ _ Ha) as (_&?&_). split; [done|]. left. by exists (a_id a), a.
      - split; [done|]. right. by eapply only_owner_not_self. }
    apply (shape_move st _ v [] reg ps (a_coll a) (a_tok a) (cbid_recipient cb) []
             (cf_registry (s_config st)) (a_coll a)); try done.
    + by apply sale_msgs_reg in H3.
    + intros c' t' Hc' Hh. right. by apply (held_sale st) in Hh.
Qed.
End Inv.
