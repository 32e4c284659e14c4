(** Marketplace v2: the exact effect of calls on the order book and the configuration, prices and addresses on entry, and
    the notification of the royalty registry. *)
From stdpp Require Import relations.
From Verif Require Import Base Common Chain BaseFacts ChainFacts SaleFacts V2Model V2Spec V2Facts V2Match V2Inv V2Sale V2Trade V2Reach
  V2Book.

Section More.
Context (p : params).
Local Ltac norm :=
  repeat match goal with
  | H : addr_validate _ _ = Ok _ |- _ => apply addr_validate_Ok in H as [-> ?]
  | H : only_contract_admin _ _ = Ok _ |- _ => apply only_contract_admin_Ok in H
  end.
Local Ltac prep :=
  repeat first [progress inv_ok | progress norm | progress cbv zeta in * | progress cbn [fst snd] in *].
Local Lemma bind_ok {A B} (a : A) (g : A -> result B) : (y ← Ok a; g y) = g a.
Proof. done. Qed.

(** * The book after a call *)
Lemma sale_is_sells v e sender funds st m st' msgs a mb f pre post :
  sale_result p v e sender funds st m st' msgs a mb f pre post ->
  sells st m st' msgs (a_coll a) (a_tok a) (nft_to mb).
Proof.
  intros Hr. split_and!.
  - rewrite (sr_msgs _ _ _ _ _ _ _ _ _ _ _ _ _ _ Hr). apply elem_of_app. right. apply elem_of_app. right. by left.
  - intros id ->. pose proof (sr_cause _ _ _ _ _ _ _ _ _ _ _ _ _ _ Hr) as Hc. done.
  - intros i. rewrite (sr_asks _ _ _ _ _ _ _ _ _ _ _ _ _ _ Hr). rewrite lookup_delete_is_Some. by intros [_ ?].
Qed.

Lemma book_exact v e sender funds st m st' msgs :
  wf p st -> execute p v e sender funds st m = Ok (st', msgs) -> admin_call m = false ->
  (forall c t to, ~ sells st m st' msgs c t to) -> rests p sender funds st st' m msgs.
Proof.
  intros Hwf H%execute_effect Hadm Hns. pose proof H as Hs.
  apply effect_sale_or_not in Hs as [(Hrc&_&_)|(a&mb&f&pre&post&Hr)]; [| |done].
  2: { apply sale_is_sells in Hr. by apply Hns in Hr. }
  destruct H; try (by destruct m);
    try (by repeat match goal with x := _ |- _ => subst x end; destruct_or?; subst; cbn in Hrc; try done; try congruence;
      destruct Hrc as (?&?&?&?); simplify_eq; congruence).
  - subst funds. by apply (RestSetAsk p sender [lp] st _ coll tok d (a_id a)).
  - destruct (wf_ask _ _ Hwf _ _ H1) as (E&_). subst id sender. by eapply RestUpdateAsk.
  - destruct (wf_ask _ _ Hwf _ _ H0) as (E&_). subst id sender. by eapply RestRemoveAsk.
  - apply (RestSetBid p sender funds st _ coll tok d (b_id b)); try done. apply refund_change.
    eauto using nb_sub_pos, nb_normalize_pos.
  - destruct (wf_bid _ _ Hwf _ _ H0) as (E&?&_). subst id sender. eapply RestUpdateBid; try done. apply refund_change.
    eauto using nb_sub_pos, nb_normalize_pos, nb_add_pos.
  - destruct (wf_bid _ _ Hwf _ _ H0) as (E&_). subst id. by apply RestRemoveBid.
  - apply (RestSetCBid p sender funds st _ coll d (cb_id cb)); try done. apply refund_change.
    eauto using nb_sub_pos, nb_normalize_pos.
  - destruct (wf_cbid _ _ Hwf _ _ H0) as (E&?&_). subst id sender. eapply RestUpdateCBid; try done. apply refund_change.
    eauto using nb_sub_pos, nb_normalize_pos, nb_add_pos.
  - destruct (wf_cbid _ _ Hwf _ _ H0) as (E&_). subst id. by apply RestRemoveCBid.
Qed.
Lemma sale_exact v e sender funds st m st' msgs c t to :
  wf p st -> execute p v e sender funds st m = Ok (st', msgs) -> sells st m st' msgs c t to ->
  exists a mb f, trade sender st m a mb f /\ c = a_coll a /\ t = a_tok a /\ to = nft_to mb /\
    settles p v (s_config st) sender funds m msgs a mb f /\ takes_out st st' a mb.
Proof.
  intros Hwf H Hs. destruct (sells_result p _ _ _ _ _ _ _ _ _ _ _ Hwf H Hs) as (a&mb&f&pre&post&Hr&?&?&?).
  exists a, mb, f. split; [by apply Hr|]. split_and!; try done; [by eapply sale_settles|].
  split; [apply Hr|]. pose proof (sr_bids _ _ _ _ _ _ _ _ _ _ _ _ _ _ Hr). pose proof (sr_cbids _ _ _ _ _ _ _ _ _ _ _ _ _ _ Hr).
  by destruct mb.
Qed.

(** * Configuration *)
Lemma config_check_iff c : config_check c = Ok tt <->
  cf_protocol_bps c < 10000 /\ cf_maker_bps c + cf_taker_bps c < 10000.
Proof.
  split; [apply config_check_Ok|]. intros [H1 H2]. unfold config_check, MAX_BASIS_POINTS.
  rewrite (proj2 (N.ltb_lt _ _) H1). cbn [ensure]. rewrite bind_ok.
  unfold add64. assert (U64_MAX = 18446744073709551615) as E by done.
  rewrite (proj2 (N.leb_le _ _)) by lia. rewrite bind_ok. by rewrite (proj2 (N.ltb_lt _ _) H2).
Qed.
Lemma admin_exact v e sender funds st m st' msgs :
  admin_call m = true ->
  execute p v e sender funds st m = Ok (st', msgs) <->
  q_admin v = Some (Some sender) /\ configures p st m st' /\ msgs = [].
Proof.
  intros Hadm. split.
  - intros H. destruct m; try done; cbn [execute] in H.
    + unfold config_str_to_addr, execute_update_config in H. prep.
      match goal with H : config_check _ = _ |- _ => apply config_check_iff in H as [? ?] end.
      split_and!; try done. destruct c. by apply ConfUpdate.
    + unfold execute_update_collection_denom in H. prep. split_and!; try done. by constructor.
    + unfold execute_set_listing_fee in H. prep. split_and!; try done. by constructor.
    + unfold execute_remove_listing_fee in H. prep. split_and!; try done. by constructor.
  - intros (Hq&Hc&->).
    assert (only_contract_admin v sender = Ok tt) as Ha.
    { unfold only_contract_admin. rewrite Hq. by rewrite bool_decide_true. }
    destruct Hc as [c (H1&H2&H3&H4)|coll dn Hv|f|dn]; cbn [execute].
    + unfold config_str_to_addr, addr_validate. rewrite H1, bind_ok, H2, bind_ok, bind_ok. unfold execute_update_config.
      rewrite Ha, bind_ok. rewrite (proj2 (config_check_iff _)) by (by destruct c). rewrite bind_ok. by destruct c.
    + unfold addr_validate. rewrite Hv, bind_ok. unfold execute_update_collection_denom. by rewrite Ha, bind_ok.
    + unfold execute_set_listing_fee. by rewrite Ha, bind_ok.
    + unfold execute_remove_listing_fee. by rewrite Ha, bind_ok.
Qed.
Lemma instantiate_exact c st :
  instantiate p c = Ok st <-> config_ok p c /\ st = State c ∅ ∅ 0 ∅ ∅ ∅.
Proof.
  unfold instantiate, config_str_to_addr. split.
  - intros H. prep. match goal with H : config_check _ = _ |- _ => apply config_check_iff in H as [? ?] end.
    by destruct c.
  - intros [(H1&H2&H3&H4) ->]. unfold addr_validate. rewrite H1, bind_ok, H2, bind_ok, bind_ok.
    rewrite (proj2 (config_check_iff _)) by (by destruct c). rewrite bind_ok. by destruct c.
Qed.

(** * Prices and addresses on entry *)
Lemma entry_price v e sender funds st m st' msgs coll price :
  execute p v e sender funds st m = Ok (st', msgs) ->
  (exists tok, ask_call st m coll tok price) \/ (exists tok, bid_call st m coll tok price) -> priced st coll price.
Proof.
  intros H%execute_effect Hc.
  assert (only_valid_price st (s_config st) coll price = Ok tt) as Hp.
  { destruct Hc as [[tok Hc]|[tok Hc]]; destruct Hc; inversion H; destruct_or?; simplify_eq; done. }
  apply only_valid_price_Ok in Hp as [? E]. split; [done|]. rewrite E. by destruct (s_denoms st !! coll).
Qed.

Definition config_addrs (c : config) : Prop :=
  p_valid p (cf_fee_manager c) = true /\ p_valid p (cf_registry c) = true.
Lemma execute_config_addrs v e sender funds st m st' msgs :
  execute p v e sender funds st m = Ok (st', msgs) -> config_addrs (s_config st) -> config_addrs (s_config st').
Proof.
  intros H Hc. destruct (admin_call m) eqn:Ha.
  - apply admin_exact in H as (_&H&_); [|done]. destruct H as [c (?&?&_)| | |]; done.
  - apply execute_effect in H. destruct H; try done. by destruct m.
Qed.
Lemma history_config_addrs n st : v2_history p n st -> config_addrs (s_config st).
Proof.
  intros (c&st0&Hi&Hs). apply instantiate_exact in Hi as [(?&?&_) E].
  assert (config_addrs (s_config st0)) as Hc by (by subst st0). clear E. revert Hc Hs.
  intros Hc Hs. induction Hs as [|k s0 s1 s2 Hstep _ IH]; [done|]. apply IH.
  destruct Hstep as (v&e&sender&funds&m&msgs&_&He). by eapply execute_config_addrs.
Qed.

(** * The royalty registry *)
Lemma fetch_reg v registry coll prot r reg :
  fetch_or_set_royalties p v registry coll prot [] = Ok (r, reg) ->
  (reg = [MRegInit registry coll] /\ q_royalty v registry coll prot = Ok (None, None) /\
     exists ci x, q_info v coll = Some ci /\ ci_royalty ci = Some x) \/
  (reg = [] /\ ~ (q_royalty v registry coll prot = Ok (None, None) /\
     exists ci x, q_info v coll = Some ci /\ ci_royalty ci = Some x)).
Proof.
  unfold fetch_or_set_royalties, fetch_royalty_entry. intros H.
  apply bind_Ok in H as (o&Ho&H). apply bind_Ok in Ho as ([x y]&Hq&Ho).
  destruct x as [x|]; [|destruct y as [y|]]; injection Ho as <-; cbn in H.
  - injection H as <- <-. right. split; [done|]. rewrite Hq. by intros [? _].
  - injection H as <- <-. right. split; [done|]. rewrite Hq. by intros [? _].
  - destruct (q_info v coll) as [ci|] eqn:Ei.
    + destruct (ci_royalty ci) as [[pa sh]|] eqn:Er.
      * apply bind_Ok in H as (z&Hz&H). injection H as <- <-. left. split_and!; [done|done|]. by exists ci, (pa, sh).
      * injection H as <- <-. right. split; [done|]. intros (_&ci'&x&?&?). by simplify_eq.
    + injection H as <- <-. right. split; [done|]. by intros (_&ci'&x&?&?).
Qed.
Lemma reg_in_tail r c (ps : list payment) to back :
  (forall r c, MRegInit r c ∉ back) -> forall coll tok, MRegInit r c ∉ ((pay_msg <$> ps) ++ MNft coll tok to :: back : list cmsg).
Proof.
  intros Hb coll tok. rewrite elem_of_app, elem_of_cons. intros [H|[H|H]].
  - apply elem_of_list_fmap in H as (x&?&_). discriminate.
  - discriminate.
  - by apply Hb in H.
Qed.
Lemma refund_no_reg s fs r c : MRegInit r c ∉ refund s fs.
Proof. unfold refund. destruct (nb_is_empty fs); [apply not_elem_of_nil|]. by intros ?%elem_of_list_singleton. Qed.
Lemma pays_no_reg ps r c : MRegInit r c ∉ (pay_msg <$> ps : list cmsg).
Proof. rewrite elem_of_list_fmap. intros (x&?&_). discriminate. Qed.
Lemma reg_no_nft v registry coll prot r reg c t to :
  fetch_or_set_royalties p v registry coll prot [] = Ok (r, reg) -> MNft c t to ∉ reg.
Proof.
  intros [(->&_)|[-> _]]%fetch_reg; [by intros ?%elem_of_list_singleton|apply not_elem_of_nil].
Qed.
Definition reg_case (v : view) (st : state) (m : msg) (st' : state) (msgs : list cmsg) : Prop :=
  ((forall c t to, ~ sells st m st' msgs c t to) /\ forall r c, MRegInit r c ∉ msgs) \/
  exists c t to, sells st m st' msgs c t to /\ (forall c' t' to', MNft c' t' to' ∈ msgs -> c' = c) /\
    forall r c', MRegInit r c' ∈ msgs <->
      r = cf_registry (s_config st) /\ c' = c /\ royalty_unregistered p v (s_config st) c'.
Lemma sale_reg v st m a mb f reg ps head coll tok to back st' :
  sale_msgs p v (s_config st) a mb f reg ps -> coll = a_coll a ->
  (forall x, x ∈ back ++ head -> exists to cs, x = MSend to cs) -> (forall id, m <> RemoveAsk id) ->
  s_asks st' = delete (a_id a) (s_asks st) ->
  reg_case v st m st' (head ++ reg ++ (pay_msg <$> ps) ++ MNft coll tok to :: back).
Proof.
  intros (pf&ro&_&Hf&_) -> Hs Hm Ha. right. exists (a_coll a), tok, to. split_and!.
  - split_and!; [|done|].
    + apply elem_of_app. right. apply elem_of_app. right. apply elem_of_app. right. by left.
    + intros i. rewrite Ha, lookup_delete_is_Some. by intros [_ ?].
  - intros c' t' to'. rewrite !elem_of_app, elem_of_cons. intros [H|[H|[H|[H|H]]]].
    + destruct (Hs (MNft c' t' to')) as (?&?&?); [apply elem_of_app; by right|done].
    + by apply (reg_no_nft _ _ _ _ _ _ _ _ _ Hf) in H.
    + by apply pay_msgs_no_nft in H.
    + by injection H as -> _ _.
    + destruct (Hs (MNft c' t' to')) as (?&?&?); [apply elem_of_app; by left|done].
  - intros r c'. rewrite !elem_of_app, elem_of_cons.
    assert (MRegInit r c' ∉ head) as Hh by (intros H; destruct (Hs (MRegInit r c')) as (?&?&?); [apply elem_of_app; by right|done]).
    assert (MRegInit r c' ∉ back) as Hb by (intros H; destruct (Hs (MRegInit r c')) as (?&?&?); [apply elem_of_app; by left|done]).
    pose proof (pays_no_reg ps r c') as Hp. apply fetch_reg in Hf as [(->&Hq&Hi)|[-> Hn]].
    + rewrite elem_of_list_singleton. split.
      * intros [H|[H|[H|[H|H]]]]; try done. injection H as -> ->. by split_and!.
      * intros (->&->&_). auto.
    + rewrite elem_of_nil. split.
      * by intros [H|[H|[H|[H|H]]]].
      * intros (->&->&H). by apply Hn in H.
Qed.
Lemma refund_sends s fs x : x ∈ refund s fs -> exists to cs, x = MSend to cs.
Proof. unfold refund. destruct (nb_is_empty fs); [by intros ?%elem_of_nil|]. intros ->%elem_of_list_singleton. eauto. Qed.
Local Ltac reg_side :=
  first [eassumption | done | by destruct_or?; subst
        |rewrite ?app_nil_r; intros ?; first [apply refund_sends|by intros ?%elem_of_nil|intros ->%elem_of_list_singleton; by eauto]].
Lemma effect_reg v e sender funds st m st' msgs :
  effect p v e sender funds st m st' msgs -> reg_case v st m st' msgs.
Proof.
  intros H. destruct H; try (
    repeat match goal with x := _ |- _ => subst x end;
    first [solve [eapply (sale_reg v st _ _ _ _ _ _ []); reg_side]|solve [eapply (sale_reg v st _ _ _ _ _ _ [_]); reg_side]]).
  all: left; split; [intros c t to (Hin&Hrm&Hnew)|intros r c Hin].
  all: try (by apply refund_sends in Hin as (?&?&?)); try (by apply elem_of_nil in Hin);
    try (by apply elem_of_list_singleton in Hin); try (by eapply Hrm).
  - cbn in Hnew. destruct (Hnew (a_id a)) as [? E]; [rewrite lookup_insert; eauto|congruence].
  - rewrite !elem_of_cons, elem_of_nil in Hin. by destruct_or?.
Qed.
Lemma registry_told v e sender funds st m st' msgs c t to :
  execute p v e sender funds st m = Ok (st', msgs) -> sells st m st' msgs c t to ->
  forall r c', MRegInit r c' ∈ msgs <->
    r = cf_registry (s_config st) /\ c' = c /\ royalty_unregistered p v (s_config st) c'.
Proof.
  intros H%execute_effect%effect_reg Hs. destruct H as [[H _]|(c0&t0&to0&_&Hc&H)]; [by apply H in Hs|].
  destruct Hs as (Hin&_). apply Hc in Hin as ->. exact H.
Qed.
Lemma registry_told_in_sales v e sender funds st m st' msgs r c :
  execute p v e sender funds st m = Ok (st', msgs) -> MRegInit r c ∈ msgs -> exists t to, sells st m st' msgs c t to.
Proof.
  intros H%execute_effect%effect_reg Hin. destruct H as [[_ H]|(c0&t0&to0&Hs&_&H)]; [by apply H in Hin|].
  apply H in Hin as (_&->&_). eauto.
Qed.

(** * Statements over histories *)
Lemma rests_exactly n v e sender funds st m st' msgs :
  v2_history p n st -> execute p v e sender funds st m = Ok (st', msgs) -> admin_call m = false ->
  (forall c t to, ~ sells st m st' msgs c t to) ->
  rests p sender funds st st' m msgs /\ s_config st' = s_config st /\ s_denoms st' = s_denoms st /\ s_fees st' = s_fees st.
Proof.
  intros Hn He Ha Hs. split; [eapply book_exact; eauto using history_wf|].
  apply execute_effect in He. destruct He; try done. by destruct m.
Qed.
Lemma sells_exactly n v e sender funds st m st' msgs c t to :
  v2_history p n st -> execute p v e sender funds st m = Ok (st', msgs) -> sells st m st' msgs c t to ->
  exists a mb f, trade sender st m a mb f /\ c = a_coll a /\ t = a_tok a /\ to = nft_to mb /\
    settles p v (s_config st) sender funds m msgs a mb f /\ takes_out st st' a mb /\
    s_config st' = s_config st /\ s_denoms st' = s_denoms st /\ s_fees st' = s_fees st.
Proof.
  intros Hn He Hs. destruct (sale_exact _ _ _ _ _ _ _ _ _ _ _ (history_wf p n st Hn) He Hs) as (a&mb&f&?&?&?&?&?&?).
  assert (s_config st' = s_config st /\ s_denoms st' = s_denoms st /\ s_fees st' = s_fees st) as Hc.
  { apply execute_effect in He. destruct Hs as (Hin&_). destruct He; try done. by apply elem_of_nil in Hin. }
  exists a, mb, f. by repeat (split; [done|]).
Qed.
Lemma det_named d : det_valid p d -> named_ok p d.
Proof. intros [Hr Hf]. split; intros x E; [rewrite E in Hr|rewrite E in Hf]; done. Qed.
Lemma addresses_valid n st : v2_history p n st ->
  p_valid p (cf_fee_manager (s_config st)) = true /\ p_valid p (cf_registry (s_config st)) = true /\
  (forall i a, s_asks st !! i = Some a -> p_valid p (a_coll a) = true /\ named_ok p (a_det a)) /\
  (forall i b, s_bids st !! i = Some b -> p_valid p (b_coll b) = true /\ named_ok p (b_det b)) /\
  (forall i b, s_cbids st !! i = Some b -> p_valid p (cb_coll b) = true /\ named_ok p (cb_det b)).
Proof.
  intros Hn. pose proof (history_wf p n st Hn) as Hwf. destruct (history_config_addrs n st Hn) as [? ?].
  split_and!; try done; intros i a Hi.
  - destruct (wf_ask _ _ Hwf _ _ Hi) as (_&_&_&?&?&_). auto using det_named.
  - destruct (wf_bid _ _ Hwf _ _ Hi) as (_&_&?&?&_). auto using det_named.
  - destruct (wf_cbid _ _ Hwf _ _ Hi) as (_&_&?&?&_). auto using det_named.
Qed.
End More.
