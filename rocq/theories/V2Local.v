(** Order calls of marketplace v2 look only at the orders of one collection, and change only them. *)
From stdpp Require Import relations.
From Verif Require Import Base Common Chain BaseFacts ChainFacts QuerySpec V2Model V2Spec V2Facts V2Match V2Inv V2Reach V2ExactSpec V2Exact
  V2LocalSpec.

Section Local.
Context (p : params) (Hcf : collision_free p) (Hpf : prefix_free p) (Hsl : slash_free p).

Lemma ran_history n st : ran p n st -> v2_history p n st.
Proof.
  intros (c&st0&Hi&H). exists c, st0. split; [done|]. clear Hi. induction H as [|n x y z H Hn IH]; [constructor|].
  econstructor; [|exact IH]. destruct H as (v&e&s&f&m&ms&Hs&_&H). by exists v, e, s, f, m, ms.
Qed.
Lemma ran_small n st : ran p n st -> small_history p st.
Proof. intros (c&st0&Hi&H). exists c, st0. split; [done|]. by eapply rtc_nsteps_2. Qed.
Lemma ran_next n st v e s f m st' ms : ran p n st -> s <> p_self p -> small_call f m -> execute p v e s f st m = Ok (st', ms) ->
  ran p (S n) st'.
Proof.
  intros (c&st0&Hi&H) Hs Hc He. exists c, st0. split; [done|]. eapply nsteps_r; [exact H|]. by exists v, e, s, f, m, ms.
Qed.
Lemma ran_wf n st : ran p n st -> wf p st.
Proof. intros H%ran_history. by eapply history_wf. Qed.
Lemma ran_fresh n st e w : ran p n st -> N.of_nat n < U64_MAX ->
  s_bids st !! bid_name_of p e st w = None /\ s_cbids st !! bid_name_of p e st w = None.
Proof.
  intros H%ran_history Hn. destruct (history_ids _ _ _ H) as (Hw&Hi&Hk); [lia|].
  eapply new_id_fresh; [done| |done|]; [lia|]. exists (w +:+ be8 (e_height e)). unfold bid_name_of.
  by rewrite <-str_app_assoc.
Qed.
Lemma same_sym coll st st0 : same_market coll st st0 -> same_market coll st0 st.
Proof. intros (?&?&?&Ha&Hb&Hc). split_and!; try done; intros; symmetry; auto. Qed.
Lemma same_trans coll st st1 st2 : same_market coll st st1 -> same_market coll st1 st2 -> same_market coll st st2.
Proof.
  intros (?&?&?&Ha&Hb&Hc) (?&?&?&Ha'&Hb'&Hc'). split_and!; try congruence; intros i a E.
  - by rewrite Ha, Ha'. - by rewrite Hb, Hb'. - by rewrite Hc, Hc'.
Qed.
Lemma same_refl coll st : same_market coll st st.
Proof. by split_and!. Qed.

(** ** Words that depend on one collection only *)
Section Words.
Context (coll : addr) (st st0 : state) (Hs : same_market coll st st0).
Lemma sw_ask i a : a_coll a = coll -> s_asks st !! i = Some a -> s_asks st0 !! i = Some a.
Proof. intros E. by apply Hs. Qed.
Lemma sw_bid i a : b_coll a = coll -> s_bids st !! i = Some a -> s_bids st0 !! i = Some a.
Proof. intros E. by apply Hs. Qed.
Lemma sw_cbid i a : cb_coll a = coll -> s_cbids st !! i = Some a -> s_cbids st0 !! i = Some a.
Proof. intros E. by apply Hs. Qed.
Lemma sw_config : s_config st0 = s_config st.
Proof. symmetry. apply Hs. Qed.
Lemma sw_fees : s_fees st0 = s_fees st.
Proof. symmetry. apply Hs. Qed.
Lemma sw_priced c : priced st coll c -> priced st0 coll c.
Proof. destruct Hs as (Hc&_&Hd&_). unfold priced. by rewrite Hc, Hd. Qed.
Lemma sw_fits tok c mb : fits st coll tok c mb -> fits st0 coll tok c mb.
Proof.
  intros (Hr&(Hd&Hw)&Hc). split; [|by split]. destruct mb as [b|b]; cbn [resting] in *.
  - apply sw_bid; [|done]. apply Hw.
  - by apply sw_cbid.
Qed.
Lemma sw_offered tok c a : offered st coll tok c a -> offered st0 coll tok c a.
Proof. intros (Ha&E&H). split; [|by split]. by apply sw_ask. Qed.
Lemma sw_opening v e d : opening p v e st coll d -> opening p v e st0 coll d.
Proof. intros (?&?&?&?). split_and!; try done. by apply sw_priced. Qed.
Lemma sw_listing v e s f tok d : listing p v e s f st coll tok d -> listing p v e s f st0 coll tok d.
Proof. intros (Ho&Hm&Hf). split; [by apply sw_opening|]. split; [done|]. by rewrite sw_fees. Qed.
End Words.
Lemma sw_unlisted coll st st0 tok : same_market coll st st0 -> unlisted st coll tok -> unlisted st0 coll tok.
Proof. intros Hs Hu i a Ha [E1 E2]. apply (Hu i a); [|done]. eapply sw_ask; [by apply same_sym|done|done]. Qed.
Lemma sw_free coll st st0 tok : wf p st0 -> p_valid p coll = true -> same_market coll st st0 ->
  s_asks st !! ask_name p coll tok = None -> s_asks st0 !! ask_name p coll tok = None.
Proof.
  intros Hw Hv Hs Hn. destruct (s_asks st0 !! ask_name p coll tok) as [a|] eqn:E; [|done].
  destruct (wf_ask _ _ Hw _ _ E) as (_&Hg&_&Hva&_). rewrite <-ask_name_eq in Hg.
  destruct (ask_id_inj p coll tok (a_coll a) (a_tok a)) as [E1 E2]; try done.
  eapply sw_ask in E; [|by apply same_sym|done]. congruence.
Qed.
Lemma sw_top coll st st0 tok c mb : same_market coll st st0 -> top_bid st coll tok c mb -> top_bid st0 coll tok c mb.
Proof.
  intros Hs [Hf Ht]. split; [by eapply sw_fits|]. intros mb' H'. apply Ht. eapply sw_fits; [by apply same_sym|done].
Qed.
Lemma sw_first coll st st0 tok c a : same_market coll st st0 -> first_ask st coll tok c a -> first_ask st0 coll tok c a.
Proof.
  intros Hs [Hf Ht]. split; [by eapply sw_offered|]. intros mb' H'. apply Ht. eapply sw_offered; [by apply same_sym|done].
Qed.
Lemma sw_nofits coll st st0 tok c : same_market coll st st0 -> (forall mb, ~ fits st coll tok c mb) -> forall mb, ~ fits st0 coll tok c mb.
Proof. intros Hs Hn mb H. apply (Hn mb). eapply sw_fits; [by apply same_sym|done]. Qed.
Lemma sw_nooffer coll st st0 tok c : same_market coll st st0 -> (forall a, ~ offered st coll tok c a) -> forall a, ~ offered st0 coll tok c a.
Proof. intros Hs Hn mb H. apply (Hn mb). eapply sw_offered; [by apply same_sym|done]. Qed.
Lemma sw_sellable coll st st0 v s tok d a : same_market coll st st0 -> sellable p v s st coll tok d a -> sellable p v s st0 coll tok d a.
Proof.
  intros Hs [(H&E&H')|(Hu&H')]; [left|right].
  - split; [by eapply sw_ask|done].
  - split; [by eapply sw_unlisted|done].
Qed.

(** ** The book afterwards *)
Lemma same_put_ask coll st st0 i a : same_market coll st st0 -> a_coll a = coll ->
  same_market coll (with_asks st (<[i := a]> (s_asks st))) (with_asks st0 (<[i := a]> (s_asks st0))).
Proof.
  intros (?&?&?&Ha&Hb&Hc) E. split_and!; try done. cbn. intros j x Ex.
  rewrite !lookup_insert_Some. by rewrite Ha.
Qed.
Lemma same_del_ask coll st st0 i : same_market coll st st0 ->
  same_market coll (with_asks st (delete i (s_asks st))) (with_asks st0 (delete i (s_asks st0))).
Proof.
  intros (?&?&?&Ha&Hb&Hc). split_and!; try done. cbn. intros j x Ex.
  rewrite !lookup_delete_Some. by rewrite Ha.
Qed.
Lemma same_put_bid coll st st0 n n0 i a : same_market coll st st0 -> b_coll a = coll ->
  same_market coll (with_bids st n (<[i := a]> (s_bids st))) (with_bids st0 n0 (<[i := a]> (s_bids st0))).
Proof.
  intros (?&?&?&Ha&Hb&Hc) E. split_and!; try done. cbn. intros j x Ex.
  rewrite !lookup_insert_Some. by rewrite Hb.
Qed.
Lemma same_del_bid coll st st0 n n0 i : same_market coll st st0 ->
  same_market coll (with_bids st n (delete i (s_bids st))) (with_bids st0 n0 (delete i (s_bids st0))).
Proof.
  intros (?&?&?&Ha&Hb&Hc). split_and!; try done. cbn. intros j x Ex.
  rewrite !lookup_delete_Some. by rewrite Hb.
Qed.
Lemma same_put_cbid coll st st0 n n0 i a : same_market coll st st0 -> cb_coll a = coll ->
  same_market coll (with_cbids st n (<[i := a]> (s_cbids st))) (with_cbids st0 n0 (<[i := a]> (s_cbids st0))).
Proof.
  intros (?&?&?&Ha&Hb&Hc) E. split_and!; try done. cbn. intros j x Ex.
  rewrite !lookup_insert_Some. by rewrite Hc.
Qed.
Lemma same_del_cbid coll st st0 n n0 i : same_market coll st st0 ->
  same_market coll (with_cbids st n (delete i (s_cbids st))) (with_cbids st0 n0 (delete i (s_cbids st0))).
Proof.
  intros (?&?&?&Ha&Hb&Hc). split_and!; try done. cbn. intros j x Ex.
  rewrite !lookup_delete_Some. by rewrite Hc.
Qed.
Lemma same_sold coll st st0 n n0 a mb : same_market coll st st0 -> same_market coll (sold st n a mb) (sold st0 n0 a mb).
Proof.
  intros (?&?&?&Ha&Hb&Hc). split_and!; try done; cbn.
  - intros j x Ex. rewrite !lookup_delete_Some. by rewrite Ha.
  - intros j x Ex. destruct mb; [rewrite !lookup_delete_Some|]; by rewrite Hb.
  - intros j x Ex. destruct mb; [|rewrite !lookup_delete_Some]; by rewrite Hc.
Qed.
(** A buyer's bid that never was in the book *)
Definition fresh_in (st : state) (mb : matching_bid) : Prop :=
  match mb with MBid b => s_bids st !! b_id b = None | MCBid b => s_cbids st !! cb_id b = None end.
Lemma same_bought coll st st0 n n0 a mb mb0 : fresh_in st mb -> fresh_in st0 mb0 -> same_market coll st st0 ->
  same_market coll (sold st n a mb) (sold st0 n0 a mb0).
Proof.
  intros Hf Hf0 (?&?&?&Ha&Hb&Hc). split_and!; try done; cbn.
  - intros j x Ex. rewrite !lookup_delete_Some. by rewrite Ha.
  - intros j x Ex. destruct mb, mb0; cbn [fresh_in] in *; rewrite ?delete_notin by done; by apply Hb.
  - intros j x Ex. destruct mb, mb0; cbn [fresh_in] in *; rewrite ?delete_notin by done; by apply Hc.
Qed.

(** ** The answer of a call depends on its market only *)
Lemma goes_bid v cfg a i i0 s c t d b : sale_goes p v cfg a (MBid (Bid i s c t d)) b -> sale_goes p v cfg a (MBid (Bid i0 s c t d)) b.
Proof. exact id. Qed.
Lemma goes_cbid v cfg a i i0 s c d b : sale_goes p v cfg a (MCBid (CBid i s c d)) b -> sale_goes p v cfg a (MCBid (CBid i0 s c d)) b.
Proof. exact id. Qed.
Lemma sends_bid v cfg a i i0 s c t d b :
  sale_sends p v cfg a (MBid (Bid i s c t d)) b = sale_sends p v cfg a (MBid (Bid i0 s c t d)) b.
Proof. done. Qed.
Lemma sends_cbid v cfg a i i0 s c d b : sale_sends p v cfg a (MCBid (CBid i s c d)) b = sale_sends p v cfg a (MCBid (CBid i0 s c d)) b.
Proof. done. Qed.
Lemma name_same e st st0 w : s_nonce st = s_nonce st0 -> bid_name_of p e st w = bid_name_of p e st0 w.
Proof. intros E. unfold bid_name_of, next_count. by rewrite E. Qed.

Lemma does_local n n0 coll v e s f st st0 m st' ms :
  ran p n st -> ran p n0 st0 -> N.of_nat n < U64_MAX -> N.of_nat n0 < U64_MAX ->
  same_market coll st st0 -> market st m = Some coll -> (numbers m = true -> s_nonce st = s_nonce st0) ->
  does p v e s f st m st' ms ->
  exists st0', does p v e s f st0 m st0' ms /\ same_market coll st' st0'.
Proof.
  intros Hr Hr0 Hn Hn0 Hs Hm Hk H. pose proof (ran_wf _ _ Hr) as Hw. pose proof (ran_wf _ _ Hr0) as Hw0.
  pose proof (fun w => ran_fresh _ _ e w Hr Hn) as Hf. pose proof (fun w => ran_fresh _ _ e w Hr0 Hn0) as Hf0.
  pose proof (sw_config _ _ _ Hs) as Hcf0.
  destruct H.
  - injection Hm as <-. eexists. split.
    + rewrite <-Hcf0. apply DoList; [by eapply sw_listing|by eapply sw_nofits|]. eapply sw_free; try done. exact (proj1 (proj1 H)).
    + by apply same_put_ask.
  - assert (coll0 = coll) as -> by (destruct H as [->| ->]; by injection Hm). eexists. split.
    + rewrite <-Hcf0. eapply DoListSell; [done|by eapply sw_listing|done|by eapply sw_top|by rewrite Hcf0].
    + by apply same_sold.
  - cbn [market] in Hm. rewrite H0 in Hm. injection Hm as <-. eexists. split.
    + eapply DoUpdateAsk; [done|by eapply sw_ask|done|done|by eapply sw_priced|by eapply sw_nofits].
    + by apply same_put_ask.
  - cbn [market] in Hm. rewrite H0 in Hm. injection Hm as <-. eexists. split.
    + rewrite <-Hcf0. eapply DoUpdateAskSell; [done|by eapply sw_ask|done|done|by eapply sw_priced|done| |by rewrite Hcf0].
      subst a. by eapply sw_top.
    + by apply same_sold.
  - cbn [market] in Hm. rewrite H0 in Hm. injection Hm as <-. eexists. split.
    + eapply DoRemoveAsk; [done|by eapply sw_ask|done].
    + by apply same_del_ask.
  - cbn [market] in Hm. rewrite H in Hm. injection Hm as <-. subst b. eexists. split.
    + rewrite <-Hcf0, (sends_bid _ _ _ _ (bid_name_of p e st0 (a_coll a +:+ a_tok a))). eapply DoAcceptAsk; [by eapply sw_ask|done|done|done|done|rewrite Hcf0; eapply goes_bid; done].
    + apply same_bought; cbn; [apply Hf|apply Hf0|done].
  - injection Hm as <-. subst b. eexists. split.
    + eapply DoBid; [by eapply sw_opening|by eapply sw_nooffer|done|apply Hf0|done].
    + cbn [b_id]. rewrite (name_same e st st0) by auto. by apply same_put_bid.
  - assert (coll0 = coll) as -> by (destruct H as [->| ->]; by injection Hm). subst b. eexists. split.
    + rewrite <-Hcf0, (sends_bid _ _ _ _ (bid_name_of p e st0 (coll +:+ tok))). eapply DoBidBuy; [done|by eapply sw_opening|by eapply sw_first|done|done|rewrite Hcf0; eapply goes_bid; done].
    + apply same_bought; cbn; [apply Hf|apply Hf0|done].
  - cbn [market] in Hm. rewrite H in Hm. injection Hm as <-. eexists. split.
    + eapply DoUpdateBid; [by eapply sw_bid|done|done|by eapply sw_priced|by eapply sw_nooffer|done].
    + by apply same_put_bid.
  - cbn [market] in Hm. rewrite H in Hm. injection Hm as <-. eexists. split.
    + rewrite <-Hcf0. eapply DoUpdateBidBuy; [by eapply sw_bid|done|done|by eapply sw_priced|by eapply sw_first|done|done|by rewrite Hcf0].
    + by apply same_sold.
  - cbn [market] in Hm. rewrite H0 in Hm. injection Hm as <-. eexists. split.
    + eapply DoRemoveBid; [done|by eapply sw_bid|done].
    + by apply same_del_bid.
  - cbn [market] in Hm. rewrite H in Hm. injection Hm as <-. eexists. split.
    + rewrite <-Hcf0. eapply DoAcceptBid; [by eapply sw_bid|done|done|by eapply sw_sellable|by rewrite Hcf0].
    + by apply same_sold.
  - injection Hm as <-. subst b. eexists. split.
    + eapply DoCBid; [by eapply sw_opening|done|by eapply sw_nooffer|done|apply Hf0|done].
    + cbn [cb_id]. rewrite (name_same e st st0) by auto. by apply same_put_cbid.
  - assert (coll0 = coll) as -> by (destruct H as [->| ->]; by injection Hm). subst b. eexists. split.
    + rewrite <-Hcf0, (sends_cbid _ _ _ _ (bid_name_of p e st0 coll)). eapply DoCBidBuy; [done|by eapply sw_opening|done|by eapply sw_first|done|done|rewrite Hcf0; eapply goes_cbid; done].
    + apply same_bought; cbn; [apply Hf|apply Hf0|done].
  - cbn [market] in Hm. rewrite H in Hm. injection Hm as <-. eexists. split.
    + eapply DoUpdateCBid; [by eapply sw_cbid|done|done|by eapply sw_priced|done|by eapply sw_nooffer|done].
    + by apply same_put_cbid.
  - cbn [market] in Hm. rewrite H in Hm. injection Hm as <-. eexists. split.
    + rewrite <-Hcf0. eapply DoUpdateCBidBuy; [by eapply sw_cbid|done|done|by eapply sw_priced|done|by eapply sw_first|done|done|by rewrite Hcf0].
    + by apply same_sold.
  - cbn [market] in Hm. rewrite H0 in Hm. injection Hm as <-. eexists. split.
    + eapply DoRemoveCBid; [done|by eapply sw_cbid|done].
    + by apply same_del_cbid.
  - cbn [market] in Hm. rewrite H in Hm. injection Hm as <-. eexists. split.
    + rewrite <-Hcf0. eapply DoAcceptCBid; [by eapply sw_cbid|done|done|by eapply sw_sellable|by rewrite Hcf0].
    + by apply same_sold.
Qed.

(** ** Nothing changes elsewhere *)
Definition ask_away (coll : addr) (st : state) (i : order_id) : Prop := forall x, s_asks st !! i = Some x -> a_coll x <> coll.
Definition mb_away (coll : addr) (st : state) (mb : matching_bid) : Prop :=
  match mb with
  | MBid b => forall x, s_bids st !! b_id b = Some x -> b_coll x <> coll
  | MCBid b => forall x, s_cbids st !! cb_id b = Some x -> cb_coll x <> coll
  end.
Lemma away_ask coll st i a : s_asks st !! i = Some a -> a_coll a <> coll -> ask_away coll st i.
Proof. intros E Hn x. by rewrite E; intros [= <-]. Qed.
Lemma away_name coll st c tok : wf p st -> p_valid p c = true -> c <> coll -> ask_away coll st (ask_name p c tok).
Proof.
  intros Hw Hv Hn x E Ex. destruct (wf_ask _ _ Hw _ _ E) as (_&Hg&_&Hva&_). rewrite <-ask_name_eq in Hg.
  destruct (ask_id_inj p c tok (a_coll x) (a_tok x)); try done. congruence.
Qed.
Lemma away_sold coll st n a mb : ask_away coll st (a_id a) -> mb_away coll st mb -> same_market coll st (sold st n a mb).
Proof.
  intros Ha Hb. split_and!; try done; cbn.
  - intros j x Ex. rewrite lookup_delete_Some. split; [|by intros []]. intros E. split; [|done]. intros <-. by eapply Ha.
  - intros j x Ex. destruct mb as [b|b]; [|done]. rewrite lookup_delete_Some. split; [|by intros []].
    intros E. split; [|done]. intros <-. by eapply Hb.
  - intros j x Ex. destruct mb as [b|b]; [done|]. rewrite lookup_delete_Some. split; [|by intros []].
    intros E. split; [|done]. intros <-. by eapply Hb.
Qed.
Lemma away_put_ask coll st i a : ask_away coll st i -> a_coll a <> coll -> same_market coll st (with_asks st (<[i := a]> (s_asks st))).
Proof.
  intros Ha Hn. split_and!; try done; cbn. intros j x Ex. rewrite lookup_insert_Some. split.
  - intros E. right. split; [|done]. intros <-. by eapply Ha.
  - intros [[_ <-]|[]]; done.
Qed.
Lemma away_put_bid coll st n a : mb_away coll st (MBid a) -> b_coll a <> coll ->
  same_market coll st (with_bids st n (<[b_id a := a]> (s_bids st))).
Proof.
  intros Ha Hn. split_and!; try done; cbn. intros j x Ex. rewrite lookup_insert_Some. split.
  - intros E. right. split; [|done]. intros <-. by eapply Ha.
  - intros [[_ <-]|[]]; done.
Qed.
Lemma away_put_cbid coll st n a : mb_away coll st (MCBid a) -> cb_coll a <> coll ->
  same_market coll st (with_cbids st n (<[cb_id a := a]> (s_cbids st))).
Proof.
  intros Ha Hn. split_and!; try done; cbn. intros j x Ex. rewrite lookup_insert_Some. split.
  - intros E. right. split; [|done]. intros <-. by eapply Ha.
  - intros [[_ <-]|[]]; done.
Qed.
Lemma away_del_ask coll st i : ask_away coll st i -> same_market coll st (with_asks st (delete i (s_asks st))).
Proof.
  intros Ha. split_and!; try done; cbn. intros j x Ex. rewrite lookup_delete_Some. split; [|by intros []].
  intros E. split; [|done]. intros <-. by eapply Ha.
Qed.
Lemma away_del_bid coll st n b : mb_away coll st (MBid b) -> same_market coll st (with_bids st n (delete (b_id b) (s_bids st))).
Proof.
  intros Ha. split_and!; try done; cbn. intros j x Ex. rewrite lookup_delete_Some. split; [|by intros []].
  intros E. split; [|done]. intros <-. by eapply Ha.
Qed.
Lemma away_del_cbid coll st n b : mb_away coll st (MCBid b) -> same_market coll st (with_cbids st n (delete (cb_id b) (s_cbids st))).
Proof.
  intros Ha. split_and!; try done; cbn. intros j x Ex. rewrite lookup_delete_Some. split; [|by intros []].
  intros E. split; [|done]. intros <-. by eapply Ha.
Qed.
Lemma away_bid coll st i b b' : s_bids st !! i = Some b -> b_id b' = i -> b_coll b <> coll -> mb_away coll st (MBid b').
Proof. intros E Ei Hn x Hx. rewrite Ei, E in Hx. by injection Hx as <-. Qed.
Lemma away_cbid coll st i b b' : s_cbids st !! i = Some b -> cb_id b' = i -> cb_coll b <> coll -> mb_away coll st (MCBid b').
Proof. intros E Ei Hn x Hx. rewrite Ei, E in Hx. by injection Hx as <-. Qed.
Lemma away_fits coll st c tok pr mb : c <> coll -> fits st c tok pr mb -> mb_away coll st mb.
Proof.
  intros Hn (Hr&(Hd&Hwt)&_). destruct mb as [b|b]; cbn [resting wants] in *.
  - eapply away_bid; [done|done|]. destruct Hwt as [-> _]. done.
  - eapply away_cbid; [done|done|]. by rewrite Hwt.
Qed.
Lemma away_offered coll st c tok pr a : c <> coll -> offered st c tok pr a -> ask_away coll st (a_id a).
Proof. intros Hn (Ha&E&_). eapply away_ask; [done|]. by rewrite E. Qed.
Lemma away_sellable coll st v s c tok d a : wf p st -> p_valid p c = true -> c <> coll -> sellable p v s st c tok d a ->
  ask_away coll st (a_id a).
Proof.
  intros Hw Hv Hn [(H&E&_)|(_&_&->)].
  - eapply away_ask; [done|]. by rewrite E.
  - by apply away_name.
Qed.
Lemma away_new coll st mb : fresh_in st mb -> mb_away coll st mb.
Proof. destruct mb; cbn; intros E x; by rewrite E. Qed.

Lemma does_away n coll v e s f st m st' ms :
  ran p n st -> N.of_nat n < U64_MAX -> market st m <> Some coll -> does p v e s f st m st' ms -> same_market coll st st'.
Proof.
  intros Hr Hn Hm H. pose proof (ran_wf _ _ Hr) as Hw. pose proof (fun w => ran_fresh _ _ e w Hr Hn) as Hf.
  destruct H.
  - assert (coll0 <> coll) by (intros ->; by apply Hm). apply away_put_ask; [|done]. apply away_name; try done. exact (proj1 (proj1 H)).
  - assert (coll0 <> coll) by (intros ->; apply Hm; by destruct H as [->| ->]). apply away_sold.
    + subst a. apply away_name; try done. exact (proj1 (proj1 H0)).
    + destruct H2 as [H2 _]. by eapply away_fits.
  - assert (a_coll a <> coll) by (intros <-; apply Hm; cbn; by rewrite H0). apply away_put_ask; [by eapply away_ask|done].
  - assert (a_coll a0 <> coll) by (intros <-; apply Hm; cbn; by rewrite H0). apply away_sold.
    + subst a. by eapply away_ask.
    + destruct H5 as [H5 _]. eapply away_fits; [|exact H5]. by subst a.
  - assert (a_coll a <> coll) by (intros <-; apply Hm; cbn; by rewrite H0). apply away_del_ask. by eapply away_ask.
  - assert (a_coll a <> coll) by (intros <-; apply Hm; cbn; by rewrite H). apply away_sold.
    + destruct (wf_ask _ _ Hw _ _ H) as [-> _]. by eapply away_ask.
    + subst b. apply away_new, Hf.
  - assert (coll0 <> coll) by (intros ->; by apply Hm). apply away_put_bid; subst b; [|done]. apply away_new, Hf.
  - assert (coll0 <> coll) by (intros ->; apply Hm; by destruct H as [->| ->]). apply away_sold.
    + destruct H1 as [H1 _]. by eapply away_offered.
    + subst b. apply away_new, Hf.
  - assert (b_coll b <> coll) by (intros <-; apply Hm; cbn; by rewrite H).
    apply (away_put_bid _ _ _ (Bid i s (b_coll b) (b_tok b) d)); [|done]. by eapply away_bid.
  - assert (b_coll b0 <> coll) by (intros <-; apply Hm; cbn; by rewrite H). apply away_sold.
    + destruct H3 as [H3 _]. by eapply away_offered.
    + subst b. by eapply away_bid.
  - assert (b_coll b <> coll) by (intros <-; apply Hm; cbn; by rewrite H0). destruct (wf_bid _ _ Hw _ _ H0) as [<- _].
    apply away_del_bid. by eapply away_bid.
  - assert (b_coll b <> coll) by (intros <-; apply Hm; cbn; by rewrite H). destruct (wf_bid _ _ Hw _ _ H) as (Ei&_&Hv&_).
    apply away_sold; [by eapply away_sellable|by eapply away_bid].
  - assert (coll0 <> coll) by (intros ->; by apply Hm). apply away_put_cbid; subst b; [|done]. apply away_new, Hf.
  - assert (coll0 <> coll) by (intros ->; apply Hm; by destruct H as [->| ->]). apply away_sold.
    + match goal with H : first_ask _ _ _ _ _ |- _ => destruct H as [Ho _] end. by eapply away_offered.
    + subst b. apply away_new, Hf.
  - assert (cb_coll b <> coll) by (intros <-; apply Hm; cbn; by rewrite H).
    apply (away_put_cbid _ _ _ (CBid i s (cb_coll b) d)); [|done]. by eapply away_cbid.
  - assert (cb_coll b0 <> coll) by (intros <-; apply Hm; cbn; by rewrite H). apply away_sold.
    + match goal with H : first_ask _ _ _ _ _ |- _ => destruct H as [Ho _] end. by eapply away_offered.
    + subst b. by eapply away_cbid.
  - assert (cb_coll b <> coll) by (intros <-; apply Hm; cbn; by rewrite H0). destruct (wf_cbid _ _ Hw _ _ H0) as [<- _].
    apply away_del_cbid. by eapply away_cbid.
  - assert (cb_coll b <> coll) by (intros <-; apply Hm; cbn; by rewrite H). destruct (wf_cbid _ _ Hw _ _ H) as (Ei&_&Hv&_).
    apply away_sold; [by eapply away_sellable|by eapply away_cbid].
Qed.

(** ** The calls themselves *)
Lemma admin_local coll v e s f st st0 m st' ms :
  same_market coll st st0 -> admin_call m = true -> execute p v e s f st m = Ok (st', ms) ->
  exists st0', execute p v e s f st0 m = Ok (st0', ms) /\ same_market coll st' st0'.
Proof.
  intros (Hc&Hf&Hd&Ha&Hb&Hcb) Hm H. destruct m; try done; cbn [execute] in *.
  - apply bind_Ok in H as (c'&Hc'&H). rewrite Hc'. cbn [mbind result_bind]. unfold execute_update_config in *.
    apply bind_Ok in H as (u&Hu&H). rewrite Hu. apply bind_Ok in H as (u'&Hu'&H). rewrite Hu'. cbn [mbind result_bind].
    injection H as <- <-. eexists. split; [reflexivity|]. split_and!; try done.
  - apply bind_Ok in H as (c'&Hc'&H). rewrite Hc'. cbn [mbind result_bind]. unfold execute_update_collection_denom in *.
    apply bind_Ok in H as (u&Hu&H). rewrite Hu. cbn [mbind result_bind].
    injection H as <- <-. eexists. split; [reflexivity|]. split_and!; try done. cbn.
    destruct (decide (c' = coll)) as [->|Hn]; [by rewrite !lookup_insert|by rewrite !lookup_insert_ne].
  - unfold execute_set_listing_fee in *. apply bind_Ok in H as (u&Hu&H). rewrite Hu. cbn [mbind result_bind].
    injection H as <- <-. eexists. split; [reflexivity|]. split_and!; try done. cbn. by rewrite Hf.
  - unfold execute_remove_listing_fee in *. apply bind_Ok in H as (u&Hu&H). rewrite Hu. cbn [mbind result_bind].
    injection H as <- <-. eexists. split; [reflexivity|]. split_and!; try done. cbn. by rewrite Hf.
Qed.
Lemma call_local n n0 coll v e s f st st0 m st' ms :
  ran p n st -> ran p n0 st0 -> N.of_nat n < U64_MAX -> N.of_nat n0 < U64_MAX -> small_call f m ->
  same_market coll st st0 -> admin_call m = true \/ market st m = Some coll -> (numbers m = true -> s_nonce st = s_nonce st0) ->
  execute p v e s f st m = Ok (st', ms) ->
  exists st0', execute p v e s f st0 m = Ok (st0', ms) /\ same_market coll st' st0'.
Proof.
  intros Hr Hr0 Hn Hn0 Hsm Hs Hm Hk H. destruct (admin_call m) eqn:Ea; [by eapply admin_local|]. destruct Hm as [|Hm]; [done|].
  apply (order_calls_exact p Hcf Hpf Hsl) in H; [|by eapply ran_small|done..].
  eapply (does_local n n0) in H as (st0'&H&Hs'); [|done..]. exists st0'. split; [|done].
  apply (order_calls_exact p Hcf Hpf Hsl); try done. by eapply ran_small.
Qed.
Lemma call_away n coll v e s f st m st' ms :
  ran p n st -> N.of_nat n < U64_MAX -> small_call f m -> admin_call m = false -> market st m <> Some coll ->
  execute p v e s f st m = Ok (st', ms) -> same_market coll st st'.
Proof.
  intros Hr Hn Hsm Ha Hm H. apply (order_calls_exact p Hcf Hpf Hsl) in H; [|by eapply ran_small|done..].
  by eapply does_away.
Qed.
Lemma twins_ran coll n st n0 st0 : twins p coll n st n0 st0 -> ran p n st /\ ran p n0 st0.
Proof. induction 1; [done|..]; destruct_and!; split; try done; by eapply ran_next. Qed.
Lemma twins_same coll n st n0 st0 : twins p coll n st n0 st0 -> N.of_nat n <= U64_MAX -> N.of_nat n0 <= U64_MAX ->
  same_market coll st st0.
Proof.
  induction 1; intros Hn Hn0; [apply same_refl|..].
  - match goal with H : twins _ _ _ _ _ _ |- _ => pose proof (twins_ran _ _ _ _ _ H) as [Hr Hr0] end.
    eapply call_local in H4 as (st1&He&Hs); [|exact Hr|exact Hr0|lia|lia|done|apply IHtwins; lia|done|done].
    congruence.
  - match goal with H : twins _ _ _ _ _ _ |- _ => pose proof (twins_ran _ _ _ _ _ H) as [Hr Hr0] end.
    eapply same_trans; [apply same_sym|apply IHtwins; lia]. eapply call_away; [exact Hr|lia|done..].
  - match goal with H : twins _ _ _ _ _ _ |- _ => pose proof (twins_ran _ _ _ _ _ H) as [Hr Hr0] end.
    eapply same_trans; [apply IHtwins; lia|]. eapply call_away; [exact Hr0|lia|done..].
Qed.

(** ** Exchange *)
Lemma does_count v e s f st m st' ms : does p v e s f st m st' ms ->
  s_nonce st' = (if counts m then next_count st else s_nonce st) /\ s_denoms st' = s_denoms st.
Proof.
  destruct 1; try done; repeat match goal with H : _ = _ \/ _ = _ |- _ => destruct H as [->| ->] end; done.
Qed.
Lemma market_back coll st st0 m : same_market coll st st0 -> market st m = Some coll -> market st0 m = Some coll.
Proof.
  intros Hs. destruct m; cbn [market]; try done; intros (x&Hx&E)%fmap_Some; apply fmap_Some; exists x; split; try done.
  all: first [by eapply sw_ask|by eapply sw_bid|by eapply sw_cbid].
Qed.
Lemma same_everywhere st st0 : (forall coll, same_market coll st st0) -> s_denoms st = s_denoms st0 -> s_nonce st = s_nonce st0 -> st = st0.
Proof.
  intros H Hd Hn. destruct st as [c d fe k A B C], st0 as [c0 d0 fe0 k0 A0 B0 C0]. cbn in *. subst.
  destruct (H "") as (Hc&Hf&_). cbn in Hc, Hf. subst. f_equal; apply map_eq; intros i; apply option_eq; intros x.
  - by apply (H (a_coll x)). - by apply (H (b_coll x)). - by apply (H (cb_coll x)).
Qed.
Lemma market_exchange n c1 c2 v1 e1 s1 f1 m1 v2 e2 s2 f2 m2 st st1 ms1 st2 ms2 :
  ran p n st -> N.of_nat n + 1 < U64_MAX -> s1 <> p_self p -> s2 <> p_self p -> small_call f1 m1 -> small_call f2 m2 ->
  market st m1 = Some c1 -> market st1 m2 = Some c2 -> c1 <> c2 ->
  (numbers m1 = true -> counts m2 = false) -> (numbers m2 = true -> counts m1 = false) ->
  execute p v1 e1 s1 f1 st m1 = Ok (st1, ms1) -> execute p v2 e2 s2 f2 st1 m2 = Ok (st2, ms2) ->
  exists st3, execute p v2 e2 s2 f2 st m2 = Ok (st3, ms2) /\ execute p v1 e1 s1 f1 st3 m1 = Ok (st2, ms1).
Proof.
  intros Hr Hn Hs1 Hs2 Hc1 Hc2 Hm1 Hm2 Hne Hk1 Hk2 H1 H2.
  assert (admin_call m1 = false) as Ha1 by by destruct m1. assert (admin_call m2 = false) as Ha2 by by destruct m2.
  pose proof (ran_next _ _ _ _ _ _ _ _ _ Hr Hs1 Hc1 H1) as Hr1.
  assert (same_market c2 st st1) as Hb by (apply (call_away n _ v1 e1 s1 f1 _ m1 _ ms1); [done|lia|done|done|congruence|done]).
  pose proof (market_back _ _ _ _ (same_sym _ _ _ Hb) Hm2) as Hm2'.
  assert (forall v e s f st m st' ms, ran p n st \/ ran p (S n) st -> small_call f m -> admin_call m = false -> execute p v e s f st m = Ok (st', ms) ->
    s_nonce st' = (if counts m then next_count st else s_nonce st) /\ s_denoms st' = s_denoms st) as Hcount.
  { intros v e s f x m x' ms Hx Hcx Hax Hex. eapply does_count, (order_calls_exact p Hcf Hpf Hsl); [|done..|exact Hex].
    destruct Hx; by eapply ran_small. }
  pose proof (Hcount _ _ _ _ _ _ _ _ (or_introl Hr) Hc1 Ha1 H1) as [Hk1n Hd1].
  pose proof (Hcount _ _ _ _ _ _ _ _ (or_intror Hr1) Hc2 Ha2 H2) as [Hk2n Hd2].
  assert (exists st3, execute p v2 e2 s2 f2 st m2 = Ok (st3, ms2) /\ same_market c2 st2 st3) as (st3&H3&Hs23).
  { apply (call_local (S n) n _ _ _ _ _ st1); [done|done|lia|lia|done|by apply same_sym|by right| |done].
    intros Hnum. specialize (Hk2 Hnum). by rewrite Hk1n, Hk2. }
  pose proof (ran_next _ _ _ _ _ _ _ _ _ Hr Hs2 Hc2 H3) as Hr3.
  pose proof (Hcount _ _ _ _ _ _ _ _ (or_introl Hr) Hc2 Ha2 H3) as [Hk3n Hd3].
  assert (same_market c1 st st3) as Hb1 by (apply (call_away n _ v2 e2 s2 f2 _ m2 _ ms2); [done|lia|done|done|congruence|done]).
  assert (exists st4, execute p v1 e1 s1 f1 st3 m1 = Ok (st4, ms1) /\ same_market c1 st1 st4) as (st4&H4&Hs14).
  { apply (call_local n (S n) _ _ _ _ _ st); [done|done|lia|lia|done|done|by right| |done].
    intros Hnum. specialize (Hk1 Hnum). by rewrite Hk3n, Hk1. }
  pose proof (Hcount _ _ _ _ _ _ _ _ (or_intror Hr3) Hc1 Ha1 H4) as [Hk4n Hd4].
  exists st3. split; [done|]. rewrite H4. f_equal. f_equal. symmetry. apply same_everywhere; [|congruence|].
  2:{ rewrite Hk2n, Hk4n. unfold next_count. rewrite Hk1n, Hk3n. unfold next_count. by destruct (counts m1), (counts m2). }
  assert (forall c, c <> c1 -> same_market c st st1) as A1 by (intros c Hc; apply (call_away n _ v1 e1 s1 f1 _ m1 _ ms1); [done|lia|done|done|congruence|done]).
  assert (forall c, c <> c2 -> same_market c st1 st2) as A2 by (intros c Hc; apply (call_away (S n) _ v2 e2 s2 f2 _ m2 _ ms2); [done|lia|done|done|congruence|done]).
  assert (forall c, c <> c2 -> same_market c st st3) as A3 by (intros c Hc; apply (call_away n _ v2 e2 s2 f2 _ m2 _ ms2); [done|lia|done|done|congruence|done]).
  assert (forall c, c <> c1 -> same_market c st3 st4) as A4.
  { intros c Hc. apply (call_away (S n) _ v1 e1 s1 f1 _ m1 _ ms1); [done|lia|done|done| |done]. rewrite (market_back _ _ _ _ Hb1 Hm1). congruence. }
  intros c. destruct (decide (c = c1)) as [->|Hc]; [|destruct (decide (c = c2)) as [->|Hc']].
  - eapply same_trans; [apply same_sym, A2; done|done].
  - eapply same_trans; [done|by apply A4].
  - eapply same_trans; [apply same_sym, A2; done|]. eapply same_trans; [apply same_sym, A1; done|].
    eapply same_trans; [by apply A3|by apply A4].
Qed.

Lemma played_ran c st0 l st : instantiate p c = Ok st0 -> Forall (sane p) l -> played p st0 l = Ok st -> ran p (length l) st.
Proof.
  intros Hi Hl H. exists c, st0. split; [done|]. clear Hi. revert st0 H. induction Hl as [|[[[[v e] s] f] m] l [Hs Hc] Hl IH]; intros st0 H.
  - cbn in H. injection H as ->. constructor.
  - cbn [played] in H. apply bind_Ok in H as ([st1 ms]&He&H). cbn [length]. econstructor; [|by apply IH].
    by exists v, e, s, f, m, ms.
Qed.
Lemma played_app st l l' : played p st (l ++ l') = (x ← played p st l; played p x l').
Proof.
  revert st. induction l as [|[[[[v e] s] f] m] l IH]; intros st; [done|]. cbn [played app].
  destruct (execute p v e s f st m) as [[x ms]|er]; [|done]. unfold mbind, result_bind. apply IH.
Qed.
End Local.
