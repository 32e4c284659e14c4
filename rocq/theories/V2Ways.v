(** Proofs for C146 (V2WaysSpec): all ways to make a trade have the same effect. *)
From stdpp Require Import relations.
From Verif Require Import Base BaseFacts Common Chain ChainFacts QuerySpec V2Model V2Spec V2Facts V2Inv V2Final V2ExactSpec V2Exact
  V2Price V2WaysSpec.

Section Ways.
Context (p : params) (Hcf : collision_free p) (Hpf : prefix_free p) (Hsl : slash_free p).

Lemma submap_delete {A} (m : gmap order_id A) i : submap m (delete i m) -> delete i m = m.
Proof.
  intros H. apply delete_notin. destruct (m !! i) as [x|] eqn:E; [|done]. apply H in E. by rewrite lookup_delete in E.
Qed.
Lemma nft_in_sends v cfg a mb af back s f o c coll tok to : pays s f o c back ->
  MNft coll tok to ∈ sale_sends p v cfg a mb af ++ back -> coll = a_coll a /\ tok = a_tok a.
Proof.
  intros Hb [H|H]%elem_of_app; [|by eapply no_nft_back in H]. unfold sale_sends in H.
  apply elem_of_app in H as [H|[H|H]%elem_of_app].
  - exfalso. unfold registration in H. repeat case_match; try by apply elem_of_nil in H. by apply elem_of_list_singleton in H.
  - exfalso. apply elem_of_list_fmap in H as (x&H&_). done.
  - apply elem_of_list_singleton in H. by injection H.
Qed.
Lemma small_details funds m d i : small_call funds m -> (forall c, d_price d = c -> msg_coin m = Some c) ->
  small_call funds (AcceptAsk i d).
Proof. intros [H1 H2] H. split; [done|]. intros c [= <-]. apply H2. by apply H. Qed.

Lemma accept_collection n v e sender funds st m coll d c t to a back :
  N.of_nat n < U64_MAX -> v2_history p n st -> small_history p st ->
  m = SetCollectionBid coll d \/ m = BuyCollectionNft coll d -> small_call funds (AcceptAsk (ask_name p c t) d) ->
  let mb := MCBid (CBid (bid_name_of p e st coll) sender coll d) in
  execute p v e sender funds st m = Ok (sold st (next_count st) a mb, sale_sends p v (s_config st) a mb true ++ back) ->
  MNft c t to ∈ sale_sends p v (s_config st) a mb true ++ back ->
  opening p v e st coll d -> first_ask st coll None (d_price d) a -> pays sender funds None (d_price (a_det a)) back ->
  sale_goes p v (s_config st) a mb true ->
  execute p v e sender funds st (AcceptAsk (ask_name p c t) d) =
    Ok (sold st (next_count st) a mb, sale_sends p v (s_config st) a mb true ++ back).
Proof.
  intros Hn Hh Hsm Hm Hc' mb He Hin H1 H3 H4 H6.
  destruct (small_history_inv p Hcf Hpf Hsl _ Hsm) as [Hwf _].
  destruct (nft_in_sends _ _ _ _ _ _ _ _ _ _ _ _ _ H4 Hin) as [-> ->].
  destruct H3 as [(Ha1&Hco&_&Hdn&Ham) _].
  assert (ask_name p (a_coll a) (a_tok a) = a_id a) as Hname.
  { destruct (wf_ask _ _ Hwf _ _ Ha1) as (_&G1&_). by rewrite <- ask_name_eq. }
  rewrite Hname in Hc' |- *.
  set (b := Bid (bid_name_of p e st (a_coll a +:+ a_tok a)) sender (a_coll a) (a_tok a) d).
  assert (does p v e sender funds st (AcceptAsk (a_id a) d) (sold st (next_count st) a (MBid b))
            (sale_sends p v (s_config st) a (MBid b) true ++ back)) as Hd.
  { apply (DoAcceptAsk p v e sender funds st (a_id a) d a b back); try done. apply H1. }
  apply (order_calls_exact p Hcf Hpf Hsl) in Hd; [|done..]. rewrite Hd. f_equal. f_equal.
  destruct (placing_leaves p n st _ _ _ _ _ _ _ "" "" d (a_id a) Hcf Hn Hh (or_intror (or_intror (or_intror (or_intror eq_refl)))) Hd) as [Hk _].
  assert (submap (s_cbids st) (s_cbids (sold st (next_count st) a mb))) as Hk2.
  { destruct Hm as [-> | ->].
    - by destruct (placing_leaves p n st _ _ _ _ _ _ _ coll "" d "" Hcf Hn Hh (or_intror (or_intror (or_introl eq_refl))) He).
    - by destruct (placing_leaves p n st _ _ _ _ _ _ _ coll "" d "" Hcf Hn Hh (or_intror (or_intror (or_intror (or_introl eq_refl)))) He). }
  unfold sold in *. cbn [s_bids s_cbids mb] in *. by rewrite (submap_delete _ _ Hk), (submap_delete _ _ Hk2).
Qed.

(** Whoever buys could have accepted the listing, with the same effect. *)
Lemma accepting_does n v e sender funds st m st' msgs d c t to :
  N.of_nat n < U64_MAX -> v2_history p n st -> small_history p st -> small_call funds m -> buying m d ->
  execute p v e sender funds st m = Ok (st', msgs) -> sells st m st' msgs c t to ->
  execute p v e sender funds st (AcceptAsk (ask_name p c t) d) = Ok (st', msgs).
Proof.
  intros Hn Hh Hsm Hc Hb He Hs.
  assert (admin_call m = false) as Ha by (by destruct Hb).
  assert (small_call funds (AcceptAsk (ask_name p c t) d)) as Hc'.
  { eapply small_details; [exact Hc|]. intros ? <-. by destruct Hb. }
  pose proof He as He0. apply (order_calls_exact p Hcf Hpf Hsl) in He; [|done..].
  destruct (small_history_inv p Hcf Hpf Hsl _ Hsm) as [Hwf _].
  assert (forall a, s_asks st !! a_id a = Some a -> ask_name p (a_coll a) (a_tok a) = a_id a) as Hname.
  { intros a Ha1. destruct (wf_ask _ _ Hwf _ _ Ha1) as (_&H1&_). by rewrite <- ask_name_eq. }
  destruct Hs as (Hin&_&_). destruct Hb as [i d|coll tok d|coll tok d|coll d|coll d].
  - inversion He as [|? ? ? ? ? ? Hm| | | |? ? a b back H1 H2 H3 H4 H5 H6| |? ? ? ? ? ? ? Hm| | | | | |? ? ? ? ? ? Hm| | | |]; subst; try by destruct Hm.
    destruct (nft_in_sends _ _ _ _ _ _ _ _ _ _ _ _ _ H4 Hin) as [-> ->].
    destruct (wf_ask _ _ Hwf _ _ H1) as (Hi&Hk&_). by rewrite <- ask_name_eq, <- Hk.
  - inversion He as [|? ? ? ? ? ? Hm| | | | |? ? ? ? back H1 H2 H3 H4 H5|? ? ? ? b a back Hm H1 H2 H3 H4 H5| | | | | |? ? ? ? ? ? Hm| | | |]; subst; try by destruct Hm.
    { by eapply no_nft_back in Hin. }
    destruct Hm as [Hm|Hm]; [injection Hm as <- <- <-|done]. destruct (nft_in_sends _ _ _ _ _ _ _ _ _ _ _ _ _ H3 Hin) as [-> ->].
    destruct H2 as [(Ha1&Hco&Hto&Hdn&Ham) _]. apply (order_calls_exact p Hcf Hpf Hsl); [done..|].
    rewrite (Hname _ Ha1). specialize (Hto _ eq_refl).
    eapply (DoAcceptAsk p v e sender funds st (a_id a) d a); try done; [apply H1|]. by rewrite Hco, Hto.
  - inversion He as [|? ? ? ? ? ? Hm| | | | |? ? ? ? back H1 H2 H3 H4 H5|? ? ? ? b a back Hm H1 H2 H3 H4 H5| | | | | |? ? ? ? ? ? Hm| | | |]; subst; try by destruct Hm.
    destruct Hm as [Hm|Hm]; [done|injection Hm as <- <- <-]. destruct (nft_in_sends _ _ _ _ _ _ _ _ _ _ _ _ _ H3 Hin) as [-> ->].
    destruct H2 as [(Ha1&Hco&Hto&Hdn&Ham) _]. apply (order_calls_exact p Hcf Hpf Hsl); [done..|].
    rewrite (Hname _ Ha1). specialize (Hto _ eq_refl).
    eapply (DoAcceptAsk p v e sender funds st (a_id a) d a); try done; [apply H1|]. by rewrite Hco, Hto.
  - inversion He as [|? ? ? ? ? ? Hm| | | | | |? ? ? ? ? ? ? Hm| | | | |? ? ? back H1 H2 H3 H4 H5 H6|? ? ? b a back Hm H1 H2 H3 H4 H5 H6| | | |]; subst; try by destruct Hm.
    { by eapply no_nft_back in Hin. }
    destruct Hm as [Hm|Hm]; [injection Hm as <- <-|done].
    exact (accept_collection n v e sender funds st _ coll d c t to a back Hn Hh Hsm (or_introl eq_refl) Hc' He0 Hin H1 H3 H4 H6).
  - inversion He as [|? ? ? ? ? ? Hm| | | | | |? ? ? ? ? ? ? Hm| | | | |? ? ? back H1 H2 H3 H4 H5 H6|? ? ? b a back Hm H1 H2 H3 H4 H5 H6| | | |]; subst; try by destruct Hm.
    destruct Hm as [Hm|Hm]; [done|injection Hm as <- <-].
    exact (accept_collection n v e sender funds st _ coll d c t to a back Hn Hh Hsm (or_intror eq_refl) Hc' He0 Hin H1 H3 H4 H6).
Qed.

(** So any two ways to buy an NFT do the same. *)
Lemma buying_one_way n v e sender funds st m1 m2 st1 st2 msgs1 msgs2 d1 d2 c t to1 to2 :
  N.of_nat n < U64_MAX -> v2_history p n st -> small_history p st -> small_call funds m1 -> small_call funds m2 ->
  buying m1 d1 -> buying m2 d2 -> same_names d1 d2 ->
  execute p v e sender funds st m1 = Ok (st1, msgs1) -> sells st m1 st1 msgs1 c t to1 ->
  execute p v e sender funds st m2 = Ok (st2, msgs2) -> sells st m2 st2 msgs2 c t to2 ->
  st1 = st2 /\ msgs1 = msgs2.
Proof.
  intros Hn Hh Hsm Hc1 Hc2 Hb1 Hb2 [Hr Hf] He1 Hs1 He2 Hs2.
  pose proof (accepting_does n v e sender funds st m1 st1 msgs1 d1 c t to1 Hn Hh Hsm Hc1 Hb1 He1 Hs1) as H1.
  pose proof (accepting_does n v e sender funds st m2 st2 msgs2 d2 c t to2 Hn Hh Hsm Hc2 Hb2 He2 Hs2) as H2.
  assert (small_call funds (AcceptAsk (ask_name p c t) d1)) as Hc1' by (eapply small_details; [exact Hc1|]; intros ? <-; by destruct Hb1).
  assert (small_call funds (AcceptAsk (ask_name p c t) d2)) as Hc2' by (eapply small_details; [exact Hc2|]; intros ? <-; by destruct Hb2).
  pose proof H2 as H2e. apply (order_calls_exact p Hcf Hpf Hsl) in H1; [|done..]. apply (order_calls_exact p Hcf Hpf Hsl) in H2; [|done..].
  inversion H1 as [|? ? ? ? ? ? Hm| | | |? ? a b back G1 G2 G3 G4 G5 G6| |? ? ? ? ? ? ? Hm| | | | | |? ? ? ? ? ? Hm| | | |]; subst; try by destruct Hm.
  inversion H2 as [|? ? ? ? ? ? Hm| | | |? ? a' b' back' K1 K2 K3 K4 K5 K6| |? ? ? ? ? ? ? Hm| | | | | |? ? ? ? ? ? Hm| | | |]; subst; try by destruct Hm.
  assert (a' = a) as -> by congruence. destruct d1 as [p1 r1 f1], d2 as [p2 r2 f2]. cbn in Hr, Hf. subst r2 f2.
  set (b := Bid (bid_name_of p e st (a_coll a +:+ a_tok a)) sender (a_coll a) (a_tok a) (Details p2 r1 f1)).
  assert (does p v e sender funds st (AcceptAsk (ask_name p c t) (Details p2 r1 f1)) (sold st (next_count st) a (MBid b))
            (sale_sends p v (s_config st) a (MBid b) true ++ back)) as Hd.
  { by apply (DoAcceptAsk p v e sender funds st (ask_name p c t) (Details p2 r1 f1) a b back). }
  apply (order_calls_exact p Hcf Hpf Hsl) in Hd; [|done..]. rewrite Hd in H2e. by injection H2e as H2e.
Qed.

(** ** Selling *)
Lemma resting_accept st mb tok d a v e sender coll :
  small_history p st -> resting st mb -> wants mb coll tok (c_denom (d_price d)) -> c_amount (d_price d) <= c_amount (price_of mb) ->
  named_ok p d -> sellable p v sender st coll tok d a -> sale_goes p v (s_config st) a mb false ->
  does p v e sender [] st (accepting mb tok d) (sold st (s_nonce st) a mb) (sale_sends p v (s_config st) a mb false).
Proof.
  intros Hsm Hr [Hdn Hw] Ham Hnm Hsel Hgo. destruct mb as [b|cb]; cbn [accepting resting price_of] in *.
  - destruct Hw as [<- <-]. by apply (DoAcceptBid p v e sender [] st (b_id b) d b a).
  - subst coll. by apply (DoAcceptCBid p v e sender [] st (cb_id cb) tok d cb a).
Qed.
Lemma small_accept m d funds mb tok : small_call funds m -> msg_coin m = Some (d_price d) -> small_call [] (accepting mb tok d).
Proof. intros [_ H] Hm. split; [constructor|]. intros c Hc. apply H. destruct mb; cbn in Hc; congruence. Qed.
(** Whoever offers an NFT that is not listed and sells it at once could have accepted that bid, and saved the listing fee. *)
Lemma offering_accepts v e sender funds st m st' msgs coll tok d c t to :
  small_history p st -> small_call funds m -> offering m coll tok d -> unlisted st coll tok ->
  execute p v e sender funds st m = Ok (st', msgs) -> sells st m st' msgs c t to ->
  exists mb rest, resting st mb /\ msgs = MSend (cf_fee_manager (s_config st)) funds :: rest /\
    execute p v e sender [] st (accepting mb tok d) = Ok (st', rest).
Proof.
  intros Hsm Hc Ho Hu He (Hin&_&Hnew). assert (admin_call m = false) as Ha by (by destruct Ho).
  assert (msg_coin m = Some (d_price d)) as Hmc by (by destruct Ho).
  apply (order_calls_exact p Hcf Hpf Hsl) in He; [|done..].
  assert (exists mb a, listing p v e sender funds st coll tok d /\ a = Ask (ask_name p coll tok) sender coll tok d /\
            top_bid st coll tok (d_price d) mb /\ sale_goes p v (s_config st) a mb false /\
            st' = sold st (s_nonce st) a mb /\
            msgs = MSend (cf_fee_manager (s_config st)) funds :: sale_sends p v (s_config st) a mb false) as (mb&a&HL&Ea&Ht&Hg&->&->).
  { destruct Ho as [coll tok d|coll tok d].
    - inversion He as [? ? ? H1 H2 H3|? ? ? ? mb a Hm H1 H2 H3 H4| | | | | |? ? ? ? ? ? ? Hm| | | | | |? ? ? ? ? ? Hm| | | |]; subst; try by destruct Hm.
      + exfalso. destruct (Hnew (ask_name p coll tok)) as [x Hx]; [|congruence]. cbn [with_asks s_asks]. rewrite lookup_insert. eauto.
      + destruct Hm as [Hm|Hm]; [injection Hm as <- <- <-|done]. by eexists _, _.
    - inversion He as [|? ? ? ? mb a Hm H1 H2 H3 H4| | | | | |? ? ? ? ? ? ? Hm| | | | | |? ? ? ? ? ? Hm| | | |]; subst; try by destruct Hm.
      destruct Hm as [Hm|Hm]; [done|injection Hm as <- <- <-]. by eexists _, _. }
  destruct Ht as [(Hr&Hw&Ham) _]. destruct HL as ((_&Hnm&_&_)&Hms&_).
  exists mb, (sale_sends p v (s_config st) a mb false). split; [done|]. split; [done|].
  apply (order_calls_exact p Hcf Hpf Hsl); [done|by eapply small_accept|by destruct mb|].
  eapply (resting_accept st mb tok d a v e sender coll); try done. right. done.
Qed.
(** Whoever reprices a listing into a bid could have accepted that bid. *)
Lemma repricing_accepts v e sender funds st i d a0 st' msgs c t to :
  small_history p st -> small_call funds (UpdateAsk i d) -> s_asks st !! i = Some a0 -> same_names d (a_det a0) ->
  execute p v e sender funds st (UpdateAsk i d) = Ok (st', msgs) -> sells st (UpdateAsk i d) st' msgs c t to ->
  exists mb, resting st mb /\ execute p v e sender [] st (accepting mb (a_tok a0) d) = Ok (st', msgs).
Proof.
  intros Hsm Hc Ha0 [Hr Hf] He (Hin&_&_).
  apply (order_calls_exact p Hcf Hpf Hsl) in He; [|done..].
  inversion He as [|? ? ? ? ? ? Hm|? ? a H1 H2 H3 H4 H5 H6|? ? a1 a mb H1 H2 H3 H4 H5 H6 H7 H8| | | |? ? ? ? ? ? ? Hm| | | | | |? ? ? ? ? ? Hm| | | |]; subst; try by destruct Hm.
  { by apply elem_of_nil in Hin. }
  assert (a1 = a0) as -> by congruence.
  destruct (small_history_inv p Hcf Hpf Hsl _ Hsm) as [Hwf _]. destruct (wf_ask _ _ Hwf _ _ H2) as (Hi&_&_). subst i.
  exists mb. destruct H7 as [(Hre&Hw&Ham) _]. split; [done|].
  apply (order_calls_exact p Hcf Hpf Hsl); [done|by eapply small_accept|by destruct mb|].
  cbn [a_coll a_tok] in *.
  destruct a0 as [i0 s0 c0 t0 [pr0 r0 f0]], d as [pr r f]. cbn [a_id a_creator a_coll a_tok a_det d_recipient d_finder d_price] in *. subst r0 f0.
  apply (resting_accept st mb t0 (Details pr r f) (Ask i0 s0 c0 t0 (Details pr0 r f)) v e s0 c0); try done. by left.
Qed.
End Ways.
