(** Marketplace v2: charging, immediate orders, administration, listing fee, trading start, ownership. *)
From stdpp Require Import relations.
From Verif Require Import Base Common Chain BaseFacts ChainFacts IndexRange IndexFacts SaleFacts
  V2Model V2Spec V2Facts V2Match V2Inv V2Sale V2Trade V2Reach V2Book V2Auth.

Local Arguments be8 : simpl never.
Local Opaque be8 U64_MAX.

Section Calls.
Context (p : params).

(** * Bids and listings leaving the book *)
Lemma cbid_leaves n v e sender funds st m st' msgs i b :
  collision_free p -> prefix_free p -> slash_free p -> N.of_nat n < U64_MAX -> v2_history p n st ->
  execute p v e sender funds st m = Ok (st', msgs) ->
  s_cbids st !! i = Some b -> s_cbids st' !! i = None ->
  (m = RemoveCollectionBid i /\ sender = cb_creator b /\ msgs = [MSend (cb_creator b) [d_price (cb_det b)]]) \/
  exists a d f, (d = cb_det b \/ sender = cb_creator b /\ m = UpdateCollectionBid i d) /\
    let b' := CBid (cb_id b) (cb_creator b) (cb_coll b) d in
    settles p v (s_config st) sender funds m msgs a (MCBid b') f /\ a_coll a = cb_coll b.
Proof.
  intros Hcf Hpf Hsl Hn Hh H%execute_effect Hi Hch. pose proof (history_wf _ _ _ Hh) as Hwf. pose proof H as H'.
  apply effect_sale_or_not in H' as [(_&_&Hk)|(a&mb&f&pre&post&Hr)]; [| |done].
  - left. destruct H; cbn in Hch; try congruence.
    all: try (rewrite lookup_insert_None in Hch; destruct Hch; congruence).
    all: try (exfalso; destruct Hk as [Hk|[[? Hk]|(?&?&?&Hk&_)]];
      [eapply Hk; rewrite ?elem_of_cons, ?elem_of_app, ?elem_of_cons; naive_solver|naive_solver|naive_solver]).
    + exfalso. destruct Hk as [Hk|[[? Hk]|(?&?&?&Hk&j&[? Hj]&Hj2)]].
      * eapply Hk. rewrite ?elem_of_cons, ?elem_of_app. right. right. right. by left.
      * naive_solver.
      * cbn in Hj. rewrite lookup_delete_Some in Hj. naive_solver.
    + destruct (wf_cbid _ _ Hwf _ _ H0) as (Hid&_). rewrite Hid in Hch.
      destruct (decide (id = i)) as [->|]; [|rewrite lookup_delete_ne in Hch; congruence]. simplify_eq. done.
  - right. pose proof (sr_cbids _ _ _ _ _ _ _ _ _ _ _ _ _ _ Hr) as E. rewrite E in Hch.
    destruct mb as [b'|b']; cbn in Hch; [congruence|].
    destruct (decide (cb_id b' = i)) as [Hid|Hid]; [|rewrite lookup_delete_ne in Hch; congruence].
    pose proof (sale_wants p _ _ _ _ _ _ _ _ _ _ _ _ _ Hwf Hcf Hpf Hsl Hr) as Hw1.
    destruct (sale_cbid_origin p _ _ _ _ _ _ _ _ _ _ _ _ _ _ _ _ Hcf Hn Hh Hr Hi Hid) as [[-> ->]|(d&->&Hs&->&->)].
    + exists a, (cb_det b), false. split; [by left|]. cbv zeta. split; [|done]. apply sale_settles in Hr. by destruct b.
    + exists a, d, true. split; [by right|]. cbv zeta. split; [|done]. by apply sale_settles in Hr.
Qed.

(** * Exact charges *)
Lemma nb_charge funds fs0 c fs d :
  nb_normalize funds = Ok fs0 -> nb_sub fs0 c = Ok fs -> coins_in funds d = in_denom d c + amt fs d.
Proof.
  intros H1 H2. rewrite coins_in_amt, in_denom_amt, <-(nb_normalize_amt _ _ d H1), (nb_sub_amt _ _ _ d H2). lia.
Qed.
Lemma nb_charge_add funds fs0 c0 fs1 c fs d :
  nb_normalize funds = Ok fs0 -> nb_add fs0 c0 = Ok fs1 -> nb_sub fs1 c = Ok fs ->
  coins_in funds d + in_denom d c0 = in_denom d c + amt fs d.
Proof.
  intros H1 H2 H3. rewrite coins_in_amt, !in_denom_amt, <-(nb_normalize_amt _ _ d H1).
  pose proof (nb_add_amt _ _ _ d H2). pose proof (nb_sub_amt _ _ _ d H3). lia.
Qed.

Lemma charged v e sender funds st m st' msgs old limit :
  wf p st -> execute p v e sender funds st m = Ok (st', msgs) -> paying_call st m old limit ->
  exists back, change_to sender back /\
    ((exists a mb head, trade sender st m a mb true /\ settles p v (s_config st) sender funds m msgs a mb true /\
        msgs = head ++ MNft (a_coll a) (a_tok a) (nft_to mb) :: back /\
        (forall c t to, MNft c t to ∉ head) /\
        forall d, coins_in funds d + opt_in_denom d old = in_denom d (d_price (a_det a)) + paid_out back d) \/
     (msgs = back /\ (exists mb, resting st' mb /\ price_of mb = limit /\ buyer_of mb = sender) /\
        forall d, coins_in funds d + opt_in_denom d old = in_denom d limit + paid_out back d)).
Proof.
  intros Hwf H%execute_effect Hpay. pose proof H as H'.
  assert (forall back a mb reg (ps : list payment),
     msgs = reg ++ (pay_msg <$> ps) ++ MNft (a_coll a) (a_tok a) (nft_to mb) :: back ->
     (reg = [] \/ reg = [MRegInit (cf_registry (s_config st)) (a_coll a)]) ->
     exists head, msgs = head ++ MNft (a_coll a) (a_tok a) (nft_to mb) :: back /\ (forall c t to, MNft c t to ∉ head)) as Hhead.
  { intros back a mb reg ps -> Hreg. exists (reg ++ (pay_msg <$> ps)). split; [by rewrite app_assoc|].
    intros c t to [Hx|Hx]%elem_of_app; [|by apply pay_msgs_no_nft in Hx].
    destruct Hreg as [->| ->]; [by apply elem_of_nil in Hx|]. apply elem_of_list_singleton in Hx. discriminate. }
  apply effect_sale_or_not in H' as [(Hrc&_)|(a&mb&f&pre&post&Hr)]; [| |done].
  - destruct H; inversion Hpay; subst; cbn [rest_cause] in Hrc; try done; try (destruct_or?; congruence);
      try (match goal with H : is_admin_msg _ = true |- _ => discriminate H end).
    all: simplify_eq.
    all: repeat match goal with H : _ = _ \/ _ = _ |- _ => destruct H; simplify_eq end.
    all: try (by exfalso; repeat match goal with b := _ |- _ => subst b end; naive_solver congruence).
    + exists (refund sender fs). split; [apply refund_change; eauto using nb_sub_pos, nb_normalize_pos|]. right. split; [done|].
      split.
      * exists (MBid b). cbn. by rewrite lookup_insert.
      * intros d'. cbn. rewrite paid_out_out, out_refund, (nb_charge _ _ _ _ d' H3 H5). lia.
    + exists (refund (b_creator b0) fs).
      destruct (wf_bid _ _ Hwf _ _ H0) as (_&Hp0&_).
      split; [apply refund_change; eauto using nb_sub_pos, nb_normalize_pos, nb_add_pos|]. right. split; [done|].
      split.
      * exists (MBid b). cbn. by rewrite lookup_insert.
      * intros d'. cbn [opt_in_denom]. rewrite paid_out_out, out_refund, (nb_charge_add _ _ _ _ _ _ d' H3 H4 H6). lia.
    + exists (refund sender fs). split; [apply refund_change; eauto using nb_sub_pos, nb_normalize_pos|]. right. split; [done|].
      split.
      * exists (MCBid cb). cbn. by rewrite lookup_insert.
      * intros d'. cbn. rewrite paid_out_out, out_refund, (nb_charge _ _ _ _ d' H3 H5). lia.
    + exists (refund (cb_creator cb0) fs).
      destruct (wf_cbid _ _ Hwf _ _ H0) as (_&Hp0&_).
      split; [apply refund_change; eauto using nb_sub_pos, nb_normalize_pos, nb_add_pos|]. right. split; [done|].
      split.
      * exists (MCBid cb). cbn. by rewrite lookup_insert.
      * intros d'. cbn [opt_in_denom]. rewrite paid_out_out, out_refund, (nb_charge_add _ _ _ _ _ _ d' H3 H4 H6). lia.
  - pose proof (sr_cause _ _ _ _ _ _ _ _ _ _ _ _ _ _ Hr) as Hca. pose proof (sale_settles _ _ _ _ _ _ _ _ _ _ _ _ _ _ Hr) as Hse.
    pose proof (sr_trade _ _ _ _ _ _ _ _ _ _ _ _ _ _ Hr) as Htr.
    destruct H; inversion Hpay; subst; cbn [sale_cause] in Hca; try done; try (destruct_or?; congruence);
      try (match goal with H : is_admin_msg _ = true |- _ => discriminate H end).
    all: simplify_eq.
    all: repeat match goal with H : _ = _ \/ _ = _ |- _ => destruct H; simplify_eq end.
    all: try (by exfalso; repeat match goal with b := _ |- _ => subst b end; naive_solver congruence).
    all: assert (f = true) as -> by (inversion Htr; try done; destruct_or?; congruence).
    all: match goal with
         | H : sale_msgs _ _ _ ?a1 ?mb1 _ ?reg ?ps |- _ =>
             assert (a = a1 /\ mb = mb1) as [-> ->]
               by (repeat match goal with b := _ |- _ => subst b end; naive_solver congruence);
             destruct (Hhead (refund _ fs) a1 mb1 reg ps eq_refl (sale_msgs_reg _ _ _ _ _ _ _ _ H)) as (head&Hm&Hno);
             eexists; split; [|left; exists a1, mb1, head; split_and!; [done|done|exact Hm|exact Hno|intros d']]
         end.
    all: try (match goal with H : s_bids _ !! _ = Some _ |- _ => destruct (wf_bid _ _ Hwf _ _ H) as (_&Hp0&_) end).
    all: try (match goal with H : s_cbids _ !! _ = Some _ |- _ => destruct (wf_cbid _ _ Hwf _ _ H) as (_&Hp0&_) end).
    all: try (by apply refund_change; eauto using nb_sub_pos, nb_normalize_pos, nb_add_pos).
    all: cbn [opt_in_denom]; rewrite paid_out_out, out_refund; first
      [erewrite nb_charge by eassumption; lia | erewrite nb_charge_add by eassumption; lia].
Qed.

(** * Immediate orders *)
Lemma sale_submap v e sender funds st m st' msgs a mb f pre post :
  sale_result p v e sender funds st m st' msgs a mb f pre post ->
  submap (s_asks st') (s_asks st) /\ submap (s_bids st') (s_bids st) /\ submap (s_cbids st') (s_cbids st).
Proof.
  intros Hr. pose proof (sr_asks _ _ _ _ _ _ _ _ _ _ _ _ _ _ Hr) as E1.
  pose proof (sr_bids _ _ _ _ _ _ _ _ _ _ _ _ _ _ Hr) as E2. pose proof (sr_cbids _ _ _ _ _ _ _ _ _ _ _ _ _ _ Hr) as E3.
  rewrite E1, E2, E3. unfold submap. split_and!; intros i x.
  - by intros [_ ?]%lookup_delete_Some.
  - destruct mb; cbn; [by intros [_ ?]%lookup_delete_Some|done].
  - destruct mb; cbn; [done|by intros [_ ?]%lookup_delete_Some].
Qed.
Lemma immediate_sells v e sender funds st m st' msgs :
  wf p st -> execute p v e sender funds st m = Ok (st', msgs) -> immediate m = true ->
  (exists a mb f, trade sender st m a mb f /\ settles p v (s_config st) sender funds m msgs a mb f) /\
  submap (s_asks st') (s_asks st) /\ submap (s_bids st') (s_bids st) /\ submap (s_cbids st') (s_cbids st).
Proof.
  intros Hwf H%execute_effect Hi. apply effect_sale_or_not in H as [(Hrc&_)|(a&mb&f&pre&post&Hr)]; [| |done].
  - destruct m; done.
  - split; [|by eapply sale_submap]. exists a, mb, f. split; [by apply Hr|by eapply sale_settles].
Qed.
Lemma immediate_sell_fails v e sender funds st coll tok d :
  wf p st -> slash_free p -> (forall mb, ~ fits st coll tok (d_price d) mb) ->
  exists er, execute p v e sender funds st (SellNft coll tok d) = Err er.
Proof.
  intros Hwf Hsl Hno. destruct (execute _ _ _ _ _ _ _) as [[st' msgs]|er] eqn:E; [|eauto]. exfalso.
  destruct (ask_filled_best p _ _ _ _ _ _ _ _ _ _ _ Hwf Hsl E (AskCallSell st coll tok d)) as [(a&mb&_&_&[Hf _]&_)|[_ Hns]].
  - by eapply Hno.
  - destruct (immediate_sells _ _ _ _ _ _ _ _ Hwf E eq_refl) as ((a&mb&f&Ht&Hs)&Hsub&_).
    eapply (Hns (a_coll a) (a_tok a) (nft_to mb)). split_and!.
    + destruct Hs as (pre&post&->&_). rewrite !elem_of_app, elem_of_cons. auto.
    + done.
    + intros i [x Hx]. by exists x; apply Hsub.
Qed.
Lemma immediate_buy_fails v e sender funds st m coll tok price :
  wf p st -> collision_free p -> prefix_free p -> immediate m = true ->
  bid_call st m coll tok price -> (forall a, ~ offered st coll tok price a) ->
  exists er, execute p v e sender funds st m = Err er.
Proof.
  intros Hwf Hcf Hpf Him Hc Hno. destruct (execute _ _ _ _ _ _ _) as [[st' msgs]|er] eqn:E; [|eauto]. exfalso.
  destruct (bid_filled_cheapest p _ _ _ _ _ _ _ _ _ _ _ Hwf Hcf Hpf E Hc) as [(a&mb&[Hf _]&_)|[_ Hns]].
  - by eapply Hno.
  - destruct (immediate_sells _ _ _ _ _ _ _ _ Hwf E Him) as ((a&mb&f&Ht&Hs)&Hsub&_).
    eapply (Hns (a_coll a) (a_tok a) (nft_to mb)). split_and!.
    + destruct Hs as (pre&post&->&_). rewrite !elem_of_app, elem_of_cons. auto.
    + by destruct m.
    + intros i [x Hx]. by exists x; apply Hsub.
Qed.

(** * Administration *)
Lemma config_cases v e sender funds st m st' msgs :
  execute p v e sender funds st m = Ok (st', msgs) ->
  (s_config st' = s_config st /\ s_denoms st' = s_denoms st /\ s_fees st' = s_fees st) \/
  (admin_call m = true /\ q_admin v = Some (Some sender)).
Proof. intros H%execute_effect. destruct H; try (by left). right. split; [by destruct m|done]. Qed.
Lemma config_admin v e sender funds st m st' msgs :
  execute p v e sender funds st m = Ok (st', msgs) ->
  (s_config st', s_denoms st', s_fees st') <> (s_config st, s_denoms st, s_fees st) ->
  admin_call m = true /\ q_admin v = Some (Some sender).
Proof.
  intros H%execute_effect Hch. destruct H; try (by exfalso; apply Hch). split; [by destruct m|done].
Qed.
Lemma admin_call_inert v e sender funds st m st' msgs :
  execute p v e sender funds st m = Ok (st', msgs) -> admin_call m = true ->
  msgs = [] /\ s_asks st' = s_asks st /\ s_bids st' = s_bids st /\ s_cbids st' = s_cbids st.
Proof.
  intros H%execute_effect Hm. destruct H; try done; destruct_or?; by subst m.
Qed.
Lemma admin_call_authorised v e sender funds st m st' msgs :
  execute p v e sender funds st m = Ok (st', msgs) -> admin_call m = true -> q_admin v = Some (Some sender).
Proof. intros H%execute_effect Hm. destruct H; try done; destruct_or?; by subst m. Qed.
Lemma no_admin_frozen st : 
  v2_history_with p (fun v _ sender => q_admin v <> Some (Some sender)) st ->
  exists c, instantiate p c = Ok (State (s_config st) (s_denoms st) (s_fees st) 0 ∅ ∅ ∅) /\ s_denoms st = ∅ /\ s_fees st = ∅.
Proof.
  intros (c&st0&Hi&H). exists c.
  assert (s_config st = s_config st0 /\ s_denoms st = s_denoms st0 /\ s_fees st = s_fees st0) as (->&->&->).
  { clear Hi. induction H as [|s1 s2 s3 (v&e&sd&fs&m&ms&_&HQ&H) _ (IH1&IH2&IH3)]; [done|].
    rewrite IH1, IH2, IH3.
    by destruct (config_cases _ _ _ _ _ _ _ _ H) as [?|[_ ?]]. }
  assert (st0 = State (s_config st0) ∅ ∅ 0 ∅ ∅ ∅) as E by (unfold instantiate in Hi; inv_ok; done).
  rewrite E in Hi |- *. done.
Qed.

(** * Listing fee *)
Lemma listing_fee v e sender funds st m st' msgs coll tok d :
  execute p v e sender funds st m = Ok (st', msgs) -> m = SetAsk coll tok d \/ m = SellNft coll tok d ->
  exists c rest, funds = [c] /\ 0 < c_amount c /\ s_fees st !! c_denom c = Some (c_amount c) /\
    msgs = MSend (cf_fee_manager (s_config st)) [c] :: rest.
Proof.
  intros H%execute_effect Hm. destruct H; try (by destruct_or?; simplify_eq).
  - subst funds. eauto 10.
  - subst funds. eauto 10.
Qed.

(** * Trading start *)
Lemma opens_tradable v e sender funds st m coll :
  opens m = Some coll -> not_yet_tradable v e coll -> exists er, execute p v e sender funds st m = Err er.
Proof.
  intros Ho (ci&s&Hq&Hs&Ht). destruct (execute _ _ _ _ _ _ _) as [[st' msgs]|er] eqn:E; [|eauto]. exfalso.
  apply execute_effect in E.
  assert (only_tradable v e coll = Ok tt) as Hx.
  { destruct E; cbn in Ho; simplify_eq; try done; try (by destruct m); destruct_or?; subst; cbn in Ho; by simplify_eq. }
  unfold only_tradable in Hx. rewrite Hq, Hs in Hx. destruct (e_time e <? s) eqn:Hlt; [done|]. lia.
Qed.

Definition untouched (coll : addr) (st : state) : Prop :=
  (forall i a, s_asks st !! i = Some a -> a_coll a <> coll) /\
  (forall i b, s_bids st !! i = Some b -> b_coll b <> coll) /\
  (forall i b, s_cbids st !! i = Some b -> cb_coll b <> coll).
Lemma sale_state_untouched coll st a mb : untouched coll st -> untouched coll (sale_state st a mb).
Proof.
  intros (Ha&Hb&Hc). split_and!; intros i x; cbn.
  - intros [_ ?]%lookup_delete_Some. eauto.
  - destruct mb; [intros [_ ?]%lookup_delete_Some|intros ?]; eauto.
  - destruct mb; [intros ?|intros [_ ?]%lookup_delete_Some]; eauto.
Qed.
Lemma untouched_step coll v e sender funds st m st' msgs :
  wf p st -> untouched coll st -> not_yet_tradable v e coll -> execute p v e sender funds st m = Ok (st', msgs) ->
  untouched coll st' /\ forall t to, MNft coll t to ∉ msgs.
Proof.
  intros Hwf Hu Hn HE.
  assert (opens m <> Some coll) as Hop.
  { intros Ho. destruct (opens_tradable v e sender funds st m coll Ho Hn) as [er Her]. congruence. }
  apply execute_effect in HE. split.
  - destruct HE; cbn in Hop; try (by apply sale_state_untouched); try (by apply (sale_state_untouched coll st)).
    all: destruct Hu as (Ha&Hb&Hc); unfold untouched; cbn.
    1: by repeat match goal with H : _ = _ |- _ => rewrite H end.
    all: split_and!; try done; intros i x; rewrite ?lookup_insert_Some, ?lookup_delete_Some; try naive_solver.
    all: intros [[_ <-]|[_ ?]]; [|by eauto]; cbn; eauto; congruence.
  - intros t to Hin. destruct Hu as (Ha&Hb&Hc).
    assert (forall reg ps (a : ask) c tk x (post : list cmsg),
      MNft coll t to ∈ reg ++ (pay_msg <$> ps) ++ MNft c tk x :: post ->
      (reg = [] \/ reg = [MRegInit (cf_registry (s_config st)) (a_coll a)]) ->
      (forall c t to, MNft c t to ∉ post) -> c = coll) as Hsale.
    { intros reg ps a c tk x post [Hx|[Hx|[Hx|Hx]%elem_of_cons]%elem_of_app]%elem_of_app Hreg Hpost.
      - destruct Hreg as [->| ->]; [by apply elem_of_nil in Hx|]. by apply elem_of_list_singleton in Hx.
      - by apply pay_msgs_no_nft in Hx.
      - by injection Hx.
      - by apply Hpost in Hx. }
    assert (forall c t to, MNft c t to ∉ []) as Hnil by (intros; apply not_elem_of_nil).
    destruct HE; cbn in Hop.
    all: try (by apply elem_of_nil in Hin).
    all: try (by apply refund_no_nft in Hin).
    all: try (apply elem_of_cons in Hin as [Hin|Hin]; [discriminate Hin|]).
    all: try match goal with H : sale_msgs _ _ _ _ _ _ _ _ |- _ =>
           pose proof (sale_msgs_reg _ _ _ _ _ _ _ _ H) as Hreg;
           eapply Hsale in Hin; [|exact Hreg|first [exact Hnil|intros; apply refund_no_nft]] end.
    + apply elem_of_list_singleton in Hin. simplify_eq.
    + destruct_or?; subst m; cbn in Hop; congruence.
    + eapply Ha; eauto.
    + apply elem_of_list_singleton in Hin. simplify_eq. eapply Ha; eauto.
    + eapply Ha; eauto.
    + apply bid_match_some in H5 as (Hs&_). eapply Ha; eauto.
    + apply bid_match_some in H5 as (Hs&_). eapply Ha; eauto.
    + apply elem_of_nil in Hin. done.
    + apply (accept_bid_ask_Ok p) in H2 as (_&_&[Hs|(_&->&_)]); [by eapply Ha| |done]. eapply Hb; eauto.
    + apply cbid_match_some in H5 as (((i&Hs)&_)&_). eapply Ha; eauto.
    + apply cbid_match_some in H5 as (((i&Hs)&_)&_). eapply Ha; eauto.
    + apply elem_of_nil in Hin. done.
    + apply (accept_bid_ask_Ok p) in H2 as (_&_&[Hs|(_&->&_)]); [by eapply Ha| |done]. eapply Hc; eauto.
Qed.
Lemma never_sold_early coll st v e sender funds m st' msgs :
  v2_history_with p (fun v e _ => not_yet_tradable v e coll) st -> not_yet_tradable v e coll ->
  execute p v e sender funds st m = Ok (st', msgs) -> forall t to, MNft coll t to ∉ msgs.
Proof.
  intros (c&st0&Hi&Hst) Hn H.
  assert (wf p st /\ untouched coll st) as [Hwf Hu]; [|by eapply untouched_step].
  assert (wf p st0 /\ untouched coll st0) as Hx.
  { split; [by eapply wf_instantiate|]. unfold instantiate in Hi. inv_ok. split_and!; intros ? ?; cbn; by rewrite lookup_empty. }
  clear Hi Hn H. induction Hst as [|s1 s2 s3 (v1&e1&sd&fs&m1&ms&Hs&HQ&H) _ IH]; [done|]. apply IH.
  destruct Hx as [Hw1 Hu1]. split; [by eapply wf_execute|]. by eapply untouched_step.
Qed.

(** * Identity *)
Lemma identity_kept v e sender funds st m st' msgs :
  wf p st -> execute p v e sender funds st m = Ok (st', msgs) ->
  (forall i a a', s_asks st !! i = Some a -> s_asks st' !! i = Some a' ->
     a' = Ask (a_id a) (a_creator a) (a_coll a) (a_tok a) (a_det a')) /\
  (forall i b b', s_bids st !! i = Some b -> s_bids st' !! i = Some b' ->
     b' = Bid (b_id b) (b_creator b) (b_coll b) (b_tok b) (b_det b')) /\
  (forall i b b', s_cbids st !! i = Some b -> s_cbids st' !! i = Some b' ->
     b' = CBid (cb_id b) (cb_creator b) (cb_coll b) (cb_det b')).
Proof.
  intros Hwf H%execute_effect.
  assert (forall a : ask, a = Ask (a_id a) (a_creator a) (a_coll a) (a_tok a) (a_det a)) as Ea by (by intros []).
  assert (forall b : bid, b = Bid (b_id b) (b_creator b) (b_coll b) (b_tok b) (b_det b)) as Eb by (by intros []).
  assert (forall b : cbid, b = CBid (cb_id b) (cb_creator b) (cb_coll b) (cb_det b)) as Ec by (by intros []).
  assert (forall i a a' (m : gmap order_id ask), s_asks st !! i = Some a -> submap m (s_asks st) -> m !! i = Some a' ->
     a' = Ask (a_id a) (a_creator a) (a_coll a) (a_tok a) (a_det a')) as Sa.
  { intros i a a' mm H1 Hs H2%Hs. simplify_eq. apply Ea. }
  assert (forall i a a' (m : gmap order_id bid), s_bids st !! i = Some a -> submap m (s_bids st) -> m !! i = Some a' ->
     a' = Bid (b_id a) (b_creator a) (b_coll a) (b_tok a) (b_det a')) as Sb.
  { intros i a a' mm H1 Hs H2%Hs. simplify_eq. apply Eb. }
  assert (forall i a a' (m : gmap order_id cbid), s_cbids st !! i = Some a -> submap m (s_cbids st) -> m !! i = Some a' ->
     a' = CBid (cb_id a) (cb_creator a) (cb_coll a) (cb_det a')) as Sc.
  { intros i a a' mm H1 Hs H2%Hs. simplify_eq. apply Ec. }
  pose proof H as H'. apply effect_sale_or_not in H' as [(_&_&Hk)|(a&mb&f&pre&post&Hr)]; [| |done].
  - clear Hk Sa Sb Sc. destruct H; cbn; split_and!; intros i x x' Hx Hx'.
    1-3: repeat match goal with H : s_asks _ = _ |- _ => rewrite H in Hx' | H : s_bids _ = _ |- _ => rewrite H in Hx' | H : s_cbids _ = _ |- _ => rewrite H in Hx' end; rewrite Hx in Hx'; injection Hx' as <-; by auto.
    all: try match type of Hx' with (match ?mb with _ => _ end) !! _ = _ => destruct mb end.
    all: try (apply lookup_delete_Some in Hx' as [_ Hx']).
    all: try (rewrite Hx in Hx'; injection Hx' as <-; auto; fail).
    all: apply lookup_insert_Some in Hx' as [[E <-]|[_ Hx']]; [|simplify_eq; auto].
    all: cbn in *; try congruence.
    all: first
      [ match goal with H : s_asks _ !! _ = Some ?x, E : a_id ?x = _ |- _ => destruct (wf_ask _ _ Hwf _ _ H) as (Hid&_) end
      | match goal with H : s_bids _ !! _ = Some ?x, E : b_id ?x = _ |- _ => destruct (wf_bid _ _ Hwf _ _ H) as (Hid&_) end
      | match goal with H : s_cbids _ !! _ = Some ?x, E : cb_id ?x = _ |- _ => destruct (wf_cbid _ _ Hwf _ _ H) as (Hid&_) end ].
    all: rewrite Hid in E; subst; simplify_eq; done.
  - apply sale_submap in Hr as (S1&S2&S3). split_and!; eauto.
Qed.

(** * Accepting bids on unlisted NFTs *)
Lemma accept_unlisted v sender st coll tok d a :
  wf p st -> collision_free p -> prefix_free p -> p_valid p coll = true -> unlisted st coll tok ->
  accept_bid_ask p v sender st coll tok d = Ok a ->
  a = ask_new p sender coll tok d /\ only_owner v sender coll tok = Ok tt.
Proof.
  intros Hwf Hcf Hpf Hv Hun H. apply (accept_bid_ask_Ok p) in H as (_&Hid&[Hs|(_&->&?)]); [|done|done].
  exfalso. destruct (wf_ask _ _ Hwf _ _ Hs) as (_&Hg&_&Hva&_). rewrite Hid in Hg.
  destruct (ask_id_inj p coll tok (a_coll a) (a_tok a)) as [-> ->]; try done. by apply (Hun _ _ Hs).
Qed.
Lemma accept_bid_details v e sender funds st st' msgs id d b :
  wf p st -> collision_free p -> prefix_free p ->
  execute p v e sender funds st (AcceptBid id d) = Ok (st', msgs) ->
  s_bids st !! id = Some b -> unlisted st (b_coll b) (b_tok b) ->
  exists a, a_creator a = sender /\ a_coll a = b_coll b /\ a_tok a = b_tok b /\
    proceeds_to a = default sender (d_recipient d) /\ taker a (MBid b) false = d_finder d /\
    settles p v (s_config st) sender funds (AcceptBid id d) msgs a (MBid b) false.
Proof.
  intros Hwf Hcf Hpf H%execute_effect Hb Hun. apply effect_sale_or_not in H as [([]&_)|(a&mb&f&pre&post&Hr)]; [|done].
  pose proof (sr_cause _ _ _ _ _ _ _ _ _ _ _ _ _ _ Hr) as Hca. cbn in Hca. destruct Hca as (b'&Hb'&->&_&Ha). simplify_eq.
  destruct (wf_bid _ _ Hwf _ _ Hb) as (_&_&Hv&_).
  destruct (accept_unlisted _ _ _ _ _ _ _ Hwf Hcf Hpf Hv Hun Ha) as [-> _].
  pose proof (sr_trade _ _ _ _ _ _ _ _ _ _ _ _ _ _ Hr) as Ht.
  assert (f = false) as -> by (inversion Ht; subst; try done; destruct_or?; done).
  exists (ask_new p sender (b_coll b) (b_tok b) d). apply sale_settles in Hr. split_and!; done.
Qed.
Lemma accept_cbid_details v e sender funds st st' msgs id tok d cb :
  wf p st -> collision_free p -> prefix_free p ->
  execute p v e sender funds st (AcceptCollectionBid id tok d) = Ok (st', msgs) ->
  s_cbids st !! id = Some cb -> unlisted st (cb_coll cb) tok ->
  exists a, a_creator a = sender /\ a_coll a = cb_coll cb /\ a_tok a = tok /\
    proceeds_to a = default sender (d_recipient d) /\ taker a (MCBid cb) false = d_finder d /\
    settles p v (s_config st) sender funds (AcceptCollectionBid id tok d) msgs a (MCBid cb) false.
Proof.
  intros Hwf Hcf Hpf H%execute_effect Hb Hun. apply effect_sale_or_not in H as [([]&_)|(a&mb&f&pre&post&Hr)]; [|done].
  pose proof (sr_cause _ _ _ _ _ _ _ _ _ _ _ _ _ _ Hr) as Hca. cbn in Hca. destruct Hca as (b'&Hb'&->&_&Ha). simplify_eq.
  destruct (wf_cbid _ _ Hwf _ _ Hb) as (_&_&Hv&_).
  destruct (accept_unlisted _ _ _ _ _ _ _ Hwf Hcf Hpf Hv Hun Ha) as [-> _].
  pose proof (sr_trade _ _ _ _ _ _ _ _ _ _ _ _ _ _ Hr) as Ht.
  assert (f = false) as -> by (inversion Ht; subst; try done; destruct_or?; done).
  exists (ask_new p sender (cb_coll cb) tok d). apply sale_settles in Hr. split_and!; done.
Qed.

(** * Ownership *)
Definition is_send (m : cmsg) : Prop := match m with MSend _ _ => True | _ => False end.
Definition is_quiet (m : cmsg) : Prop := match m with MSend _ _ | MRegInit _ _ => True | _ => False end.
Lemma owner_call_shape v e sender funds st m st' msgs coll tok :
  wf p st -> collision_free p -> prefix_free p ->
  execute p v e sender funds st m = Ok (st', msgs) -> owner_call st m coll tok ->
  only_owner v sender coll tok = Ok tt /\
  exists pre to post, msgs = pre ++ MNft coll tok to :: post /\ Forall is_quiet pre /\
    (royalty_known p v (s_config st) coll -> Forall is_send pre).
Proof.
  intros Hwf Hcf Hpf H%execute_effect Ho.
  assert (forall a mb f reg ps c, sale_msgs p v (s_config st) a mb f reg ps -> c = a_coll a ->
    Forall is_quiet (reg ++ (pay_msg <$> ps)) /\
    (royalty_known p v (s_config st) c -> Forall is_send (reg ++ (pay_msg <$> ps)))) as Hsm.
  { intros a mb f reg ps c Hs ->. pose proof (sale_msgs_reg _ _ _ _ _ _ _ _ Hs) as Hreg. split.
    - apply Forall_app. split; [destruct Hreg as [->| ->]; repeat constructor|].
      apply Forall_fmap, Forall_forall. by intros [].
    - intros Hk. apply Forall_app. split; [|apply Forall_fmap, Forall_forall; by intros []].
      destruct Hs as (pf&r&_&Hf&_). unfold fetch_or_set_royalties, fetch_royalty_entry in Hf.
      destruct Hk as [(x&y&Hq&Hor)|Hi].
      + rewrite Hq in Hf. cbn in Hf. destruct x as [x|]; [|destruct y as [y|]]; cbn in Hf; simplify_eq; try constructor.
        by destruct Hor.
      + apply bind_Ok in Hf as (x&_&Hf). destruct x as [x|]; [simplify_eq; constructor|].
        destruct (q_info v (a_coll a)) as [ci|] eqn:E; [|simplify_eq; constructor].
        rewrite (Hi _ eq_refl) in Hf. simplify_eq. constructor. }
  destruct H; inversion Ho; subst; try done; try (by destruct_or?); simplify_eq.
  all: repeat match goal with H : _ = _ \/ _ = _ |- _ => destruct H; simplify_eq end.
  - split; [done|]. eexists [_], _, []. split; [done|]. split; [|intros _]; repeat constructor.
  - split; [done|]. destruct (Hsm _ _ _ _ _ _ H9 eq_refl) as [H1' H2'].
    exists (MSend (cf_fee_manager (s_config st)) [lp] :: reg ++ (pay_msg <$> ps)), (mb_recipient mb), [].
    cbn. rewrite <-app_assoc. split; [done|]. split; [|intros Hk]; constructor; try done; auto.
  - split; [done|]. destruct (Hsm _ _ _ _ _ _ H9 eq_refl) as [H1' H2'].
    exists (MSend (cf_fee_manager (s_config st)) [lp] :: reg ++ (pay_msg <$> ps)), (mb_recipient mb), [].
    cbn. rewrite <-app_assoc. split; [done|]. split; [|intros Hk]; constructor; try done; auto.
  - destruct (wf_bid _ _ Hwf _ _ H0) as (_&_&Hv&_).
    destruct (accept_unlisted _ _ _ _ _ _ _ Hwf Hcf Hpf Hv ltac:(eassumption) H2) as [-> Hoo].
    split; [done|]. destruct (Hsm _ _ _ _ _ (b_coll b) H3 eq_refl) as [H1' H2'].
    exists (reg ++ (pay_msg <$> ps)), (bid_recipient b), []. rewrite <-app_assoc. done.
  - destruct (wf_cbid _ _ Hwf _ _ H0) as (_&_&Hv&_).
    destruct (accept_unlisted _ _ _ _ _ _ _ Hwf Hcf Hpf Hv ltac:(eassumption) H2) as [-> Hoo].
    split; [done|]. destruct (Hsm _ _ _ _ _ (cb_coll cb) H3 eq_refl) as [H1' H2'].
    exists (reg ++ (pay_msg <$> ps)), (cbid_recipient cb), []. rewrite <-app_assoc. done.
Qed.

Lemma dispatch_sends_can (w : world state) pre c t to post w' :
  dispatch p (execute p) w (pre ++ MNft c t to :: post) w' -> Forall is_send pre -> p_honest p c = true ->
  can_transfer w c t (p_self p) = true.
Proof.
  intros H Hpre Hh. revert w H. induction Hpre as [|x pre Hx _ IH]; cbn; intros w H.
  - inversion H; subst; [done|congruence].
  - destruct x; try done. inversion H; subst.
    match goal with H : dispatch _ _ _ _ _ |- _ => apply IH in H end. done.
Qed.
Lemma run_quiet_can (w : world state) pre c t to post w' :
  run_msgs p w (pre ++ MNft c t to :: post) = Ok w' -> Forall is_quiet pre -> p_honest p c = true ->
  can_transfer w c t (p_self p) = true.
Proof.
  intros H Hpre Hh. revert w H. induction Hpre as [|x pre Hx _ IH]; intros w H.
  - cbn -[can_transfer] in H. rewrite Hh in H. apply bind_Ok in H as (u&_&H). apply bind_Ok in H as (u2&H2&_).
    by apply ensure_Ok in H2.
  - destruct x; try done; cbn -[can_transfer send_ok covers bank_move] in H.
    + apply bind_Ok in H as (u&_&H). by apply IH in H.
    + by apply IH in H.
Qed.
Lemma can_transfer_owner (w : world state) c t who : can_transfer w c t who = true -> exists o, w_nft w c t = Some o.
Proof. unfold can_transfer. destruct (w_nft w c t); [eauto|done]. Qed.
Lemma only_owner_honest (w : world state) sender funds coll tok o :
  p_honest p coll = true -> only_owner (view_of p (pay_in p w sender funds)) sender coll tok = Ok tt ->
  w_nft w coll tok = Some o -> o = sender.
Proof.
  intros Hh H Ho. unfold only_owner in H. cbn in H. rewrite Hh, Ho in H. apply ensure_Ok in H.
  by apply bool_decide_eq_true in H.
Qed.

Lemma texec_owner w sender funds m w' coll tok :
  wf p (w_st w) -> collision_free p -> prefix_free p -> texec p (execute p) sender funds m w w' ->
  owner_call (w_st w) m coll tok -> p_honest p coll = true ->
  (forall o, w_nft w coll tok = Some o -> o = sender) /\
  (royalty_known p (view_of p w) (s_config (w_st w)) coll ->
     w_nft w coll tok = Some sender /\ can_transfer w coll tok (p_self p) = true).
Proof.
  intros Hwf Hcf Hpf H Ho Hh. destruct H as [sender funds m w st' msgs w' Hs Hc He Hd].
  destruct (owner_call_shape _ _ _ _ _ _ _ _ _ _ Hwf Hcf Hpf He Ho) as (Hoo&pre&to&post&->&Hq&Hk).
  assert (forall o, w_nft w coll tok = Some o -> o = sender) as Hown by (intros o; by eapply only_owner_honest).
  split; [done|]. intros Hr. apply dispatch_sends_can in Hd; [|by apply Hk|done].
  assert (can_transfer w coll tok (p_self p) = true) as Hct by done.
  split; [|done]. destruct (can_transfer_owner _ _ _ _ Hct) as [o Hn]. by rewrite Hn, (Hown _ Hn).
Qed.
Lemma run_tx_owner w sender funds m w' coll tok :
  wf p (w_st w) -> collision_free p -> prefix_free p -> run_tx p (execute p) w sender funds m = Ok w' ->
  owner_call (w_st w) m coll tok -> p_honest p coll = true ->
  w_nft w coll tok = Some sender /\ can_transfer w coll tok (p_self p) = true.
Proof.
  intros Hwf Hcf Hpf H Ho Hh. unfold run_tx in H. apply bind_Ok in H as (u&_&H).
  apply bind_Ok in H as ([st' msgs]&He&H). cbn [fst snd] in H.
  destruct (owner_call_shape _ _ _ _ _ _ _ _ _ _ Hwf Hcf Hpf He Ho) as (Hoo&pre&to&post&->&Hq&Hk).
  assert (forall o, w_nft w coll tok = Some o -> o = sender) as Hown by (intros o; by eapply only_owner_honest).
  apply run_quiet_can in H; [|done|done].
  assert (can_transfer w coll tok (p_self p) = true) as Hct by done.
  split; [|done]. destruct (can_transfer_owner _ _ _ _ Hct) as [o Hn]. by rewrite Hn, (Hown _ Hn).
Qed.

(** * Listings leaving the book *)
Lemma ask_leaves v e sender funds st m st' msgs i a :
  wf p st -> collision_free p -> prefix_free p -> slash_free p ->
  execute p v e sender funds st m = Ok (st', msgs) ->
  s_asks st !! i = Some a -> s_asks st' !! i = None ->
  (m = RemoveAsk i /\ sender = a_creator a /\ msgs = [MNft (a_coll a) (a_tok a) (proceeds_to a)]) \/
  exists a' mb f, a_coll a' = a_coll a /\ a_tok a' = a_tok a /\
    settles p v (s_config st) sender funds m msgs a' mb f.
Proof.
  intros Hwf Hcf Hpf Hsl H%execute_effect Hi Hch. pose proof H as H'.
  apply effect_sale_or_not in H' as [(_&_&Hk)|(a'&mb&f&pre&post&Hr)]; [| |done].
  - left. destruct H; cbn in Hch; try congruence.
    all: try (rewrite lookup_insert_None in Hch; destruct Hch; congruence).
    all: try (exfalso; destruct Hk as [Hk|[[? Hk]|(?&?&?&Hk&_)]];
      [eapply Hk; rewrite ?elem_of_cons, ?elem_of_app, ?elem_of_cons; naive_solver|naive_solver|naive_solver]).
    + exfalso. destruct Hk as [Hk|[[? Hk]|(?&?&?&Hk&j&[? Hj]&Hj2)]].
      * eapply Hk. rewrite ?elem_of_cons, ?elem_of_app. right. right. right. by left.
      * naive_solver.
      * cbn in Hj. rewrite lookup_delete_Some in Hj. naive_solver.
    + destruct (wf_ask _ _ Hwf _ _ H0) as (Hid&_). rewrite Hid in Hch.
      destruct (decide (id = i)) as [->|]; [|rewrite lookup_delete_ne in Hch; congruence]. simplify_eq. done.
  - right. pose proof (sr_asks _ _ _ _ _ _ _ _ _ _ _ _ _ _ Hr) as E. rewrite E in Hch.
    destruct (decide (a_id a' = i)) as [Hid|Hid]; [|rewrite lookup_delete_ne in Hch; congruence].
    exists a', mb, f. pose proof (sale_settles _ _ _ _ _ _ _ _ _ _ _ _ _ _ Hr) as Hse.
    pose proof (sr_ask_id _ _ _ _ _ _ _ _ _ _ _ _ _ _ Hr) as Hg.
    destruct (wf_ask _ _ Hwf _ _ Hi) as (Hia&Hga&_&Hva&_).
    assert (p_valid p (a_coll a') = true) as Hva'.
    { pose proof (sr_cause _ _ _ _ _ _ _ _ _ _ _ _ _ _ Hr) as Hca.
      destruct m; cbn in Hca; try done.
      - by destruct Hca as (->&_&?&_).
      - destruct Hca as (a0&Ha0&_&->&_). by destruct (wf_ask _ _ Hwf _ _ Ha0) as (_&_&_&?&_).
      - destruct Hca as (Ha0&_). by destruct (wf_ask _ _ Hwf _ _ Ha0) as (_&_&_&?&_).
      - destruct Hca as (->&Hx&Hv&_). apply bid_match_some in Hx as (Hs&_). by destruct (wf_ask _ _ Hwf _ _ Hs) as (_&_&_&?&_).
      - destruct Hca as (b0&_&_&_&Hx). apply bid_match_some in Hx as (Hs&_). by destruct (wf_ask _ _ Hwf _ _ Hs) as (_&_&_&?&_).
      - destruct Hca as (b0&Hb0&_&_&Hx). apply (accept_bid_ask_Ok p) in Hx as (_&_&[Hs|(_&->&_)]); [| |done].
        + by destruct (wf_ask _ _ Hwf _ _ Hs) as (_&_&_&?&_).
        + by destruct (wf_bid _ _ Hwf _ _ Hb0) as (_&_&?&_).
      - destruct Hca as (->&Hx&Hv&_). apply cbid_match_some in Hx as (((j&Hs)&_)&_). by destruct (wf_ask _ _ Hwf _ _ Hs) as (_&_&_&?&_).
      - destruct Hca as (b0&_&_&_&Hx). apply cbid_match_some in Hx as (((j&Hs)&_)&_). by destruct (wf_ask _ _ Hwf _ _ Hs) as (_&_&_&?&_).
      - destruct Hca as (b0&Hb0&_&_&Hx). apply (accept_bid_ask_Ok p) in Hx as (_&_&[Hs|(_&->&_)]); [| |done].
        + by destruct (wf_ask _ _ Hwf _ _ Hs) as (_&_&_&?&_).
        + by destruct (wf_cbid _ _ Hwf _ _ Hb0) as (_&_&?&_).
      - by destruct Hca as (->&_&?&_).
      - destruct Hca as (->&Hx&Hv&_). apply bid_match_some in Hx as (Hs&_). by destruct (wf_ask _ _ Hwf _ _ Hs) as (_&_&_&?&_).
      - destruct Hca as (->&Hx&Hv&_). apply cbid_match_some in Hx as (((j&Hs)&_)&_). by destruct (wf_ask _ _ Hwf _ _ Hs) as (_&_&_&?&_). }
    destruct (ask_id_inj p (a_coll a') (a_tok a') (a_coll a) (a_tok a)) as [-> ->]; try done. congruence.
Qed.
End Calls.
