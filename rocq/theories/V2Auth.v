(** Marketplace v2: who may do what, delivery versus payment, exact charging, configuration. *)
From stdpp Require Import relations.
From Verif Require Import Base Common Chain BaseFacts ChainFacts IndexRange IndexFacts SaleFacts
  V2Model V2Spec V2Facts V2Match V2Inv V2Sale V2Trade V2Reach V2Book.

Local Arguments be8 : simpl never.
Local Opaque be8 U64_MAX.

Section Auth.
Context (p : params).

(** A token bid and a collection bid are traded for what they asked for. *)
Lemma sale_wants v e sender funds st m st' msgs a mb f pre post :
  wf p st -> collision_free p -> prefix_free p -> slash_free p ->
  sale_result p v e sender funds st m st' msgs a mb f pre post ->
  match mb with
  | MBid b => a_coll a = b_coll b /\ a_tok a = b_tok b
  | MCBid cb => a_coll a = cb_coll cb
  end.
Proof.
  intros Hwf Hcf Hpf Hsl Hr. pose proof (sr_cause _ _ _ _ _ _ _ _ _ _ _ _ _ _ Hr) as Hca.
  assert (forall a1 mb1, p_valid p (a_coll a1) = true -> match_with_bid st a1 = Some mb1 ->
    match mb1 with MBid b => a_coll a1 = b_coll b /\ a_tok a1 = b_tok b | MCBid cb => a_coll a1 = cb_coll cb end) as Hm.
  { intros a1 mb1 Hv H. apply (match_best p) in H as ((_&Hw&_)&_); [|done..].
    destruct mb1; destruct Hw as [_ Hw]; [by destruct Hw|done]. }
  assert (forall b1 a1, p_valid p (b_coll b1) = true -> bid_match_with_ask p st b1 = Some a1 ->
    a_coll a1 = b_coll b1 /\ a_tok a1 = b_tok b1) as Hb.
  { intros b1 a1 Hv H. apply (bid_match_offered p) in H as ((_&?&?&_)&_); [|done..]. auto. }
  assert (forall cb1 a1, cbid_match_with_ask st cb1 = Ok (Some a1) -> a_coll a1 = cb_coll cb1) as Hcb.
  { intros cb1 a1 H. by apply (cbid_match_cheapest p) in H as ((_&?&_)&_). }
  assert (forall c t d, p_valid p c = true -> accept_bid_ask p v sender st c t d = Ok a -> a_coll a = c /\ a_tok a = t) as Hacc.
  { intros c t d Hv H. apply (accept_bid_ask_Ok p) in H as (_&Hid&[Ha|(_&->&_)]); [|done|done].
    destruct (wf_ask _ _ Hwf _ _ Ha) as (_&Hg&_&Hva&_). rewrite Hid in Hg.
    destruct (ask_id_inj p c t (a_coll a) (a_tok a)) as [-> ->]; done. }
  destruct m; cbn in Hca; try done.
  - destruct Hca as (->&Hx&Hv&_). by apply Hm in Hx.
  - destruct Hca as (a0&Ha0&_&->&Hx). apply Hm in Hx; [done|]. by destruct (wf_ask _ _ Hwf _ _ Ha0) as (_&_&_&?&_).
  - by destruct Hca as (_&->&_).
  - destruct Hca as (->&Hx&Hv&_). by apply Hb in Hx.
  - destruct Hca as (b0&Hb0&_&->&Hx). apply Hb in Hx; [done|]. by destruct (wf_bid _ _ Hwf _ _ Hb0) as (_&_&?&_).
  - destruct Hca as (b0&Hb0&->&_&Hx). eapply Hacc; [|done]. by destruct (wf_bid _ _ Hwf _ _ Hb0) as (_&_&?&_).
  - destruct Hca as (->&Hx&Hv&_). by apply Hcb in Hx.
  - destruct Hca as (b0&Hb0&_&->&Hx). by apply Hcb in Hx.
  - destruct Hca as (b0&Hb0&->&_&Hx). eapply Hacc; [|done]. by destruct (wf_cbid _ _ Hwf _ _ Hb0) as (_&_&?&_).
  - destruct Hca as (->&Hx&Hv&_). by apply Hm in Hx.
  - destruct Hca as (->&Hx&Hv&_). by apply Hb in Hx.
  - destruct Hca as (->&Hx&Hv&_). by apply Hcb in Hx.
Qed.

(** The order removed by a sale is the resting one, an updated one of the sender, or a fresh one. *)
Lemma sale_bid_origin n v e sender funds st m st' msgs a b f pre post i b0 :
  collision_free p -> N.of_nat n < U64_MAX -> v2_history p n st ->
  sale_result p v e sender funds st m st' msgs a (MBid b) f pre post ->
  s_bids st !! i = Some b0 -> b_id b = i ->
  (b = b0 /\ f = false) \/
  (exists d, m = UpdateBid i d /\ sender = b_creator b0 /\ f = true /\ b = Bid (b_id b0) (b_creator b0) (b_coll b0) (b_tok b0) d).
Proof.
  intros Hcf Hn Hh Hr Hi Hid. pose proof (history_wf _ _ _ Hh) as Hwf.
  pose proof (history_fresh _ _ _ e m Hcf Hn Hh) as [Hf _].
  pose proof (sr_cause _ _ _ _ _ _ _ _ _ _ _ _ _ _ Hr) as Hca.
  pose proof (sr_trade _ _ _ _ _ _ _ _ _ _ _ _ _ _ Hr) as Ht.
  inversion Ht; subst.
  - left. match goal with H : resting _ _ |- _ => cbn in H; by simplify_eq end.
  - left. match goal with H : resting _ _ |- _ => cbn in H; by simplify_eq end.
  - cbn in Hca. destruct Hca as (Ha&E&_). injection E as E1. exfalso.
    specialize (Hf bid_id). cbn in Hf. rewrite Ha in Hf. cbn in Hi.
    rewrite Hf in Hi; [done|]. f_equal. symmetry. apply E1.
  - exfalso. assert (issued_bid p e st m = Some bid_id) as Hx.
    { destruct_or?; subst m; cbn in Hca |- *; destruct Hca as (E&_); injection E as E1; f_equal; symmetry; apply E1. }
    apply Hf in Hx. cbn in Hi. congruence.
  - right. cbn in Hca. destruct Hca as (bx&Hbx&Hs&_). simplify_eq.
    match goal with H : s_bids st !! ?k = Some ?z, H2 : s_bids st !! b_id _ = Some b0 |- _ =>
      destruct (wf_bid _ _ Hwf _ _ H) as (E&_) end.
    cbn in *. simplify_eq. eauto.
  - left. split; [|done].
    match goal with H : s_bids st !! ?k = Some b |- _ => destruct (wf_bid _ _ Hwf _ _ H) as (E&_) end.
    congruence.
Qed.
Lemma sale_cbid_origin n v e sender funds st m st' msgs a b f pre post i b0 :
  collision_free p -> N.of_nat n < U64_MAX -> v2_history p n st ->
  sale_result p v e sender funds st m st' msgs a (MCBid b) f pre post ->
  s_cbids st !! i = Some b0 -> cb_id b = i ->
  (b = b0 /\ f = false) \/
  (exists d, m = UpdateCollectionBid i d /\ sender = cb_creator b0 /\ f = true /\ b = CBid (cb_id b0) (cb_creator b0) (cb_coll b0) d).
Proof.
  intros Hcf Hn Hh Hr Hi Hid. pose proof (history_wf _ _ _ Hh) as Hwf.
  pose proof (history_fresh _ _ _ e m Hcf Hn Hh) as [_ Hf].
  pose proof (sr_cause _ _ _ _ _ _ _ _ _ _ _ _ _ _ Hr) as Hca.
  pose proof (sr_trade _ _ _ _ _ _ _ _ _ _ _ _ _ _ Hr) as Ht.
  inversion Ht; subst.
  - left. match goal with H : resting _ _ |- _ => cbn in H; by simplify_eq end.
  - left. match goal with H : resting _ _ |- _ => cbn in H; by simplify_eq end.
  - exfalso. assert (issued_cbid p e st m = Some bid_id) as Hx.
    { destruct_or?; subst m; cbn in Hca |- *; destruct Hca as (E&_); injection E as E1; f_equal; symmetry; apply E1. }
    apply Hf in Hx. cbn in Hi. congruence.
  - right. cbn in Hca. destruct Hca as (bx&Hbx&Hs&_). simplify_eq.
    match goal with H : s_cbids st !! ?k = Some ?z, H2 : s_cbids st !! cb_id _ = Some b0 |- _ =>
      destruct (wf_cbid _ _ Hwf _ _ H) as (E&_) end.
    cbn in *. simplify_eq. eauto.
  - left. split; [|done].
    match goal with H : s_cbids st !! ?k = Some b |- _ => destruct (wf_cbid _ _ Hwf _ _ H) as (E&_) end.
    congruence.
Qed.

(** Token bids of others change only by being sold. *)
Lemma bid_changes n v e sender funds st m st' msgs i b :
  collision_free p -> prefix_free p -> slash_free p -> N.of_nat n < U64_MAX -> v2_history p n st ->
  execute p v e sender funds st m = Ok (st', msgs) ->
  s_bids st !! i = Some b -> s_bids st' !! i <> Some b -> sender <> b_creator b ->
  s_bids st' !! i = None /\
  exists a, trade sender st m a (MBid b) false /\ settles p v (s_config st) sender funds m msgs a (MBid b) false /\
    a_coll a = b_coll b /\ a_tok a = b_tok b.
Proof.
  intros Hcf Hpf Hsl Hn Hh H%execute_effect Hi Hch Hs. pose proof (history_wf _ _ _ Hh) as Hwf.
  apply effect_sale_or_not in H as [(_&(_&Hk&_)&_)|(a&mb&f&pre&post&Hr)]; [| |done].
  - destruct (Hk _ _ Hi); done.
  - pose proof (sr_bids _ _ _ _ _ _ _ _ _ _ _ _ _ _ Hr) as E. rewrite E in Hch |- *.
    destruct mb as [b'|cb']; cbn in Hch |- *; [|done].
    destruct (decide (b_id b' = i)) as [Hid|Hid]; [|by rewrite lookup_delete_ne in Hch].
    rewrite Hid, lookup_delete. split; [done|].
    destruct (sale_bid_origin _ _ _ _ _ _ _ _ _ _ _ _ _ _ _ _ Hcf Hn Hh Hr Hi Hid) as [[-> ->]|(d&_&?&_)]; [|done].
    exists a. split_and!; [by apply Hr|by eapply sale_settles|..]; by apply (sale_wants _ _ _ _ _ _ _ _ _ _ _ _ _ Hwf Hcf Hpf Hsl Hr).
Qed.
Lemma cbid_changes n v e sender funds st m st' msgs i b :
  collision_free p -> prefix_free p -> slash_free p -> N.of_nat n < U64_MAX -> v2_history p n st ->
  execute p v e sender funds st m = Ok (st', msgs) ->
  s_cbids st !! i = Some b -> s_cbids st' !! i <> Some b -> sender <> cb_creator b ->
  s_cbids st' !! i = None /\
  exists a, trade sender st m a (MCBid b) false /\ settles p v (s_config st) sender funds m msgs a (MCBid b) false /\
    a_coll a = cb_coll b.
Proof.
  intros Hcf Hpf Hsl Hn Hh H%execute_effect Hi Hch Hs. pose proof (history_wf _ _ _ Hh) as Hwf.
  apply effect_sale_or_not in H as [(_&(_&_&Hk)&_)|(a&mb&f&pre&post&Hr)]; [| |done].
  - destruct (Hk _ _ Hi); done.
  - pose proof (sr_cbids _ _ _ _ _ _ _ _ _ _ _ _ _ _ Hr) as E. rewrite E in Hch |- *.
    destruct mb as [b'|cb']; cbn in Hch |- *; [done|].
    destruct (decide (cb_id cb' = i)) as [Hid|Hid]; [|by rewrite lookup_delete_ne in Hch].
    rewrite Hid, lookup_delete. split; [done|].
    destruct (sale_cbid_origin _ _ _ _ _ _ _ _ _ _ _ _ _ _ _ _ Hcf Hn Hh Hr Hi Hid) as [[-> ->]|(d&_&?&_)]; [|done].
    exists a. split_and!; [by apply Hr|by eapply sale_settles|..]; by apply (sale_wants _ _ _ _ _ _ _ _ _ _ _ _ _ Hwf Hcf Hpf Hsl Hr).
Qed.

(** Listings of others change only by being sold at their price. *)
Lemma ask_changes v e sender funds st m st' msgs i a :
  collision_free p -> prefix_free p -> wf p st -> sender <> p_self p ->
  q_owner v (a_coll a) (a_tok a) = Some (p_self p) ->
  execute p v e sender funds st m = Ok (st', msgs) ->
  s_asks st !! i = Some a -> s_asks st' !! i <> Some a -> sender <> a_creator a ->
  s_asks st' !! i = None /\
  exists mb, trade sender st m a mb true /\ settles p v (s_config st) sender funds m msgs a mb true.
Proof.
  intros Hcf Hpf Hwf Hns Hq H%execute_effect Hi Hch Hs.
  apply effect_sale_or_not in H as [(_&(Hk&_)&_)|(a'&mb&f&pre&post&Hr)]; [| |done].
  - destruct (Hk _ _ Hi); done.
  - pose proof (sr_asks _ _ _ _ _ _ _ _ _ _ _ _ _ _ Hr) as E. rewrite E in Hch |- *.
    destruct (decide (a_id a' = i)) as [Hid|Hid]; [|by rewrite lookup_delete_ne in Hch].
    rewrite Hid, lookup_delete. split; [done|].
    pose proof (sr_cause _ _ _ _ _ _ _ _ _ _ _ _ _ _ Hr) as Hca.
    pose proof (sr_trade _ _ _ _ _ _ _ _ _ _ _ _ _ _ Hr) as Ht.
    assert (f = true /\ s_asks st !! a_id a' = Some a') as [-> Hx].
    { inversion Ht; subst; try done.
      - exfalso. assert (exists c t d, Ask id sender coll tok d = ask_new p sender c t d /\ p_valid p c = true /\
                          only_owner v sender c t = Ok tt) as (c&t&d'&E1&Hv&Ho).
        { destruct_or?; subst m; cbn in Hca; destruct Hca as (?&_&?&?&_); eauto 10. }
        destruct (wf_ask _ _ Hwf _ _ Hi) as (_&Hg&_&Hva&_).
        unfold ask_new in E1. simplify_eq. cbn in Hg.
        destruct (ask_id_inj p (a_coll a) (a_tok a) c t) as [Ec Et]; try done. rewrite Ec, Et in Hq.
        unfold only_owner in Ho. rewrite Hq in Ho. inv_ok. apply bool_decide_eq_true in Ho. congruence.
      - exfalso. cbn in Hca. destruct Hca as (ax&Ha0&Hs0&E1&_). injection E1 as E1 E2 E3 E4.  
        destruct (wf_ask _ _ Hwf _ _ Ha0) as (Hid0&_). cbn in Hi. simplify_eq.
      - match goal with H : s_asks st !! ?k = Some a' |- _ => destruct (wf_ask _ _ Hwf _ _ H) as (E1&_) end. by rewrite E1.
      - exfalso. cbn in Hca. destruct Hca as (b0&Hb0&_&_&Hac). apply (accept_bid_ask_Ok p) in Hac as (Hcr&Hg&[Hst|(Hno&_)]); [| |done].
        + simplify_eq.
        + rewrite Hg in Hi. congruence.
      - exfalso. cbn in Hca. destruct Hca as (b0&Hb0&_&_&Hac). apply (accept_bid_ask_Ok p) in Hac as (Hcr&Hg&[Hst|(Hno&_)]); [| |done].
        + simplify_eq.
        + rewrite Hg in Hi. congruence. }
    rewrite Hid in Hx. simplify_eq. exists mb. split; [by apply Hr|by eapply sale_settles].
Qed.

(** Delivery versus payment. *)
Lemma settles_seller_paid v cfg sender funds m msgs a mb f :
  settles p v cfg sender funds m msgs a mb f ->
  let rest := c_amount (trade_price a mb f) - total_dues (sale_dues p v cfg a mb f) in
  0 < rest -> MSend (proceeds_to a) [Coin (c_denom (trade_price a mb f)) rest] ∈ msgs.
Proof.
  intros (pre&post&->&_) rest Hrest. rewrite !elem_of_app. right. left.
  apply elem_of_list_fmap. exists (proceeds_to a, rest). split; [done|].
  unfold sale_payments. apply elem_of_list_In, filter_In. split; [|cbn; lia].
  apply in_or_app. right. by left.
Qed.

Lemma bid_leaves n v e sender funds st m st' msgs i b :
  collision_free p -> prefix_free p -> slash_free p -> N.of_nat n < U64_MAX -> v2_history p n st ->
  execute p v e sender funds st m = Ok (st', msgs) ->
  s_bids st !! i = Some b -> s_bids st' !! i = None ->
  (m = RemoveBid i /\ sender = b_creator b /\ msgs = [MSend (b_creator b) [d_price (b_det b)]]) \/
  exists a d f, (d = b_det b \/ sender = b_creator b /\ m = UpdateBid i d) /\
    let b' := Bid (b_id b) (b_creator b) (b_coll b) (b_tok b) d in
    settles p v (s_config st) sender funds m msgs a (MBid b') f /\ a_coll a = b_coll b /\ a_tok a = b_tok b.
Proof.
  intros Hcf Hpf Hsl Hn Hh H%execute_effect Hi Hch. pose proof (history_wf _ _ _ Hh) as Hwf. pose proof H as H'.
  apply effect_sale_or_not in H' as [(_&_&Hk)|(a&mb&f&pre&post&Hr)]; [| |done].
  - left. destruct H; cbn in Hch; try congruence.
    all: try (rewrite lookup_insert_None in Hch; destruct Hch; congruence).
    all: try (exfalso; destruct Hk as [Hk|[[? Hk]|(?&?&?&Hk&_)]];
      [eapply Hk; rewrite ?elem_of_cons, ?elem_of_app, ?elem_of_cons; naive_solver|naive_solver|naive_solver]).
    + exfalso. destruct Hk as [Hk|[[? Hk]|(?&?&?&Hk&j&[? Hj]&Hj2)]].
      * eapply Hk. rewrite ?elem_of_cons, ?elem_of_app. right. right. right. by left.
      * naive_solver.
      * cbn in Hj. rewrite lookup_delete_Some in Hj. naive_solver.
    + destruct (wf_bid _ _ Hwf _ _ H0) as (Hid&_). rewrite Hid in Hch.
      destruct (decide (id = i)) as [->|]; [|rewrite lookup_delete_ne in Hch; congruence]. simplify_eq. done.
  - right. pose proof (sr_bids _ _ _ _ _ _ _ _ _ _ _ _ _ _ Hr) as E. rewrite E in Hch.
    destruct mb as [b'|cb']; cbn in Hch; [|congruence].
    destruct (decide (b_id b' = i)) as [Hid|Hid]; [|rewrite lookup_delete_ne in Hch; congruence].
    pose proof (sale_wants _ _ _ _ _ _ _ _ _ _ _ _ _ Hwf Hcf Hpf Hsl Hr) as [Hw1 Hw2].
    destruct (sale_bid_origin _ _ _ _ _ _ _ _ _ _ _ _ _ _ _ _ Hcf Hn Hh Hr Hi Hid) as [[-> ->]|(d&->&Hs&->&->)].
    + exists a, (b_det b), false. split; [by left|]. cbv zeta. split; [|done]. apply sale_settles in Hr. by destruct b.
    + exists a, d, true. split; [by right|]. cbv zeta. split; [|done]. by apply sale_settles in Hr.
Qed.
End Auth.
