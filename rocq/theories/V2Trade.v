(** Every sale of marketplace v2, seen from the response and the book. *)
From Verif Require Import Base Common Chain BaseFacts ChainFacts IndexRange IndexFacts SaleFacts
  V2Model V2Spec V2Facts V2Match V2Inv V2Sale.

Section Trade.
Context (p : params).

Definition drop_bid (st : state) (mb : matching_bid) : gmap order_id bid :=
  match mb with MBid b => delete (b_id b) (s_bids st) | MCBid _ => s_bids st end.
Definition drop_cbid (st : state) (mb : matching_bid) : gmap order_id cbid :=
  match mb with MBid _ => s_cbids st | MCBid cb => delete (cb_id cb) (s_cbids st) end.

(** Why the call sells [a] to [mb]. *)
Definition sale_cause (v : view) (e : env) (sender : addr) (st : state) (m : msg) (a : ask) (mb : matching_bid) : Prop :=
  match m with
  | SetAsk coll tok d | SellNft coll tok d =>
      a = ask_new p sender coll tok d /\ match_with_bid st a = Some mb /\ p_valid p coll = true /\
      only_owner v sender coll tok = Ok tt /\ only_tradable v e coll = Ok tt
  | UpdateAsk id d =>
      exists a0, s_asks st !! id = Some a0 /\ sender = a_creator a0 /\
        a = Ask (a_id a0) (a_creator a0) (a_coll a0) (a_tok a0) d /\ match_with_bid st a = Some mb
  | AcceptAsk id d =>
      s_asks st !! id = Some a /\ mb = MBid (bid_new p sender (a_coll a) (a_tok a) d (e_height e) (next_nonce st)) /\
      has_coins [d_price d] (d_price (a_det a)) = true
  | SetBid coll tok d | BuySpecificNft coll tok d =>
      let b := bid_new p sender coll tok d (e_height e) (next_nonce st) in
      mb = MBid b /\ bid_match_with_ask p st b = Some a /\ p_valid p coll = true /\ only_tradable v e coll = Ok tt
  | UpdateBid id d =>
      exists b0, s_bids st !! id = Some b0 /\ sender = b_creator b0 /\
        let b := Bid (b_id b0) (b_creator b0) (b_coll b0) (b_tok b0) d in
        mb = MBid b /\ bid_match_with_ask p st b = Some a
  | AcceptBid id d =>
      exists b, s_bids st !! id = Some b /\ mb = MBid b /\ has_coins [d_price (b_det b)] (d_price d) = true /\
        accept_bid_ask p v sender st (b_coll b) (b_tok b) d = Ok a
  | SetCollectionBid coll d | BuyCollectionNft coll d =>
      let cb := cbid_new p sender coll d (e_height e) (next_nonce st) in
      mb = MCBid cb /\ cbid_match_with_ask st cb = Ok (Some a) /\ p_valid p coll = true /\ only_tradable v e coll = Ok tt
  | UpdateCollectionBid id d =>
      exists cb0, s_cbids st !! id = Some cb0 /\ sender = cb_creator cb0 /\
        let cb := CBid (cb_id cb0) (cb_creator cb0) (cb_coll cb0) d in
        mb = MCBid cb /\ cbid_match_with_ask st cb = Ok (Some a)
  | AcceptCollectionBid id tok d =>
      exists cb, s_cbids st !! id = Some cb /\ mb = MCBid cb /\ has_coins [d_price (cb_det cb)] (d_price d) = true /\
        accept_bid_ask p v sender st (cb_coll cb) tok d = Ok a
  | _ => False
  end.
(** Why the call sells nothing. *)
Definition rest_cause (e : env) (sender : addr) (st : state) (m : msg) : Prop :=
  match m with
  | SetAsk coll tok d => match_with_bid st (ask_new p sender coll tok d) = None
  | UpdateAsk id d =>
      exists a0, s_asks st !! id = Some a0 /\ sender = a_creator a0 /\
        match_with_bid st (Ask (a_id a0) (a_creator a0) (a_coll a0) (a_tok a0) d) = None
  | SetBid coll tok d => bid_match_with_ask p st (bid_new p sender coll tok d (e_height e) (next_nonce st)) = None
  | UpdateBid id d =>
      exists b0, s_bids st !! id = Some b0 /\ sender = b_creator b0 /\
        bid_match_with_ask p st (Bid (b_id b0) (b_creator b0) (b_coll b0) (b_tok b0) d) = None
  | SetCollectionBid coll d => cbid_match_with_ask st (cbid_new p sender coll d (e_height e) (next_nonce st)) = Ok None
  | UpdateCollectionBid id d =>
      exists cb0, s_cbids st !! id = Some cb0 /\ sender = cb_creator cb0 /\
        cbid_match_with_ask st (CBid (cb_id cb0) (cb_creator cb0) (cb_coll cb0) d) = Ok None
  | SellNft _ _ _ | BuySpecificNft _ _ _ | BuyCollectionNft _ _
  | AcceptAsk _ _ | AcceptBid _ _ | AcceptCollectionBid _ _ _ => False
  | _ => True
  end.

(** Complete description of a sale response. *)
Record sale_result (v : view) (e : env) (sender : addr) (funds : list coin) (st : state) (m : msg) (st' : state)
    (msgs : list cmsg) (a : ask) (mb : matching_bid) (f : bool) (pre post : list cmsg) : Prop := {
  sr_trade : trade sender st m a mb f;
  sr_msgs : msgs = pre ++ (send_one (c_denom (trade_price a mb f)) <$> sale_payments p v (s_config st) a mb f)
                       ++ MNft (a_coll a) (a_tok a) (nft_to mb) :: post;
  sr_pre : forwards (s_config st) funds m (a_coll a) pre;
  sr_post : change_to sender post;
  sr_pos : 0 < c_amount (trade_price a mb f);
  sr_dues : total_dues (sale_dues p v (s_config st) a mb f) <= c_amount (trade_price a mb f);
  sr_asks : s_asks st' = delete (a_id a) (s_asks st);
  sr_bids : s_bids st' = drop_bid st mb;
  sr_cbids : s_cbids st' = drop_cbid st mb;
  sr_config : s_config st' = s_config st;
  sr_ask_id : a_id a = generate_id p [a_coll a; a_tok a];
  sr_denom : c_denom (d_price (a_det a)) = c_denom (price_of mb) \/
             (s_asks st !! a_id a = Some a /\ f = false);
  sr_cause : sale_cause v e sender st m a mb;
}.

(** Orders of others are untouched. *)
Definition rest_orders (sender : addr) (st st' : state) : Prop :=
  (forall i a, s_asks st !! i = Some a -> s_asks st' !! i = Some a \/ sender = a_creator a) /\
  (forall i b, s_bids st !! i = Some b -> s_bids st' !! i = Some b \/ sender = b_creator b) /\
  (forall i b, s_cbids st !! i = Some b -> s_cbids st' !! i = Some b \/ sender = cb_creator b).
(** A call either sells (with this description) or has no outgoing NFT except by listing/withdrawing. *)
Definition no_sale (e : env) (sender : addr) (st : state) (m : msg) (st' : state) (msgs : list cmsg) : Prop :=
  rest_cause e sender st m /\ rest_orders sender st st' /\
  ((forall c t to, MNft c t to ∉ msgs) \/
  (exists id, m = RemoveAsk id) \/
  (exists coll tok d, m = SetAsk coll tok d /\ exists i, is_Some (s_asks st' !! i) /\ s_asks st !! i = None)).

Lemma pay_msgs_no_nft ps c t to : MNft c t to ∉ (pay_msg <$> ps : list cmsg).
Proof. rewrite elem_of_list_fmap. intros (x&?&_). discriminate. Qed.
Lemma send_ones_no_nft dn ps c t to : MNft c t to ∉ (send_one dn <$> ps : list cmsg).
Proof. rewrite elem_of_list_fmap. intros (x&?&_). discriminate. Qed.
Lemma refund_no_nft s fs c t to : MNft c t to ∉ refund s fs.
Proof. unfold refund. destruct (nb_is_empty fs); [apply not_elem_of_nil|]. by intros ?%elem_of_list_singleton. Qed.

Ltac pre_none := exists [], []; split_and!; [done|right; split; [intros; split; congruence|done]|by left].

Lemma resting_match st a mb : wf p st -> match_with_bid st a = Some mb -> resting st mb.
Proof. intros Hwf H. apply (match_with_bid_stored p) in H; [|done]. by destruct mb. Qed.

Lemma resting_price_pos st mb : wf p st -> resting st mb -> 0 < c_amount (price_of mb).
Proof.
  intros Hwf H. destruct mb as [b|cb]; cbn in *.
  - by destruct (wf_bid _ _ Hwf _ _ H) as (_&?&_).
  - by destruct (wf_cbid _ _ Hwf _ _ H) as (_&?&_).
Qed.
Lemma match_denom st a mb : match_with_bid st a = Some mb -> c_denom (d_price (a_det a)) = c_denom (price_of mb).
Proof.
  intros H%match_with_bid_some. cbv zeta in H. destruct mb as [b|cb]; destruct H as ((_&_&?)&_); done.
Qed.

Ltac rest :=
  match goal with
  | H : is_admin_msg ?m = true |- _ => by destruct m
  | |- _ => cbn; eauto 10
  end.
Ltac kept :=
  split_and!; intros ik xk Hk; cbn;
  try (by left; congruence);
  try (left; rewrite lookup_insert_ne; [done|intros ->]; cbn in *; congruence);
  first [rewrite lookup_insert_Some | rewrite lookup_delete_Some];
  match goal with
  | |- (?x = ik /\ _ \/ _) \/ _ => destruct (decide (x = ik)); [right|left; right; by split]
  | |- (?x <> ik /\ _) \/ _ => destruct (decide (x = ik)); [right|left; by split]
  end;
  match goal with
  | Hwf : wf _ _, H : s_asks _ !! _ = Some _ |- _ = a_creator _ => destruct (wf_ask _ _ Hwf _ _ H) as (?&_); cbn in *; congruence
  | Hwf : wf _ _, H : s_bids _ !! _ = Some _ |- _ = b_creator _ => destruct (wf_bid _ _ Hwf _ _ H) as (?&_); cbn in *; congruence
  | Hwf : wf _ _, H : s_cbids _ !! _ = Some _ |- _ = cb_creator _ => destruct (wf_cbid _ _ Hwf _ _ H) as (?&_); cbn in *; congruence
  end.
Ltac cause :=
  match goal with
  | H : ?m = _ \/ ?m = _ |- sale_cause _ _ _ _ ?m _ _ => destruct H; subst m
  | |- _ => idtac
  end; cbn; eauto 20.
Lemma refund_change sender fs : all_pos fs -> change_to sender (refund sender fs).
Proof.
  intros H. unfold refund. destruct (nb_is_empty fs) eqn:E; [by left|]. right. exists fs. split_and!; try done.
  intros ->. done.
Qed.
Lemma effect_sale_or_not v e sender funds st m st' msgs :
  wf p st -> effect p v e sender funds st m st' msgs ->
  no_sale e sender st m st' msgs \/
  exists a mb f pre post, sale_result v e sender funds st m st' msgs a mb f pre post.
Proof.
  intros Hwf H. pose proof (wf_config _ _ Hwf) as Hcfg. destruct H.
  - left. split_and!; [rest|by kept|]. left. intros ? ? ?. apply not_elem_of_nil.
  - left. split_and!; [rest|by kept|]. right. right. exists coll, tok, d. split; [done|]. exists (a_id a). cbn [set_asks s_asks].
    rewrite lookup_insert. split; [by eexists|done].
  - (* listing sale *)
    right. pose proof (resting_match _ _ _ Hwf H8) as Hrest.
    pose proof (resting_price_pos _ _ Hwf Hrest) as Hpos. pose proof (match_denom _ _ _ H8) as Hdn.
    pose proof (sale_msgs_reg _ _ _ _ _ _ _ _ H9) as Hreg.
    destruct (sale_msgs_payments p v _ a mb false reg ps Hcfg Hpos H9) as [Hpay Hdues].
    exists a, mb, false, ([MSend (cf_fee_manager (s_config st)) funds] ++ reg), []. split; try done; try (match goal with |- sale_cause _ _ _ _ _ _ _ => by cause end).
    + by apply TradeList.
    + rewrite Hpay, mb_recipient_to. by subst funds.
    + exists [MSend (cf_fee_manager (s_config st)) funds], reg. split_and!; [done|left|done]. eauto.
    + by left.
    + by left.
  - left. split_and!; [rest|by kept|]. left. intros ? ? ?. apply not_elem_of_nil.
  - (* updated ask sale *)
    right. pose proof (resting_match _ _ _ Hwf H4) as Hrest.
    pose proof (resting_price_pos _ _ Hwf Hrest) as Hpos. pose proof (match_denom _ _ _ H4) as Hdn.
    pose proof (sale_msgs_reg _ _ _ _ _ _ _ _ H5) as Hreg.
    destruct (sale_msgs_payments p v _ a mb false reg ps Hcfg Hpos H5) as [Hpay Hdues].
    exists a, mb, false, reg, []. split; try done; try (match goal with |- sale_cause _ _ _ _ _ _ _ => by cause end).
    + by apply TradeUpdateAsk.
    + by rewrite Hpay, mb_recipient_to.
    + exists [], reg. split_and!; [done|right; split; [intros; split; congruence|done]|done].
    + by left.
    + cbn. by destruct (wf_ask _ _ Hwf _ _ H1) as (->&?&_).
    + by left.
  - left. split_and!; [rest|by kept|]. right. left. eauto.
  - (* accept ask *)
    right. destruct (wf_ask _ _ Hwf _ _ H0) as (Hid&Hgid&Hpos&_).
    pose proof (sale_msgs_reg _ _ _ _ _ _ _ _ H4) as Hreg.
    destruct (sale_msgs_payments p v _ a (MBid b) true reg ps Hcfg Hpos H4) as [Hpay Hdues].
    exists a, (MBid b), true, reg, (refund sender fs). split; try done; try (match goal with |- sale_cause _ _ _ _ _ _ _ => by cause end).
    + by eapply TradeAcceptAsk.
    + by rewrite Hpay.
    + exists [], reg. split_and!; [done|right; split; [intros; split; congruence|done]|done].
    + apply refund_change.
      repeat match goal with
      | H : s_bids _ !! _ = Some _ |- _ => destruct (wf_bid _ _ Hwf _ _ H) as (_&?&_); clear H
      | H : s_cbids _ !! _ = Some _ |- _ => destruct (wf_cbid _ _ Hwf _ _ H) as (_&?&_); clear H end.
      eauto using nb_sub_pos, nb_normalize_pos, nb_add_pos.
    + congruence.
    + left. apply has_coins_one in H1 as [? _]. done.
  - (* bid sale *)
    right. pose proof H5 as Hmt. apply bid_match_some in H5 as (Ha&Hdn&Hle). destruct (wf_ask _ _ Hwf _ _ Ha) as (Hid&Hgid&Hpos&_).
    pose proof (sale_msgs_reg _ _ _ _ _ _ _ _ H7) as Hreg.
    destruct (sale_msgs_payments p v _ a (MBid b) true reg ps Hcfg Hpos H7) as [Hpay Hdues].
    exists a, (MBid b), true, reg, (refund sender fs). split; try done; try (match goal with |- sale_cause _ _ _ _ _ _ _ => by cause end).
    + eapply TradeBid; [done|]. by rewrite Hid.
    + by rewrite Hpay.
    + exists [], reg. split_and!; [done|right; split; [intros; destruct H; subst; split; congruence|done]|done].
    + apply refund_change.
      repeat match goal with
      | H : s_bids _ !! _ = Some _ |- _ => destruct (wf_bid _ _ Hwf _ _ H) as (_&?&_); clear H
      | H : s_cbids _ !! _ = Some _ |- _ => destruct (wf_cbid _ _ Hwf _ _ H) as (_&?&_); clear H end.
      eauto using nb_sub_pos, nb_normalize_pos, nb_add_pos.
    + congruence.
    + by left.
  - left. split_and!; [rest|by kept|]. left. intros ? ? ?. apply refund_no_nft.
  - (* updated bid sale *)
    right. pose proof H5 as Hmt. apply bid_match_some in H5 as (Ha&Hdn&Hle). destruct (wf_ask _ _ Hwf _ _ Ha) as (Hid&Hgid&Hpos&_).
    pose proof (sale_msgs_reg _ _ _ _ _ _ _ _ H7) as Hreg.
    destruct (sale_msgs_payments p v _ a (MBid b) true reg ps Hcfg Hpos H7) as [Hpay Hdues].
    exists a, (MBid b), true, reg, (refund sender fs). split; try done; try (match goal with |- sale_cause _ _ _ _ _ _ _ => by cause end).
    + eapply TradeUpdateBid; [done|done|]. by rewrite Hid.
    + by rewrite Hpay.
    + exists [], reg. split_and!; [done|right; split; [intros; split; congruence|done]|done].
    + apply refund_change.
      repeat match goal with
      | H : s_bids _ !! _ = Some _ |- _ => destruct (wf_bid _ _ Hwf _ _ H) as (_&?&_); clear H
      | H : s_cbids _ !! _ = Some _ |- _ => destruct (wf_cbid _ _ Hwf _ _ H) as (_&?&_); clear H end.
      eauto using nb_sub_pos, nb_normalize_pos, nb_add_pos.
    + congruence.
    + by left.
  - left. split_and!; [rest|by kept|]. left. intros ? ? ?. apply refund_no_nft.
  - left. split_and!; [rest|by kept|]. left. intros ? ? ?. by intros ?%elem_of_list_singleton.
  - (* accept bid *)
    right. destruct (wf_bid _ _ Hwf _ _ H0) as (Hbid&Hpos&_).
    pose proof H2 as Hmt. apply (accept_bid_ask_Ok p) in H2 as (Hcr&Hid&Hcase); [|done].
    pose proof (sale_msgs_reg _ _ _ _ _ _ _ _ H3) as Hreg.
    destruct (sale_msgs_payments p v _ a (MBid b) false reg ps Hcfg Hpos H3) as [Hpay Hdues].
    exists a, (MBid b), false, reg, []. split; try done; try (match goal with |- sale_cause _ _ _ _ _ _ _ => by cause end).
    + eapply TradeAcceptBid; [done|]. destruct Hcase as [?|(_&->&_)]; [by left|right]. by eexists.
    + by rewrite Hpay.
    + exists [], reg. split_and!; [done|right; split; [intros; split; congruence|done]|done].
    + by left.
    + destruct Hcase as [Ha|(_&->&_)]; [|done]. by destruct (wf_ask _ _ Hwf _ _ Ha) as (_&?&_).
    + destruct Hcase as [?|(_&->&_)]; [by right|left]. apply has_coins_one in H1 as [? _]. done.
  - (* collection bid sale *)
    right. pose proof H5 as Hmt. apply cbid_match_some in H5 as (((i&Ha)&_&Hdn)&Hle&_). destruct (wf_ask _ _ Hwf _ _ Ha) as (Hid&Hgid&Hpos&_).
    pose proof (sale_msgs_reg _ _ _ _ _ _ _ _ H7) as Hreg.
    destruct (sale_msgs_payments p v _ a (MCBid cb) true reg ps Hcfg Hpos H7) as [Hpay Hdues].
    exists a, (MCBid cb), true, reg, (refund sender fs). split; try done; try (match goal with |- sale_cause _ _ _ _ _ _ _ => by cause end).
    + eapply TradeCBid; [done|]. by rewrite Hid.
    + by rewrite Hpay.
    + exists [], reg. split_and!; [done|right; split; [intros; destruct H; subst; split; congruence|done]|done].
    + apply refund_change.
      repeat match goal with
      | H : s_bids _ !! _ = Some _ |- _ => destruct (wf_bid _ _ Hwf _ _ H) as (_&?&_); clear H
      | H : s_cbids _ !! _ = Some _ |- _ => destruct (wf_cbid _ _ Hwf _ _ H) as (_&?&_); clear H end.
      eauto using nb_sub_pos, nb_normalize_pos, nb_add_pos.
    + congruence.
    + by left.
  - left. split_and!; [rest|by kept|]. left. intros ? ? ?. apply refund_no_nft.
  - right. pose proof H5 as Hmt. apply cbid_match_some in H5 as (((i&Ha)&_&Hdn)&Hle&_). destruct (wf_ask _ _ Hwf _ _ Ha) as (Hid&Hgid&Hpos&_).
    pose proof (sale_msgs_reg _ _ _ _ _ _ _ _ H7) as Hreg.
    destruct (sale_msgs_payments p v _ a (MCBid cb) true reg ps Hcfg Hpos H7) as [Hpay Hdues].
    exists a, (MCBid cb), true, reg, (refund sender fs). split; try done; try (match goal with |- sale_cause _ _ _ _ _ _ _ => by cause end).
    + eapply TradeUpdateCBid; [done|done|]. by rewrite Hid.
    + by rewrite Hpay.
    + exists [], reg. split_and!; [done|right; split; [intros; split; congruence|done]|done].
    + apply refund_change.
      repeat match goal with
      | H : s_bids _ !! _ = Some _ |- _ => destruct (wf_bid _ _ Hwf _ _ H) as (_&?&_); clear H
      | H : s_cbids _ !! _ = Some _ |- _ => destruct (wf_cbid _ _ Hwf _ _ H) as (_&?&_); clear H end.
      eauto using nb_sub_pos, nb_normalize_pos, nb_add_pos.
    + congruence.
    + by left.
  - left. split_and!; [rest|by kept|]. left. intros ? ? ?. apply refund_no_nft.
  - left. split_and!; [rest|by kept|]. left. intros ? ? ?. by intros ?%elem_of_list_singleton.
  - (* accept collection bid *)
    right. destruct (wf_cbid _ _ Hwf _ _ H0) as (Hbid&Hpos&_).
    pose proof H2 as Hmt. apply (accept_bid_ask_Ok p) in H2 as (Hcr&Hid&Hcase); [|done].
    pose proof (sale_msgs_reg _ _ _ _ _ _ _ _ H3) as Hreg.
    destruct (sale_msgs_payments p v _ a (MCBid cb) false reg ps Hcfg Hpos H3) as [Hpay Hdues].
    exists a, (MCBid cb), false, reg, []. split; try done; try (match goal with |- sale_cause _ _ _ _ _ _ _ => by cause end).
    + eapply TradeAcceptCBid; [done|]. destruct Hcase as [?|(_&->&_)]; [by left|right]. by eexists.
    + by rewrite Hpay.
    + exists [], reg. split_and!; [done|right; split; [intros; split; congruence|done]|done].
    + by left.
    + destruct Hcase as [Ha|(_&->&_)]; [|done]. by destruct (wf_ask _ _ Hwf _ _ Ha) as (_&?&_).
    + destruct Hcase as [?|(_&->&_)]; [by right|left]. apply has_coins_one in H1 as [? _]. done.
Qed.

Lemma sale_result_nft v e sender funds st m st' msgs a mb f pre post c t to :
  sale_result v e sender funds st m st' msgs a mb f pre post ->
  MNft c t to ∈ msgs -> c = a_coll a /\ t = a_tok a /\ to = nft_to mb.
Proof.
  intros [_ Hm (fee&reg&->&Hfee&Hreg) Hpost _ _ _ _ _ _ _ _ _]. rewrite Hm. rewrite !elem_of_app, elem_of_cons.
  intros [[H|H]|[H|[H|H]]].
  - destruct Hfee as [[_ ->]|[_ ->]]; [by apply elem_of_list_singleton in H|by apply elem_of_nil in H].
  - destruct Hreg as [-> | ->]; [by apply elem_of_nil in H|by apply elem_of_list_singleton in H].
  - by apply send_ones_no_nft in H.
  - by injection H as -> -> ->.
  - destruct Hpost as [-> |(fs&->&_)]; [by apply elem_of_nil in H|by apply elem_of_list_singleton in H].
Qed.

Lemma sells_result v e sender funds st m st' msgs c t to :
  wf p st -> execute p v e sender funds st m = Ok (st', msgs) -> sells st m st' msgs c t to ->
  exists a mb f pre post, sale_result v e sender funds st m st' msgs a mb f pre post /\
    c = a_coll a /\ t = a_tok a /\ to = nft_to mb.
Proof.
  intros Hwf H%execute_effect (Hin&Hrm&Hnew). apply effect_sale_or_not in H as [(_&_&[H|[[id H]|H]])|H]; [..|done].
  - by apply H in Hin.
  - by apply Hrm in H.
  - destruct H as (?&?&?&_&i&Hi&Hn). apply Hnew in Hi as [? Hi]. congruence.
  - destruct H as (a&mb&f&pre&post&H). exists a, mb, f, pre, post. split; [done|]. by eapply sale_result_nft.
Qed.
End Trade.
