(** Inversion of the marketplace v2 handlers: what each successful call does, in one case list. *)
From Verif Require Import Base Common Chain BaseFacts ChainFacts IndexRange IndexFacts SaleFacts V2Model.

Section Facts.
Context (p : params).

(** * Sales *)
Definition sale_price (a : ask) (mb : matching_bid) (ask_first : bool) : coin :=
  if ask_first then d_price (a_det a) else d_price (mb_det mb).
Definition maker_finder (a : ask) (mb : matching_bid) (ask_first : bool) : option addr :=
  if ask_first then d_finder (a_det a) else d_finder (mb_det mb).
Definition taker_finder (a : ask) (mb : matching_bid) (ask_first : bool) : option addr :=
  if ask_first then d_finder (mb_det mb) else d_finder (a_det a).
Definition sale_state (st : state) (a : ask) (mb : matching_bid) : state :=
  State (s_config st) (s_denoms st) (s_fees st) (s_nonce st)
        (delete (a_id a) (s_asks st))
        (match mb with MBid b => delete (b_id b) (s_bids st) | MCBid _ => s_bids st end)
        (match mb with MBid _ => s_cbids st | MCBid cb => delete (cb_id cb) (s_cbids st) end).

(** The messages [msgs] carry out the sale of [a] to [mb]. *)
Definition sale_msgs (v : view) (cfg : config) (a : ask) (mb : matching_bid) (ask_first : bool)
    (reg : list cmsg) (ps : list payment) : Prop :=
  exists pf royalty,
    divide_protocol_fees cfg (bool_decide (is_Some (maker_finder a mb ask_first)))
                             (bool_decide (is_Some (taker_finder a mb ask_first))) = Ok pf /\
    fetch_or_set_royalties p v (cf_registry cfg) (a_coll a) (Some (p_self p)) [] = Ok (royalty, reg) /\
    build_payments (sale_price a mb ask_first) (ask_recipient a)
      (sale_fees cfg pf (maker_finder a mb ask_first) (taker_finder a mb ask_first) royalty) = Ok ps.

Lemma fetch_resp v registry coll prot resp r msgs :
  fetch_or_set_royalties p v registry coll prot resp = Ok (r, msgs) ->
  exists reg, fetch_or_set_royalties p v registry coll prot [] = Ok (r, reg) /\ msgs = resp ++ reg /\
              (reg = [] \/ reg = [MRegInit registry coll]).
Proof.
  unfold fetch_or_set_royalties. intros H. apply bind_Ok in H as (x&->&H). cbn.
  destruct x as [re|]; [|destruct (q_info v coll) as [[cs [[pa sh]|]]|]]; cbn in *.
  - injection H as <- <-. exists []. rewrite app_nil_r. auto.
  - apply bind_Ok in H as (y&->&H). injection H as <- <-. eexists. cbn. auto.
  - injection H as <- <-. exists []. rewrite app_nil_r. auto.
  - injection H as <- <-. exists []. rewrite app_nil_r. auto.
Qed.

Lemma sale_msgs_reg v cfg a mb f reg ps :
  sale_msgs v cfg a mb f reg ps -> reg = [] \/ reg = [MRegInit (cf_registry cfg) (a_coll a)].
Proof.
  intros (pf&r&_&H&_). apply fetch_resp in H as (reg'&H&->&?). by rewrite app_nil_l.
Qed.

Lemma finalize_sale_Ok v st a cfg mb f resp st' msgs :
  finalize_sale p v st a cfg mb f resp = Ok (st', msgs) ->
  exists reg ps, sale_msgs v cfg a mb f reg ps /\ st' = sale_state st a mb /\
    msgs = resp ++ reg ++ (pay_msg <$> ps) ++ [MNft (a_coll a) (a_tok a) (mb_recipient mb)].
Proof.
  unfold finalize_sale, sale_msgs, sale_price, maker_finder, taker_finder. intros H.
  destruct f; cbv beta iota zeta in H.
  all: apply bind_Ok in H as (pf&Hpf&H); apply bind_Ok in H as ([royalty resp']&Hr&H);
    apply bind_Ok in H as (ps&Hps&H); injection H as <- <-;
    apply fetch_resp in Hr as (reg&Hr&->&_);
    exists reg, ps; split_and!; [by eauto| by destruct mb|];
    unfold transfer_nft; rewrite payout_app; by rewrite <-!app_assoc.
Qed.

(** * Address validation of message fields *)
Definition opt_valid (o : option addr) : Prop := match o with Some a => p_valid p a = true | None => True end.
Definition det_valid (d : details) : Prop := opt_valid (d_recipient d) /\ opt_valid (d_finder d).

Lemma addr_validate_Ok s a : addr_validate p s = Ok a -> a = s /\ p_valid p s = true.
Proof. unfold addr_validate. intros H. inv_ok. done. Qed.
Lemma maybe_addr_Ok s a : maybe_addr p s = Ok a -> a = s /\ opt_valid s.
Proof.
  unfold maybe_addr. destruct s; intros H; inv_ok; [|done].
  apply addr_validate_Ok in H0 as [-> ?]. done.
Qed.
Lemma details_Ok d d' : details_str_to_addr p d = Ok d' -> d' = d /\ det_valid d.
Proof.
  unfold details_str_to_addr. intros H. inv_ok.
  apply maybe_addr_Ok in H0 as [-> ?]. apply maybe_addr_Ok in H1 as [-> ?]. by destruct d.
Qed.

(** * Payments back to the caller *)
Definition refund (sender : addr) (fs : list coin) : list cmsg := if nb_is_empty fs then [] else [MSend sender fs].
Lemma refund_rest_app sender fs resp : refund_rest sender fs resp = resp ++ refund sender fs.
Proof. unfold refund_rest, refund, transfer_coins. destruct (nb_is_empty fs); [by rewrite app_nil_r|done]. Qed.
Lemma out_refund sender fs d : out (refund sender fs) d = amt fs d.
Proof.
  unfold refund. destruct (nb_is_empty fs) eqn:E; cbn; [|lia]. by rewrite (nb_is_empty_amt _ d E).
Qed.
Lemma funds_sub_Ok fs c fs' : funds_sub fs c = Ok fs' -> nb_sub fs c = Ok fs'.
Proof. unfold funds_sub. destruct (nb_sub fs c); congruence. Qed.

(** * One case per way a call can succeed *)
Definition is_admin_msg (m : msg) : bool :=
  match m with
  | UpdateConfig _ | UpdateCollectionDenom _ _ | SetListingFee _ | RemoveListingFee _ => true
  | _ => false
  end.

Section Effects.
Context (v : view) (e : env) (sender : addr) (funds : list coin) (st : state).
Let cfg := s_config st.
Let st1 := set_nonce st (next_nonce st).

Inductive effect : msg -> state -> list cmsg -> Prop :=
  | EffAdmin m st' :
      is_admin_msg m = true -> q_admin v = Some (Some sender) ->
      s_asks st' = s_asks st -> s_bids st' = s_bids st -> s_cbids st' = s_cbids st -> s_nonce st' = s_nonce st ->
      (s_config st' = s_config st \/ config_check (s_config st') = Ok tt) ->
      effect m st' []
  | EffAskRest coll tok d lp :
      let a := ask_new p sender coll tok d in
      p_valid p coll = true -> det_valid d ->
      only_owner v sender coll tok = Ok tt -> only_tradable v e coll = Ok tt ->
      only_valid_price st cfg coll (d_price d) = Ok tt ->
      funds = [lp] -> 0 < c_amount lp -> s_fees st !! c_denom lp = Some (c_amount lp) ->
      match_with_bid st a = None -> s_asks st !! a_id a = None ->
      effect (SetAsk coll tok d) (set_asks st (<[a_id a := a]> (s_asks st)))
             [MSend (cf_fee_manager cfg) [lp]; MNft coll tok (p_self p)]
  | EffAskSale m coll tok d lp mb reg ps :
      let a := ask_new p sender coll tok d in
      m = SetAsk coll tok d \/ m = SellNft coll tok d ->
      p_valid p coll = true -> det_valid d ->
      only_owner v sender coll tok = Ok tt -> only_tradable v e coll = Ok tt ->
      only_valid_price st cfg coll (d_price d) = Ok tt ->
      funds = [lp] -> 0 < c_amount lp -> s_fees st !! c_denom lp = Some (c_amount lp) ->
      match_with_bid st a = Some mb ->
      sale_msgs v cfg a mb false reg ps ->
      effect m (sale_state st a mb)
             (MSend (cf_fee_manager cfg) [lp] :: reg ++ (pay_msg <$> ps) ++ [MNft coll tok (mb_recipient mb)])
  | EffUpdAskRest id d a0 :
      let a := Ask (a_id a0) (a_creator a0) (a_coll a0) (a_tok a0) d in
      det_valid d -> funds = [] -> s_asks st !! id = Some a0 -> sender = a_creator a0 ->
      only_valid_price st cfg (a_coll a0) (d_price d) = Ok tt ->
      match_with_bid st a = None ->
      effect (UpdateAsk id d) (set_asks st (<[a_id a := a]> (s_asks st))) []
  | EffUpdAskSale id d a0 mb reg ps :
      let a := Ask (a_id a0) (a_creator a0) (a_coll a0) (a_tok a0) d in
      det_valid d -> funds = [] -> s_asks st !! id = Some a0 -> sender = a_creator a0 ->
      only_valid_price st cfg (a_coll a0) (d_price d) = Ok tt ->
      match_with_bid st a = Some mb ->
      sale_msgs v cfg a mb false reg ps ->
      effect (UpdateAsk id d) (sale_state st a mb)
             (reg ++ (pay_msg <$> ps) ++ [MNft (a_coll a0) (a_tok a0) (mb_recipient mb)])
  | EffRemoveAsk id a :
      funds = [] -> s_asks st !! id = Some a -> sender = a_creator a ->
      effect (RemoveAsk id) (set_asks st (delete (a_id a) (s_asks st)))
             [MNft (a_coll a) (a_tok a) (ask_recipient a)]
  | EffAcceptAsk id d a fs0 fs reg ps :
      let b := bid_new p sender (a_coll a) (a_tok a) d (e_height e) (next_nonce st) in
      det_valid d -> s_asks st !! id = Some a ->
      has_coins [d_price d] (d_price (a_det a)) = true ->
      nb_normalize funds = Ok fs0 -> nb_sub fs0 (d_price (a_det a)) = Ok fs ->
      sale_msgs v cfg a (MBid b) true reg ps ->
      effect (AcceptAsk id d) (sale_state st1 a (MBid b))
             (reg ++ (pay_msg <$> ps) ++ MNft (a_coll a) (a_tok a) (bid_recipient b) :: refund sender fs)
  | EffBidSale m coll tok d a fs0 fs reg ps :
      let b := bid_new p sender coll tok d (e_height e) (next_nonce st) in
      m = SetBid coll tok d \/ m = BuySpecificNft coll tok d ->
      p_valid p coll = true -> det_valid d ->
      only_tradable v e coll = Ok tt -> only_valid_price st cfg coll (d_price d) = Ok tt ->
      nb_normalize funds = Ok fs0 -> bid_match_with_ask p st b = Some a ->
      nb_sub fs0 (d_price (a_det a)) = Ok fs ->
      sale_msgs v cfg a (MBid b) true reg ps ->
      effect m (sale_state st1 a (MBid b))
             (reg ++ (pay_msg <$> ps) ++ MNft (a_coll a) (a_tok a) (bid_recipient b) :: refund sender fs)
  | EffBidRest coll tok d fs0 fs :
      let b := bid_new p sender coll tok d (e_height e) (next_nonce st) in
      p_valid p coll = true -> det_valid d ->
      only_tradable v e coll = Ok tt -> only_valid_price st cfg coll (d_price d) = Ok tt ->
      nb_normalize funds = Ok fs0 -> bid_match_with_ask p st b = None ->
      nb_sub fs0 (d_price d) = Ok fs -> s_bids st !! b_id b = None ->
      effect (SetBid coll tok d) (set_bids st1 (<[b_id b := b]> (s_bids st))) (refund sender fs)
  | EffUpdBidSale id d b0 a fs0 fs1 fs reg ps :
      let b := Bid (b_id b0) (b_creator b0) (b_coll b0) (b_tok b0) d in
      det_valid d -> s_bids st !! id = Some b0 -> sender = b_creator b0 ->
      only_valid_price st cfg (b_coll b0) (d_price d) = Ok tt ->
      nb_normalize funds = Ok fs0 -> nb_add fs0 (d_price (b_det b0)) = Ok fs1 ->
      bid_match_with_ask p st b = Some a ->
      nb_sub fs1 (d_price (a_det a)) = Ok fs ->
      sale_msgs v cfg a (MBid b) true reg ps ->
      effect (UpdateBid id d) (sale_state st a (MBid b))
             (reg ++ (pay_msg <$> ps) ++ MNft (a_coll a) (a_tok a) (bid_recipient b) :: refund sender fs)
  | EffUpdBidRest id d b0 fs0 fs1 fs :
      let b := Bid (b_id b0) (b_creator b0) (b_coll b0) (b_tok b0) d in
      det_valid d -> s_bids st !! id = Some b0 -> sender = b_creator b0 ->
      only_valid_price st cfg (b_coll b0) (d_price d) = Ok tt ->
      nb_normalize funds = Ok fs0 -> nb_add fs0 (d_price (b_det b0)) = Ok fs1 ->
      bid_match_with_ask p st b = None ->
      nb_sub fs1 (d_price d) = Ok fs ->
      effect (UpdateBid id d) (set_bids st (<[b_id b := b]> (s_bids st))) (refund sender fs)
  | EffRemoveBid id b :
      funds = [] -> s_bids st !! id = Some b -> sender = b_creator b ->
      effect (RemoveBid id) (set_bids st (delete (b_id b) (s_bids st))) [MSend sender [d_price (b_det b)]]
  | EffAcceptBid id d b a reg ps :
      det_valid d -> s_bids st !! id = Some b ->
      has_coins [d_price (b_det b)] (d_price d) = true ->
      accept_bid_ask p v sender st (b_coll b) (b_tok b) d = Ok a ->
      sale_msgs v cfg a (MBid b) false reg ps ->
      effect (AcceptBid id d) (sale_state st a (MBid b))
             (reg ++ (pay_msg <$> ps) ++ [MNft (a_coll a) (a_tok a) (bid_recipient b)])
  | EffCBidSale m coll d a fs0 fs reg ps :
      let cb := cbid_new p sender coll d (e_height e) (next_nonce st) in
      m = SetCollectionBid coll d \/ m = BuyCollectionNft coll d ->
      p_valid p coll = true -> det_valid d ->
      only_tradable v e coll = Ok tt -> only_valid_price st cfg coll (d_price d) = Ok tt ->
      nb_normalize funds = Ok fs0 -> cbid_match_with_ask st cb = Ok (Some a) ->
      nb_sub fs0 (d_price (a_det a)) = Ok fs ->
      sale_msgs v cfg a (MCBid cb) true reg ps ->
      effect m (sale_state st1 a (MCBid cb))
             (reg ++ (pay_msg <$> ps) ++ MNft (a_coll a) (a_tok a) (cbid_recipient cb) :: refund sender fs)
  | EffCBidRest coll d fs0 fs :
      let cb := cbid_new p sender coll d (e_height e) (next_nonce st) in
      p_valid p coll = true -> det_valid d ->
      only_tradable v e coll = Ok tt -> only_valid_price st cfg coll (d_price d) = Ok tt ->
      nb_normalize funds = Ok fs0 -> cbid_match_with_ask st cb = Ok None ->
      nb_sub fs0 (d_price d) = Ok fs -> s_cbids st !! cb_id cb = None ->
      effect (SetCollectionBid coll d) (set_cbids st1 (<[cb_id cb := cb]> (s_cbids st))) (refund sender fs)
  | EffUpdCBidSale id d cb0 a fs0 fs1 fs reg ps :
      let cb := CBid (cb_id cb0) (cb_creator cb0) (cb_coll cb0) d in
      det_valid d -> s_cbids st !! id = Some cb0 -> sender = cb_creator cb0 ->
      only_valid_price st cfg (cb_coll cb0) (d_price d) = Ok tt ->
      nb_normalize funds = Ok fs0 -> nb_add fs0 (d_price (cb_det cb0)) = Ok fs1 ->
      cbid_match_with_ask st cb = Ok (Some a) ->
      nb_sub fs1 (d_price (a_det a)) = Ok fs ->
      sale_msgs v cfg a (MCBid cb) true reg ps ->
      effect (UpdateCollectionBid id d) (sale_state st a (MCBid cb))
             (reg ++ (pay_msg <$> ps) ++ MNft (a_coll a) (a_tok a) (cbid_recipient cb) :: refund sender fs)
  | EffUpdCBidRest id d cb0 fs0 fs1 fs :
      let cb := CBid (cb_id cb0) (cb_creator cb0) (cb_coll cb0) d in
      det_valid d -> s_cbids st !! id = Some cb0 -> sender = cb_creator cb0 ->
      only_valid_price st cfg (cb_coll cb0) (d_price d) = Ok tt ->
      nb_normalize funds = Ok fs0 -> nb_add fs0 (d_price (cb_det cb0)) = Ok fs1 ->
      cbid_match_with_ask st cb = Ok None ->
      nb_sub fs1 (d_price d) = Ok fs ->
      effect (UpdateCollectionBid id d) (set_cbids st (<[cb_id cb := cb]> (s_cbids st))) (refund sender fs)
  | EffRemoveCBid id cb :
      funds = [] -> s_cbids st !! id = Some cb -> sender = cb_creator cb ->
      effect (RemoveCollectionBid id) (set_cbids st (delete (cb_id cb) (s_cbids st)))
             [MSend sender [d_price (cb_det cb)]]
  | EffAcceptCBid id tok d cb a reg ps :
      det_valid d -> s_cbids st !! id = Some cb ->
      has_coins [d_price (cb_det cb)] (d_price d) = true ->
      accept_bid_ask p v sender st (cb_coll cb) tok d = Ok a ->
      sale_msgs v cfg a (MCBid cb) false reg ps ->
      effect (AcceptCollectionBid id tok d) (sale_state st a (MCBid cb))
             (reg ++ (pay_msg <$> ps) ++ [MNft (a_coll a) (a_tok a) (cbid_recipient cb)]).

Lemma only_contract_admin_Ok u : only_contract_admin v sender = Ok u -> q_admin v = Some (Some sender).
Proof.
  unfold only_contract_admin. destruct (q_admin v) as [[ad|]|]; intros H; inv_ok.
  apply bool_decide_eq_true in H. by subst.
Qed.
Lemma nonpayable_Ok fs u : nonpayable fs = Ok u -> fs = [].
Proof. by destruct fs. Qed.
Lemma one_coin_Ok fs c : one_coin fs = Ok c -> fs = [c] /\ 0 < c_amount c.
Proof.
  unfold one_coin. destruct fs as [|x [|y l]]; intros H; inv_ok. split; [done|lia].
Qed.

Ltac norm :=
  repeat match goal with
  | H : addr_validate _ _ = Ok _ |- _ => apply addr_validate_Ok in H as [-> ?]
  | H : details_str_to_addr _ _ = Ok _ |- _ => apply details_Ok in H as [-> ?]
  | H : only_contract_admin _ _ = Ok _ |- _ => apply only_contract_admin_Ok in H
  | H : nonpayable _ = Ok _ |- _ => apply nonpayable_Ok in H
  | H : one_coin _ = Ok _ |- _ => apply one_coin_Ok in H as [? ?]
  | H : bool_decide _ = true |- _ => apply bool_decide_eq_true in H
  | H : funds_sub _ _ = Ok _ |- _ => apply funds_sub_Ok in H
  | H : finalize_sale _ _ _ _ _ _ _ _ = Ok ?r |- _ =>
      first [is_var r; destruct r as [? ?] | apply finalize_sale_Ok in H as (?&?&?&->&->)]
  end.
Ltac prep :=
  repeat first [progress inv_ok | progress norm | progress cbv zeta in * | progress cbn [fst snd] in *].

Lemma execute_effect m st' msgs :
  execute p v e sender funds st m = Ok (st', msgs) -> effect m st' msgs.
Proof.
  destruct m; cbn [execute]; intros H.
  - unfold execute_update_config in H. prep. apply EffAdmin; try done. by right.
  - unfold execute_update_collection_denom in H. prep. apply EffAdmin; try done. by left.
  - unfold execute_set_listing_fee in H. prep. apply EffAdmin; try done. by left.
  - unfold execute_remove_listing_fee in H. prep. apply EffAdmin; try done. by left.
  - unfold execute_set_ask in H. prep.
    + eapply EffAskSale; eauto. congruence.
    + eapply EffAskRest; eauto. congruence.
  - unfold execute_remove_ask in H. prep. by eapply EffRemoveAsk.
  - unfold execute_update_ask in H. prep.
    + cbn [a_coll a_tok]. eapply EffUpdAskSale; eauto.
    + eapply EffUpdAskRest; eauto.
  - unfold execute_accept_ask in H. prep. rewrite refund_rest_app, <-!app_assoc. cbn. eapply EffAcceptAsk; eauto.
  - unfold execute_set_bid in H. prep.
    + rewrite refund_rest_app, <-!app_assoc. cbn. eapply EffBidSale; eauto.
    + rewrite refund_rest_app. eapply EffBidRest; eauto.
  - unfold execute_remove_bid in H. prep. by eapply EffRemoveBid.
  - unfold execute_update_bid in H. prep.
    + rewrite refund_rest_app, <-!app_assoc. cbn. eapply EffUpdBidSale; eauto.
    + rewrite refund_rest_app. eapply EffUpdBidRest; eauto.
  - unfold execute_accept_bid in H. prep. eapply EffAcceptBid; eauto.
  - unfold execute_set_collection_bid in H. prep.
    + rewrite refund_rest_app, <-!app_assoc. cbn. eapply EffCBidSale; eauto.
    + rewrite refund_rest_app. eapply EffCBidRest; eauto.
  - unfold execute_remove_collection_bid in H. prep. by eapply EffRemoveCBid.
  - unfold execute_update_collection_bid in H. prep.
    + rewrite refund_rest_app, <-!app_assoc. cbn. eapply EffUpdCBidSale; eauto.
    + rewrite refund_rest_app. eapply EffUpdCBidRest; eauto.
  - unfold execute_accept_collection_bid in H. prep. eapply EffAcceptCBid; eauto.
  - unfold execute_set_ask in H. prep. eapply EffAskSale; eauto. congruence.
  - unfold execute_set_bid in H. prep. rewrite refund_rest_app, <-!app_assoc. cbn. eapply EffBidSale; eauto.
  - unfold execute_set_collection_bid in H. prep.
    rewrite refund_rest_app, <-!app_assoc. cbn. eapply EffCBidSale; eauto.
Qed.
End Effects.
End Facts.
