(** The events of marketplace v2 tell the truth: proofs. *)
From stdpp Require Import relations pretty.
From Verif Require Import Base Common Chain BaseFacts ChainFacts IndexRange IndexFacts SaleFacts
  V2Model V2Spec V2Facts V2Match V2Inv V2Sale V2Trade V2Reach V2Book V2More Events EventFacts V2Events V2EventSpec.

Local Lemma bind_ok {A B} (a : A) (g : A -> result B) : (y ← Ok a; g y) = g a.
Proof. done. Qed.

(** * Labels *)
Definition named_fee (sc : coin) (x : string * fee) : string * payment :=
  (fst x, Payment (fee_recipient (snd x)) (Coin (c_denom sc) (ceil_div (c_amount sc * fee_share (snd x)) DEC_ONE))).
Definition charged (x : string * fee) : bool := negb (fee_share (snd x) =? 0).

Lemma label_fee_payments_Ok sc fees rem ps fin :
  build_fee_payments sc (snd <$> fees) rem = Ok (ps, fin) ->
  label_fee_payments sc fees rem = Ok (named_fee sc <$> List.filter charged fees, fin).
Proof.
  revert rem ps. induction fees as [|[l f] fees IH]; intros rem ps; cbn [fmap list_fmap fst snd build_fee_payments label_fee_payments List.filter];
    intros H.
  - by injection H as <- <-.
  - unfold charged at 1. cbn [snd]. destruct (fee_share f =? 0) eqn:E; cbn [negb]; [by eapply IH|].
    apply bind_Ok in H as (x&Hx&H). apply bind_Ok in H as (rest&Hrest&H). apply bind_Ok in H as ([ps' fin']&Hps&H).
    injection H as <- <-. rewrite Hx, bind_ok, Hrest, bind_ok. rewrite (IH _ _ Hps), bind_ok.
    cbn [fmap list_fmap]. do 3 f_equal. unfold named_fee. cbn [fst snd]. by rewrite (mul_ceil_eq _ _ _ Hx).
Qed.

Lemma label_payments_Ok sc s fees ps :
  build_payments sc s (snd <$> fees) = Ok ps ->
  exists rest, label_payments sc s fees =
      Ok ((named_fee sc <$> List.filter charged fees) ++ (if rest =? 0 then [] else [("seller", Payment s (Coin (c_denom sc) rest))])) /\
    total_dues (due_of (c_amount sc) <$> List.filter (fun f => negb (fee_share f =? 0)) (snd <$> fees)) + rest = c_amount sc.
Proof.
  unfold build_payments, label_payments. intros H. apply bind_Ok in H as ([fps rest]&Hf&H).
  rewrite (label_fee_payments_Ok _ _ _ _ _ Hf), bind_ok. exists rest.
  apply build_fee_payments_Ok in Hf as (Hsum&Hden&_&Hf2).
  destruct (fee_payments_eq _ _ _ Hf2 Hden) as [_ Htot].
  split; [|lia]. destruct (rest =? 0); [by rewrite app_nil_r|done].
Qed.

Lemma label_fees_snd cfg pf mk tk r : snd <$> label_fees cfg pf mk tk r = sale_fees cfg pf mk tk r.
Proof.
  unfold label_fees, sale_fees. rewrite !fmap_app.
  destruct (0 <? pf_protocol pf), (0 <? pf_maker pf), (0 <? pf_taker pf), mk, tk, r; done.
Qed.

Definition named_due (price : N) (x : string * fee) : string * (addr * N) := (fst x, due_of price (snd x)).

Lemma filter_pos_named price fees :
  0 < price ->
  List.filter (fun x => 0 <? snd (snd x)) (named_due price <$> fees) = named_due price <$> List.filter charged fees.
Proof.
  intros Hp. induction fees as [|[l f] fees IH]; cbn [fmap list_fmap List.filter]; [done|].
  unfold charged at 1. cbn [snd named_due due_of fst]. destruct (fee_share f =? 0) eqn:E; cbn [negb].
  - apply N.eqb_eq in E. rewrite E, N.mul_0_r, ceil_div_0 by (unfold DEC_ONE; lia). cbn. done.
  - rewrite (proj2 (N.ltb_lt _ _)); [by rewrite IH|]. apply ceil_div_pos; [unfold DEC_ONE; lia|nia].
Qed.

Lemma filter_snd {A B} (g : B -> bool) (l : list (A * B)) : List.filter g (snd <$> l) = snd <$> List.filter (fun x => g (snd x)) l.
Proof. induction l as [|[a b] l IH]; cbn; [done|]. destruct (g b); cbn; by rewrite IH. Qed.

Section Facts.
Context (p : params).

Lemma named_dues_snd v cfg a mb f : snd <$> named_dues p v cfg a mb f = sale_dues p v cfg a mb f.
Proof.
  unfold named_dues, sale_dues. cbv zeta. rewrite !fmap_app. destruct (maker a mb f), (taker a mb f), (royalty_due p v cfg (a_coll a)) as [[? ?]|]; done.
Qed.
Lemma named_payments_snd v cfg a mb f : snd <$> named_payments p v cfg a mb f = sale_payments p v cfg a mb f.
Proof.
  unfold named_payments, sale_payments. cbv zeta. rewrite <-(filter_snd (fun x => 0 <? snd x)), fmap_app, named_dues_snd. done.
Qed.

Lemma named_fee_dues v cfg a mb f pf r reg :
  config_check cfg = Ok tt ->
  divide_protocol_fees cfg (bool_decide (is_Some (maker_finder a mb f))) (bool_decide (is_Some (taker_finder a mb f))) = Ok pf ->
  fetch_or_set_royalties p v (cf_registry cfg) (a_coll a) (Some (p_self p)) [] = Ok (r, reg) ->
  0 < c_amount (trade_price a mb f) ->
  List.filter (fun x => 0 <? snd (snd x))
    (named_due (c_amount (trade_price a mb f)) <$> label_fees cfg pf (maker_finder a mb f) (taker_finder a mb f) r) =
  List.filter (fun x => 0 <? snd (snd x)) (named_dues p v cfg a mb f).
Proof.
  intros Hcfg Hpf Hr Hp. rewrite divide_fees_Ok in Hpf by done.
  match type of Hpf with Ok ?x = Ok _ => assert (pf = x) as -> by congruence end.
  apply fetch_royalty_due in Hr. unfold named_dues. cbv zeta. rewrite Hr.
  rewrite !maker_eq, !taker_eq, !eff_if_some.
  set (price := c_amount (trade_price a mb f)) in *. clearbody price.
  set (mk := maker a mb f). set (tk := taker a mb f). clearbody mk tk.
  unfold label_fees. cbn [pf_protocol pf_maker pf_taker].
  rewrite !fmap_app, !List.filter_app. f_equal; [|f_equal; [|f_equal]].
  - set (k := 10000 - if_some mk (cf_maker_bps cfg) - if_some tk (cf_taker_bps cfg)). destruct (0 <? cf_protocol_bps cfg * k * 10000000000) eqn:E.
    + cbn [fmap list_fmap]. unfold named_due, due_of, protocol_part. cbn [fst snd fee_recipient fee_share]. fold k.
      rewrite ceil_bps. by rewrite N.mul_assoc.
    + unfold protocol_part. fold k.
      replace (price * cf_protocol_bps cfg * k) with 0 by nia. rewrite ceil_div_0 by lia. done.
  - destruct mk as [x|]; [|by destruct (0 <? _)]. cbn [if_some].
    destruct (0 <? cf_protocol_bps cfg * cf_maker_bps cfg * 10000000000) eqn:E.
    + cbn [fmap list_fmap]. unfold named_due, due_of, reward_part. cbn [fst snd fee_recipient fee_share if_some].
      rewrite ceil_bps. by rewrite N.mul_assoc.
    + unfold reward_part. cbn [if_some]. replace (price * cf_protocol_bps cfg * cf_maker_bps cfg) with 0 by nia.
      rewrite ceil_div_0 by lia. done.
  - destruct tk as [x|]; [|by destruct (0 <? _)]. cbn [if_some].
    destruct (0 <? cf_protocol_bps cfg * cf_taker_bps cfg * 10000000000) eqn:E.
    + cbn [fmap list_fmap]. unfold named_due, due_of, reward_part. cbn [fst snd fee_recipient fee_share if_some].
      rewrite ceil_bps. by rewrite N.mul_assoc.
    + unfold reward_part. cbn [if_some]. replace (price * cf_protocol_bps cfg * cf_taker_bps cfg) with 0 by nia.
      rewrite ceil_div_0 by lia. done.
  - destruct r as [[rr rs]|]; [|done]. done.
Qed.

Lemma sale_events_report v cfg a mb f reg ps :
  config_check cfg = Ok tt -> 0 < c_amount (trade_price a mb f) -> sale_msgs p v cfg a mb f reg ps ->
  sale_events p v cfg a mb f = [sale_report p v cfg a mb f].
Proof.
  intros Hcfg Hp (pf&r&Hpf&Hr&Hb).
  pose proof (named_fee_dues _ _ _ _ _ _ _ _ Hcfg Hpf Hr Hp) as Hdues.
  assert (sale_events p v cfg a mb f =
    match (pf ← divide_protocol_fees cfg (bool_decide (is_Some (maker_finder a mb f))) (bool_decide (is_Some (taker_finder a mb f)));
         rr ← fetch_or_set_royalties p v (cf_registry cfg) (a_coll a) (Some (p_self p)) [];
         label_payments (sale_price a mb f) (ask_recipient a) (label_fees cfg pf (maker_finder a mb f) (taker_finder a mb f) (fst rr))) with
    | Ok payments =>
      [Event "finalize-sale"
        ([("collection", a_coll a); ("token_id", a_tok a); ("denom", c_denom (sale_price a mb f));
          ("price", pretty (c_amount (sale_price a mb f))); ("seller_recipient", ask_recipient a);
          ("nft_recipient", mb_recipient mb); ("ask", a_id a)] ++
         [match mb with MBid b => ("bid", b_id b) | MCBid cb => ("collection_bid", cb_id cb) end] ++
         ((fun x => (fst x, pretty (c_amount (pay_funds (snd x))))) <$> payments))]
    | Err _ => []
    end) as -> by (by destruct f).
  rewrite Hpf, bind_ok, Hr, bind_ok. cbn [fst].
  rewrite <-label_fees_snd in Hb. apply label_payments_Ok in Hb as (rest&->&Hsum).
  rewrite sale_price_eq in *. unfold sale_report. cbv zeta. f_equal. f_equal.
  rewrite mb_recipient_to.
  match goal with |- ?l = _ => match l with ?x ++ ?y ++ ?z => change l with ((x ++ y) ++ z) end end.
  f_equal. unfold named_payments. cbv zeta. rewrite List.filter_app, !fmap_app, <-Hdues.
  rewrite filter_pos_named by done. f_equal.
  - rewrite <-!list_fmap_compose. apply list_fmap_ext. intros i [l fe] _. done.
  - rewrite named_dues_snd.
    assert (total_dues (sale_dues p v cfg a mb f) =
      total_dues (due_of (c_amount (trade_price a mb f)) <$>
        List.filter (fun f0 => negb (fee_share f0 =? 0)) (snd <$> label_fees cfg pf (maker_finder a mb f) (taker_finder a mb f) r))) as ->.
    { rewrite <-filter_pos_due by done. rewrite label_fees_snd.
      change (List.filter _ _) with (fee_dues cfg pf (c_amount (trade_price a mb f)) (maker_finder a mb f) (taker_finder a mb f) r).
      rewrite (fee_dues_eq p v cfg a mb f pf r reg) by done. by rewrite total_dues_filter. }
    set (T := total_dues _) in *. clearbody T.
    replace (c_amount (trade_price a mb f) - T) with rest by lia.
    cbn [List.filter snd]. destruct (rest =? 0) eqn:E.
    + replace (0 <? rest) with false by lia. done.
    + replace (0 <? rest) with true by lia. done.
Qed.

(** * The event of each call *)
Definition asks_first (m : msg) : bool :=
  match m with
  | AcceptAsk _ _ | SetBid _ _ _ | BuySpecificNft _ _ _ | UpdateBid _ _
  | SetCollectionBid _ _ | BuyCollectionNft _ _ | UpdateCollectionBid _ _ => true
  | _ => false
  end.
Lemma trade_first sender st m a mb f : trade sender st m a mb f -> f = asks_first m.
Proof. intros H. destruct H; destruct_or?; subst; done. Qed.

Lemma sale_result_event v e sender funds st m st' msgs a mb f pre post :
  wf p st -> effect p v e sender funds st m st' msgs ->
  sale_result p v e sender funds st m st' msgs a mb f pre post ->
  call_events p v e sender st m = [sale_report p v (s_config st) a mb f].
Proof.
  intros Hwf He Hr. pose proof (wf_config _ _ Hwf) as Hcfg.
  pose proof (sr_pos _ _ _ _ _ _ _ _ _ _ _ _ _ _ Hr) as Hpos.
  pose proof (sr_cause _ _ _ _ _ _ _ _ _ _ _ _ _ _ Hr) as Hc.
  pose proof (trade_first _ _ _ _ _ _ (sr_trade _ _ _ _ _ _ _ _ _ _ _ _ _ _ Hr)) as Hf. clear Hr.
  destruct He; try (by destruct m); destruct_or?; subst; cbn in Hc;
    repeat match goal with x := _ |- _ => subst x end; cbn [asks_first] in *;
    repeat match goal with
    | H : exists _, _ |- _ => destruct H as [? H]
    | H : _ /\ _ |- _ => destruct H as [? H] end; simplify_eq; try contradiction; try congruence.
  all: match goal with H : sale_msgs _ _ _ _ _ _ _ _ |- _ => rename H into Hsm end.
  all: try match goal with H1 : ?x = Ok _, H2 : ?x = Ok _ |- _ => rewrite H1 in H2; injection H2 as -> end.
  all: pose proof (sale_events_report _ _ _ _ _ _ _ Hcfg Hpos Hsm) as Hev.
  all: cbn [call_events];
    unfold events_set_ask, events_update_ask, events_accept_ask, events_set_bid, events_update_bid, events_accept_bid,
      events_set_collection_bid, events_update_collection_bid, events_accept_collection_bid; cbv zeta;
    repeat match goal with H : ?x = _ |- context [match ?x with _ => _ end] => rewrite H end; done.
Qed.

(** * The observer *)
Definition report_label (k : string) : Prop := k <> "bid" /\ k <> "collection_bid".
Lemma named_payments_labels v cfg a mb f : Forall (fun x => report_label (fst x)) (named_payments p v cfg a mb f).
Proof.
  unfold named_payments. cbv zeta.
  rewrite Forall_forall. intros x Hx. apply elem_of_list_In, filter_In in Hx as [Hx _]. apply elem_of_list_In in Hx. revert x Hx.
  rewrite <-Forall_forall. unfold named_dues. cbv zeta. rewrite !Forall_app. split_and!.
  - by repeat constructor.
  - destruct (maker a mb f); by repeat constructor.
  - destruct (taker a mb f); by repeat constructor.
  - destruct (royalty_due p v cfg (a_coll a)) as [[? ?]|]; by repeat constructor.
  - by repeat constructor.
Qed.
Lemma field_label k (l : list (string * string)) : Forall (fun x => fst x <> k) l -> field k l = None.
Proof.
  induction 1 as [|[k' x] l Hk _ IH]; cbn; [done|]. cbn in Hk. destruct (String.eqb_spec k' k); [done|]. done.
Qed.
Lemma field_payments v cfg a mb f k :
  k = "bid" \/ k = "collection_bid" ->
  field k ((fun x : string * (addr * N) => (fst x, pretty (snd (snd x)))) <$> named_payments p v cfg a mb f) = None.
Proof.
  intros Hk. apply field_label. apply Forall_fmap. eapply Forall_impl; [apply (named_payments_labels v cfg a mb f)|].
  intros x [H1 H2]. cbn. by destruct Hk; subst k.
Qed.

Lemma see_sale v cfg a mb f st st' :
  s_asks st' = delete (a_id a) (s_asks st) -> s_bids st' = drop_bid st mb -> s_cbids st' = drop_cbid st mb ->
  s_config st' = s_config st -> s_denoms st' = s_denoms st -> s_fees st' = s_fees st ->
  see (truth st) (sale_report p v cfg a mb f) = truth st'.
Proof.
  intros H1 H2 H3 H4 H5 H6. unfold truth. rewrite H1, H2, H3, H4, H5, H6, fmap_delete. unfold see, sale_report.
  cbv zeta. cbn [ev_type ev_attrs String.eqb Ascii.eqb Bool.eqb].
  unfold text. cbn [ev_attrs app field String.eqb Ascii.eqb Bool.eqb default].
  destruct mb; cbn [field String.eqb Ascii.eqb Bool.eqb]; rewrite field_payments by auto; cbn [opt_delete drop_bid drop_cbid];
    rewrite ?fmap_delete; done.
Qed.

Ltac rows := unfold truth, see, text; cbn [ev_type ev_attrs String.eqb Ascii.eqb Bool.eqb set_asks set_bids set_cbids set_nonce
  s_config s_denoms s_fees s_asks s_bids s_cbids].
Lemma see_set_ask st a st' :
  st' = set_asks st (<[a_id a := a]> (s_asks st)) ->
  see (truth st) (ask_event "set-ask" a ["id"; "creator"; "collection"; "token_id"; "price"; "recipient"; "finder"]) = truth st'.
Proof.
  intros ->. rows. rewrite fmap_insert. destruct a as [i cr co tk [pr [rc|] [fi|]]]; done.
Qed.
Lemma see_update_ask st a a0 st' :
  s_asks st !! a_id a = Some a0 -> a_creator a0 = a_creator a -> st' = set_asks st (<[a_id a := a]> (s_asks st)) ->
  see (truth st) (ask_event "update-ask" a ["id"; "collection"; "token_id"; "price"; "recipient"; "finder"]) = truth st'.
Proof.
  intros H Hc ->. rows. rewrite fmap_insert. f_equal.
  transitivity (alter (fun _ => ask_row a) (a_id a) (ask_row <$> s_asks st)).
  - apply map_eq. intros j. destruct (decide (j = a_id a)) as [->|Hj].
    + destruct a as [i cr co tk [pr [rc|] [fi|]]]; cbn in *; rewrite !lookup_alter, !lookup_fmap, H; cbn; unfold reread, ask_row; cbn; by rewrite Hc.
    + destruct a as [i cr co tk [pr [rc|] [fi|]]]; cbn in *; by rewrite !lookup_alter_ne by congruence.
  - apply map_eq. intros j. destruct (decide (j = a_id a)) as [->|Hj].
    + by rewrite lookup_alter, lookup_fmap, H, lookup_insert.
    + by rewrite lookup_alter_ne, lookup_insert_ne by congruence.
Qed.
Lemma see_set_bid st b st' :
  truth st' = Index (ask_row <$> s_asks st) (bid_row <$> <[b_id b := b]> (s_bids st)) (cbid_row <$> s_cbids st)
                (config_texts (s_config st)) (s_denoms st) (pretty <$> s_fees st) ->
  see (truth st) (bid_event "set-bid" b ["id"; "creator"; "collection"; "token_id"; "price"; "recipient"; "finder"]) = truth st'.
Proof.
  intros ->. rows. rewrite fmap_insert. destruct b as [i cr co tk [pr [rc|] [fi|]]]; done.
Qed.
Lemma see_update_bid st b b0 st' :
  s_bids st !! b_id b = Some b0 -> b_creator b0 = b_creator b -> st' = set_bids st (<[b_id b := b]> (s_bids st)) ->
  see (truth st) (bid_event "update-bid" b ["id"; "collection"; "token_id"; "price"; "creator"; "recipient"; "finder"]) = truth st'.
Proof.
  intros H Hc ->. rows. rewrite fmap_insert. f_equal.
  transitivity (alter (fun _ => bid_row b) (b_id b) (bid_row <$> s_bids st)).
  - apply map_eq. intros j. destruct (decide (j = b_id b)) as [->|Hj].
    + destruct b as [i cr co tk [pr [rc|] [fi|]]]; cbn in *; rewrite !lookup_alter, !lookup_fmap, H; cbn; unfold reread, bid_row; cbn; by rewrite Hc.
    + destruct b as [i cr co tk [pr [rc|] [fi|]]]; cbn in *; by rewrite !lookup_alter_ne by congruence.
  - apply map_eq. intros j. destruct (decide (j = b_id b)) as [->|Hj].
    + by rewrite lookup_alter, lookup_fmap, H, lookup_insert.
    + by rewrite lookup_alter_ne, lookup_insert_ne by congruence.
Qed.
Lemma see_set_cbid st b st' :
  truth st' = Index (ask_row <$> s_asks st) (bid_row <$> s_bids st) (cbid_row <$> <[cb_id b := b]> (s_cbids st))
                (config_texts (s_config st)) (s_denoms st) (pretty <$> s_fees st) ->
  see (truth st) (cbid_event "set-collection-bid" b ["id"; "creator"; "collection"; "price"; "recipient"; "finder"]) = truth st'.
Proof.
  intros ->. rows. rewrite fmap_insert. destruct b as [i cr co [pr [rc|] [fi|]]]; done.
Qed.
Lemma see_update_cbid st b b0 st' :
  s_cbids st !! cb_id b = Some b0 -> cb_creator b0 = cb_creator b -> st' = set_cbids st (<[cb_id b := b]> (s_cbids st)) ->
  see (truth st) (cbid_event "update-collection-bid" b ["id"; "collection"; "price"; "creator"; "recipient"; "finder"]) = truth st'.
Proof.
  intros H Hc ->. rows. rewrite fmap_insert. f_equal.
  transitivity (alter (fun _ => cbid_row b) (cb_id b) (cbid_row <$> s_cbids st)).
  - apply map_eq. intros j. destruct (decide (j = cb_id b)) as [->|Hj].
    + destruct b as [i cr co [pr [rc|] [fi|]]]; cbn in *; rewrite !lookup_alter, !lookup_fmap, H; cbn; unfold reread, cbid_row; cbn; by rewrite Hc.
    + destruct b as [i cr co [pr [rc|] [fi|]]]; cbn in *; by rewrite !lookup_alter_ne by congruence.
  - apply map_eq. intros j. destruct (decide (j = cb_id b)) as [->|Hj].
    + by rewrite lookup_alter, lookup_fmap, H, lookup_insert.
    + by rewrite lookup_alter_ne, lookup_insert_ne by congruence.
Qed.

Lemma sale_keeps v e sender funds st m st' msgs a mb f pre post :
  effect p v e sender funds st m st' msgs -> sale_result p v e sender funds st m st' msgs a mb f pre post ->
  s_denoms st' = s_denoms st /\ s_fees st' = s_fees st.
Proof.
  intros He Hr. pose proof (sr_cause _ _ _ _ _ _ _ _ _ _ _ _ _ _ Hr) as Hc. clear Hr. destruct He; try (by destruct m); try done.
  all: by destruct mb0.
Qed.

(** What a call that does not sell reports. *)
Definition tells (st st' : state) (evs : list event) (sold : Prop) : Prop :=
  exists ev, evs = [ev] /\ see (truth st) ev = truth st' /\ (ev_type ev = "finalize-sale" <-> sold).

Lemma call_tells v e sender funds st m st' msgs :
  wf p st -> execute p v e sender funds st m = Ok (st', msgs) ->
  tells st st' (call_events p v e sender st m) (exists c t to, sells st m st' msgs c t to).
Proof.
  intros Hwf H. pose proof H as He. apply execute_effect in He.
  pose proof He as Hs. apply effect_sale_or_not in Hs as [Hno|(a&mb&f&pre&post&Hr)]; [| |done].
  2: { exists (sale_report p v (s_config st) a mb f). split; [by eapply sale_result_event|].
       destruct (sale_keeps _ _ _ _ _ _ _ _ _ _ _ _ _ He Hr).
       split; [|split; [intros _; eauto using sale_is_sells|done]]. destruct Hr. by apply see_sale. }
  assert (~ (exists c t to, sells st m st' msgs c t to)) as Hns.
  { intros (c&t&to&Hs). destruct Hno as (_&_&Hno). destruct Hs as (Hin&Hrm&Hnew). destruct Hno as [Hn|[[id Hn]|Hn]].
    - by apply Hn in Hin.
    - by apply Hrm in Hn.
    - destruct Hn as (?&?&?&_&i&Hi&Hn). apply Hnew in Hi as [? Hi]. congruence. }
  assert (forall ev, call_events p v e sender st m = [ev] -> ev_type ev <> "finalize-sale" -> see (truth st) ev = truth st' ->
    tells st st' (call_events p v e sender st m) (exists c t to, sells st m st' msgs c t to)) as Hev.
  { intros ev -> Hty Hsee. by exists ev. }
  destruct (admin_call m) eqn:Hadm.
  { apply admin_exact in H as (_&Hc&_); [|done].
    destruct Hc; eapply Hev; try done; rows; try done.
    - by rewrite fmap_insert.
    - by rewrite fmap_delete. }
  destruct Hno as (Hrc&_&_).
  destruct He; try (by destruct m);
    try (by repeat match goal with x := _ |- _ => subst x end; destruct_or?; subst; cbn in Hrc; try done; try congruence;
      destruct Hrc as (?&?&?&?); simplify_eq; congruence); clear Hrc H; repeat match goal with x := _ |- _ => subst x end.
  - eapply Hev; [cbn [call_events]; unfold events_set_ask; cbv zeta; match goal with H : match_with_bid _ _ = None |- _ => by rewrite H end|done|].
    by apply see_set_ask.
  - destruct (wf_ask _ _ Hwf _ _ H2) as (E&_). eapply Hev; [cbn [call_events]; unfold events_update_ask; rewrite H2; cbv zeta; match goal with H : match_with_bid _ _ = None |- _ => by rewrite H end|done|].
    eapply see_update_ask; [cbn [a_id]; by rewrite E|done|done].
  - destruct (wf_ask _ _ Hwf _ _ H1) as (E&_). eapply Hev; [cbn [call_events]; unfold events_remove_ask; by rewrite H1|done|].
    rows. by rewrite fmap_delete.
  - eapply Hev; [cbn [call_events]; unfold events_set_bid; cbv zeta; match goal with H : bid_match_with_ask _ _ _ = None |- _ => by rewrite H end|done|].
    by apply see_set_bid.
  - destruct (wf_bid _ _ Hwf _ _ H1) as (E&_). eapply Hev; [cbn [call_events]; unfold events_update_bid; rewrite H1; cbv zeta; match goal with H : bid_match_with_ask _ _ _ = None |- _ => by rewrite H end|done|].
    eapply see_update_bid; [cbn [b_id]; by rewrite E|done|done].
  - destruct (wf_bid _ _ Hwf _ _ H1) as (E&_). eapply Hev; [cbn [call_events]; unfold events_remove_bid; by rewrite H1|done|].
    rows. by rewrite fmap_delete.
  - eapply Hev; [cbn [call_events]; unfold events_set_collection_bid; cbv zeta; match goal with H : cbid_match_with_ask _ _ = Ok None |- _ => by rewrite H end|done|].
    by apply see_set_cbid.
  - destruct (wf_cbid _ _ Hwf _ _ H1) as (E&_). eapply Hev; [cbn [call_events]; unfold events_update_collection_bid; rewrite H1; cbv zeta; match goal with H : cbid_match_with_ask _ _ = Ok None |- _ => by rewrite H end|done|].
    eapply see_update_cbid; [cbn [cb_id]; by rewrite E|done|done].
  - destruct (wf_cbid _ _ Hwf _ _ H1) as (E&_). eapply Hev; [cbn [call_events]; unfold events_remove_collection_bid; by rewrite H1|done|].
    rows. by rewrite fmap_delete.
Qed.

(** * All events so far *)
Lemma log_wf st evs : v2_log p st evs -> wf p st.
Proof.
  induction 1 as [c st H|st evs v e sender funds m st' msgs _ IH Hs H].
  - by eapply wf_instantiate.
  - by eapply wf_execute.
Qed.
Lemma observe_log st evs : v2_log p st evs -> observe evs = truth st.
Proof.
  induction 1 as [c st H|st evs v e sender funds m st' msgs Hlog IH Hs H].
  - apply instantiate_exact in H as [_ ->]. unfold observe, truth. cbn [s_asks s_bids s_cbids s_config s_denoms s_fees].
    rewrite !fmap_empty. done.
  - apply log_wf in Hlog. destruct (call_tells _ _ _ _ _ _ _ _ Hlog H) as (ev&->&Hsee&_).
    unfold observe in *. rewrite fold_left_app, IH. done.
Qed.
Lemma rows_eq {A} (g : A -> row) (m m' : gmap string A) :
  (forall i x y, m !! i = Some x -> m' !! i = Some y -> g x = g y -> x = y) ->
  g <$> m = g <$> m' -> m = m'.
Proof.
  intros Hg H. apply map_eq. intros i. pose proof (f_equal (fun m => m !! i) H) as Hi. cbn in Hi. rewrite !lookup_fmap in Hi.
  destruct (m !! i) as [x|] eqn:E, (m' !! i) as [y|] eqn:E'; try done. cbn in Hi. injection Hi as Hi.
  f_equal. by eapply Hg.
Qed.
Lemma truth_same st st' : wf p st -> wf p st' -> bank_denoms st -> bank_denoms st' -> truth st = truth st' -> same_book st st'.
Proof.
  intros Hw Hw' (Ha&Hb&Hc) (Ha'&Hb'&Hc') H. injection H as H1 H2 H3 H4 H5 H6 H7 H8 H9 H10 H11 H12. split_and!.
  - eapply (rows_eq ask_row); [|done]. intros i x y Hx Hy E.
    pose proof (Ha _ _ Hx). pose proof (Ha' _ _ Hy). destruct (wf_ask _ _ Hw _ _ Hx) as (<-&_). destruct (wf_ask _ _ Hw' _ _ Hy) as (Hi&_).
    destruct x as [i1 c1 o1 t1 [p1 r1 f1]], y as [i2 c2 o2 t2 [p2 r2 f2]]; unfold ask_row in E; cbn in *.
    injection E as -> -> -> E -> ->. apply coin_text_inj in E; [|done..]. by subst.
  - eapply (rows_eq bid_row); [|done]. intros i x y Hx Hy E.
    pose proof (Hb _ _ Hx). pose proof (Hb' _ _ Hy). destruct (wf_bid _ _ Hw _ _ Hx) as (<-&_). destruct (wf_bid _ _ Hw' _ _ Hy) as (Hi&_).
    destruct x as [i1 c1 o1 t1 [p1 r1 f1]], y as [i2 c2 o2 t2 [p2 r2 f2]]; unfold bid_row in E; cbn in *.
    injection E as -> -> -> E -> ->. apply coin_text_inj in E; [|done..]. by subst.
  - eapply (rows_eq cbid_row); [|done]. intros i x y Hx Hy E.
    pose proof (Hc _ _ Hx). pose proof (Hc' _ _ Hy). destruct (wf_cbid _ _ Hw _ _ Hx) as (<-&_). destruct (wf_cbid _ _ Hw' _ _ Hy) as (Hi&_).
    destruct x as [i1 c1 o1 [p1 r1 f1]], y as [i2 c2 o2 [p2 r2 f2]]; unfold cbid_row in E; cbn in *.
    injection E as -> -> E -> ->. apply coin_text_inj in E; [|done..]. by subst.
  - destruct (s_config st), (s_config st'); cbn in *. apply (inj pretty) in H6, H7, H8, H9. by subst.
  - done.
  - by apply (inj (fmap pretty)) in H12.
Qed.
Lemma log_book st evs st' : v2_log p st evs -> v2_log p st' evs -> bank_denoms st -> bank_denoms st' -> same_book st st'.
Proof.
  intros H H' Hd Hd'. apply truth_same; eauto using log_wf. by rewrite <-(observe_log _ _ H), <-(observe_log _ _ H').
Qed.
Lemma sale_reported v e sender funds st m st' msgs :
  wf p st -> execute p v e sender funds st m = Ok (st', msgs) ->
  (exists ev, call_events p v e sender st m = [ev]) /\
  forall ev, ev ∈ call_events p v e sender st m -> 
    (ev_type ev = "finalize-sale" <-> exists c t to, sells st m st' msgs c t to) /\
    (ev_type ev = "finalize-sale" -> exists a mb f, trade sender st m a mb f /\
      settles p v (s_config st) sender funds m msgs a mb f /\ takes_out st st' a mb /\
      ev = sale_report p v (s_config st) a mb f /\
      sale_payments p v (s_config st) a mb f = snd <$> named_payments p v (s_config st) a mb f).
Proof.
  intros Hwf H. destruct (call_tells _ _ _ _ _ _ _ _ Hwf H) as (ev&Hev&_&Hty). split; [by exists ev|].
  intros ev' Hin. rewrite Hev in Hin. apply elem_of_list_singleton in Hin. subst ev'. split; [done|].
  intros (c&t&to&Hs)%Hty. pose proof H as He. apply execute_effect in He.
  destruct (sells_result p _ _ _ _ _ _ _ _ _ _ _ Hwf H Hs) as (a&mb&f&pre&post&Hr&_).
  exists a, mb, f. split; [by apply Hr|]. split; [by eapply sale_settles|]. split.
  { split; [apply Hr|]. pose proof (sr_bids _ _ _ _ _ _ _ _ _ _ _ _ _ _ Hr). pose proof (sr_cbids _ _ _ _ _ _ _ _ _ _ _ _ _ _ Hr).
    by destruct mb. }
  split; [|by rewrite named_payments_snd].
  rewrite (sale_result_event _ _ _ _ _ _ _ _ _ _ _ _ _ Hwf He Hr) in Hev. by injection Hev as <-.
Qed.

Lemma history_reported n st v e sender funds m st' msgs :
  v2_history p n st -> execute p v e sender funds st m = Ok (st', msgs) ->
  (exists ev, call_events p v e sender st m = [ev]) /\
  forall ev, ev ∈ call_events p v e sender st m ->
    (ev_type ev = "finalize-sale" <-> exists c t to, sells st m st' msgs c t to) /\
    (ev_type ev = "finalize-sale" -> exists a mb f, trade sender st m a mb f /\
      settles p v (s_config st) sender funds m msgs a mb f /\ takes_out st st' a mb /\
      ev = sale_report p v (s_config st) a mb f /\
      sale_payments p v (s_config st) a mb f = snd <$> named_payments p v (s_config st) a mb f).
Proof. intros Hh. apply sale_reported. by eapply history_wf. Qed.
Lemma history_log n st : v2_history p n st -> exists evs, v2_log p st evs.
Proof.
  intros (c&st0&Hi&H%rtc_nsteps_2). assert (exists evs, v2_log p st0 evs) as Hl by (eexists; by apply LogStart). clear Hi.
  induction H as [|st0 st1 st (v&e&s&fu&m&ms&Hs&H) _ IH]; [done|]. apply IH. destruct Hl as [evs Hl]. eexists. by eapply LogCall.
Qed.
Lemma reachable_log w : reachable p w -> exists evs, v2_log p (w_st w) evs.
Proof. intros [n H]%reachable_history. by eapply history_log. Qed.
End Facts.

Lemma texts_inj : (forall m n : N, pretty m = pretty n -> m = n) /\
  (forall c d, lettered (c_denom c) -> lettered (c_denom d) -> coin_text c = coin_text d -> c = d).
Proof. split; [apply pretty_N_inj|exact coin_text_inj]. Qed.
