(** Proofs for C144 (V2QuoteSpec). *)
From stdpp Require Import relations.
From Verif Require Import Base BaseFacts Common Chain ChainFacts IndexRange QuerySpec V2Model V2Spec V2Facts V2Inv V2Query V2Reach V2ExactSpec V2Exact V2QuoteSpec.

(** The one row of a page of one. *)
Section Row.
Context {K A : Type} (before : K -> K -> Prop) (key : A -> K) (matching : A -> Prop).
Context (Hirr : forall x, ~ before x x) (Htr : forall x y z, before x y -> before y z -> before x z).
Lemma one_row o res x : page before key matching o res -> qo_limit o = Some 1 -> qo_min o = None -> qo_max o = None ->
  head res = Some x <-> matching x /\ forall y, matching y -> y = x \/ precedes before key (descending o) x y.
Proof.
  intros [Hs Hso Hl Hc] Ho1 Ho2 Ho3.
  assert (page_size o = 1%nat) as Hps by (unfold page_size; by rewrite Ho1). rewrite Hps in *.
  assert (forall k, in_range before o k) as Hr by (intros k; unfold in_range; by rewrite Ho2, Ho3).
  destruct res as [|r res].
  - cbn [head]. split; [done|]. intros [Hm _]. destruct (Hc x Hm (Hr _)) as [?%elem_of_nil|[? _]]; done.
  - assert (res = []) as -> by (destruct res; [done|cbn in Hl; lia]). cbn [head]. split.
    + intros [= ->]. split; [apply Hso; left|]. intros y Hy. destruct (Hc y Hy (Hr _)) as [->%elem_of_list_singleton|[_ Hp]]; [by left|].
      right. apply Hp. left.
    + intros [Hm Hb]. destruct (Hc x Hm (Hr _)) as [->%elem_of_list_singleton|[_ Hp]]; [done|].
      assert (matching r) as Hmr by (apply Hso; left). specialize (Hp r (elem_of_list_here _ _)).
      destruct (Hb r Hmr) as [->|Hq]; [done|]. exfalso. unfold precedes in *. destruct (descending o); eapply Hirr, Htr; done.
Qed.
Lemma no_row o res : page before key matching o res -> qo_limit o = Some 1 -> qo_min o = None -> qo_max o = None ->
  head res = None <-> forall y, ~ matching y.
Proof.
  intros HP Ho1 Ho2 Ho3. destruct res as [|r res]; cbn [head]; split; try done.
  - intros _ y Hy. destruct HP as [_ _ _ Hc]. destruct (Hc y Hy) as [?%elem_of_nil|[Hl _]]; [|done|].
    { unfold in_range. by rewrite Ho2, Ho3. } unfold page_size in Hl. rewrite Ho1 in Hl. done.
  - intros H. exfalso. apply (H r). apply (page_sound _ _ _ _ _ HP). left.
Qed.
End Row.

Lemma price_irrefl x : ~ price_before x x.
Proof. intros [H|[_ H]]; [lia|by apply id_before_irrefl in H]. Qed.
Lemma price_trans x y z : price_before x y -> price_before y z -> price_before x z.
Proof.
  unfold price_before. intros [H|[E H]] [G|[F G]]; try (left; lia). right. split; [congruence|]. by eapply id_before_trans.
Qed.

Section Quote.
Context (p : params) (st : state) (Hwf : wf p st).

Lemma floor_first coll price a :
  first_ask st coll None price a <-> floor_quote st coll (c_denom price) = Some a /\ c_amount (d_price (a_det a)) <= c_amount price.
Proof.
  unfold floor_quote. rewrite (one_row _ _ _ price_irrefl price_trans _ _ a (asks_page p st Hwf coll (c_denom price) lowest)) by done.
  unfold first_ask, offered, precedes. cbn [descending lowest qo_desc]. split.
  - intros [(H1&H2&_&H3&H4) Hb]. split; [|done]. split; [done|]. intros y (Y1&Y2&Y3).
    destruct (N.le_gt_cases (c_amount (d_price (a_det y))) (c_amount price)) as [Hle|Hgt].
    + apply Hb. done.
    + right. left. unfold ask_key. cbn [fst]. lia.
  - intros [[(H1&H2&H3) Hb] H4]. split; [done|]. intros y (Y1&Y2&_&Y3&Y4). by apply Hb.
Qed.
Lemma floor_none coll dn : floor_quote st coll dn = None -> forall price a, c_denom price = dn -> ~ offered st coll None price a.
Proof.
  unfold floor_quote. rewrite (no_row _ _ _ _ _ (asks_page p st Hwf coll dn lowest)) by done. intros H price a Hd (H1&H2&_&H3&_).
  apply (H a). split; [done|]. split; [done|congruence].
Qed.
Lemma top_token coll tok dn b : slash_free p -> p_valid p coll = true ->
  head (query_bids_by_token_price st coll tok dn highest) = Some b <->
  resting st (MBid b) /\ wants (MBid b) coll tok dn /\
  forall b', resting st (MBid b') -> wants (MBid b') coll tok dn -> b' = b \/ price_before (bid_key b') (bid_key b).
Proof.
  intros Hsl Hv. rewrite (one_row _ _ _ price_irrefl price_trans _ _ b (bids_page p st Hwf coll tok dn highest Hsl Hv)) by done.
  unfold precedes. cbn [descending highest qo_desc]. unfold resting, wants, price_of. split.
  - intros [(H1&H2&H3) Hb]. split; [done|]. split; [done|]. intros b' H1' (H2'&H3'). by apply Hb.
  - intros (H1&[H2 H3]&Hb). split; [done|]. intros b' (H1'&H2'&H3'). by apply Hb.
Qed.
Lemma top_cbid coll tok dn b :
  head (query_collection_bids_by_price st coll dn highest) = Some b <->
  resting st (MCBid b) /\ wants (MCBid b) coll tok dn /\
  forall b', resting st (MCBid b') -> wants (MCBid b') coll tok dn -> b' = b \/ price_before (cbid_key b') (cbid_key b).
Proof.
  rewrite (one_row _ _ _ price_irrefl price_trans _ _ b (cbids_page p st Hwf coll dn highest)) by done.
  unfold precedes. cbn [descending highest qo_desc]. unfold resting, wants, price_of. split.
  - intros [(H1&H2&H3) Hb]. split; [done|]. split; [done|]. intros b' H1' (H2'&H3'). by apply Hb.
  - intros (H1&[H2 H3]&Hb). split; [done|]. intros b' (H1'&H2'&H3'). by apply Hb.
Qed.
Lemma no_token coll tok dn : slash_free p -> p_valid p coll = true -> head (query_bids_by_token_price st coll tok dn highest) = None ->
  forall b, resting st (MBid b) -> ~ wants (MBid b) coll tok dn.
Proof.
  intros Hsl Hv. rewrite (no_row _ _ _ _ _ (bids_page p st Hwf coll tok dn highest Hsl Hv)) by done.
  intros H b Hr (H1&H2&H3). by apply (H b).
Qed.
Lemma no_cbid coll tok dn : head (query_collection_bids_by_price st coll dn highest) = None ->
  forall b, resting st (MCBid b) -> ~ wants (MCBid b) coll tok dn.
Proof.
  rewrite (no_row _ _ _ _ _ (cbids_page p st Hwf coll dn highest)) by done. intros H b Hr (H1&H2). by apply (H b).
Qed.
Lemma outranks_key b b' : price_before (bid_key b') (bid_key b) -> outranks (MBid b) (MBid b').
Proof. intros [H|[H1 H2]]; [by left|right]. done. Qed.
Lemma outranks_ckey b b' : price_before (cbid_key b') (cbid_key b) -> outranks (MCBid b) (MCBid b').
Proof. intros [H|[H1 H2]]; [by left|right]. done. Qed.

(** The quote outranks every bid that wants the token. *)
Lemma quote_top coll tok dn mb : slash_free p -> p_valid p coll = true -> sale_quote st coll tok dn = Some mb ->
  resting st mb /\ wants mb coll tok dn /\ forall mb', resting st mb' -> wants mb' coll tok dn -> mb' = mb \/ outranks mb mb'.
Proof.
  intros Hsl Hv. unfold sale_quote.
  pose proof (top_token coll tok dn) as T. pose proof (top_cbid coll tok dn) as C. pose proof (no_token coll tok dn Hsl Hv) as NT. pose proof (no_cbid coll tok dn) as NC.
  destruct (query_bids_by_token_price st coll tok dn highest) as [|b bs], (query_collection_bids_by_price st coll dn highest) as [|c cs]; cbn [head] in *; [done| | |].
  - intros [= <-]. destruct (proj1 (C c) eq_refl) as (C1&C2&C3). split; [done|]. split; [done|]. intros [b'|c'] Hr Hw.
    + by apply (NT eq_refl) in Hw.
    + destruct (C3 c' Hr Hw) as [->|H]; [by left|right; by apply outranks_ckey].
  - intros [= <-]. destruct (proj1 (T b Hsl Hv) eq_refl) as (T1&T2&T3). split; [done|]. split; [done|]. intros [b'|c'] Hr Hw.
    + destruct (T3 b' Hr Hw) as [->|H]; [by left|right; by apply outranks_key].
    + by apply (NC eq_refl) in Hw.
  - destruct (proj1 (T b Hsl Hv) eq_refl) as (T1&T2&T3). destruct (proj1 (C c) eq_refl) as (C1&C2&C3). case_decide as Hle; intros [= <-]; (split; [done|]; split; [done|]; intros [b'|c'] Hr Hw).
    + destruct (T3 b' Hr Hw) as [->|H]; [by left|right; by apply outranks_key].
    + right. destruct (C3 c' Hr Hw) as [->|H].
      * unfold outranks. cbn [price_of]. lia.
      * unfold outranks. cbn [price_of]. unfold price_before, cbid_key in H. cbn [fst snd] in H. lia.
    + right. left. cbn [price_of]. destruct (T3 b' Hr Hw) as [->|H]; [lia|]. unfold price_before, bid_key in H. cbn [fst snd] in H. lia.
    + destruct (C3 c' Hr Hw) as [->|H]; [by left|right; by apply outranks_ckey].
Qed.
Lemma quote_none coll tok dn : slash_free p -> p_valid p coll = true -> sale_quote st coll tok dn = None ->
  forall mb, resting st mb -> ~ wants mb coll tok dn.
Proof.
  intros Hsl Hv. unfold sale_quote. pose proof (no_token coll tok dn Hsl Hv) as NT. pose proof (no_cbid coll tok dn) as NC.
  destruct (query_bids_by_token_price st coll tok dn highest) as [|b bs], (query_collection_bids_by_price st coll dn highest) as [|c cs]; cbn [head] in *; try done; [|by case_decide].
  intros _ [b|c]; [by apply NT|by apply NC].
Qed.
Lemma quote_fits coll tok price mb : slash_free p -> p_valid p coll = true ->
  top_bid st coll tok price mb <-> sale_quote st coll tok (c_denom price) = Some mb /\ c_amount price <= c_amount (price_of mb).
Proof.
  intros Hsl Hv. split.
  - intros [(H1&H2&H3) Hb]. split; [|done]. destruct (sale_quote st coll tok (c_denom price)) as [mb'|] eqn:E.
    + apply quote_top in E as (Q1&Q2&Q3); [|done..]. destruct (Q3 mb H1 H2) as [->|Ho]; [done|]. exfalso.
      assert (fits st coll tok price mb') as Hf.
      { split; [done|]. split; [done|]. destruct Ho as [Ho|[Ho _]]; lia. }
      destruct (Hb mb' Hf) as [->|Ho'].
      * destruct Ho as [Ho|[_ Ho]]; [lia|]. destruct mb; by apply id_before_irrefl in Ho.
      * destruct Ho as [Ho|[He Ho]], Ho' as [Ho'|[He' Ho']]; try lia.
        destruct mb as [x|x], mb' as [y|y]; try done; eapply id_before_irrefl, id_before_trans; done.
    + exfalso. by eapply quote_none.
  - intros [E Hle]. apply quote_top in E as (Q1&Q2&Q3); [|done..]. split; [done|]. intros mb' (M1&M2&M3). by apply Q3.
Qed.
Lemma quote_rests coll tok price : slash_free p -> p_valid p coll = true ->
  (forall mb, ~ fits st coll tok price mb) <->
  (forall mb, sale_quote st coll tok (c_denom price) = Some mb -> c_amount (price_of mb) < c_amount price).
Proof.
  intros Hsl Hv. split.
  - intros H mb E. apply quote_top in E as (Q1&Q2&Q3); [|done..]. apply N.nle_gt. intros Hle. by apply (H mb).
  - intros H mb (H1&H2&H3). destruct (sale_quote st coll tok (c_denom price)) as [mb'|] eqn:E.
    + specialize (H mb' eq_refl). apply quote_top in E as (Q1&Q2&Q3); [|done..]. destruct (Q3 mb H1 H2) as [->|[Ho|[Ho _]]]; lia.
    + by eapply quote_none.
Qed.
Lemma floor_rests coll price :
  (forall a, ~ offered st coll None price a) <->
  (forall a, floor_quote st coll (c_denom price) = Some a -> c_amount price < c_amount (d_price (a_det a))).
Proof.
  split.
  - intros H a E. apply N.nle_gt. intros Hle. apply (H a). by apply (proj2 (floor_first coll price a)).
  - intros H a Ho. destruct (floor_quote st coll (c_denom price)) as [a'|] eqn:E.
    + specialize (H a' eq_refl). unfold floor_quote in E.
      apply (one_row _ _ _ price_irrefl price_trans _ _ a' (asks_page p st Hwf coll (c_denom price) lowest)) in E as [_ Hb]; [|done..].
      destruct Ho as (H1&H2&_&H3&H4). destruct (Hb a) as [->|Hp]; [done|lia|]. unfold precedes in Hp. cbn [descending lowest qo_desc] in Hp.
      unfold price_before, ask_key in Hp. cbn [fst snd] in Hp. lia.
    + by eapply floor_none.
Qed.
End Quote.

Section Calls.
Context (p : params) (Hcf : collision_free p) (Hpf : prefix_free p) (Hsl : slash_free p).

Lemma token_first st coll tok price a : wf p st -> p_valid p coll = true ->
  first_ask st coll (Some tok) price a <-> token_quote p st coll tok (c_denom price) = Some a /\ c_amount (d_price (a_det a)) <= c_amount price.
Proof.
  intros Hwf Hv.
  assert (forall x, s_asks st !! a_id x = Some x -> a_coll x = coll -> a_tok x = tok -> s_asks st !! ask_name p coll tok = Some x) as Hx.
  { intros x Hx <- <-. destruct (wf_ask _ _ Hwf _ _ Hx) as (_&Hg&_). by rewrite <-ask_name_eq, <-Hg. }
  unfold token_quote, query_asks. cbn [omap list_omap]. split.
  - intros [(H1&H2&H3&H4&H5) _]. rewrite (Hx a) by auto. cbn [omap list_omap]. by rewrite decide_True.
  - intros [H Hle]. destruct (s_asks st !! ask_name p coll tok) as [a0|] eqn:E; [|done]. case_decide as Hd; [|done]. injection H as ->.
    destruct (wf_ask _ _ Hwf _ _ E) as (Hid&Hg&_&Hva&_).
    assert (a_coll a = coll /\ a_tok a = tok) as [E1 E2].
    { rewrite <-ask_name_eq in Hg. destruct (ask_id_inj p coll tok (a_coll a) (a_tok a)) as [E1 E2]; try done. }
    split.
    + split; [by rewrite Hid|]. split; [done|]. split; [by intros t [= <-]|]. done.
    + intros a' (G1&G2&G3&_). left. apply (Hx a') in G1; [|done|by apply G3]. congruence.
Qed.
Lemma token_rests st coll tok price : wf p st -> p_valid p coll = true ->
  (forall a, ~ offered st coll (Some tok) price a) <->
  (forall a, token_quote p st coll tok (c_denom price) = Some a -> c_amount price < c_amount (d_price (a_det a))).
Proof.
  intros Hwf Hv. split.
  - intros H a E. apply N.nle_gt. intros Hle. apply (H a). by apply (proj2 (token_first st coll tok price a Hwf Hv)).
  - intros H a Ho. assert (first_ask st coll (Some tok) price a) as Hf.
    { split; [done|]. intros a' Ho'. left. destruct Ho as (O1&O2&O3&_), Ho' as (P1&P2&P3&_).
      eapply same_nft; [done..| |]; [congruence|]. rewrite (O3 tok), (P3 tok); done. }
    apply token_first in Hf as [Hq Hle]; [|done..]. apply H in Hq. lia.
Qed.

Lemma no_nft_change s f o c back coll tok to : pays s f o c back -> ~ MNft coll tok to ∈ back.
Proof.
  intros (_&cs&_&->). destruct cs; cbn [returned]; [by intros ?%elem_of_nil|]. by intros ?%elem_of_list_singleton.
Qed.

Theorem sell_quoted v e sender funds st m a st' msgs : small_history p st -> small_call funds m -> selling sender p st m a ->
  execute p v e sender funds st m = Ok (st', msgs) ->
  let price := d_price (a_det a) in
  (exists mb, sale_quote st (a_coll a) (a_tok a) (c_denom price) = Some mb /\ c_amount price <= c_amount (price_of mb) /\
     sold_to p v st a mb false st' msgs) \/
  ((forall mb, sale_quote st (a_coll a) (a_tok a) (c_denom price) = Some mb -> c_amount (price_of mb) < c_amount price) /\
   immediate m = false /\ forall c t to, ~ sells st m st' msgs c t to).
Proof.
  intros Hh Hc Hs He. cbv zeta. pose proof (proj1 (small_history_inv p Hcf Hpf Hsl _ Hh)) as Hwf.
  assert (admin_call m = false) as Ha by (by destruct Hs). apply (order_calls_exact p Hcf Hpf Hsl) in He; [|done..].
  destruct Hs as [coll tok d|coll tok d|i d a0 Hi]; cbn [a_det a_coll a_tok];
    inversion He as [? ? ? L1 L2 L3|m' ? ? ? mb ? Hm L1 L2 L3 L4|? ? a1 L1 L2 L3 L4 L5 L6|? ? a1 ? mb L1 L2 L3 L4 L5 L6 L7 L8| | | |m' ? ? ? ? ? ? Hm| | | | | |m' ? ? ? ? ? Hm| | | |]; subst;
    try (by destruct Hm).
  - right. split.
    + exact (proj1 (quote_rests p st Hwf coll tok (d_price d) Hsl (proj1 (proj1 L1))) L2).
    + split; [done|]. intros c t to (_&_&Hn). destruct (Hn (ask_name p coll tok)) as [x Hx]; [|congruence]. cbn [with_asks s_asks]. rewrite lookup_insert. eauto.
  - left. destruct Hm as [Hm|Hm]; [|done]. injection Hm as <- <- <-. exists mb.
    apply (quote_fits p st Hwf) in L3 as [Q1 Q2]; [|done|exact (proj1 (proj1 L1))]. split; [done|]. split; [done|].
    eexists _, [_], []. split; [done|]. rewrite app_nil_r. split; [done|]. intros c t to H%elem_of_list_singleton. done.
  - left. destruct Hm as [Hm|Hm]; [done|]. injection Hm as <- <- <-. exists mb.
    apply (quote_fits p st Hwf) in L3 as [Q1 Q2]; [|done|exact (proj1 (proj1 L1))]. split; [done|]. split; [done|].
    eexists _, [_], []. split; [done|]. rewrite app_nil_r. split; [done|]. intros c t to H%elem_of_list_singleton. done.
  - assert (a1 = a0) as -> by congruence. destruct (wf_ask _ _ Hwf _ _ Hi) as (_&_&_&Hv&_). right. split.
    + exact (proj1 (quote_rests p st Hwf _ _ (d_price d) Hsl Hv) L6).
    + split; [done|]. intros c t to (H&_). by apply elem_of_nil in H.
  - assert (a1 = a0) as -> by congruence. destruct (wf_ask _ _ Hwf _ _ Hi) as (_&_&_&Hv&_). left. exists mb.
    apply (quote_fits p st Hwf) in L7 as [Q1 Q2]; [|done..]. split; [done|]. split; [done|].
    eexists _, [], []. split; [done|]. rewrite app_nil_r. split; [done|]. intros c t to H%elem_of_nil. done.
Qed.

Theorem buy_any_quoted v e sender funds st m coll d st' msgs : small_history p st -> small_call funds m -> buying_any st m coll d ->
  execute p v e sender funds st m = Ok (st', msgs) ->
  (exists a b, floor_quote st coll (c_denom (d_price d)) = Some a /\ c_amount (d_price (a_det a)) <= c_amount (d_price d) /\
     cb_creator b = sender /\ cb_coll b = coll /\ cb_det b = d /\ sold_to p v st a (MCBid b) true st' msgs) \/
  ((forall a, floor_quote st coll (c_denom (d_price d)) = Some a -> c_amount (d_price d) < c_amount (d_price (a_det a))) /\
   immediate m = false /\ forall c t to, ~ sells st m st' msgs c t to).
Proof.
  intros Hh Hc Hs He. pose proof (proj1 (small_history_inv p Hcf Hpf Hsl _ Hh)) as Hwf.
  assert (admin_call m = false) as Ha by (by destruct Hs). apply (order_calls_exact p Hcf Hpf Hsl) in He; [|done..].
  assert (forall b a n back, cb_creator b = sender -> cb_coll b = coll -> cb_det b = d -> first_ask st coll None (d_price d) a -> pays sender funds n (d_price (a_det a)) back ->
    forall k, st' = sold st k a (MCBid b) -> msgs = sale_sends p v (s_config st) a (MCBid b) true ++ back ->
    exists a b, floor_quote st coll (c_denom (d_price d)) = Some a /\ c_amount (d_price (a_det a)) <= c_amount (d_price d) /\
     cb_creator b = sender /\ cb_coll b = coll /\ cb_det b = d /\ sold_to p v st a (MCBid b) true st' msgs) as Htr.
  { intros b a n back B1 B2 B3 Hf Hp k -> ->. apply (floor_first p st Hwf) in Hf as [Q1 Q2]. exists a, b. split_and!; try done.
    eexists _, [], back. split; [done|]. split; [done|]. intros c t to. cbn [app]. by eapply no_nft_change. }
  destruct Hs as [coll d|coll d|i d b0 Hi].
  - inversion He as [|m' ? ? ? mb ? Hm| | | | | |m' ? ? ? ? ? ? Hm| | | | |? ? ? ? L1 L2 L3 L4 L5 L6|m' ? ? ? ? ? Hm L1 L2 L3 L4 L5 L6| | | |]; subst; try (by destruct Hm).
    + right. split; [by apply (floor_rests p st Hwf)|]. split; [done|]. intros c t to (H&_). by eapply no_nft_change in H.
    + left. destruct Hm as [Hm|Hm]; [|done]. injection Hm as <- <-. eapply Htr; [..|reflexivity|reflexivity]; done.
  - inversion He as [|m' ? ? ? mb ? Hm| | | | | |m' ? ? ? ? ? ? Hm| | | | |? ? ? ? L1 L2 L3 L4 L5 L6|m' ? ? ? ? ? Hm L1 L2 L3 L4 L5 L6| | | |]; subst; try (by destruct Hm).
    left. destruct Hm as [Hm|Hm]; [done|]. injection Hm as <- <-. eapply Htr; [..|reflexivity|reflexivity]; done.
  - inversion He as [|m' ? ? ? mb ? Hm| | | | | |m' ? ? ? ? ? ? Hm| | | | | |m' ? ? ? ? ? Hm|? ? b1 ? L1 L2 L3 L4 L5 L6 L7|? ? b1 ? ? ? L1 L2 L3 L4 L5 L6 L7 L8 L9| |]; subst; try (by destruct Hm).
    + assert (b1 = b0) as -> by congruence. right. split; [by apply (floor_rests p st Hwf)|]. split; [done|]. intros c t to (H&_). by eapply no_nft_change in H.
    + assert (b1 = b0) as -> by congruence. left. eapply Htr; [..|reflexivity|reflexivity]; done.
Qed.

Theorem buy_one_quoted v e sender funds st m coll tok d st' msgs : small_history p st -> small_call funds m -> buying_one st m coll tok d ->
  execute p v e sender funds st m = Ok (st', msgs) ->
  (exists a b, token_quote p st coll tok (c_denom (d_price d)) = Some a /\ c_amount (d_price (a_det a)) <= c_amount (d_price d) /\
     b_creator b = sender /\ b_coll b = coll /\ b_tok b = tok /\ b_det b = d /\ sold_to p v st a (MBid b) true st' msgs) \/
  ((forall a, token_quote p st coll tok (c_denom (d_price d)) = Some a -> c_amount (d_price d) < c_amount (d_price (a_det a))) /\
   immediate m = false /\ forall c t to, ~ sells st m st' msgs c t to).
Proof.
  intros Hh Hc Hs He. pose proof (proj1 (small_history_inv p Hcf Hpf Hsl _ Hh)) as Hwf.
  assert (admin_call m = false) as Ha by (by destruct Hs). apply (order_calls_exact p Hcf Hpf Hsl) in He; [|done..].
  assert (forall b a n back, b_creator b = sender -> b_coll b = coll -> b_tok b = tok -> b_det b = d -> p_valid p coll = true ->
    first_ask st coll (Some tok) (d_price d) a -> pays sender funds n (d_price (a_det a)) back ->
    forall k, st' = sold st k a (MBid b) -> msgs = sale_sends p v (s_config st) a (MBid b) true ++ back ->
    exists a b, token_quote p st coll tok (c_denom (d_price d)) = Some a /\ c_amount (d_price (a_det a)) <= c_amount (d_price d) /\
     b_creator b = sender /\ b_coll b = coll /\ b_tok b = tok /\ b_det b = d /\ sold_to p v st a (MBid b) true st' msgs) as Htr.
  { intros b a n back B1 B2 B3 B4 Hv Hf Hp k -> ->. apply token_first in Hf as [Q1 Q2]; [|done..]. exists a, b. split_and!; try done.
    eexists _, [], back. split; [done|]. split; [done|]. intros c t to. cbn [app]. by eapply no_nft_change. }
  destruct Hs as [coll tok d|coll tok d|i d b0 Hi].
  - inversion He as [|m' ? ? ? mb ? Hm| | | | |? ? ? ? ? L1 L2 L3 L4 L5|m' ? ? ? ? ? ? Hm L1 L2 L3 L4 L5| | | | | |m' ? ? ? ? ? Hm| | | |]; subst; try (by destruct Hm).
    + right. split; [exact (proj1 (token_rests st _ _ (d_price d) Hwf (proj1 L1)) L2)|]. split; [done|]. intros c t to (H&_). by eapply no_nft_change in H.
    + left. destruct Hm as [Hm|Hm]; [|done]. injection Hm as <- <- <-. eapply Htr; [..|reflexivity|reflexivity]; try done. exact (proj1 L1).
  - inversion He as [|m' ? ? ? mb ? Hm| | | | |? ? ? ? ? L1 L2 L3 L4 L5|m' ? ? ? ? ? ? Hm L1 L2 L3 L4 L5| | | | | |m' ? ? ? ? ? Hm| | | |]; subst; try (by destruct Hm).
    left. destruct Hm as [Hm|Hm]; [done|]. injection Hm as <- <- <-. eapply Htr; [..|reflexivity|reflexivity]; try done. exact (proj1 L1).
  - destruct (wf_bid _ _ Hwf _ _ Hi) as (_&_&Hv&_).
    inversion He as [|m' ? ? ? mb ? Hm| | | | | |m' ? ? ? ? ? ? Hm|? ? b1 ? L1 L2 L3 L4 L5 L6|? ? b1 ? ? ? L1 L2 L3 L4 L5 L6 L7 L8| | | |m' ? ? ? ? ? Hm| | | |]; subst; try (by destruct Hm).
    + assert (b1 = b0) as -> by congruence. right. split; [by apply token_rests|]. split; [done|]. intros c t to (H&_). by eapply no_nft_change in H.
    + assert (b1 = b0) as -> by congruence. left. eapply Htr; [..|reflexivity|reflexivity]; done.
Qed.
End Calls.
