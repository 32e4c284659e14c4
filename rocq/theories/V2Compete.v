(** More bids never hurt a seller, more listings never hurt a buyer (v2). *)
From stdpp Require Import relations.
From Verif Require Import Base Common Chain BaseFacts ChainFacts QuerySpec V2Model V2Spec V2Facts V2Inv V2Reach V2ExactSpec V2Exact
  V2QuoteSpec V2Quote V2CompeteSpec.

Section Compete.
Context (p : params) (Hcf : collision_free p) (Hpf : prefix_free p) (Hsl : slash_free p).

Lemma pays_unique s f o c b b' : pays s f o c b -> pays s f o c b' -> b = b'.
Proof.
  intros (_&cs&(H1&H2&H3)&->) (_&cs'&(H1'&H2'&H3')&->). f_equal.
  apply sorted_coins in H3, H3'. apply (purse_unique (coins_in cs)); [done|]. split; [|done]. intros d. specialize (H1 d). specialize (H1' d). lia.
Qed.

(** * Sellers *)
Definition before_sale (cfg : config) (funds : list coin) (m : msg) : list cmsg :=
  match m with UpdateAsk _ _ => [] | _ => [MSend (cf_fee_manager cfg) funds] end.
Lemma selling_shape v e sender funds st m a st' ms : selling sender p st m a -> does p v e sender funds st m st' ms ->
  (exists mb, top_bid st (a_coll a) (a_tok a) (d_price (a_det a)) mb /\ st' = sold st (s_nonce st) a mb /\
     ms = before_sale (s_config st) funds m ++ sale_sends p v (s_config st) a mb false) \/
  ((forall mb, ~ fits st (a_coll a) (a_tok a) (d_price (a_det a)) mb) /\ s_asks st' !! a_id a <> None).
Proof.
  intros Hs He. destruct Hs as [coll tok d|coll tok d|i d a0 Hi]; cbn [a_det a_coll a_tok a_id];
    inversion He as [? ? ? L1 L2 L3|m' ? ? ? mb ? Hm L1 L2 L3 L4|? ? a1 L1 L2 L3 L4 L5 L6|? ? a1 ? mb L1 L2 L3 L4 L5 L6 L7 L8| | | |m' ? ? ? ? ? ? Hm| | | | | |m' ? ? ? ? ? Hm| | | |]; subst;
    try (by destruct Hm).
  - right. split; [done|]. cbn [with_asks s_asks]. by rewrite lookup_insert.
  - left. destruct Hm as [Hm|Hm]; [|done]. injection Hm as <- <- <-. by exists mb.
  - left. destruct Hm as [Hm|Hm]; [done|]. injection Hm as <- <- <-. by exists mb.
  - assert (a1 = a0) as -> by congruence. right. split; [done|]. cbn [with_asks s_asks]. by rewrite lookup_insert.
  - assert (a1 = a0) as -> by congruence. left. by exists mb.
Qed.
Lemma more_fits st t coll tok c mb : more_bids st t -> fits st coll tok c mb -> fits t coll tok c mb.
Proof. intros (_&_&H1&H2) (R&W&L). split; [|done]. destruct mb; cbn [resting] in *; eauto. Qed.
Lemma shape_sold_to v st a mb n cfg funds m st' ms : cfg = s_config st -> st' = sold st n a mb ->
  ms = before_sale cfg funds m ++ sale_sends p v cfg a mb false -> sold_to p v st a mb false st' ms.
Proof.
  intros -> -> ->. exists n, (before_sale (s_config st) funds m), []. split; [done|]. rewrite app_nil_r. split; [done|].
  intros c t to. rewrite app_nil_r. unfold before_sale. destruct m; try (by intros ?%elem_of_nil); by intros ?%elem_of_list_singleton.
Qed.
Theorem more_bids_sell v e sender funds st t m a st' t' ms ms' :
  small_history p st -> small_history p t -> small_call funds m -> selling sender p st m a -> more_bids st t ->
  execute p v e sender funds st m = Ok (st', ms) -> execute p v e sender funds t m = Ok (t', ms') -> s_asks st' !! a_id a = None ->
  exists mb mb', sold_to p v st a mb false st' ms /\ sold_to p v t a mb' false t' ms' /\ resting st mb /\ resting t mb' /\
    c_denom (price_of mb') = c_denom (price_of mb) /\ c_amount (price_of mb) <= c_amount (price_of mb') /\
    (resting st mb' -> mb' = mb /\ ms' = ms).
Proof.
  intros Hh Hh' Hc Hs Hm He He' Hn.
  assert (admin_call m = false) as Ha by (by destruct Hs).
  assert (selling sender p t m a) as Hs'.
  { destruct Hs as [coll tok d|coll tok d|i d a0 Hi]; try constructor. destruct Hm as (_&E&_). by rewrite E. }
  apply (order_calls_exact p Hcf Hpf Hsl) in He; [|done..]. apply (order_calls_exact p Hcf Hpf Hsl) in He'; [|done..].
  destruct (selling_shape _ _ _ _ _ _ _ _ _ Hs He) as [(mb&[Hf Ht]&E1&E2)|[_ Hx]]; [|done].
  destruct (selling_shape _ _ _ _ _ _ _ _ _ Hs' He') as [(mb'&[Hf' Ht']&E1'&E2')|[Hx _]].
  2:{ exfalso. by eapply Hx, more_fits. }
  exists mb, mb'. split; [by eapply shape_sold_to|]. split; [by eapply shape_sold_to|].
  pose proof (Ht' mb (more_fits _ _ _ _ _ _ Hm Hf)) as Hr.
  pose proof Hf as (R&W&L). pose proof Hf' as (R'&W'&L'). split; [done|]. split; [done|].
  assert (forall mb, wants mb (a_coll a) (a_tok a) (c_denom (d_price (a_det a))) -> c_denom (price_of mb) = c_denom (d_price (a_det a))) as Hd.
  { intros [b|b]; unfold wants; cbn; tauto. }
  split; [by rewrite (Hd mb), (Hd mb')|]. split; [destruct Hr as [->|[?|[? _]]]; lia|].
  intros Hrm. assert (mb' = mb) as Heq.
  { destruct Hr as [->|Ho]; [done|]. destruct (Ht mb') as [?|Ho']; [by split_and!|done|]. by destruct (outranks_asym _ _ Ho Ho'). }
  split; [done|]. rewrite E2, E2', Heq. destruct Hm as (->&_). done.
Qed.

(** * Buyers *)
Definition cname (e : env) (st : state) (m : msg) (coll : addr) : order_id :=
  match m with UpdateCollectionBid i _ => i | _ => bid_name_of p e st coll end.
Definition bname (e : env) (st : state) (m : msg) (coll : addr) (tok : token) : order_id :=
  match m with UpdateBid i _ => i | _ => bid_name_of p e st (coll +:+ tok) end.
Definition held_for (st : state) (m : msg) : option coin :=
  match m with
  | UpdateBid i _ => (fun b => d_price (b_det b)) <$> s_bids st !! i
  | UpdateCollectionBid i _ => (fun b => d_price (cb_det b)) <$> s_cbids st !! i
  | _ => None
  end.
Definition bought (v : view) (sender : addr) (funds : list coin) (st : state) (m : msg) (coll : addr) (tok : option token) (d : details)
    (mb : matching_bid) (st' : state) (ms : list cmsg) : Prop :=
  (exists a n back, first_ask st coll tok (d_price d) a /\ pays sender funds (held_for st m) (d_price (a_det a)) back /\
     st' = sold st n a mb /\ ms = sale_sends p v (s_config st) a mb true ++ back) \/
  ((forall a, ~ offered st coll tok (d_price d) a) /\ forall c t to, ~ MNft c t to ∈ ms).
Lemma any_shape v e sender funds st m coll d st' ms : buying_any st m coll d -> does p v e sender funds st m st' ms ->
  bought v sender funds st m coll None d (MCBid (CBid (cname e st m coll) sender coll d)) st' ms.
Proof.
  intros Hs He. destruct Hs as [coll d|coll d|i d b0 Hi].
  - inversion He as [|m' ? ? ? mb ? Hm| | | | | |m' ? ? ? ? ? ? Hm| | | | |? ? ? ? L1 L2 L3 L4 L5 L6|m' ? ? ? a ? Hm L1 L2 L3 L4 L5 L6| | | |]; subst; try (by destruct Hm).
    + right. split; [done|]. intros c t to. by eapply no_nft_change.
    + left. destruct Hm as [Hm|Hm]; [|done]. injection Hm as <- <-. eexists a, _, _. split_and!; done.
  - inversion He as [|m' ? ? ? mb ? Hm| | | | | |m' ? ? ? ? ? ? Hm| | | | |? ? ? ? L1 L2 L3 L4 L5 L6|m' ? ? ? a ? Hm L1 L2 L3 L4 L5 L6| | | |]; subst; try (by destruct Hm).
    left. destruct Hm as [Hm|Hm]; [done|]. injection Hm as <- <-. eexists a, _, _. split_and!; done.
  - inversion He as [|m' ? ? ? mb ? Hm| | | | | |m' ? ? ? ? ? ? Hm| | | | | |m' ? ? ? ? ? Hm|? ? b1 ? L1 L2 L3 L4 L5 L6 L7|? ? b1 ? a ? L1 L2 L3 L4 L5 L6 L7 L8 L9| |]; subst; try (by destruct Hm).
    + assert (b1 = b0) as -> by congruence. right. split; [done|]. intros c t to. by eapply no_nft_change.
    + assert (b1 = b0) as -> by congruence. left. eexists a, _, _. cbn [held_for]. rewrite Hi. split_and!; done.
Qed.
Lemma one_shape v e sender funds st m coll tok d st' ms : buying_one st m coll tok d -> does p v e sender funds st m st' ms ->
  bought v sender funds st m coll (Some tok) d (MBid (Bid (bname e st m coll tok) sender coll tok d)) st' ms.
Proof.
  intros Hs He. destruct Hs as [coll tok d|coll tok d|i d b0 Hi].
  - inversion He as [|m' ? ? ? mb ? Hm| | | | |? ? ? ? ? L1 L2 L3 L4 L5|m' ? ? ? ? a ? Hm L1 L2 L3 L4 L5| | | | | |m' ? ? ? ? ? Hm| | | |]; subst; try (by destruct Hm).
    + right. split; [done|]. intros c t to. by eapply no_nft_change.
    + left. destruct Hm as [Hm|Hm]; [|done]. injection Hm as <- <- <-. eexists a, _, _. split_and!; done.
  - inversion He as [|m' ? ? ? mb ? Hm| | | | |? ? ? ? ? L1 L2 L3 L4 L5|m' ? ? ? ? a ? Hm L1 L2 L3 L4 L5| | | | | |m' ? ? ? ? ? Hm| | | |]; subst; try (by destruct Hm).
    left. destruct Hm as [Hm|Hm]; [done|]. injection Hm as <- <- <-. eexists a, _, _. split_and!; done.
  - inversion He as [|m' ? ? ? mb ? Hm| | | | | |m' ? ? ? ? ? ? Hm|? ? b1 ? L1 L2 L3 L4 L5 L6|? ? b1 ? a ? L1 L2 L3 L4 L5 L6 L7 L8| | | |m' ? ? ? ? ? Hm| | | |]; subst; try (by destruct Hm).
    + assert (b1 = b0) as -> by congruence. right. split; [done|]. intros c t to. by eapply no_nft_change.
    + assert (b1 = b0) as -> by congruence. left. eexists a, _, _. cbn [held_for]. rewrite Hi. split_and!; done.
Qed.
Lemma more_offered st t coll tok c a : more_asks st t -> offered st coll tok c a -> offered t coll tok c a.
Proof. intros (_&_&_&_&H) (L&?). split; [by apply H|done]. Qed.
Lemma more_bought v sender funds st t m coll tok d mb st' t' ms ms' c x to : more_asks st t ->
  bought v sender funds st m coll tok d mb st' ms -> bought v sender funds t m coll tok d mb t' ms' -> MNft c x to ∈ ms ->
  exists a a', sold_to p v st a mb true st' ms /\ sold_to p v t a' mb true t' ms' /\ s_asks st !! a_id a = Some a /\ s_asks t !! a_id a' = Some a' /\
    c_denom (d_price (a_det a')) = c_denom (d_price (a_det a)) /\ c_amount (d_price (a_det a')) <= c_amount (d_price (a_det a)) /\
    (s_asks st !! a_id a' = Some a' -> a' = a /\ ms' = ms).
Proof.
  intros Hm [(a&n&back&[Hf Ht]&P&E1&E2)|[_ Hx]] [(a'&n'&back'&[Hf' Ht']&P'&E1'&E2')|[Hx' _]] Hin; try (by destruct (Hx _ _ _ Hin)).
  2:{ exfalso. by eapply Hx', more_offered. }
  pose proof (Ht' a (more_offered _ _ _ _ _ _ Hm Hf)) as Hr. pose proof Hf as (O1&O2&O3&O4&O5). pose proof Hf' as (Q1&Q2&Q3&Q4&Q5).
  exists a, a'. split. { exists n, [], back. split_and!; [done|done|]. intros ???. by eapply no_nft_change. }
  split. { exists n', [], back'. split_and!; [done|done|]. intros ???. by eapply no_nft_change. }
  split; [done|]. split; [done|]. split; [congruence|].
  split. { destruct Hr as [->|[Hr|[Hr _]]]; unfold ask_key in *; cbn [fst snd] in *; lia. }
  intros Hl. assert (a' = a) as Heq.
  { destruct Hr as [->|Ho]; [done|]. destruct (Ht a') as [?|Ho']; [by split_and!|done|]. by destruct (price_irrefl _ (price_trans _ _ _ Ho Ho')). }
  split; [done|]. destruct Hm as (C&_&B1&B2&_). assert (held_for t m = held_for st m) as Hh by (unfold held_for; by rewrite B1, B2).
  rewrite Hh, Heq in P'. rewrite E2, E2', Heq, C. f_equal. by eapply pays_unique.
Qed.
Theorem more_asks_buy_any v e sender funds st t m coll d st' t' ms ms' c x to :
  small_history p st -> small_history p t -> small_call funds m -> buying_any st m coll d -> more_asks st t ->
  execute p v e sender funds st m = Ok (st', ms) -> execute p v e sender funds t m = Ok (t', ms') -> MNft c x to ∈ ms ->
  exists a a' mb, sold_to p v st a mb true st' ms /\ sold_to p v t a' mb true t' ms' /\ s_asks st !! a_id a = Some a /\ s_asks t !! a_id a' = Some a' /\
    c_denom (d_price (a_det a')) = c_denom (d_price (a_det a)) /\ c_amount (d_price (a_det a')) <= c_amount (d_price (a_det a)) /\
    (s_asks st !! a_id a' = Some a' -> a' = a /\ ms' = ms).
Proof.
  intros Hh Hh' Hc Hs Hm He He' Hn. assert (admin_call m = false) as Ha by (by destruct Hs).
  assert (buying_any t m coll d) as Hs'.
  { destruct Hs as [|?|i d b0 Hi]; try constructor. destruct Hm as (_&_&_&E&_). by rewrite E. }
  apply (order_calls_exact p Hcf Hpf Hsl) in He; [|done..]. apply (order_calls_exact p Hcf Hpf Hsl) in He'; [|done..].
  apply any_shape with (coll := coll) (d := d) in He; [|done]. apply any_shape with (coll := coll) (d := d) in He'; [|done].
  assert (cname e t m coll = cname e st m coll) as Hnm.
  { destruct Hm as (_&E&_). unfold cname, bid_name_of, next_count. by rewrite E. }
  rewrite Hnm in He'. destruct (more_bought _ _ _ _ _ _ _ _ _ _ _ _ _ _ _ _ _ Hm He He' Hn) as (a&a'&H). eauto.
Qed.
Theorem more_asks_buy_one v e sender funds st t m coll tok d st' t' ms ms' c x to :
  small_history p st -> small_history p t -> small_call funds m -> buying_one st m coll tok d -> more_asks st t ->
  execute p v e sender funds st m = Ok (st', ms) -> execute p v e sender funds t m = Ok (t', ms') -> MNft c x to ∈ ms -> ms' = ms.
Proof.
  intros Hh Hh' Hc Hs Hm He He' Hn. assert (admin_call m = false) as Ha by (by destruct Hs).
  assert (buying_one t m coll tok d) as Hs'.
  { destruct Hs as [|?|i d b0 Hi]; try constructor. destruct Hm as (_&_&E&_). by rewrite E. }
  apply (order_calls_exact p Hcf Hpf Hsl) in He; [|done..]. apply (order_calls_exact p Hcf Hpf Hsl) in He'; [|done..].
  apply one_shape with (coll := coll) (tok := tok) (d := d) in He; [|done]. apply one_shape with (coll := coll) (tok := tok) (d := d) in He'; [|done].
  assert (bname e t m coll tok = bname e st m coll tok) as Hnm.
  { destruct Hm as (_&E&_). unfold bname, bid_name_of, next_count. by rewrite E. }
  rewrite Hnm in He'. pose proof (proj1 (small_history_inv p Hcf Hpf Hsl _ Hh')) as Hwf.
  destruct He as [(a&n&back&[Hf Ht]&P&E1&E2)|[_ Hx]]; [|by destruct (Hx _ _ _ Hn)].
  destruct He' as [(a'&n'&back'&[Hf' Ht']&P'&E1'&E2')|[Hx' _]]; [|exfalso; by eapply Hx', more_offered].
  pose proof (more_offered _ _ _ _ _ _ Hm Hf) as Ho. assert (a' = a) as Heq.
  { destruct Ho as (O1&O2&O3&_), Hf' as (P1&P2&P3&_). eapply (same_nft p); [done..| |]; [congruence|]. rewrite (O3 tok), (P3 tok); done. }
  destruct Hm as (C&_&B1&B2&_). assert (held_for t m = held_for st m) as Hhf by (unfold held_for; by rewrite B1, B2).
  rewrite Hhf, Heq in P'. rewrite E2, E2', Heq, C. f_equal. by eapply pays_unique.
Qed.
End Compete.
