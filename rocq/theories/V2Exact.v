(** The order calls of marketplace v2 do exactly what V2ExactSpec says. *)
From stdpp Require Import relations.
From Verif Require Import Base BaseFacts Common Chain ChainFacts IndexRange IndexFacts QuerySpec IndexWalk SaleFacts V2Model V2Spec
  V2Facts V2Match V2Inv V2Sale V2Trade V2Reach V2Book V2Calls V2Live V2More V2ExactSpec.

(** * Coins *)
Lemma id_before_irrefl x : ~ id_before x x.
Proof. rewrite <-str_leb_before. rewrite str_leb_refl. done. Qed.
Lemma id_before_trans x y z : id_before x y -> id_before y z -> id_before x z.
Proof.
  rewrite <-!str_leb_before. intros H1 H2. destruct (str_leb z x) eqn:E; [|done].
  destruct (str_leb_total y z) as [H|H]; [|congruence]. rewrite (str_leb_trans _ _ _ H E) in H1. done.
Qed.
Lemma id_before_tri x y : id_before x y \/ x = y \/ id_before y x.
Proof.
  rewrite <-!str_leb_before. destruct (str_leb y x) eqn:E1; [|by left]. destruct (str_leb x y) eqn:E2; [|by right; right].
  right; left. by apply str_leb_antisym.
Qed.

Definition sorted_denoms (l : list coin) : Prop := StronglySorted id_before (c_denom <$> l).
Lemma sorted_coins l : StronglySorted (fun x y => id_before (c_denom x) (c_denom y)) l <-> sorted_denoms l.
Proof.
  unfold sorted_denoms. induction l as [|x l IH]; cbn; [by split; constructor|].
  split; intros [H1 H2]%StronglySorted_inv; constructor; try by apply IH.
  - rewrite Forall_fmap. exact H2.
  - rewrite Forall_fmap in H2. exact H2.
Qed.
Definition purse (held : denom -> N) (fs : list coin) : Prop :=
  (forall d, coins_in fs d = held d) /\ all_pos fs /\ sorted_denoms fs.

Lemma amt_below l d : Forall (id_before d) (c_denom <$> l) -> amt l d = 0.
Proof.
  intros H. apply amt_notin. intros c Hc E. rewrite Forall_fmap in H. rewrite Forall_forall in H.
  apply elem_of_list_In in Hc. specialize (H _ Hc). cbn in H. rewrite E in H. by apply id_before_irrefl in H.
Qed.
Lemma purse_unique held l l' : purse held l -> purse held l' -> l = l'.
Proof.
  intros (H1&H2&H3) (H1'&H2'&H3'). assert (forall d, amt l d = amt l' d) as H by (intros d; rewrite <-!coins_in_amt; congruence).
  clear held H1 H1'. revert l' H2 H3 H2' H3' H. induction l as [|x l IH]; intros [|y l'] P1 S1 P2 S2 H; [done|..].
  - specialize (H (c_denom y)). cbn in H. rewrite bool_decide_eq_true_2 in H by done. inversion P2; subst. lia.
  - specialize (H (c_denom x)). cbn in H. rewrite bool_decide_eq_true_2 in H by done. inversion P1; subst. lia.
  - apply StronglySorted_inv in S1 as [S1 F1]. apply StronglySorted_inv in S2 as [S2 F2]. fold (c_denom <$> l) in *. fold (c_denom <$> l') in *.
    inversion P1 as [|? ? Px P1']; subst. inversion P2 as [|? ? Py P2']; subst.
    destruct (id_before_tri (c_denom x) (c_denom y)) as [Hxy|[Hxy|Hxy]].
    + specialize (H (c_denom x)). cbn in H. rewrite bool_decide_eq_true_2 in H by done.
      rewrite bool_decide_eq_false_2 in H by (intros E; rewrite E in Hxy; by apply id_before_irrefl in Hxy).
      rewrite (amt_below l') in H; [lia|]. eapply Forall_impl; [exact F2|]. intros z Hz. by eapply id_before_trans.
    + assert (x = y) as ->.
      { specialize (H (c_denom x)). cbn in H. rewrite !bool_decide_eq_true_2 in H by done.
        rewrite (amt_below l) in H by done. rewrite (amt_below l') in H by (by rewrite Hxy). destruct x, y; cbn in *. f_equal; [done|lia]. }
      f_equal. apply IH; try done. intros d. specialize (H d). cbn in H. lia.
    + specialize (H (c_denom y)). cbn in H. rewrite (bool_decide_eq_true_2 (c_denom y = c_denom y)) in H by done.
      rewrite bool_decide_eq_false_2 in H by (intros E; rewrite E in Hxy; by apply id_before_irrefl in Hxy).
      rewrite (amt_below l) in H; [lia|]. eapply Forall_impl; [exact F1|]. intros z Hz. by eapply id_before_trans.
Qed.

Lemma insert_sorted l c : sorted_denoms l -> ~ In (c_denom c) (c_denom <$> l) -> sorted_denoms (nb_insert l c).
Proof.
  unfold sorted_denoms. induction l as [|x l IH]; cbn; intros S Hn; [repeat constructor|].
  apply StronglySorted_inv in S as [S F]. fold (c_denom <$> l) in *.
  assert (c_denom x <> c_denom c /\ ~ In (c_denom c) (c_denom <$> l)) as [Hx Hn'] by tauto.
  destruct (str_leb (c_denom c) (c_denom x)) eqn:E; cbn.
  - assert (id_before (c_denom c) (c_denom x)) as Hb.
    { destruct (id_before_tri (c_denom c) (c_denom x)) as [?|[?|H]]; [done|congruence|]. apply str_leb_before in H. congruence. }
    constructor; [by constructor|]. constructor; [done|]. eapply Forall_impl; [exact F|]. intros z. by apply id_before_trans.
  - apply str_leb_before in E. constructor; [by apply IH|]. fold (c_denom <$> nb_insert l c).
    rewrite Forall_fmap. unfold nb_insert in *. fold nb_insert. rewrite (nb_insert_perm l c). constructor; [done|].
    by rewrite <-Forall_fmap.
Qed.
Lemma add_sorted l c l' : sorted_denoms l -> nb_add l c = Ok l' -> sorted_denoms l'.
Proof.
  unfold nb_add, sorted_denoms. intros S. destruct (nb_bump l c) as [r|] eqn:E; intros H.
  - by rewrite (nb_bump_denoms _ _ _ _ E H).
  - injection H as <-. apply insert_sorted; [done|]. by apply nb_bump_none.
Qed.
Lemma normalize_sorted l l' : nb_normalize l = Ok l' -> sorted_denoms l'.
Proof.
  revert l'. induction l as [|c l IH]; cbn [nb_normalize]; intros l' H; inv_ok; [constructor| |].
  - by apply IH.
  - eapply add_sorted; [|exact H]. by apply IH.
Qed.
Lemma sub_denoms l c l' : nb_sub l c = Ok l' -> (c_denom <$> l') `sublist_of` (c_denom <$> l).
Proof.
  revert l'. induction l as [|x l IH]; cbn [nb_sub]; intros l' H; [discriminate|].
  destruct (bool_decide _); inv_ok; cbn.
  - by apply sublist_cons.
  - done.
  - apply sublist_skip. by apply IH.
Qed.
Lemma sublist_sorted (l l' : list string) : l' `sublist_of` l -> StronglySorted id_before l -> StronglySorted id_before l'.
Proof.
  induction 1 as [|x l1 l2 Hs IH|x l1 l2 Hs IH]; intros S; [done| |]; apply StronglySorted_inv in S as [S F].
  - constructor; [by apply IH|]. clear -Hs F. induction Hs; [constructor| |]; inversion F; subst; auto.
  - by apply IH.
Qed.

Lemma bump_in l c r : nb_bump l c = Some r -> In (c_denom c) (c_denom <$> l).
Proof.
  revert r. induction l as [|x l IH]; cbn; intros r E; [done|]. case_bool_decide; [by left|].
  destruct (nb_bump l c) as [r'|]; [|done]. right. by eapply IH.
Qed.
Lemma bump_some l c : In (c_denom c) (c_denom <$> l) -> sorted_denoms l -> amt l (c_denom c) + c_amount c <= U128_MAX ->
  exists l', nb_bump l c = Some (Ok l').
Proof.
  unfold sorted_denoms. induction l as [|x l IH]; cbn -[U128_MAX]; intros Hin S Hle; [done|].
  apply StronglySorted_inv in S as [S F]. fold (c_denom <$> l) in *. case_bool_decide as E.
  - unfold add128. rewrite (proj2 (N.leb_le _ _)) by lia. cbn. eauto.
  - destruct Hin as [?|Hin]; [congruence|]. rewrite N.add_0_l in Hle. destruct (IH Hin S Hle) as [l' ->]. cbn. eauto.
Qed.
Lemma bump_le l c l' : nb_bump l c = Some (Ok l') -> sorted_denoms l -> amt l (c_denom c) + c_amount c <= U128_MAX.
Proof.
  unfold sorted_denoms. revert l'. induction l as [|x l IH]; cbn -[U128_MAX]; intros l' H S; [done|].
  apply StronglySorted_inv in S as [S F]. fold (c_denom <$> l) in *. case_bool_decide as E.
  - injection H as H. inv_ok. unfold add128 in *. inv_ok. rewrite (amt_below l) by (by rewrite <-E). lia.
  - destruct (nb_bump l c) as [[l2|]|] eqn:E'; cbn in H; try discriminate. rewrite N.add_0_l. by eapply IH.
Qed.
Lemma notin_amt l d : all_pos l -> ~ In d (c_denom <$> l) -> amt l d = 0.
Proof.
  intros _ H. apply amt_notin. intros c Hc E. apply H. rewrite <-E. by apply in_map.
Qed.

Lemma add_ok held fs c : purse held fs -> (forall d, held d + in_denom d c <= U128_MAX) -> exists fs', nb_add fs c = Ok fs'.
Proof.
  intros (H1&H2&H3) H. unfold nb_add. destruct (nb_bump fs c) as [r|] eqn:E; [|eauto].
  destruct (bump_some fs c) as [l' El]; [by eapply bump_in|done|..].
  - specialize (H (c_denom c)). rewrite in_denom_amt, amt_one_same in H by done. by rewrite <-coins_in_amt, H1.
  - rewrite E in El. injection El as ->. eauto.
Qed.
Lemma purse_add held fs c : purse held fs -> small c -> 0 < c_amount c -> (forall d, held d <= U128_MAX) ->
  forall fs', nb_add fs c = Ok fs' <->
    (forall d, held d + in_denom d c <= U128_MAX) /\ purse (fun d => held d + in_denom d c) fs'.
Proof.
  intros Hpu Hs Hp Hm. pose proof Hpu as (H1&H2&H3).
  assert (forall fs', nb_add fs c = Ok fs' -> purse (fun d => held d + in_denom d c) fs') as Hpur.
  { intros fs' H. split_and!.
    - intros d. rewrite coins_in_amt, (nb_add_amt _ _ _ d H), <-coins_in_amt, H1, in_denom_amt. done.
    - by eapply nb_add_pos.
    - by eapply add_sorted. }
  intros fs'. split.
  - intros H. split; [|by apply Hpur]. intros d. rewrite in_denom_amt, amt_one. case_bool_decide as E; [|rewrite N.add_0_r; apply Hm].
    subst d. unfold nb_add in H. destruct (nb_bump fs c) as [r|] eqn:Eb.
    + subst r. apply bump_le in Eb; [|done]. by rewrite <-coins_in_amt, H1 in Eb.
    + apply nb_bump_none in Eb. rewrite <-H1, coins_in_amt, notin_amt by done. apply Hs.
  - intros [H Hfs]. destruct (add_ok _ _ _ Hpu H) as [fs2 H2']. rewrite H2'. f_equal. eapply purse_unique; [by apply Hpur|done].
Qed.

Lemma purse_ext held held' fs : (forall d, held d = held' d) -> purse held fs <-> purse held' fs.
Proof. intros H. unfold purse. split; intros (H1&H2&H3); split_and!; try done; intros d; rewrite H1; [|symmetry]; apply H. Qed.

Lemma normalize_ok l : Forall small l -> (forall d, coins_in l d <= U128_MAX) -> exists fs, nb_normalize l = Ok fs.
Proof.
  induction 1 as [|c l Hc Hl IH]; cbn [nb_normalize]; intros Hle; [eauto|].
  assert (forall d, coins_in l d <= U128_MAX) as Hl' by (intros d; specialize (Hle d); cbn -[U128_MAX] in Hle; lia).
  destruct (IH Hl') as [a Ha]. rewrite Ha. cbn. destruct (c_amount c =? 0) eqn:E; [eauto|]. apply N.eqb_neq in E.
  assert (purse (coins_in l) a) as Hp.
  { split_and!; [|by eapply nb_normalize_pos|by eapply normalize_sorted]. intros d. by rewrite !coins_in_amt, (nb_normalize_amt _ _ _ Ha). }
  apply (add_ok _ _ _ Hp). intros d. specialize (Hle d). cbn -[U128_MAX] in Hle. lia.
Qed.
Lemma purse_normalize funds : Forall small funds -> forall fs,
  nb_normalize funds = Ok fs <-> (forall d, coins_in funds d <= U128_MAX) /\ purse (coins_in funds) fs.
Proof.
  induction 1 as [|c l Hc Hl IH]; intros fs; cbn [nb_normalize].
  - split.
    + intros [= <-]. split; [intros d; apply N.le_0_l|]. split_and!; [done|constructor|constructor].
    + intros [_ H]. f_equal. apply (purse_unique (coins_in [])); [|done]. split_and!; [done|constructor|constructor].
  - rewrite bind_Ok. destruct (c_amount c =? 0) eqn:E.
    + apply N.eqb_eq in E. assert (forall d, coins_in (c :: l) d = coins_in l d) as Ed.
      { intros d. cbn. unfold in_denom. destruct (decide _); lia. }
      rewrite (purse_ext _ _ _ Ed). setoid_rewrite Ed. rewrite <-IH. split; [intros (a&Ha&[= <-]); done|eauto].
    + apply N.eqb_neq in E.
      assert (forall d, coins_in (c :: l) d = coins_in l d + in_denom d c) as Ed by (intros d; cbn; lia).
      rewrite (purse_ext _ _ _ Ed). setoid_rewrite Ed. split.
      * intros (a&[Ha1 Ha2]%IH&H). apply (purse_add _ _ _ Ha2) in H; [done|done|lia|done].
      * intros [H1 H2]. assert (forall d, coins_in l d <= U128_MAX) as Hl' by (intros d; specialize (H1 d); lia).
        destruct (normalize_ok l Hl Hl') as [a Ha].
        exists a. split; [done|]. apply IH in Ha as [_ Ha]. apply (purse_add _ _ _ Ha); [done|lia|done|]. done.
Qed.

Lemma purse_sub held fs c : purse held fs -> 0 < c_amount c -> forall fs',
  funds_sub fs c = Ok fs' <-> change_of held c fs'.
Proof.
  intros (H1&H2&H3) Hc.
  assert (forall fs', nb_sub fs c = Ok fs' -> change_of held c fs') as Hfw.
  { intros fs' H. split_and!.
    - intros d. rewrite <-H1, !coins_in_amt, in_denom_amt. symmetry. by apply nb_sub_amt.
    - by eapply nb_sub_pos.
    - apply sorted_coins. eapply sublist_sorted; [by eapply sub_denoms|done]. }
  unfold funds_sub. intros fs'. split.
  - destruct (nb_sub fs c) as [l|] eqn:E; [|done]. intros [= <-]. by apply Hfw.
  - intros (G1&G2&G3). destruct (nb_sub_ok fs c) as [l E].
    + unfold distinct_denoms. clear -H3. unfold sorted_denoms in H3. induction H3 as [|x l S IH F]; constructor; [|done].
      intros Hin. rewrite Forall_forall in F. by apply F, id_before_irrefl in Hin.
    + done.
    + rewrite <-coins_in_amt, H1, <-(G1 (c_denom c)), in_denom_amt, amt_one_same by done. lia.
    + rewrite E. f_equal. apply Hfw in E as (E1&E2&E3). eapply (purse_unique (coins_in l)).
      * split_and!; [done|done|by apply sorted_coins].
      * split_and!; [|done|by apply sorted_coins]. intros d. specialize (E1 d). specialize (G1 d). lia.
Qed.

Section Exact.
Context (p : params).

(** * Single checks *)
Lemma seq_iff {A} (r : result unit) (k : result A) x : (r ;; k) = Ok x <-> r = Ok tt /\ k = Ok x.
Proof. destruct r as [[]|]; cbn; split; [intros; done|by intros [_ ?]|done|by intros [? _]]. Qed.
Lemma ensure_iff b er : ensure b er = Ok tt <-> b = true.
Proof. apply ensure_Ok. Qed.
Lemma addr_bind {A} s (k : addr -> result A) x : (addr_validate p s ≫= k) = Ok x <-> p_valid p s = true /\ k s = Ok x.
Proof. unfold addr_validate. destruct (p_valid p s); cbn; split; [done|by intros [_ ?]|done|by intros [? _]]. Qed.
Lemma maybe_Ok o o' : maybe_addr p o = Ok o' -> (forall x, o = Some x -> p_valid p x = true) /\ o' = o.
Proof.
  unfold maybe_addr, addr_validate. destruct o as [x|]; [|by intros [= <-]]. destruct (p_valid p x) eqn:E; cbn; [|done].
  intros [= <-]. split; [|done]. by intros ? [= <-].
Qed.
Lemma det_bind {A} d (k : details -> result A) x : (details_str_to_addr p d ≫= k) = Ok x <-> named_ok p d /\ k d = Ok x.
Proof.
  split.
  - intros (d'&H1&H2)%bind_Ok. assert (named_ok p d /\ d' = d) as [? ->]; [|done].
    unfold details_str_to_addr in H1. apply bind_Ok in H1 as (r&[Hr ->]%maybe_Ok&H1). apply bind_Ok in H1 as (f&[Hf ->]%maybe_Ok&H1).
    injection H1 as <-. split; [by split|]. by destruct d.
  - intros [Hn H]. rewrite (details_ok _ _ Hn). exact H.
Qed.
Lemma tradable_iff v e coll : only_tradable v e coll = Ok tt <-> ~ not_yet_tradable v e coll.
Proof.
  split; [|apply tradable_ok]. unfold only_tradable. intros H (ci&s&E1&E2&Hlt). rewrite E1, E2 in H.
  by rewrite (proj2 (N.ltb_lt _ _) Hlt) in H.
Qed.
Lemma price_iff st coll c : only_valid_price st (s_config st) coll c = Ok tt <-> priced st coll c.
Proof.
  split; [|apply priced_ok]. intros [H1 H2]%only_valid_price_Ok. split; [done|]. rewrite H2. by destruct (s_denoms st !! coll).
Qed.
Lemma owner_iff v sender coll tok : only_owner v sender coll tok = Ok tt <-> may_sell v sender coll tok.
Proof.
  unfold only_owner, may_sell. destruct (q_owner v coll tok) as [o|].
  - rewrite ensure_iff, bool_decide_eq_true. split; [intros ->; by left|intros [[= ->]|?]; done].
  - split; [by right|done].
Qed.
Lemma nonpayable_iff funds : nonpayable funds = Ok tt <-> funds = [].
Proof. by destruct funds. Qed.
Lemma self_iff (x y : addr) er : ensure (bool_decide (x = y)) er = Ok tt <-> y = x.
Proof. rewrite ensure_iff, bool_decide_eq_true. split; congruence. Qed.
Lemma lookup_bind {A B} (o : option A) er (k : A -> result B) x :
  ((match o with Some a => Ok a | None => Err er end) ≫= k) = Ok x <-> exists a, o = Some a /\ k a = Ok x.
Proof. destruct o as [a|]; cbn; split; [eauto|by intros (?&[= <-]&?)|done|by intros (?&?&_)]. Qed.
Lemma met_iff x y er : ensure (has_coins [x] y) er = Ok tt <-> met_by y x.
Proof. rewrite ensure_iff, has_coins_one. unfold met_by. split; intros []; done. Qed.

Lemma ask_name_eq coll tok : generate_id p [coll; tok] = ask_name p coll tok.
Proof. done. Qed.
Lemma bid_name_eq e st coll tok : generate_id p [coll; tok; be8 (e_height e); be8 (next_nonce st)] = bid_name_of p e st (coll +:+ tok).
Proof. unfold bid_name_of, generate_id. cbn [String.concat]. rewrite !str_app_nil, <-str_app_assoc. done. Qed.
Lemma cbid_name_eq e st coll : generate_id p [coll; be8 (e_height e); be8 (next_nonce st)] = bid_name_of p e st coll.
Proof. unfold bid_name_of, generate_id. cbn [String.concat]. rewrite !str_app_nil. done. Qed.

(** * Matching *)
Lemma pkey_rank n i m j : pkey_leb (n, i) (m, j) = true -> n < m \/ n = m /\ (i = j \/ id_before i j).
Proof.
  intros H. destruct (pkey_leb (m, j) (n, i)) eqn:E.
  - pose proof (pkey_leb_antisym _ _ H E) as [= -> ->]. auto.
  - apply pkey_leb_before in E as [?|[? ?]]; cbn in *; auto.
Qed.
Lemma top_bid_rank st coll tok dn n b : wf p st ->
  vec_pop (query_bids_by_token_price st coll tok dn (QOpts (Some true) (Some 1) (Some (BIncl (n, ""))) None)) = Some b ->
  forall b', bid_on st coll tok dn b' -> n <= b_amt b' -> b' = b \/ outranks (MBid b) (MBid b').
Proof.
  unfold vec_pop, query_bids_by_token_price. intros Hwf (i&H)%last_fmap_snd b' ((j&Hj)&Hb1&Hb2) Hn.
  apply (top_desc_some _ _ pkey_leb_total pkey_leb_trans) in H as (H1&_&H3).
  apply elem_filter_map in H1 as [H1 _]. cbn in H1. destruct (wf_bid _ _ Hwf _ _ H1) as (<-&_). destruct (wf_bid _ _ Hwf _ _ Hj) as (<-&_).
  specialize (H3 (b_id b', b')). unfold bid_pkey, bid_amount in H3. cbn [fst snd] in H3.
  destruct (pkey_rank _ _ _ _ (H3 ltac:(apply elem_filter_map; split; [done|by apply bool_and_iff])
    ltac:(unfold in_bounds; cbn; rewrite andb_true_r, pkey_min_incl; cbn; unfold b_amt in Hn; lia))) as [?|[? [E|?]]].
  - right. by left.
  - left. rewrite E in Hj. congruence.
  - right. by right.
Qed.
Lemma top_cbid_rank st coll dn n b : wf p st ->
  vec_pop (query_collection_bids_by_price st coll dn (QOpts (Some true) (Some 1) (Some (BIncl (n, ""))) None)) = Some b ->
  forall b', cbid_on st coll dn b' -> n <= cb_amt b' -> b' = b \/ outranks (MCBid b) (MCBid b').
Proof.
  unfold vec_pop, query_collection_bids_by_price. intros Hwf (i&H)%last_fmap_snd b' ((j&Hj)&Hb1&Hb2) Hn.
  apply (top_desc_some _ _ pkey_leb_total pkey_leb_trans) in H as (H1&_&H3).
  apply elem_filter_map in H1 as [H1 _]. cbn in H1. destruct (wf_cbid _ _ Hwf _ _ H1) as (<-&_). destruct (wf_cbid _ _ Hwf _ _ Hj) as (<-&_).
  specialize (H3 (cb_id b', b')). unfold cbid_pkey, cbid_amount in H3. cbn [fst snd] in H3.
  destruct (pkey_rank _ _ _ _ (H3 ltac:(apply elem_filter_map; split; [done|by apply bool_and_iff])
    ltac:(unfold in_bounds; cbn; rewrite andb_true_r, pkey_min_incl; cbn; unfold cb_amt in Hn; lia))) as [?|[? [E|?]]].
  - right. by left.
  - left. rewrite E in Hj. congruence.
  - right. by right.
Qed.
Lemma match_top st a mb : wf p st -> slash_free p -> p_valid p (a_coll a) = true -> match_with_bid st a = Some mb ->
  top_bid st (a_coll a) (a_tok a) (d_price (a_det a)) mb.
Proof.
  intros Hwf Hsl Hv H. split; [by eapply match_best|]. intros mb' (Hr&Hw&Hle). revert H. unfold match_with_bid. cbv zeta.
  destruct (vec_pop (query_bids_by_token_price _ _ _ _ _)) as [b|] eqn:Eb;
    destruct (vec_pop (query_collection_bids_by_price _ _ _ _)) as [cb|] eqn:Ec; intros H; try discriminate.
  - pose proof (top_bid_some _ _ _ _ _ _ Eb) as (_&_&Hb). pose proof (top_cbid_some _ _ _ _ _ Ec) as (_&_&Hc).
    destruct mb' as [b'|cb'].
    + assert (bid_on st (a_coll a) (a_tok a) (c_denom (d_price (a_det a))) b') as Hon by (by eapply bid_on_resting).
      specialize (Hb _ Hon Hle). unfold b_amt in Hb. pose proof (top_bid_rank _ _ _ _ _ _ Hwf Eb _ Hon Hle) as Hk.
      destruct (_ <=? _) eqn:El in H; injection H as <-; [destruct Hk as [->|?]; auto|]. right. left. cbn. apply N.leb_gt in El. lia.
    + assert (cbid_on st (a_coll a) (c_denom (d_price (a_det a))) cb') as Hon by (by eapply cbid_on_resting).
      specialize (Hc _ Hon Hle). unfold cb_amt in Hc. pose proof (top_cbid_rank _ _ _ _ _ Hwf Ec _ Hon Hle) as Hk.
      destruct (_ <=? _) eqn:El in H; injection H as <-; [|destruct Hk as [->|?]; auto]. right. apply N.leb_le in El. unfold outranks. cbn.
      destruct (N.eq_dec (c_amount (d_price (cb_det cb'))) (c_amount (d_price (b_det b)))); [by right|left; lia].
  - injection H as <-. destruct mb' as [b'|cb'].
    + assert (bid_on st (a_coll a) (a_tok a) (c_denom (d_price (a_det a))) b') as Hon by (by eapply bid_on_resting).
      destruct (top_bid_rank _ _ _ _ _ _ Hwf Eb _ Hon Hle) as [->|?]; auto.
    + assert (cbid_on st (a_coll a) (c_denom (d_price (a_det a))) cb') as Hon by (by eapply cbid_on_resting).
      pose proof (top_cbid_none _ _ _ _ _ Ec Hon). unfold cb_amt in *. cbn in Hle. lia.
  - injection H as <-. destruct mb' as [b'|cb'].
    + assert (bid_on st (a_coll a) (a_tok a) (c_denom (d_price (a_det a))) b') as Hon by (by eapply bid_on_resting).
      pose proof (top_bid_none _ _ _ _ _ _ Eb Hon). unfold b_amt in *. cbn in Hle. lia.
    + assert (cbid_on st (a_coll a) (c_denom (d_price (a_det a))) cb') as Hon by (by eapply cbid_on_resting).
      destruct (top_cbid_rank _ _ _ _ _ Hwf Ec _ Hon Hle) as [->|?]; auto.
Qed.
Lemma outranks_asym mb mb' : outranks mb mb' -> outranks mb' mb -> False.
Proof.
  unfold outranks. intros [H1|[H1 H1']] [H2|[H2 H2']]; try lia.
  destruct mb, mb'; try done; exact (id_before_irrefl _ (id_before_trans _ _ _ H1' H2')).
Qed.
Lemma top_bid_unique st coll tok price mb mb' : top_bid st coll tok price mb -> top_bid st coll tok price mb' -> mb = mb'.
Proof.
  intros [H1 H2] [H1' H2']. destruct (H2 _ H1') as [?|Ha]; [done|]. destruct (H2' _ H1) as [?|Hb]; [done|].
  by destruct (outranks_asym _ _ Ha Hb).
Qed.
Lemma match_some_iff st a mb : wf p st -> slash_free p -> p_valid p (a_coll a) = true ->
  match_with_bid st a = Some mb <-> top_bid st (a_coll a) (a_tok a) (d_price (a_det a)) mb.
Proof.
  intros Hwf Hsl Hv. split; [by apply match_top|]. intros H. destruct (match_with_bid st a) as [mb'|] eqn:E.
  - apply match_top in E; [|done..]. f_equal. by eapply top_bid_unique.
  - exfalso. eapply match_none_fits; [done..|apply H].
Qed.
Lemma match_none_iff st a : wf p st -> slash_free p -> p_valid p (a_coll a) = true ->
  match_with_bid st a = None <-> forall mb, ~ fits st (a_coll a) (a_tok a) (d_price (a_det a)) mb.
Proof.
  intros Hwf Hsl Hv. split; [intros H mb; by eapply match_none_fits|]. intros H.
  destruct (match_with_bid st a) as [mb|] eqn:E; [|done]. apply match_top in E as [E _]; [|done..]. by apply H in E.
Qed.

Lemma first_ask_unique st coll tok price a a' : first_ask st coll tok price a -> first_ask st coll tok price a' -> a = a'.
Proof.
  intros [H1 H2] [H1' H2']. destruct (H2 _ H1') as [?|Ha]; [done|]. destruct (H2' _ H1) as [?|Hb]; [done|].
  destruct Ha as [Ha|[Ha1 Ha2]], Hb as [Hb|[Hb1 Hb2]]; try lia. by destruct (id_before_irrefl _ (id_before_trans _ _ _ Ha2 Hb2)).
Qed.
Section Names.
Context (Hcf : collision_free p) (Hpf : prefix_free p).
Lemma same_nft st a a' : wf p st -> s_asks st !! a_id a = Some a -> s_asks st !! a_id a' = Some a' ->
  a_coll a = a_coll a' -> a_tok a = a_tok a' -> a = a'.
Proof.
  intros Hwf Ha Ha' E1 E2. destruct (wf_ask _ _ Hwf _ _ Ha) as (_&H1&_). destruct (wf_ask _ _ Hwf _ _ Ha') as (_&H2&_).
  rewrite E1, E2, <-H2 in H1. rewrite H1 in Ha. congruence.
Qed.
Lemma bid_match_some_iff st b a : wf p st -> p_valid p (b_coll b) = true ->
  bid_match_with_ask p st b = Some a <-> first_ask st (b_coll b) (Some (b_tok b)) (d_price (b_det b)) a.
Proof.
  intros Hwf Hv.
  assert (forall x, bid_match_with_ask p st b = Some x -> first_ask st (b_coll b) (Some (b_tok b)) (d_price (b_det b)) x) as Hfw.
  { intros x Hx. apply bid_match_offered in Hx as [Ho _]; [|done..]. split; [done|]. intros x' Ho'. left.
    destruct Ho as (?&?&Ht&_), Ho' as (?&?&Ht'&_). eapply same_nft; [done..| |]; [congruence|].
    rewrite (Ht _ eq_refl). by apply Ht'. }
  split; [apply Hfw|]. intros H. destruct (bid_match_with_ask p st b) as [x|] eqn:E.
  - f_equal. eapply first_ask_unique; [by apply Hfw|done].
  - exfalso. eapply bid_match_none_offered; [done..|apply H].
Qed.
Lemma bid_match_none_iff st b : wf p st -> p_valid p (b_coll b) = true ->
  bid_match_with_ask p st b = None <-> forall a, ~ offered st (b_coll b) (Some (b_tok b)) (d_price (b_det b)) a.
Proof.
  intros Hwf Hv. split; [intros H a; by eapply bid_match_none_offered|]. intros H.
  destruct (bid_match_with_ask p st b) as [x|] eqn:E; [|done]. apply bid_match_offered in E as [E _]; [|done..]. by apply H in E.
Qed.

Lemma accept_iff v sender st coll tok d a : wf p st -> p_valid p coll = true ->
  accept_bid_ask p v sender st coll tok d = Ok a <-> sellable p v sender st coll tok d a.
Proof.
  intros Hwf Hv. unfold accept_bid_ask, sellable. rewrite ask_name_eq. split.
  - destruct (s_asks st !! ask_name p coll tok) as [a0|] eqn:E.
    + rewrite seq_iff, self_iff. intros [Hs [= <-]]. left. destruct (wf_ask _ _ Hwf _ _ E) as (Hid&Hg&_&Hva&_).
      rewrite Hid. destruct (ask_id_inj p coll tok (a_coll a0) (a_tok a0)) as [E1 E2]; try done.
    + rewrite seq_iff, owner_iff. intros [Hs [= <-]]. right. split_and!; [|done|done].
      intros i a1 Hi [<- <-]. destruct (wf_ask _ _ Hwf _ _ Hi) as (_&Hg&_). rewrite Hg, ask_name_eq in Hi. congruence.
  - intros [(Ha&<-&<-&Hs)|(Hu&Hm&->)].
    + destruct (wf_ask _ _ Hwf _ _ Ha) as (_&Hg&_). rewrite <-ask_name_eq, <-Hg, Ha. rewrite seq_iff, self_iff. done.
    + destruct (s_asks st !! ask_name p coll tok) as [a0|] eqn:E.
      * exfalso. destruct (wf_ask _ _ Hwf _ _ E) as (Hid&Hg&_&Hva&_).
        destruct (ask_id_inj p coll tok (a_coll a0) (a_tok a0)) as [E1 E2]; try done. eapply Hu; [exact E|done].
      * rewrite seq_iff, owner_iff. done.
Qed.
End Names.

Lemma cbid_match_rank st cb a : wf p st -> cbid_match_with_ask st cb = Ok (Some a) ->
  first_ask st (cb_coll cb) None (d_price (cb_det cb)) a.
Proof.
  intros Hwf H. split; [by apply (cbid_match_cheapest p) in H as [? _]|]. intros a' Ho. revert H.
  unfold cbid_match_with_ask, vec_pop, query_asks_by_collection_denom. cbv zeta. intros H.
  apply bind_Ok in H as (n&Hn&H). injection H as H. apply last_fmap_snd in H as (i&H). unfold add128 in Hn. inv_ok.
  apply (top_asc_some _ _ pkey_leb_total pkey_leb_trans) in H as (H1&_&H3).
  apply elem_filter_map in H1 as [H1 _]. cbn in H1. destruct (wf_ask _ _ Hwf _ _ H1) as (<-&_).
  destruct Ho as (Ha'&Hc'&_&Hd'&Hle'). specialize (H3 (a_id a', a')). unfold ask_pkey, ask_amount in H3. cbn [fst snd] in H3.
  destruct (pkey_rank _ _ _ _ (H3 ltac:(apply elem_filter_map; split; [done|by apply bool_and_iff])
    ltac:(unfold in_bounds; cbn; rewrite pkey_max_excl; cbn; lia))) as [?|[? [E|?]]].
  - right. by left.
  - left. rewrite <-E in Ha'. congruence.
  - right. by right.
Qed.
Lemma cbid_match_bound st cb o : cbid_match_with_ask st cb = Ok o -> c_amount (d_price (cb_det cb)) <> U128_MAX.
Proof.
  unfold cbid_match_with_ask. cbv zeta. intros (n&Hn&_)%bind_Ok. unfold add128 in Hn. inv_ok. lia.
Qed.
Lemma cbid_match_ok st cb : small (d_price (cb_det cb)) -> c_amount (d_price (cb_det cb)) <> U128_MAX ->
  exists o, cbid_match_with_ask st cb = Ok o.
Proof.
  intros Hs Hn. unfold cbid_match_with_ask. cbv zeta. unfold add128. rewrite (proj2 (N.leb_le _ _)).
  - cbn. eauto.
  - unfold small in Hs. unfold U128_MAX in *. lia.
Qed.
Lemma cbid_match_some_iff st cb a : wf p st -> small (d_price (cb_det cb)) ->
  cbid_match_with_ask st cb = Ok (Some a) <->
  c_amount (d_price (cb_det cb)) <> U128_MAX /\ first_ask st (cb_coll cb) None (d_price (cb_det cb)) a.
Proof.
  intros Hwf Hs. split.
  - intros H. split; [by eapply cbid_match_bound|by apply cbid_match_rank].
  - intros [Hn H]. destruct (cbid_match_ok st cb Hs Hn) as [[x|] Hx]; rewrite Hx.
    + do 2 f_equal. eapply first_ask_unique; [by apply cbid_match_rank|done].
    + exfalso. eapply (cbid_match_none_offered p); [done..|apply H].
Qed.
Lemma cbid_match_none_iff st cb : wf p st -> small (d_price (cb_det cb)) ->
  cbid_match_with_ask st cb = Ok None <->
  c_amount (d_price (cb_det cb)) <> U128_MAX /\ forall a, ~ offered st (cb_coll cb) None (d_price (cb_det cb)) a.
Proof.
  intros Hwf Hs. split.
  - intros H. split; [by eapply cbid_match_bound|]. intros a. by apply (cbid_match_none_offered p).
  - intros [Hn H]. destruct (cbid_match_ok st cb Hs Hn) as [[x|] Hx]; rewrite Hx; [|done].
    apply cbid_match_rank in Hx as [Hx _]; [|done]. by apply H in Hx.
Qed.

(** * Sales *)
Lemma registration_eq v cfg coll r reg :
  fetch_or_set_royalties p v (cf_registry cfg) coll (Some (p_self p)) [] = Ok (r, reg) -> reg = registration p v cfg coll.
Proof.
  unfold fetch_or_set_royalties, fetch_royalty_entry, registration. intros H.
  apply bind_Ok in H as (o&Ho&H). apply bind_Ok in Ho as ([x y]&->&Ho).
  destruct x as [x|]; [|destruct y as [y|]]; injection Ho as <-; cbn in H; [by injection H as <- <-..|].
  destruct (q_info v coll) as [ci|]; [|by injection H as <- <-].
  destruct (ci_royalty ci) as [[pa sh]|]; [|by injection H as <- <-].
  apply bind_Ok in H as (z&Hz&H). by injection H as <- <-.
Qed.
Lemma fetch_goes v cfg coll r reg :
  fetch_or_set_royalties p v (cf_registry cfg) coll (Some (p_self p)) [] = Ok (r, reg) ->
  (exists r, q_royalty v (cf_registry cfg) coll (Some (p_self p)) = Ok r) /\
  (q_royalty v (cf_registry cfg) coll (Some (p_self p)) = Ok (None, None) ->
   forall ci pa sh, q_info v coll = Some ci -> ci_royalty ci = Some (pa, sh) -> p_valid p pa = true).
Proof.
  unfold fetch_or_set_royalties, fetch_royalty_entry. intros H.
  apply bind_Ok in H as (o&Ho&H). apply bind_Ok in Ho as ([x y]&Hq&Ho). rewrite Hq. split; [eauto|].
  intros [= -> ->] ci pa sh E1 E2. injection Ho as <-. cbn in H. rewrite E1, E2 in H. by apply addr_bind in H as [? _].
Qed.
Lemma finalize_exact v st a mb f resp st' msgs : config_check (s_config st) = Ok tt ->
  0 < c_amount (trade_price a mb f) -> small (trade_price a mb f) ->
  finalize_sale p v st a (s_config st) mb f resp = Ok (st', msgs) <->
  sale_goes p v (s_config st) a mb f /\ st' = sold st (s_nonce st) a mb /\ msgs = resp ++ sale_sends p v (s_config st) a mb f.
Proof.
  intros Hc Hp Hs.
  assert (forall st' msgs, finalize_sale p v st a (s_config st) mb f resp = Ok (st', msgs) ->
    sale_goes p v (s_config st) a mb f /\ st' = sold st (s_nonce st) a mb /\ msgs = resp ++ sale_sends p v (s_config st) a mb f) as Hfw.
  { intros st2 ms H. apply finalize_sale_Ok in H as (reg&ps&Hm&->&->).
    pose proof (sale_msgs_payments _ _ _ _ _ _ _ _ Hc Hp Hm) as [Hps Hle].
    destruct Hm as (pf&r&_&Hr&_). split_and!.
    - destruct (fetch_goes _ _ _ _ _ Hr) as [? ?]. split_and!; done.
    - done.
    - unfold sale_sends. rewrite <-(registration_eq _ _ _ _ _ Hr), Hps, mb_recipient_to. done. }
  split; [apply Hfw|]. intros ((H1&H2&H3)&->&->).
  destruct (finalize_sale_success p v st a (s_config st) mb f resp Hc Hp Hs H1 H2 H3) as (st2&ms&E).
  rewrite E. apply Hfw in E as (_&->&->). done.
Qed.

(** * Payment, sale and change together *)
Lemma refund_returned sender fs : all_pos fs -> refund sender fs = returned sender fs.
Proof.
  intros H. unfold refund, returned. destruct (nb_is_empty fs) eqn:E; [by rewrite (nb_is_empty_pos _ H E)|]. by destruct fs.
Qed.
Lemma rest_returned sender fs held c resp : change_of held c fs -> refund_rest sender fs resp = resp ++ returned sender fs.
Proof. intros (_&H&_). by rewrite refund_rest_app, refund_returned. Qed.
Lemma buy_exact v st a mb held fs sender st' msgs : config_check (s_config st) = Ok tt ->
  purse held fs -> 0 < c_amount (d_price (a_det a)) -> small (d_price (a_det a)) ->
  (fs ← funds_sub fs (d_price (a_det a));
   r ← finalize_sale p v st a (s_config st) mb true [];
   let '(st, resp) := r in Ok (st, refund_rest sender fs resp)) = Ok (st', msgs) <->
  exists cs, change_of held (d_price (a_det a)) cs /\ sale_goes p v (s_config st) a mb true /\
    st' = sold st (s_nonce st) a mb /\ msgs = sale_sends p v (s_config st) a mb true ++ returned sender cs.
Proof.
  intros Hc Hf Hp Hs. rewrite bind_Ok. setoid_rewrite (purse_sub _ _ _ Hf Hp). split.
  - intros (cs&Hcs&H). apply bind_Ok in H as ([st2 ms]&H1&H2). apply finalize_exact in H1 as (?&->&->); [|done..].
    rewrite (rest_returned _ _ _ _ _ Hcs) in H2. injection H2 as <- <-. eauto.
  - intros (cs&Hcs&Hg&->&->). exists cs. split; [done|]. apply bind_Ok.
    exists (sold st (s_nonce st) a mb, sale_sends p v (s_config st) a mb true). split; [by apply finalize_exact|].
    by rewrite (rest_returned _ _ _ _ _ Hcs).
Qed.
Lemma keep_exact {A} (c : coin) held fs sender (k : result A) (f : A -> state) st' msgs : purse held fs -> 0 < c_amount c ->
  (fs ← funds_sub fs c; x ← k; Ok (f x, refund_rest sender fs [])) = Ok (st', msgs) <->
  exists cs x, change_of held c cs /\ k = Ok x /\ st' = f x /\ msgs = returned sender cs.
Proof.
  intros Hf Hp. rewrite bind_Ok. setoid_rewrite (purse_sub _ _ _ Hf Hp). split.
  - intros (cs&Hcs&H). apply bind_Ok in H as (x&H1&H2). rewrite (rest_returned _ _ _ _ _ Hcs) in H2. injection H2 as <- <-.
    exists cs, x. done.
  - intros (cs&x&Hcs&->&->&->). exists cs. split; [done|]. apply bind_Ok. exists x. split; [done|].
    by rewrite (rest_returned _ _ _ _ _ Hcs).
Qed.
End Exact.

(** * The calls *)
Record small_state (st : state) : Prop := {
  ss_ask : forall i a, s_asks st !! i = Some a -> small (d_price (a_det a));
  ss_bid : forall i b, s_bids st !! i = Some b -> small (d_price (b_det b));
  ss_cbid : forall i b, s_cbids st !! i = Some b -> small (d_price (cb_det b));
}.
Local Arguments be8 : simpl never.
Section Calls.
Context (p : params) (Hcf : collision_free p) (Hpf : prefix_free p) (Hsl : slash_free p).
Context (v : view) (e : env).
Notation run sender funds st m st' msgs := (execute p v e sender funds st m = Ok (st', msgs)).

Lemma one_coin_bind {A} funds (k : coin -> result A) x : (one_coin funds ≫= k) = Ok x <->
  exists c, funds = [c] /\ 0 < c_amount c /\ k c = Ok x.
Proof.
  destruct funds as [|c [|]]; cbn; [split; [done|by intros (?&?&_)]| |split; [done|by intros (?&?&_)]].
  destruct (c_amount c =? 0) eqn:E; cbn.
  - apply N.eqb_eq in E. split; [done|]. intros (?&[= <-]&?&_). lia.
  - apply N.eqb_neq in E. split; [|by intros (?&[= <-]&?&?)]. intros H. exists c. split_and!; [done|lia|done].
Qed.
Lemma fits_small st coll tok price mb : wf p st -> small_state st -> fits st coll tok price mb -> small (price_of mb) /\ 0 < c_amount (price_of mb).
Proof.
  intros Hwf Hss (Hr&_&_). destruct mb; cbn in *.
  - split; [by eapply ss_bid|]. by destruct (wf_bid _ _ Hwf _ _ Hr) as (_&?&_).
  - split; [by eapply ss_cbid|]. by destruct (wf_cbid _ _ Hwf _ _ Hr) as (_&?&_).
Qed.
Lemma offered_small st coll tok price a : wf p st -> small_state st -> offered st coll tok price a -> small (d_price (a_det a)) /\ 0 < c_amount (d_price (a_det a)).
Proof.
  intros Hwf Hss (Ha&_). split; [by eapply ss_ask|]. by destruct (wf_ask _ _ Hwf _ _ Ha) as (_&_&?&_).
Qed.

(** An ask that meets the book. *)
Lemma meet_exact st a resp k st' msgs : wf p st -> small_state st -> p_valid p (a_coll a) = true ->
  (match match_with_bid st a with
   | Some mb => finalize_sale p v st a (s_config st) mb false resp
   | None => k end) = Ok (st', msgs) <->
  ((forall mb, ~ fits st (a_coll a) (a_tok a) (d_price (a_det a)) mb) /\ k = Ok (st', msgs)) \/
  (exists mb, top_bid st (a_coll a) (a_tok a) (d_price (a_det a)) mb /\ sale_goes p v (s_config st) a mb false /\
     st' = sold st (s_nonce st) a mb /\ msgs = resp ++ sale_sends p v (s_config st) a mb false).
Proof.
  intros Hwf Hss Hv. pose proof (wf_config _ _ Hwf) as Hcfg. split.
  - destruct (match_with_bid st a) as [mb|] eqn:E; intros H.
    + right. apply (match_some_iff p) in E; [|done..]. destruct (fits_small _ _ _ _ _ Hwf Hss (proj1 E)) as [Hs Hp].
      apply finalize_exact in H; [|done..]. eauto.
    + left. split; [|done]. exact (proj1 (match_none_iff p _ _ Hwf Hsl Hv) E).
  - intros [[H1 H2]|(mb&Ht&H)].
    + by rewrite (proj2 (match_none_iff p _ _ Hwf Hsl Hv) H1).
    + rewrite (proj2 (match_some_iff p _ _ _ Hwf Hsl Hv) Ht). destruct (fits_small _ _ _ _ _ Hwf Hss (proj1 Ht)) as [Hs Hp].
      by apply finalize_exact.
Qed.

Lemma set_ask_exact sender funds st coll tok d sell st' msgs : wf p st -> small_state st -> p_valid p coll = true -> named_ok p d ->
  execute_set_ask p v e sender funds st coll tok d sell = Ok (st', msgs) <->
  listing p v e sender funds st coll tok d /\
  ((sell = false /\ (forall mb, ~ fits st coll tok (d_price d) mb) /\ s_asks st !! ask_name p coll tok = None /\
    st' = with_asks st (<[ask_name p coll tok := Ask (ask_name p coll tok) sender coll tok d]> (s_asks st)) /\
    msgs = [MSend (cf_fee_manager (s_config st)) funds; MNft coll tok (p_self p)]) \/
   exists mb, let a := Ask (ask_name p coll tok) sender coll tok d in
     top_bid st coll tok (d_price d) mb /\ sale_goes p v (s_config st) a mb false /\ st' = sold st (s_nonce st) a mb /\
     msgs = MSend (cf_fee_manager (s_config st)) funds :: sale_sends p v (s_config st) a mb false).
Proof.
  intros Hwf Hss Hv Hn. unfold execute_set_ask. rewrite !seq_iff, owner_iff, tradable_iff, price_iff, one_coin_bind. cbv zeta.
  setoid_rewrite seq_iff. setoid_rewrite (meet_exact st (ask_new p sender coll tok d) _ _ _ _ Hwf Hss Hv).
  unfold listing, opening. unfold ask_new. rewrite ask_name_eq. cbn [a_coll a_tok a_det a_id]. split.
  - intros (Ho&Ht&Hp&c&->&Hc&Hfee&Hcase).
    assert (s_fees st !! c_denom c = Some (c_amount c)) as Hf.
    { destruct (s_fees st !! c_denom c) as [n|]; [|done]. apply ensure_iff, bool_decide_eq_true in Hfee. by rewrite Hfee. }
    split. { split_and!; try done. exists (c_denom c), (c_amount c). by destruct c. }
    destruct Hcase as [[Hnf Hk]|(mb&H1&H2&H3&H4)]; [left|right; eauto].
    destruct sell; [done|]. destruct (s_asks st !! ask_name p coll tok); [done|]. injection Hk as <- <-. done.
  - intros [((_&_&Ht&Hp)&Ho&dn&n&->&Hn0&Hf) Hcase]. split_and!; try done. exists (Coin dn n). split_and!; try done.
    + cbn. rewrite Hf. apply ensure_iff. by apply bool_decide_eq_true.
    + destruct Hcase as [(->&Hnf&Hno&->&->)|(mb&H1&H2&H3&H4)]; [left|right; eauto]. rewrite Hno. done.
Qed.

Ltac odd := try (match goal with Hx : _ = _ \/ _ = _ |- _ => destruct Hx; discriminate end).
Lemma does_ask sender funds st m st' msgs : wf p st -> small_state st ->
  (exists coll tok d, m = SetAsk coll tok d \/ m = SellNft coll tok d) \/ (exists i d, m = UpdateAsk i d) \/ (exists i, m = RemoveAsk i) ->
  run sender funds st m st' msgs <-> does p v e sender funds st m st' msgs.
Proof.
  intros Hwf Hss [(coll&tok&d&[->| ->])|[(i&d&->)|(i&->)]]; cbn [execute].
  - rewrite addr_bind, det_bind. split.
    + intros (Hv&Hn&H). apply (set_ask_exact _ _ _ _ _ _ _ _ _ Hwf Hss Hv Hn) in H as [Hl [(_&H1&H2&->&->)|(mb&H1&H2&->&->)]].
      * by apply DoList.
      * eapply DoListSell; eauto.
    + intros H. inversion H as [? ? ? Hl H1 H2|? ? ? ? mb a Hm Hl -> H1 H2| | | | | | | | | | | | | | | |]; subst; odd.
      * pose proof Hl as [(Hv&Hn&_) _]. split_and!; [done..|]. apply set_ask_exact; [done..|]. split; [done|]. left. done.
      * destruct Hm as [[= <- <- <-]|?]; [|done]. pose proof Hl as [(Hv&Hn&_) _]. split_and!; [done..|].
        apply set_ask_exact; [done..|]. split; [done|]. right. eauto.
  - rewrite addr_bind, det_bind. split.
    + intros (Hv&Hn&H). apply (set_ask_exact _ _ _ _ _ _ _ _ _ Hwf Hss Hv Hn) in H as [Hl [(?&_)|(mb&H1&H2&->&->)]]; [done|].
      eapply DoListSell; eauto.
    + intros H. inversion H as [|? ? ? ? mb a Hm Hl -> H1 H2| | | | | | | | | | | | | | | |]; subst; odd.
      destruct Hm as [?|[= <- <- <-]]; [done|]. pose proof Hl as [(Hv&Hn&_) _]. split_and!; [done..|].
      apply set_ask_exact; [done..|]. split; [done|]. right. eauto.
  - rewrite det_bind. unfold execute_update_ask. rewrite seq_iff, nonpayable_iff. cbv zeta. rewrite lookup_bind.
    setoid_rewrite seq_iff. setoid_rewrite self_iff. setoid_rewrite seq_iff. setoid_rewrite price_iff. split.
    + intros (Hn&Hf&a&Ha&Hc&Hp&H). destruct (wf_ask _ _ Hwf _ _ Ha) as (Hid&_&_&Hv&_).
      apply meet_exact in H; [|done..]. cbn [a_coll a_tok a_det a_id] in H. rewrite Hid, Hc in H.
      destruct H as [[Hnf H]|(mb&H1&H2&->&->)].
      * injection H as <- <-. by eapply DoUpdateAsk.
      * eapply DoUpdateAskSell; eauto.
    + intros H. inversion H as [| |? ? a Hf Ha Hc Hn Hp Hnf|? ? a0 a mb Hf Ha Hc Hn Hp -> H1 H2| | | | | | | | | | | | | |]; subst; odd.
      * split_and!; [done..|]. exists a. destruct (wf_ask _ _ Hwf _ _ Ha) as (Hid&_&_&Hv&_). split_and!; try done.
        apply meet_exact; [done..|]. left. split; [done|]. by rewrite Hid.
      * split_and!; [done..|]. exists a0. destruct (wf_ask _ _ Hwf _ _ Ha) as (Hid&_&_&Hv&_). split_and!; try done.
        apply meet_exact; [done..|]. right. rewrite Hid. eauto.
  - unfold execute_remove_ask. rewrite seq_iff, nonpayable_iff, lookup_bind. setoid_rewrite seq_iff. setoid_rewrite self_iff. split.
    + intros (Hf&a&Ha&Hc&H). destruct (wf_ask _ _ Hwf _ _ Ha) as (Hid&_). rewrite Hid in H. injection H as <- <-. by eapply DoRemoveAsk.
    + intros H. inversion H as [| | | |? a Hf Ha Hc| | | | | | | | | | | | |]; subst; odd.
      split; [done|]. exists a. destruct (wf_ask _ _ Hwf _ _ Ha) as (Hid&_). rewrite Hid. done.
Qed.

(** ** Bids *)
Definition held (funds : list coin) (old : option coin) (d : denom) : N := coins_in funds d + opt_in_denom d old.
Lemma held_none funds d : held funds None d = coins_in funds d.
Proof. unfold held. cbn. lia. Qed.
Lemma pays_iff sender funds old price back : pays sender funds old price back <->
  (forall d, held funds old d <= U128_MAX) /\ exists cs, change_of (held funds old) price cs /\ back = returned sender cs.
Proof. done. Qed.
Lemma normalize_bind {A} funds (k : list coin -> result A) x : Forall small funds ->
  (nb_normalize funds ≫= k) = Ok x <->
  (forall d, held funds None d <= U128_MAX) /\ exists fs, purse (held funds None) fs /\ k fs = Ok x.
Proof.
  intros Hs. rewrite bind_Ok. setoid_rewrite (purse_normalize _ Hs). setoid_rewrite (purse_ext _ _ _ (held_none funds)).
  setoid_rewrite held_none. split; [intros (fs&[H1 H2]&H); eauto|intros (H1&fs&H2&H); eauto].
Qed.
Lemma normalize_add_bind {A} funds c (k : list coin -> result A) x : Forall small funds -> small c -> 0 < c_amount c ->
  (fs ← nb_normalize funds; fs ← nb_add fs c; k fs) = Ok x <->
  (forall d, held funds (Some c) d <= U128_MAX) /\ exists fs, purse (held funds (Some c)) fs /\ k fs = Ok x.
Proof.
  intros Hs Hc Hp. rewrite bind_Ok. setoid_rewrite (purse_normalize _ Hs). split.
  - intros (fs&[H1 H2]&H). apply bind_Ok in H as (fs'&Ha&H). apply (purse_add _ _ _ H2 Hc Hp H1) in Ha as [Ha1 Ha2]. eauto.
  - intros (H1&fs&H2&H). assert (forall d, coins_in funds d <= U128_MAX) as Hl by (intros d; specialize (H1 d); unfold held in H1; lia).
    destruct (normalize_ok _ Hs Hl) as [a Ha]. apply (purse_normalize _ Hs) in Ha as [_ Ha]. exists a. split; [done|].
    apply bind_Ok. exists fs. split; [|done]. by apply (purse_add _ _ _ Ha).
Qed.
Lemma purse_exists funds old : Forall small funds -> (forall c, old = Some c -> small c /\ 0 < c_amount c) ->
  (forall d, held funds old d <= U128_MAX) -> exists fs, purse (held funds old) fs.
Proof.
  intros Hs Hc H. assert (forall d, coins_in funds d <= U128_MAX) as Hl by (intros d; specialize (H d); unfold held in H; lia).
  destruct (normalize_ok _ Hs Hl) as [a Ha]. apply (purse_normalize _ Hs) in Ha as [_ Ha]. destruct old as [c|].
  - destruct (Hc _ eq_refl) as [Hc1 Hc2]. destruct (add_ok _ _ c Ha H) as [fs Hfs]. apply (purse_add _ _ _ Ha Hc1 Hc2 Hl) in Hfs as [_ ?]. eauto.
  - exists a. by apply (purse_ext _ _ _ (held_none funds)).
Qed.

Lemma set_bid_exact sender funds st coll tok d buy st' msgs : wf p st -> small_state st -> Forall small funds ->
  p_valid p coll = true -> named_ok p d ->
  execute_set_bid p v e sender funds st coll tok d buy = Ok (st', msgs) <->
  opening p v e st coll d /\
  let b := Bid (bid_name_of p e st (coll +:+ tok)) sender coll tok d in
  ((buy = false /\ (forall a, ~ offered st coll (Some tok) (d_price d) a) /\ s_bids st !! b_id b = None /\
    st' = with_bids st (next_count st) (<[b_id b := b]> (s_bids st)) /\ pays sender funds None (d_price d) msgs) \/
   exists a back, first_ask st coll (Some tok) (d_price d) a /\ pays sender funds None (d_price (a_det a)) back /\
     sale_goes p v (s_config st) a (MBid b) true /\ st' = sold st (next_count st) a (MBid b) /\
     msgs = sale_sends p v (s_config st) a (MBid b) true ++ back).
Proof.
  intros Hwf Hss Hfu Hv Hn. pose proof (wf_config _ _ Hwf) as Hcfg. unfold execute_set_bid.
  rewrite !seq_iff, tradable_iff, price_iff, (normalize_bind _ _ _ Hfu). cbv zeta. unfold bid_new. rewrite bid_name_eq.
  set (b := Bid _ _ _ _ _). change (bid_match_with_ask p (set_nonce st (next_nonce st)) b) with (bid_match_with_ask p st b).
  set (st1 := set_nonce st (next_nonce st)). unfold opening. split.
  - intros (Ht&Hp&Hfit&fs&Hpu&H). split; [done|]. destruct (bid_match_with_ask p st b) as [a|] eqn:E.
    + right. apply (bid_match_some_iff p Hcf Hpf) in E; [|done..]. destruct (offered_small _ _ _ _ _ Hwf Hss (proj1 E)) as [Hs0 Hp0].
      apply (buy_exact p v st1 a _ _ _ _ _ _ Hcfg Hpu Hp0 Hs0) in H as (cs&H1&H2&->&->).
      exists a, (returned sender cs). split_and!; try done. split; [done|by exists cs].
    + left. destruct buy; [done|]. split; [done|].
      split. { exact (proj1 (bid_match_none_iff p Hcf Hpf st b Hwf Hv) E). }
      apply bind_Ok in H as (fs'&H1&H). apply (purse_sub _ _ _ Hpu) in H1; [|apply Hp]. cbn [s_bids set_nonce st1] in H.
      destruct (s_bids st !! b_id b) eqn:Eb; [done|]. rewrite (rest_returned _ _ _ _ _ H1) in H. injection H as <- <-.
      split_and!; try done. split; [done|by exists fs'].
  - intros [(_&_&Ht&Hp) Hcase]. split_and!; [done..| |].
    { by destruct Hcase as [(_&_&_&_&[? _])|(a&back&_&[? _]&_)]. }
    assert (forall d, held funds None d <= U128_MAX) as Hfit by (by destruct Hcase as [(_&_&_&_&[? _])|(a&back&_&[? _]&_)]).
    destruct (purse_exists funds None Hfu) as [fs Hpu]; [done..|]. exists fs. split; [done|].
    destruct Hcase as [(->&Hno&Hfree&->&_&cs&Hcs&->)|(a&back&Hfa&(_&cs&Hcs&->)&Hg&->&->)].
    + rewrite (proj2 (bid_match_none_iff p Hcf Hpf st b Hwf Hv) Hno). apply bind_Ok. exists cs. split; [by apply (purse_sub _ _ _ Hpu (proj1 Hp))|].
      cbn [s_bids set_nonce st1]. rewrite Hfree. by rewrite (rest_returned _ _ _ _ _ Hcs).
    + rewrite (proj2 (bid_match_some_iff p Hcf Hpf st b a Hwf Hv) Hfa).
      destruct (offered_small _ _ _ _ _ Hwf Hss (proj1 Hfa)) as [Hs0 Hp0].
      apply (buy_exact p v st1 a _ _ _ _ _ _ Hcfg Hpu Hp0 Hs0). by exists cs.
Qed.

(** The part of an update that follows the payment. *)
Lemma update_bid_exact sender funds st i d st' msgs : wf p st -> small_state st -> Forall small funds -> named_ok p d ->
  execute_update_bid p v sender funds st i d = Ok (st', msgs) <->
  exists b0, s_bids st !! i = Some b0 /\ b_creator b0 = sender /\ priced st (b_coll b0) (d_price d) /\
  let b := Bid i sender (b_coll b0) (b_tok b0) d in
  (((forall a, ~ offered st (b_coll b0) (Some (b_tok b0)) (d_price d) a) /\
    st' = with_bids st (s_nonce st) (<[i := b]> (s_bids st)) /\ pays sender funds (Some (d_price (b_det b0))) (d_price d) msgs) \/
   exists a back, first_ask st (b_coll b0) (Some (b_tok b0)) (d_price d) a /\
     pays sender funds (Some (d_price (b_det b0))) (d_price (a_det a)) back /\
     sale_goes p v (s_config st) a (MBid b) true /\ st' = sold st (s_nonce st) a (MBid b) /\
     msgs = sale_sends p v (s_config st) a (MBid b) true ++ back).
Proof.
  intros Hwf Hss Hfu Hn. pose proof (wf_config _ _ Hwf) as Hcfg. unfold execute_update_bid. rewrite lookup_bind.
  setoid_rewrite seq_iff. setoid_rewrite self_iff. setoid_rewrite seq_iff. setoid_rewrite price_iff. cbv zeta. split.
  - intros (b0&Hb0&Hcr&Hp&H). exists b0. split_and!; [done..|]. destruct (wf_bid _ _ Hwf _ _ Hb0) as (Hid&Hpos&Hv&_).
    apply normalize_add_bind in H as (Hfit&fs&Hpu&H); [|done|by eapply ss_bid|done]. rewrite Hid, Hcr in H. set (b := Bid _ _ _ _ _) in *.
    destruct (bid_match_with_ask p st b) as [a|] eqn:E.
    + right. apply (bid_match_some_iff p Hcf Hpf) in E; [|done..]. destruct (offered_small _ _ _ _ _ Hwf Hss (proj1 E)) as [Hs0 Hp0].
      apply (buy_exact p v st a _ _ _ _ _ _ Hcfg Hpu Hp0 Hs0) in H as (cs&H1&H2&->&->).
      exists a, (returned sender cs). split_and!; try done. split; [done|by exists cs].
    + left. split. { exact (proj1 (bid_match_none_iff p Hcf Hpf st b Hwf Hv) E). }
      apply bind_Ok in H as (fs'&H1&H). apply (purse_sub _ _ _ Hpu) in H1; [|apply Hp].
      rewrite (rest_returned _ _ _ _ _ H1) in H. injection H as <- <-. split_and!; try done. split; [done|by exists fs'].
  - intros (b0&Hb0&Hcr&Hp&Hcase). exists b0. split_and!; [done..|]. destruct (wf_bid _ _ Hwf _ _ Hb0) as (Hid&Hpos&Hv&_).
    assert (forall d, held funds (Some (d_price (b_det b0))) d <= U128_MAX) as Hfit by (by destruct Hcase as [(_&_&[? _])|(a&back&_&[? _]&_)]).
    apply normalize_add_bind; [done|by eapply ss_bid|done|]. split; [done|].
    destruct (purse_exists funds (Some (d_price (b_det b0))) Hfu) as [fs Hpu]; [|done|].
    { intros ? [= <-]. split; [by eapply ss_bid|done]. }
    exists fs. split; [done|]. rewrite Hid, Hcr. set (b := Bid _ _ _ _ _) in *.
    destruct Hcase as [(Hno&->&_&cs&Hcs&->)|(a&back&Hfa&(_&cs&Hcs&->)&Hg&->&->)].
    + rewrite (proj2 (bid_match_none_iff p Hcf Hpf st b Hwf Hv) Hno). apply bind_Ok. exists cs. split; [by apply (purse_sub _ _ _ Hpu (proj1 Hp))|].
      by rewrite (rest_returned _ _ _ _ _ Hcs).
    + rewrite (proj2 (bid_match_some_iff p Hcf Hpf st b a Hwf Hv) Hfa).
      destruct (offered_small _ _ _ _ _ Hwf Hss (proj1 Hfa)) as [Hs0 Hp0].
      apply (buy_exact p v st a _ _ _ _ _ _ Hcfg Hpu Hp0 Hs0). by exists cs.
Qed.
Lemma accept_ask_exact sender funds st i d st' msgs : wf p st -> small_state st -> Forall small funds -> named_ok p d ->
  execute_accept_ask p v e sender funds st i d = Ok (st', msgs) <->
  exists a back, s_asks st !! i = Some a /\ met_by (d_price (a_det a)) (d_price d) /\
  let b := Bid (bid_name_of p e st (a_coll a +:+ a_tok a)) sender (a_coll a) (a_tok a) d in
  pays sender funds None (d_price (a_det a)) back /\ sale_goes p v (s_config st) a (MBid b) true /\
  st' = sold st (next_count st) a (MBid b) /\ msgs = sale_sends p v (s_config st) a (MBid b) true ++ back.
Proof.
  intros Hwf Hss Hfu Hn. pose proof (wf_config _ _ Hwf) as Hcfg. unfold execute_accept_ask.
  rewrite (normalize_bind _ _ _ Hfu). cbv zeta. setoid_rewrite lookup_bind. setoid_rewrite seq_iff. setoid_rewrite met_iff.
  set (st1 := set_nonce st (next_nonce st)). split.
  - intros (Hfit&fs&Hpu&a&Ha&Hmet&H). destruct (wf_ask _ _ Hwf _ _ Ha) as (_&_&Hpos&_). unfold bid_new in H. rewrite bid_name_eq in H.
    apply (buy_exact p v st1 a _ _ _ _ _ _ Hcfg Hpu Hpos (ss_ask _ Hss _ _ Ha)) in H as (cs&H1&H2&->&->).
    exists a, (returned sender cs). split_and!; try done. split; [done|by exists cs].
  - intros (a&back&Ha&Hmet&(Hfit&cs&Hcs&->)&Hg&->&->). split; [done|]. destruct (wf_ask _ _ Hwf _ _ Ha) as (_&_&Hpos&_).
    destruct (purse_exists funds None Hfu) as [fs Hpu]; [done..|]. exists fs. split; [done|]. exists a. split_and!; [done..|].
    unfold bid_new. rewrite bid_name_eq. apply (buy_exact p v st1 a _ _ _ _ _ _ Hcfg Hpu Hpos (ss_ask _ Hss _ _ Ha)). by exists cs.
Qed.

Lemma does_bid sender funds st m st' msgs : wf p st -> small_state st -> Forall small funds ->
  (exists coll tok d, m = SetBid coll tok d \/ m = BuySpecificNft coll tok d) \/ (exists i d, m = UpdateBid i d) \/ (exists i, m = RemoveBid i) \/
  (exists i d, m = AcceptAsk i d) \/ (exists i d, m = AcceptBid i d) ->
  run sender funds st m st' msgs <-> does p v e sender funds st m st' msgs.
Proof.
  intros Hwf Hss Hfu [(coll&tok&d&[->| ->])|[(i&d&->)|[(i&->)|[(i&d&->)|(i&d&->)]]]]; cbn [execute].
  - rewrite addr_bind, det_bind. split.
    + intros (Hv&Hn&H). apply (set_bid_exact _ _ _ _ _ _ _ _ _ Hwf Hss Hfu Hv Hn) in H as [Hl [(_&H1&H2&->&H3)|(a&back&H1&H2&H3&->&->)]].
      * by eapply DoBid.
      * eapply DoBidBuy; eauto.
    + intros H. inversion H; subst; odd.
      * match goal with Ho : opening _ _ _ _ _ _ |- _ => pose proof Ho as (Hv&Hn&_) end. split_and!; [done..|].
        apply set_bid_exact; [done..|]. split; [done|]. left. done.
      * match goal with Hm : _ \/ _ |- _ => destruct Hm as [[= <- <- <-]|?]; [|done] end.
        match goal with Ho : opening _ _ _ _ _ _ |- _ => pose proof Ho as (Hv&Hn&_) end. split_and!; [done..|].
        apply set_bid_exact; [done..|]. split; [done|]. right. eauto 10.
  - rewrite addr_bind, det_bind. split.
    + intros (Hv&Hn&H). apply (set_bid_exact _ _ _ _ _ _ _ _ _ Hwf Hss Hfu Hv Hn) in H as [Hl [(?&_)|(a&back&H1&H2&H3&->&->)]]; [done|].
      eapply DoBidBuy; eauto.
    + intros H. inversion H; subst; odd.
      match goal with Hm : _ \/ _ |- _ => destruct Hm as [?|[= <- <- <-]]; [done|] end.
      match goal with Ho : opening _ _ _ _ _ _ |- _ => pose proof Ho as (Hv&Hn&_) end. split_and!; [done..|].
      apply set_bid_exact; [done..|]. split; [done|]. right. eauto 10.
  - rewrite det_bind. split.
    + intros (Hn&H). apply (update_bid_exact _ _ _ _ _ _ _ Hwf Hss Hfu Hn) in H as (b0&Hb0&Hc&Hp&[(H1&->&H2)|(a&back&H1&H2&H3&->&->)]).
      * by eapply DoUpdateBid.
      * eapply DoUpdateBidBuy; eauto.
    + intros H. inversion H; subst; odd.
      * split; [done|]. apply update_bid_exact; [done..|]. eexists. split_and!; [done..|]. left. done.
      * split; [done|]. apply update_bid_exact; [done..|]. eexists. split_and!; [done..|]. right. eauto 10.
  - unfold execute_remove_bid. rewrite seq_iff, nonpayable_iff, lookup_bind. setoid_rewrite seq_iff. setoid_rewrite self_iff. split.
    + intros (Hf&b&Hb&Hc&H). destruct (wf_bid _ _ Hwf _ _ Hb) as (Hid&_). rewrite Hid in H. injection H as <- <-. by eapply DoRemoveBid.
    + intros H. inversion H as [| | | | | | | | | |? b Hf Hb Hc| | | | | | |]; subst; odd.
      split; [done|]. exists b. destruct (wf_bid _ _ Hwf _ _ Hb) as (Hid&_). rewrite Hid. done.
  - rewrite det_bind. split.
    + intros (Hn&H). apply (accept_ask_exact _ _ _ _ _ _ _ Hwf Hss Hfu Hn) in H as (a&back&Ha&Hm&H1&H2&->&->). eapply DoAcceptAsk; eauto.
    + intros H. inversion H; subst; odd. split; [done|]. apply accept_ask_exact; [done..|]. eauto 10.
  - rewrite det_bind. unfold execute_accept_bid. rewrite lookup_bind. setoid_rewrite seq_iff. setoid_rewrite met_iff. split.
    + intros (Hn&b&Hb&Hm&H). apply bind_Ok in H as (a&Ha&H). destruct (wf_bid _ _ Hwf _ _ Hb) as (_&Hpos&Hv&_).
      apply (accept_iff p Hcf Hpf) in Ha; [|done..]. apply finalize_exact in H as (H1&->&->); [|by apply (wf_config p)|done|by eapply ss_bid].
      rewrite app_nil_l. by eapply DoAcceptBid.
    + intros H. inversion H as [| | | | | | | | | | |? ? b a Hb Hn Hm Ha Hg| | | | | |]; subst; odd.
      destruct (wf_bid _ _ Hwf _ _ Hb) as (_&Hpos&Hv&_). split; [done|]. exists b. split_and!; [done..|].
      apply bind_Ok. exists a. split; [by apply (accept_iff p Hcf Hpf)|]. apply finalize_exact; [by apply (wf_config p)|done|by eapply ss_bid|].
      by rewrite app_nil_l.
Qed.

(** Bids for a whole collection. *)
Lemma set_cbid_exact sender funds st coll d buy st' msgs : wf p st -> small_state st -> Forall small funds -> small (d_price d) ->
  p_valid p coll = true -> named_ok p d ->
  execute_set_collection_bid p v e sender funds st coll d buy = Ok (st', msgs) <->
  (opening p v e st coll d /\ c_amount (d_price d) <> U128_MAX) /\
  let b := CBid (bid_name_of p e st coll) sender coll d in
  ((buy = false /\ (forall a, ~ offered st coll None (d_price d) a) /\ s_cbids st !! cb_id b = None /\
    st' = with_cbids st (next_count st) (<[cb_id b := b]> (s_cbids st)) /\ pays sender funds None (d_price d) msgs) \/
   exists a back, first_ask st coll None (d_price d) a /\ pays sender funds None (d_price (a_det a)) back /\
     sale_goes p v (s_config st) a (MCBid b) true /\ st' = sold st (next_count st) a (MCBid b) /\
     msgs = sale_sends p v (s_config st) a (MCBid b) true ++ back).
Proof.
  intros Hwf Hss Hfu Hsm Hv Hn. pose proof (wf_config _ _ Hwf) as Hcfg. unfold execute_set_collection_bid.
  rewrite !seq_iff, tradable_iff, price_iff, (normalize_bind _ _ _ Hfu). cbv zeta. unfold cbid_new. rewrite cbid_name_eq.
  set (b := CBid _ _ _ _). change (cbid_match_with_ask (set_nonce st (next_nonce st)) b) with (cbid_match_with_ask st b).
  set (st1 := set_nonce st (next_nonce st)). unfold opening. split.
  - intros (Ht&Hp&Hfit&fs&Hpu&H). apply bind_Ok in H as ([a|]&E&H).
    + apply (cbid_match_some_iff p) in E as [Hm E]; [|done..]. split; [done|]. right.
      destruct (offered_small _ _ _ _ _ Hwf Hss (proj1 E)) as [Hs0 Hp0].
      apply (buy_exact p v st1 a _ _ _ _ _ _ Hcfg Hpu Hp0 Hs0) in H as (cs&H1&H2&->&->).
      exists a, (returned sender cs). split_and!; try done. split; [done|by exists cs].
    + apply (cbid_match_none_iff p) in E as [Hm E]; [|done..]. split; [done|]. left. destruct buy; [done|]. split; [done|].
      split; [done|].
      apply bind_Ok in H as (fs'&H1&H). apply (purse_sub _ _ _ Hpu) in H1; [|apply Hp]. cbn [s_cbids set_nonce st1] in H.
      destruct (s_cbids st !! cb_id b) eqn:Eb; [done|]. rewrite (rest_returned _ _ _ _ _ H1) in H. injection H as <- <-.
      split_and!; try done. split; [done|by exists fs'].
  - intros [[(_&_&Ht&Hp) Hm] Hcase]. split_and!; [done..| |].
    { by destruct Hcase as [(_&_&_&_&[? _])|(a&back&_&[? _]&_)]. }
    assert (forall d, held funds None d <= U128_MAX) as Hfit by (by destruct Hcase as [(_&_&_&_&[? _])|(a&back&_&[? _]&_)]).
    destruct (purse_exists funds None Hfu) as [fs Hpu]; [done..|]. exists fs. split; [done|].
    destruct Hcase as [(->&Hno&Hfree&->&_&cs&Hcs&->)|(a&back&Hfa&(_&cs&Hcs&->)&Hg&->&->)].
    + apply bind_Ok. exists None. split; [by apply (cbid_match_none_iff p)|].
      apply bind_Ok. exists cs. split; [by apply (purse_sub _ _ _ Hpu (proj1 Hp))|].
      cbn [s_cbids set_nonce st1]. rewrite Hfree. by rewrite (rest_returned _ _ _ _ _ Hcs).
    + apply bind_Ok. exists (Some a). split; [by apply (cbid_match_some_iff p)|].
      destruct (offered_small _ _ _ _ _ Hwf Hss (proj1 Hfa)) as [Hs0 Hp0].
      apply (buy_exact p v st1 a _ _ _ _ _ _ Hcfg Hpu Hp0 Hs0). by exists cs.
Qed.
Lemma update_cbid_exact sender funds st i d st' msgs : wf p st -> small_state st -> Forall small funds -> small (d_price d) -> named_ok p d ->
  execute_update_collection_bid p v sender funds st i d = Ok (st', msgs) <->
  exists b0, s_cbids st !! i = Some b0 /\ cb_creator b0 = sender /\ priced st (cb_coll b0) (d_price d) /\
  c_amount (d_price d) <> U128_MAX /\
  let b := CBid i sender (cb_coll b0) d in
  (((forall a, ~ offered st (cb_coll b0) None (d_price d) a) /\
    st' = with_cbids st (s_nonce st) (<[i := b]> (s_cbids st)) /\ pays sender funds (Some (d_price (cb_det b0))) (d_price d) msgs) \/
   exists a back, first_ask st (cb_coll b0) None (d_price d) a /\
     pays sender funds (Some (d_price (cb_det b0))) (d_price (a_det a)) back /\
     sale_goes p v (s_config st) a (MCBid b) true /\ st' = sold st (s_nonce st) a (MCBid b) /\
     msgs = sale_sends p v (s_config st) a (MCBid b) true ++ back).
Proof.
  intros Hwf Hss Hfu Hsm Hn. pose proof (wf_config _ _ Hwf) as Hcfg. unfold execute_update_collection_bid. rewrite lookup_bind.
  setoid_rewrite seq_iff. setoid_rewrite self_iff. setoid_rewrite seq_iff. setoid_rewrite price_iff. cbv zeta. split.
  - intros (b0&Hb0&Hcr&Hp&H). exists b0. split_and!; [done..| |].
    all: destruct (wf_cbid _ _ Hwf _ _ Hb0) as (Hid&Hpos&Hv&_).
    all: apply normalize_add_bind in H as (Hfit&fs&Hpu&H); [|done|by eapply ss_cbid|done]; rewrite Hid, Hcr in H; set (b := CBid _ _ _ _) in *.
    all: apply bind_Ok in H as ([a|]&E&H).
    1: by apply (cbid_match_some_iff p) in E as [Hm E]. 1: by apply (cbid_match_none_iff p) in E as [Hm E].
    + right. apply (cbid_match_some_iff p) in E as [Hm E]; [|done..]. destruct (offered_small _ _ _ _ _ Hwf Hss (proj1 E)) as [Hs0 Hp0].
      apply (buy_exact p v st a _ _ _ _ _ _ Hcfg Hpu Hp0 Hs0) in H as (cs&H1&H2&->&->).
      exists a, (returned sender cs). split_and!; try done. split; [done|by exists cs].
    + left. apply (cbid_match_none_iff p) in E as [Hm E]; [|done..]. split; [done|].
      apply bind_Ok in H as (fs'&H1&H). apply (purse_sub _ _ _ Hpu) in H1; [|apply Hp].
      rewrite (rest_returned _ _ _ _ _ H1) in H. injection H as <- <-. split_and!; try done. split; [done|by exists fs'].
  - intros (b0&Hb0&Hcr&Hp&Hm&Hcase). exists b0. split_and!; [done..|]. destruct (wf_cbid _ _ Hwf _ _ Hb0) as (Hid&Hpos&Hv&_).
    assert (forall d, held funds (Some (d_price (cb_det b0))) d <= U128_MAX) as Hfit by (by destruct Hcase as [(_&_&[? _])|(a&back&_&[? _]&_)]).
    apply normalize_add_bind; [done|by eapply ss_cbid|done|]. split; [done|].
    destruct (purse_exists funds (Some (d_price (cb_det b0))) Hfu) as [fs Hpu]; [|done|].
    { intros ? [= <-]. split; [by eapply ss_cbid|done]. }
    exists fs. split; [done|]. rewrite Hid, Hcr. set (b := CBid _ _ _ _) in *.
    destruct Hcase as [(Hno&->&_&cs&Hcs&->)|(a&back&Hfa&(_&cs&Hcs&->)&Hg&->&->)].
    + apply bind_Ok. exists None. split; [by apply (cbid_match_none_iff p)|].
      apply bind_Ok. exists cs. split; [by apply (purse_sub _ _ _ Hpu (proj1 Hp))|].
      by rewrite (rest_returned _ _ _ _ _ Hcs).
    + apply bind_Ok. exists (Some a). split; [by apply (cbid_match_some_iff p)|].
      destruct (offered_small _ _ _ _ _ Hwf Hss (proj1 Hfa)) as [Hs0 Hp0].
      apply (buy_exact p v st a _ _ _ _ _ _ Hcfg Hpu Hp0 Hs0). by exists cs.
Qed.
Lemma does_cbid sender funds st m st' msgs : wf p st -> small_state st -> small_call funds m ->
  (exists coll d, m = SetCollectionBid coll d \/ m = BuyCollectionNft coll d) \/ (exists i d, m = UpdateCollectionBid i d) \/
  (exists i, m = RemoveCollectionBid i) \/ (exists i tok d, m = AcceptCollectionBid i tok d) ->
  run sender funds st m st' msgs <-> does p v e sender funds st m st' msgs.
Proof.
  intros Hwf Hss [Hfu Hsm] [(coll&d&[->| ->])|[(i&d&->)|[(i&->)|(i&tok&d&->)]]]; cbn [execute];
    try specialize (Hsm _ eq_refl).
  - rewrite addr_bind, det_bind. split.
    + intros (Hv&Hn&H). apply (set_cbid_exact _ _ _ _ _ _ _ _ Hwf Hss Hfu Hsm Hv Hn) in H as [[Hl Hm] [(_&H1&H2&->&H3)|(a&back&H1&H2&H3&->&->)]].
      * by eapply DoCBid.
      * eapply DoCBidBuy; eauto.
    + intros H. inversion H; subst; odd.
      * match goal with Ho : opening _ _ _ _ _ _ |- _ => pose proof Ho as (Hv&Hn&_) end. split_and!; [done..|].
        apply set_cbid_exact; [done..|]. split; [done|]. left. done.
      * match goal with Hm : _ \/ _ |- _ => destruct Hm as [[= <- <-]|?]; [|done] end.
        match goal with Ho : opening _ _ _ _ _ _ |- _ => pose proof Ho as (Hv&Hn&_) end. split_and!; [done..|].
        apply set_cbid_exact; [done..|]. split; [done|]. right. eauto 10.
  - rewrite addr_bind, det_bind. split.
    + intros (Hv&Hn&H). apply (set_cbid_exact _ _ _ _ _ _ _ _ Hwf Hss Hfu Hsm Hv Hn) in H as [[Hl Hm] [(?&_)|(a&back&H1&H2&H3&->&->)]]; [done|].
      eapply DoCBidBuy; eauto.
    + intros H. inversion H; subst; odd.
      match goal with Hm : _ \/ _ |- _ => destruct Hm as [?|[= <- <-]]; [done|] end.
      match goal with Ho : opening _ _ _ _ _ _ |- _ => pose proof Ho as (Hv&Hn&_) end. split_and!; [done..|].
      apply set_cbid_exact; [done..|]. split; [done|]. right. eauto 10.
  - rewrite det_bind. split.
    + intros (Hn&H). apply (update_cbid_exact _ _ _ _ _ _ _ Hwf Hss Hfu Hsm Hn) in H as (b0&Hb0&Hc&Hp&Hm&[(H1&->&H2)|(a&back&H1&H2&H3&->&->)]).
      * by eapply DoUpdateCBid.
      * eapply DoUpdateCBidBuy; eauto.
    + intros H. inversion H; subst; odd.
      * split; [done|]. apply update_cbid_exact; [done..|]. eexists. split_and!; [done..|]. left. done.
      * split; [done|]. apply update_cbid_exact; [done..|]. eexists. split_and!; [done..|]. right. eauto 10.
  - unfold execute_remove_collection_bid. rewrite seq_iff, nonpayable_iff, lookup_bind. setoid_rewrite seq_iff. setoid_rewrite self_iff. split.
    + intros (Hf&b&Hb&Hc&H). destruct (wf_cbid _ _ Hwf _ _ Hb) as (Hid&_). rewrite Hid in H. injection H as <- <-. by eapply DoRemoveCBid.
    + intros H. inversion H as [| | | | | | | | | | | | | | | |? b Hf Hb Hc|]; subst; odd.
      split; [done|]. exists b. destruct (wf_cbid _ _ Hwf _ _ Hb) as (Hid&_). rewrite Hid. done.
  - rewrite det_bind. unfold execute_accept_collection_bid. rewrite lookup_bind. setoid_rewrite seq_iff. setoid_rewrite met_iff. split.
    + intros (Hn&b&Hb&Hm&H). apply bind_Ok in H as (a&Ha&H). destruct (wf_cbid _ _ Hwf _ _ Hb) as (_&Hpos&Hv&_).
      apply (accept_iff p Hcf Hpf) in Ha; [|done..]. apply finalize_exact in H as (H1&->&->); [|by apply (wf_config p)|done|by eapply ss_cbid].
      rewrite app_nil_l. by eapply DoAcceptCBid.
    + intros H. inversion H as [| | | | | | | | | | | | | | | | |? ? ? b a Hb Hn Hm Ha Hg]; subst; odd.
      destruct (wf_cbid _ _ Hwf _ _ Hb) as (_&Hpos&Hv&_). split; [done|]. exists b. split_and!; [done..|].
      apply bind_Ok. exists a. split; [by apply (accept_iff p Hcf Hpf)|]. apply finalize_exact; [by apply (wf_config p)|done|by eapply ss_cbid|].
      by rewrite app_nil_l.
Qed.
End Calls.

Section History.
Context (p : params) (Hcf : collision_free p) (Hpf : prefix_free p) (Hsl : slash_free p).

Lemma does_exact v e sender funds st m st' msgs : wf p st -> small_state st -> small_call funds m -> admin_call m = false ->
  execute p v e sender funds st m = Ok (st', msgs) <-> does p v e sender funds st m st' msgs.
Proof.
  intros Hwf Hss Hc Hm. destruct m; try discriminate Hm;
    first [apply (does_ask p Hsl); [done|done|]; solve [eauto 10]
          |apply (does_bid p Hcf Hpf); [done|done|apply Hc|]; solve [eauto 10]
          |apply (does_cbid p Hcf Hpf); [done|done|done|]; solve [eauto 10]].
Qed.
Lemma does_small v e sender funds st m st' msgs : small_state st -> small_call funds m -> does p v e sender funds st m st' msgs -> small_state st'.
Proof.
  intros [H1 H2 H3] [_ Hm] H.
  destruct H; (split; cbn [with_asks with_bids with_cbids sold s_asks s_bids s_cbids]; intros ? ?;
    repeat match goal with |- context [match ?mb with MBid _ => _ | MCBid _ => _ end] => destruct mb end;
    try (by eauto); rewrite ?lookup_insert_Some, ?lookup_delete_Some; intros ?; destruct_and?; destruct_or?; destruct_and?; subst;
    try (by eauto); try (by apply Hm)).
Qed.
Lemma small_history_inv st : small_history p st -> wf p st /\ small_state st.
Proof.
  intros (c&st0&Hi&H).
  assert (wf p st0 /\ small_state st0) as H0.
  { split; [by eapply wf_instantiate|]. unfold instantiate in Hi. inv_ok. split; intros ? ?; cbn; by rewrite lookup_empty. }
  clear Hi. induction H as [|s s' s'' (v&e&sender&funds&m&msgs&Hne&Hc&Hex) _ IH]; [done|]. apply IH.
  destruct H0 as [Hwf Hss]. split; [by eapply wf_execute|]. destruct (admin_call m) eqn:Hm.
  - destruct (admin_call_inert _ _ _ _ _ _ _ _ _ Hex Hm) as (_&E1&E2&E3). destruct Hss. split; [rewrite E1|rewrite E2|rewrite E3]; done.
  - eapply does_small; [done..|]. by apply does_exact.
Qed.
Lemma order_calls_exact v e sender funds st m st' msgs : small_history p st -> small_call funds m -> admin_call m = false ->
  execute p v e sender funds st m = Ok (st', msgs) <-> does p v e sender funds st m st' msgs.
Proof. intros [Hwf Hss]%small_history_inv. by apply does_exact. Qed.
End History.
