(** What the matching functions of marketplace v2 return. *)
From Verif Require Import Base Common Chain BaseFacts ChainFacts IndexRange IndexFacts SaleFacts V2Model V2Facts.

Section Match.
Context (p : params).

Definition a_amt (a : ask) : N := c_amount (d_price (a_det a)).
Definition b_amt (b : bid) : N := c_amount (d_price (b_det b)).
Definition cb_amt (cb : cbid) : N := c_amount (d_price (cb_det cb)).
Definition a_dn (a : ask) : denom := c_denom (d_price (a_det a)).
Definition b_dn (b : bid) : denom := c_denom (d_price (b_det b)).
Definition cb_dn (cb : cbid) : denom := c_denom (d_price (cb_det cb)).
Definition mb_amt (mb : matching_bid) : N := c_amount (d_price (mb_det mb)).

Lemma has_coins_one x y : has_coins [x] y = true <-> c_denom x = c_denom y /\ c_amount y <= c_amount x.
Proof.
  cbn. case_bool_decide; [|split; [done|by intros []]]. rewrite N.leb_le. tauto.
Qed.

Lemma bool_and_iff (P Q : Prop) {HP : Decision P} {HQ : Decision Q} :
  bool_decide P && bool_decide Q = true <-> P /\ Q.
Proof. rewrite andb_true_iff, !bool_decide_eq_true. done. Qed.

Lemma elem_filter_map {A} (m : gmap string A) (f : string * A -> bool) (i : string) (x : A) :
  (i, x) ∈ List.filter f (map_to_list m) <-> m !! i = Some x /\ f (i, x) = true.
Proof.
  rewrite elem_of_list_In, filter_In, <-elem_of_list_In, elem_of_map_to_list. done.
Qed.

Lemma last_fmap_snd {A B} (l : list (A * B)) y :
  last (snd <$> l) = Some y -> exists x, last l = Some (x, y).
Proof.
  rewrite fmap_last. destruct (last l) as [[x z]|]; cbn; [|done]. intros [= ->]. eauto.
Qed.
Lemma last_fmap_snd_none {A B} (l : list (A * B)) : last (snd <$> l) = None -> last l = None.
Proof. rewrite fmap_last. by destruct (last l). Qed.

(** Top token bid at or above a price. *)
Definition bid_on (st : state) (coll : addr) (tok : token) (dn : denom) (b : bid) : Prop :=
  (exists i, s_bids st !! i = Some b) /\
  token_index_str (b_coll b) (b_tok b) = token_index_str coll tok /\ b_dn b = dn.
Definition cbid_on (st : state) (coll : addr) (dn : denom) (cb : cbid) : Prop :=
  (exists i, s_cbids st !! i = Some cb) /\ cb_coll cb = coll /\ cb_dn cb = dn.
Definition ask_on (st : state) (coll : addr) (dn : denom) (a : ask) : Prop :=
  (exists i, s_asks st !! i = Some a) /\ a_coll a = coll /\ a_dn a = dn.

Lemma top_bid_some st coll tok dn n b :
  vec_pop (query_bids_by_token_price st coll tok dn (QOpts (Some true) (Some 1) (Some (BIncl (n, ""))) None)) = Some b ->
  bid_on st coll tok dn b /\ n <= b_amt b /\
  forall b', bid_on st coll tok dn b' -> n <= b_amt b' -> b_amt b' <= b_amt b.
Proof.
  unfold vec_pop, query_bids_by_token_price. intros (i&H)%last_fmap_snd.
  apply (top_desc_some _ _ pkey_leb_total pkey_leb_trans) in H as (H1&H2&H3).
  apply elem_filter_map in H1 as [H1 [H1a H1b]%bool_and_iff]. cbn in *.
  unfold in_bounds in H2. cbn in H2. rewrite andb_true_r, pkey_min_incl in H2.
  split_and!.
  - split; [by eexists|done].
  - unfold bid_pkey, bid_amount, b_amt in *; cbn in *. lia.
  - intros b' ((j&Hj)&Hb1&Hb2) Hn. specialize (H3 (j, b')).
    apply (pkey_leb_fst (bid_pkey (j, b')) (bid_pkey (i, b))), H3.
    + apply elem_filter_map. split; [done|]. by apply bool_and_iff.
    + unfold in_bounds. cbn. rewrite andb_true_r, pkey_min_incl. unfold b_amt in Hn.
      unfold bid_pkey, bid_amount. cbn. lia.
Qed.

Lemma top_bid_none st coll tok dn n b :
  vec_pop (query_bids_by_token_price st coll tok dn (QOpts (Some true) (Some 1) (Some (BIncl (n, ""))) None)) = None ->
  bid_on st coll tok dn b -> b_amt b < n.
Proof.
  unfold vec_pop, query_bids_by_token_price. intros H%last_fmap_snd_none ((j&Hj)&Hb1&Hb2).
  apply (top_none pkey_leb _) with (y := (j, b)) in H.
  - unfold in_bounds in H. cbn in H. rewrite andb_true_r, pkey_min_incl in H.
    unfold bid_pkey, bid_amount, b_amt in *; cbn in *. lia.
  - apply elem_filter_map. split; [done|]. by apply bool_and_iff.
Qed.

Lemma top_cbid_some st coll dn n cb :
  vec_pop (query_collection_bids_by_price st coll dn (QOpts (Some true) (Some 1) (Some (BIncl (n, ""))) None)) = Some cb ->
  cbid_on st coll dn cb /\ n <= cb_amt cb /\
  forall cb', cbid_on st coll dn cb' -> n <= cb_amt cb' -> cb_amt cb' <= cb_amt cb.
Proof.
  unfold vec_pop, query_collection_bids_by_price. intros (i&H)%last_fmap_snd.
  apply (top_desc_some _ _ pkey_leb_total pkey_leb_trans) in H as (H1&H2&H3).
  apply elem_filter_map in H1 as [H1 [H1a H1b]%bool_and_iff]. cbn in *.
  unfold in_bounds in H2. cbn in H2. rewrite andb_true_r, pkey_min_incl in H2.
  split_and!.
  - split; [by eexists|done].
  - unfold cbid_pkey, cbid_amount, cb_amt in *; cbn in *. lia.
  - intros b' ((j&Hj)&Hb1&Hb2) Hn. specialize (H3 (j, b')).
    apply (pkey_leb_fst (cbid_pkey (j, b')) (cbid_pkey (i, cb))), H3.
    + apply elem_filter_map. split; [done|]. by apply bool_and_iff.
    + unfold in_bounds. cbn. rewrite andb_true_r, pkey_min_incl. unfold cb_amt in Hn.
      unfold cbid_pkey, cbid_amount. cbn. lia.
Qed.

Lemma top_cbid_none st coll dn n cb :
  vec_pop (query_collection_bids_by_price st coll dn (QOpts (Some true) (Some 1) (Some (BIncl (n, ""))) None)) = None ->
  cbid_on st coll dn cb -> cb_amt cb < n.
Proof.
  unfold vec_pop, query_collection_bids_by_price. intros H%last_fmap_snd_none ((j&Hj)&Hb1&Hb2).
  apply (top_none pkey_leb _) with (y := (j, cb)) in H.
  - unfold in_bounds in H. cbn in H. rewrite andb_true_r, pkey_min_incl in H.
    unfold cbid_pkey, cbid_amount, cb_amt in *; cbn in *. lia.
  - apply elem_filter_map. split; [done|]. by apply bool_and_iff.
Qed.

(** The best bid for an ask. *)
Lemma match_with_bid_some st a mb :
  match_with_bid st a = Some mb ->
  let coll := a_coll a in let tok := a_tok a in let dn := a_dn a in
  match mb with
  | MBid b => bid_on st coll tok dn b /\ a_amt a <= b_amt b /\
              (forall b', bid_on st coll tok dn b' -> b_amt b' <= b_amt b) /\
              (forall cb', cbid_on st coll dn cb' -> cb_amt cb' <= b_amt b)
  | MCBid cb => cbid_on st coll dn cb /\ a_amt a <= cb_amt cb /\
              (forall b', bid_on st coll tok dn b' -> b_amt b' < cb_amt cb) /\
              (forall cb', cbid_on st coll dn cb' -> cb_amt cb' <= cb_amt cb)
  end.
Proof.
  unfold match_with_bid. cbv zeta. fold (a_amt a) (a_dn a). intros H.
  destruct (vec_pop (query_bids_by_token_price _ _ _ _ _)) as [b|] eqn:Eb;
    destruct (vec_pop (query_collection_bids_by_price _ _ _ _)) as [cb|] eqn:Ec;
    try (apply top_bid_some in Eb as (Hb1&Hb2&Hb3));
    try (apply top_cbid_some in Ec as (Hc1&Hc2&Hc3)); try discriminate.
  - fold (cb_amt cb) (b_amt b) in H. destruct (cb_amt cb <=? b_amt b) eqn:E; injection H as <-.
    + split_and!; try done.
      * intros b' Hb'. destruct (a_amt a <=? b_amt b') eqn:E'; [apply Hb3; [done|lia]|lia].
      * intros c' Hc'. destruct (a_amt a <=? cb_amt c') eqn:E'; [|lia].
        specialize (Hc3 _ Hc' ltac:(lia)). lia.
    + split_and!; try done.
      * intros b' Hb'. destruct (a_amt a <=? b_amt b') eqn:E'; [|lia].
        specialize (Hb3 _ Hb' ltac:(lia)). lia.
      * intros c' Hc'. destruct (a_amt a <=? cb_amt c') eqn:E'; [apply Hc3; [done|lia]|lia].
  - injection H as <-. split_and!; try done.
    + intros b' Hb'. destruct (a_amt a <=? b_amt b') eqn:E'; [apply Hb3; [done|lia]|lia].
    + intros c' Hc'. pose proof (top_cbid_none _ _ _ _ _ Ec Hc'). lia.
  - injection H as <-. split_and!; try done.
    + intros b' Hb'. pose proof (top_bid_none _ _ _ _ _ _ Eb Hb'). lia.
    + intros c' Hc'. destruct (a_amt a <=? cb_amt c') eqn:E'; [apply Hc3; [done|lia]|lia].
Qed.

Lemma match_with_bid_none st a :
  match_with_bid st a = None ->
  (forall b, bid_on st (a_coll a) (a_tok a) (a_dn a) b -> b_amt b < a_amt a) /\
  (forall cb, cbid_on st (a_coll a) (a_dn a) cb -> cb_amt cb < a_amt a).
Proof.
  unfold match_with_bid. cbv zeta. fold (a_amt a) (a_dn a). intros H.
  destruct (vec_pop (query_bids_by_token_price _ _ _ _ _)) as [b|] eqn:Eb;
    destruct (vec_pop (query_collection_bids_by_price _ _ _ _)) as [cb|] eqn:Ec; try discriminate.
  { destruct (_ <=? _); discriminate. }
  split; intros; eauto using top_bid_none, top_cbid_none.
Qed.

(** The ask a token bid hits. *)
Lemma bid_match_some st b a :
  bid_match_with_ask p st b = Some a ->
  s_asks st !! generate_id p [b_coll b; b_tok b] = Some a /\ a_dn a = b_dn b /\ a_amt a <= b_amt b.
Proof.
  unfold bid_match_with_ask. destruct (s_asks st !! _) as [a'|] eqn:E; [|done].
  destruct (has_coins _ _) eqn:Eh; [|done]. intros [= ->].
  apply has_coins_one in Eh as [? ?]. done.
Qed.
Lemma bid_match_none st b a :
  bid_match_with_ask p st b = None ->
  s_asks st !! generate_id p [b_coll b; b_tok b] = Some a -> a_dn a = b_dn b -> b_amt b < a_amt a.
Proof.
  unfold bid_match_with_ask. intros H E Hd. rewrite E in H.
  destruct (has_coins _ _) eqn:Eh; [done|]. destruct (a_amt a <=? b_amt b) eqn:El; [|lia].
  assert (has_coins [d_price (b_det b)] (d_price (a_det a)) = true); [|congruence].
  apply has_coins_one. split; [done|]. unfold a_amt, b_amt in *. lia.
Qed.

(** The ask a collection bid hits. *)
Lemma cbid_match_some st cb a :
  cbid_match_with_ask st cb = Ok (Some a) ->
  ask_on st (cb_coll cb) (cb_dn cb) a /\ a_amt a <= cb_amt cb /\
  forall a', ask_on st (cb_coll cb) (cb_dn cb) a' -> a_amt a <= a_amt a'.
Proof.
  unfold cbid_match_with_ask, vec_pop, query_asks_by_collection_denom. cbv zeta. intros H.
  apply bind_Ok in H as (n&Hn&H). injection H as H. apply last_fmap_snd in H as (i&H).
  unfold add128 in Hn. inv_ok.
  apply (top_asc_some _ _ pkey_leb_total pkey_leb_trans) in H as (H1&H2&H3).
  apply elem_filter_map in H1 as [H1 [H1a H1b]%bool_and_iff]. cbn in *.
  unfold in_bounds in H2. cbn in H2. rewrite pkey_max_excl in H2.
  assert (a_amt a <= cb_amt cb) as Ha.
  { unfold ask_pkey, ask_amount, a_amt, cb_amt in *; cbn in *. lia. }
  split_and!.
  - split; [by eexists|done].
  - done.
  - intros a' ((j&Hj)&Hb1&Hb2). destruct (a_amt a' <=? cb_amt cb) eqn:El; [|lia].
    specialize (H3 (j, a')).
    apply (pkey_leb_fst (ask_pkey (i, a)) (ask_pkey (j, a'))), H3.
    + apply elem_filter_map. split; [done|]. by apply bool_and_iff.
    + unfold in_bounds. cbn. rewrite pkey_max_excl.
      unfold ask_pkey, ask_amount, a_amt, cb_amt in *; cbn in *. lia.
Qed.
Lemma cbid_match_none st cb a :
  cbid_match_with_ask st cb = Ok None -> ask_on st (cb_coll cb) (cb_dn cb) a -> cb_amt cb < a_amt a.
Proof.
  unfold cbid_match_with_ask, vec_pop, query_asks_by_collection_denom. cbv zeta. intros H ((j&Hj)&Hb1&Hb2).
  apply bind_Ok in H as (n&Hn&H). injection H as H. apply last_fmap_snd_none in H.
  unfold add128 in Hn. inv_ok.
  apply (top_none pkey_leb _) with (y := (j, a)) in H.
  - unfold in_bounds in H. cbn in H. rewrite pkey_max_excl in H.
    unfold ask_pkey, ask_amount, a_amt, cb_amt in *; cbn in *. lia.
  - apply elem_filter_map. split; [done|]. by apply bool_and_iff.
Qed.

(** Index strings are unambiguous when addresses contain no slash. *)
Fixpoint no_slash (s : string) : bool :=
  match s with
  | EmptyString => true
  | String x s => negb (Ascii.eqb x "/"%char) && no_slash s
  end.
Lemma slash_cut c1 c2 t1 t2 :
  no_slash c1 = true -> no_slash c2 = true -> c1 +:+ String "/" t1 = c2 +:+ String "/" t2 -> c1 = c2 /\ t1 = t2.
Proof.
  revert c2. induction c1 as [|x c1 IH]; intros [|y c2] H1 H2.
  - rewrite !str_app_nil. by intros [= ->].
  - rewrite str_app_nil, str_app_cons. intros H. injection H as H _. subst. discriminate H2.
  - rewrite str_app_nil, str_app_cons. intros H. injection H as H _. subst. discriminate H1.
  - rewrite !str_app_cons. intros [= -> H]. cbn in H1, H2.
    apply andb_prop in H1 as [_ H1]. apply andb_prop in H2 as [_ H2].
    destruct (IH c2 H1 H2 H) as [-> ->]. done.
Qed.
Lemma token_index_str_inj c1 t1 c2 t2 :
  no_slash c1 = true -> no_slash c2 = true -> token_index_str c1 t1 = token_index_str c2 t2 -> c1 = c2 /\ t1 = t2.
Proof. unfold token_index_str. intros H1 H2. by apply slash_cut. Qed.
End Match.
