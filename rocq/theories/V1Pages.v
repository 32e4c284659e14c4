(** Queries of marketplace v1: exactly which rows each page consists of (C118, C88, C89). *)
From stdpp Require Import relations pretty.
From Verif Require Import Base Common Chain BaseFacts ChainFacts IndexRange IndexFacts QuerySpec IndexWalk SaleFacts Plain
  V1Model V1Spec V1Facts V1Inv V1Reach V1Query.

(** * Specification *)
(** The first rows of the complete, ordered list of the matching ones, as many as fit on a page. *)
Definition page_of {B} (rel : B -> B -> Prop) (matching : B -> Prop) (limit : option N) (rows : list B) : Prop :=
  exists all, lists_all rel matching all /\ rows = take (V1Spec.page_size limit) all.
(** Positions after an offset. *)
Definition nft_after (start : option (string * N)) (coll : string) (tok : N) : Prop :=
  match start with None => True | Some (c, t) => coll_before c coll \/ (coll = c /\ t < tok) end.
Definition price_after (start : option (N * N)) (price tok : N) : Prop :=
  match start with None => True | Some (n, t) => n < price \/ (price = n /\ t < tok) end.
Definition price_below (start : option (N * N)) (price tok : N) : Prop :=
  match start with None => True | Some (n, t) => price < n \/ (price = n /\ tok < t) end.
Definition bid_after (start : option (N * N * string)) (b : bid) : Prop :=
  match start with
  | None => True
  | Some (n, t, who) => n < b_price b \/ (b_price b = n /\ (t < b_tok b \/ (b_tok b = t /\ bytes_before who (b_bidder b))))
  end.
Definition bid_below (start : option (N * N * string)) (b : bid) : Prop :=
  match start with
  | None => True
  | Some (n, t, who) => b_price b < n \/ (b_price b = n /\ (b_tok b < t \/ (b_tok b = t /\ bytes_before (b_bidder b) who)))
  end.
Definition cbid_after (start : option (N * string)) (b : cbid) : Prop :=
  match start with None => True | Some (n, who) => n < cb_price b \/ (cb_price b = n /\ bytes_before who (cb_bidder b)) end.
Definition cbid_below (start : option (N * string)) (b : cbid) : Prop :=
  match start with None => True | Some (n, who) => cb_price b < n \/ (cb_price b = n /\ bytes_before (cb_bidder b) who) end.
(** By expiry: after the bid of the offset if that still rests, otherwise anywhere. *)
Definition expiring_after (st : state) (who : string) (start : option (string * N)) (b : bid) : Prop :=
  forall c t o, start = Some (c, t) -> s_bids st !! (c, t, who) = Some o -> bid_by_expiry o b.
Definition cbid_expiring_after (st : state) (start : option (string * string)) (b : cbid) : Prop :=
  forall c w o, start = Some (c, w) -> s_cbids st !! (c, w) = Some o ->
    let sec b := cb_expires b / 1000000000 in
    sec o < sec b \/ (sec o = sec b /\ (coll_before c (cb_coll b) \/ (cb_coll b = c /\ bytes_before w (cb_bidder b)))).
Definition bid_by_bidder (a b : bid) : Prop := bytes_before (b_bidder a) (b_bidder b).

(** * Proofs *)
Section Entries.
Context {PK K A : Type} `{Countable PK} (leb : K -> K -> bool) (before : K -> K -> Prop) (lin : linear leb before).
Context (m : gmap PK A) (pk : A -> PK) (Hpk : forall k y, m !! k = Some y -> k = pk y).
Context (key : PK * A -> K) (sel g : A -> bool) (d : bool) (limit : option N) (start : option K).
Context (Hinj : forall u w, u ∈ entries sel m -> w ∈ entries sel m -> key u = key w -> fst u = fst w).
Let L := entries sel m.

Lemma entries_keys : NoDup (key <$> L).
Proof.
  assert (NoDup (fst <$> L)) as Hnd by apply NoDup_filter_fst, NoDup_fst_map_to_list.
  fold L in Hinj. clear -Hnd Hinj. induction L as [|u l IH]; cbn in *; [constructor|]. apply NoDup_cons in Hnd as [H1 H2]. apply NoDup_cons. split.
  - intros (w&E&Hw)%elem_of_list_fmap. apply H1. rewrite (Hinj u w); [by apply elem_of_list_fmap_1|by left|by right|done].
  - apply IH; [|done]. intros a b Ha Hb. apply Hinj; by right.
Qed.
Lemma entries_page (rel : A -> A -> Prop) (matching : A -> Prop) :
  (forall y z, m !! pk y = Some y -> m !! pk z = Some z -> sel y = true -> sel z = true ->
     precedes before key d (pk y, y) (pk z, z) -> rel y z) ->
  (forall y, m !! pk y = Some y /\ sel y = true /\ g y = true /\ beyond before d start (key (pk y, y)) <-> matching y) ->
  page_of rel matching limit
    (map snd (take (limit_nat limit) (List.filter (fun u => g (snd u)) (index_scan leb key L (after_opts d None start))))).
Proof.
  intros Hrel Hm. pose proof (lin_total _ _ lin) as Tot. pose proof (lin_trans _ _ lin) as Tra. pose proof (lin_before _ _ lin) as Bef.
  pose proof (lin_antisym _ _ lin) as Ant.
  assert (forall u, u ∈ L -> u = (pk (snd u), snd u)) as HL.
  { intros [k y] [Hy _]%entries_elem. cbn in *. by rewrite <-(Hpk _ _ Hy). }
  set (S := List.filter (fun u => g (snd u)) (index_scan leb key L (after_opts d None start))).
  assert (StronglySorted (precedes before key d) S) as HS.
  { unfold S. rewrite scan_listing, after_desc. apply sorted_filter, sorted_filter, listing_sorted; try done. apply entries_keys. }
  assert (forall u, u ∈ S <-> u ∈ L /\ g (snd u) = true /\ beyond before d start (key u)) as HSe.
  { intros u. unfold S. rewrite elem_filter, index_scan_elem, (in_range_bounds leb key before Bef).
    unfold in_range, after_opts, beyond. destruct start, d; cbn; tauto. }
  exists (map snd S). split; [split|].
  - assert (forall u, u ∈ S -> u ∈ L) as Hin by (intros u Hu; by apply HSe in Hu as (?&_)). clearbody S. clear HSe Hm.
    induction HS as [|u l Hl IH Hu]; cbn; [constructor|]. constructor; [apply IH; intros; apply Hin; by right|].
    rewrite Forall_forall in Hu. apply Forall_forall. intros z Hz. apply elem_of_list_fmap in Hz as (w&->&Hw).
    assert (u ∈ L) as Lu by (apply Hin; by left). assert (w ∈ L) as Lw by (apply Hin; by right). specialize (Hu w Hw).
    rewrite (HL u Lu), (HL w Lw) in Hu. apply entries_elem in Lu as [Lu Su], Lw as [Lw Sw].
    pose proof (Hpk _ _ Lu) as Eu. pose proof (Hpk _ _ Lw) as Ew. rewrite Eu in Lu. rewrite Ew in Lw. by apply Hrel.
  - intros y. rewrite <-Hm. change (map snd S) with (snd <$> S). rewrite elem_of_list_fmap. setoid_rewrite HSe. split.
    + intros (u&->&Hu&Hg&Hb). rewrite (HL u Hu) in Hb. apply entries_elem in Hu as [Hu Hs]. pose proof (Hpk _ _ Hu) as Eu. by rewrite Eu in Hu.
    + intros (Hl&Hs&Hg&Hb). exists (pk y, y). split; [done|]. split; [by apply entries_elem|done].
  - change (map snd S) with (snd <$> S). change (map snd) with (fmap (M := list) (@snd PK A)). by rewrite fmap_take.
Qed.
End Entries.

Local Lemma bind_ok {A B} (a : A) (g : A -> result B) : (y ← Ok a; g y) = g a.
Proof. done. Qed.

Section Queries.
Context (p : params) (st : state) (Hwf : wf p st).
Implicit Types (limit : option N).

Ltac rows := eexists; split; [reflexivity|].
Ltac price_inj := intros u w _ _ [= _ ?]; done.

Lemma asks_page coll inactive start limit : p_valid p coll = true -> exists rows, query_asks p st coll inactive start limit = Ok rows /\
  page_of ask_by_token (fun a => listed st a /\ k_coll a = coll /\ visible inactive a /\ default 0 start < k_tok a) limit rows.
Proof.
  intros Hv. unfold query_asks. rewrite valid_ok by done. rows.
  apply (entries_page ask_leb _ linear_ask (s_asks st) (fun a => (k_coll a, k_tok a)) (ask_pk p st Hwf) fst (fun a => coll_is coll (k_coll a)) (shown inactive) false
    limit (Some (coll, default 0 start))); [done|..].
  - intros y z _ _ Hs Hs'. apply coll_is_spec in Hs, Hs'. unfold precedes, lex_before, ask_by_token. cbn. subst. intros [Hc|[_ ?]]; [|done].
    by rewrite Hs' in Hc; apply coll_irrefl in Hc.
  - intros y. rewrite coll_is_spec, shown_visible. unfold listed, beyond, lex_before. cbn. split.
    + intros (H1&H2&H3&[H4|[_ H4]]); [|done]. rewrite H2 in H4. by apply coll_irrefl in H4.
    + intros (H1&H2&H3&H4). split_and!; try done. by right.
Qed.
Lemma reverse_asks_page coll inactive start limit : p_valid p coll = true -> exists rows, reverse_query_asks p st coll inactive start limit = Ok rows /\
  page_of (fun a b => ask_by_token b a) (fun a => listed st a /\ k_coll a = coll /\ visible inactive a /\ k_tok a < default 0 start) limit rows.
Proof.
  intros Hv. unfold reverse_query_asks. rewrite valid_ok by done. rows.
  apply (entries_page ask_leb _ linear_ask (s_asks st) (fun a => (k_coll a, k_tok a)) (ask_pk p st Hwf) fst (fun a => coll_is coll (k_coll a)) (shown inactive) true
    limit (Some (coll, default 0 start))); [done|..].
  - intros y z _ _ Hs Hs'. apply coll_is_spec in Hs, Hs'. unfold precedes, lex_before, ask_by_token. cbn. subst. intros [Hc|[_ ?]]; [|done].
    by rewrite Hs' in Hc; apply coll_irrefl in Hc.
  - intros y. rewrite coll_is_spec, shown_visible. unfold listed, beyond, lex_before. cbn. split.
    + intros (H1&H2&H3&[H4|[_ H4]]); [|done]. rewrite H2 in H4. by apply coll_irrefl in H4.
    + intros (H1&H2&H3&H4). split_and!; try done. by right.
Qed.
Lemma asks_price_page coll inactive start limit : p_valid p coll = true ->
  exists rows, query_asks_sorted_by_price p st coll inactive start limit = Ok rows /\
  page_of ask_by_price (fun a => listed st a /\ k_coll a = coll /\ visible inactive a /\ price_after start (k_price a) (k_tok a)) limit rows.
Proof.
  intros Hv. unfold query_asks_sorted_by_price. rewrite valid_ok by done. rows.
  apply (entries_page (price_leb ask_leb) _ (linear_price _ _ linear_ask) (s_asks st) (fun a => (k_coll a, k_tok a)) (ask_pk p st Hwf) (price_key k_price)
    (fun a => coll_is coll (k_coll a)) (shown inactive) false limit); [price_inj|..].
  - intros y z _ _ Hs Hs'. apply coll_is_spec in Hs, Hs'. unfold precedes, lex_before, ask_by_price, price_key. cbn. rewrite Hs, Hs'.
    intros [?|(?&[Hc|[_ ?]])]; [by left|by apply coll_irrefl in Hc|by right].
  - intros y. rewrite coll_is_spec, shown_visible. unfold listed, beyond, price_after, lex_before, price_key. destruct start as [[n t]|]; cbn; [|tauto]. split.
    + intros (H1&H2&H3&[H4|(H4&[H5|[_ H5]])]); [tauto|rewrite H2 in H5; by apply coll_irrefl in H5|]. split_and!; try done. by right.
    + intros (H1&H2&H3&[H4|[H4 H5]]); [tauto|]. split_and!; try done. right. split; [done|]. by right.
Qed.
Lemma reverse_asks_price_page coll inactive start limit : p_valid p coll = true ->
  exists rows, reverse_query_asks_sorted_by_price p st coll inactive start limit = Ok rows /\
  page_of (fun a b => ask_by_price b a) (fun a => listed st a /\ k_coll a = coll /\ visible inactive a /\ price_below start (k_price a) (k_tok a)) limit rows.
Proof.
  intros Hv. unfold reverse_query_asks_sorted_by_price. rewrite valid_ok by done. rows.
  apply (entries_page (price_leb ask_leb) _ (linear_price _ _ linear_ask) (s_asks st) (fun a => (k_coll a, k_tok a)) (ask_pk p st Hwf) (price_key k_price)
    (fun a => coll_is coll (k_coll a)) (shown inactive) true limit); [price_inj|..].
  - intros y z _ _ Hs Hs'. apply coll_is_spec in Hs, Hs'. unfold precedes, lex_before, ask_by_price, price_key. cbn. rewrite Hs, Hs'.
    intros [?|(?&[Hc|[_ ?]])]; [by left|by apply coll_irrefl in Hc|by right].
  - intros y. rewrite coll_is_spec, shown_visible. unfold listed, beyond, price_below, lex_before, price_key. destruct start as [[n t]|]; cbn; [|tauto]. split.
    + intros (H1&H2&H3&[H4|(H4&[H5|[_ H5]])]); [tauto|rewrite H2 in H5; by apply coll_irrefl in H5|]. split_and!; try done. by right.
    + intros (H1&H2&H3&[H4|[H4 H5]]); [tauto|]. split_and!; try done. right. split; [done|]. by right.
Qed.
Lemma asks_seller_page seller inactive start limit : p_valid p seller = true -> (forall c t, start = Some (c, t) -> p_valid p c = true) ->
  exists rows, query_asks_by_seller p st seller inactive start limit = Ok rows /\
  page_of ask_by_nft (fun a => listed st a /\ k_seller a = seller /\ visible inactive a /\ nft_after start (k_coll a) (k_tok a)) limit rows.
Proof.
  intros Hv Hc. unfold query_asks_by_seller. rewrite valid_ok by done. eexists. split.
  { destruct start as [[c t]|]; [|reflexivity]. rewrite bind_ok. rewrite (valid_ok p c) by (by eapply Hc). reflexivity. }
  apply (entries_page ask_leb _ linear_ask (s_asks st) (fun a => (k_coll a, k_tok a)) (ask_pk p st Hwf) fst (fun a => bool_decide (k_seller a = seller)) (shown inactive) false
    limit start); [done|..].
  - done.
  - intros y. rewrite bool_decide_eq_true, shown_visible. unfold listed, beyond, nft_after, lex_before. destruct start as [[c t]|]; cbn; [|tauto]. naive_solver.
Qed.

Lemma bids_bidder_page bidder start limit : p_valid p bidder = true -> (forall c t, start = Some (c, t) -> p_valid p c = true) ->
  exists rows, query_bids_by_bidder p st bidder start limit = Ok rows /\
  page_of bid_by_nft (fun b => bidding st b /\ b_bidder b = bidder /\ nft_after start (b_coll b) (b_tok b)) limit rows.
Proof.
  intros Hv Hc. unfold query_bids_by_bidder. rewrite valid_ok by done. eexists. split.
  { destruct start as [[c t]|]; [|reflexivity]. rewrite bind_ok. rewrite (valid_ok p c) by (by eapply Hc). reflexivity. }
  rewrite <-(filter_true (index_scan _ _ _ _)).
  apply (entries_page bid_leb _ linear_bid (s_bids st) (fun b => (b_coll b, b_tok b, b_bidder b)) (bid_pk p st Hwf) fst (fun b => bool_decide (b_bidder b = bidder)) (fun _ => true)
    false limit ((fun o => (o, bidder)) <$> start)); [done|..].
  - intros y z _ _ Hs Hs'. apply bool_decide_eq_true in Hs, Hs'. unfold precedes, lex_before, bid_by_nft. cbn. rewrite Hs, Hs'.
    intros [[?|[? ?]]|(?&Hb)]; [by left|by right|]. by apply bytes_irrefl in Hb.
  - intros y. rewrite bool_decide_eq_true. unfold bidding, beyond, nft_after, lex_before. destruct start as [[c t]|]; cbn; [|tauto]. split.
    + intros (H1&H2&_&[[H4|[H4 H5]]|[_ H4]]); [tauto|by subst; tauto|]. rewrite H2 in H4. by apply bytes_irrefl in H4.
    + intros (H1&H2&[H4|[H4 H5]]); [tauto|]. split_and!; try done. left. by right.
Qed.
Lemma bids_price_page coll start limit : p_valid p coll = true -> exists rows, query_bids_sorted_by_price p st coll start limit = Ok rows /\
  page_of bid_by_price (fun b => bidding st b /\ b_coll b = coll /\ bid_after start b) limit rows.
Proof.
  intros Hv. unfold query_bids_sorted_by_price. rewrite valid_ok by done. rows. rewrite <-(filter_true (index_scan _ _ _ _)).
  apply (entries_page (price_leb bid_leb) _ (linear_price _ _ linear_bid) (s_bids st) (fun b => (b_coll b, b_tok b, b_bidder b)) (bid_pk p st Hwf) (price_key b_price)
    (fun b => coll_is coll (b_coll b)) (fun _ => true) false limit); [price_inj|..].
  - intros y z _ _ Hs Hs'. apply coll_is_spec in Hs, Hs'. unfold precedes, lex_before, bid_by_price, price_key. cbn. rewrite Hs, Hs'.
    intros [?|(?&[[Hc|[_ ?]]|(Ht&Hb)])]; [by left|by apply coll_irrefl in Hc|right; split; [done|by left]|].
    right; split; [done|right]. split; [congruence|done].
  - intros y. rewrite coll_is_spec. unfold bidding, beyond, bid_after, lex_before, price_key. destruct start as [[[n t] who]|]; cbn; [|tauto]. split.
    + intros (H1&H2&_&[H4|(H4&[[H5|[_ H5]]|[H5 H6]])]); [tauto|rewrite H2 in H5; by apply coll_irrefl in H5| |].
      * split_and!; try done. right. split; [done|by left].
      * injection H5 as _ H5. split_and!; try done. right. split; [done|by right].
    + intros (H1&H2&[H4|(H4&[H5|[H5 H6]])]); [tauto| |]; split_and!; try done; right; split; try done; [left; by right|right]. split; [congruence|done].
Qed.
Lemma reverse_bids_price_page coll start limit : p_valid p coll = true -> exists rows, reverse_query_bids_sorted_by_price p st coll start limit = Ok rows /\
  page_of (fun a b => bid_by_price b a) (fun b => bidding st b /\ b_coll b = coll /\ bid_below start b) limit rows.
Proof.
  intros Hv. unfold reverse_query_bids_sorted_by_price. rewrite valid_ok by done. rows. rewrite <-(filter_true (index_scan _ _ _ _)).
  apply (entries_page (price_leb bid_leb) _ (linear_price _ _ linear_bid) (s_bids st) (fun b => (b_coll b, b_tok b, b_bidder b)) (bid_pk p st Hwf) (price_key b_price)
    (fun b => coll_is coll (b_coll b)) (fun _ => true) true limit); [price_inj|..].
  - intros y z _ _ Hs Hs'. apply coll_is_spec in Hs, Hs'. unfold precedes, lex_before, bid_by_price, price_key. cbn. rewrite Hs, Hs'.
    intros [?|(?&[[Hc|[_ ?]]|(Ht&Hb)])]; [by left|by apply coll_irrefl in Hc|right; split; [done|by left]|].
    right; split; [done|right]. split; [congruence|done].
  - intros y. rewrite coll_is_spec. unfold bidding, beyond, bid_below, lex_before, price_key. destruct start as [[[n t] who]|]; cbn; [|tauto]. split.
    + intros (H1&H2&_&[H4|(H4&[[H5|[_ H5]]|[H5 H6]])]); [tauto|rewrite H2 in H5; by apply coll_irrefl in H5| |].
      * split_and!; try done. right. split; [done|by left].
      * injection H5 as _ H5. split_and!; try done. right. split; [done|by right].
    + intros (H1&H2&[H4|(H4&[H5|[H5 H6]])]); [tauto| |]; split_and!; try done; right; split; try done; [left; by right|right]. split; [congruence|done].
Qed.
Lemma bids_expiry_page bidder start limit : p_valid p bidder = true -> (forall c t, start = Some (c, t) -> p_valid p c = true) ->
  exists rows, query_bids_by_bidder_sorted_by_expiry p st bidder start limit = Ok rows /\
  page_of bid_by_expiry (fun b => bidding st b /\ b_bidder b = bidder /\ expiring_after st bidder start b) limit rows.
Proof.
  intros Hv Hc. unfold query_bids_by_bidder_sorted_by_expiry. rewrite valid_ok by done. rewrite bind_ok.
  set (k := match start with Some (c, t) => match s_bids st !! (c, t, bidder) with Some b => Some (t_seconds (b_expires b), (c, t, bidder)) | None => None end | None => None end).
  eexists. split.
  { transitivity (s ← Ok k; Ok (map snd (take (limit_nat limit) (index_scan (price_leb bid_leb) (price_key (λ b : bid, t_seconds (b_expires b)))
      (entries (λ b : bid, bool_decide (b_bidder b = bidder)) (s_bids st)) (asc s))))); [|reflexivity].
    f_equal. unfold k. destruct start as [[c t]|]; [|reflexivity]. rewrite (valid_ok p c) by (by eapply Hc). reflexivity. }
  rewrite <-(filter_true (index_scan _ _ _ _)).
  apply (entries_page (price_leb bid_leb) _ (linear_price _ _ linear_bid) (s_bids st) (fun b => (b_coll b, b_tok b, b_bidder b)) (bid_pk p st Hwf)
    (price_key (fun b => t_seconds (b_expires b))) (fun b => bool_decide (b_bidder b = bidder)) (fun _ => true) false limit k); [price_inj|..].
  - intros y z _ _ Hs Hs'. apply bool_decide_eq_true in Hs, Hs'. unfold precedes, lex_before, bid_by_expiry, bid_by_nft, price_key, t_seconds. cbn. rewrite Hs, Hs'.
    intros [?|(?&[[?|[? ?]]|(_&Hb)])]; [by left|right; split; [done|by left]|right; split; [done|by right]|]. by apply bytes_irrefl in Hb.
  - intros y. rewrite bool_decide_eq_true. unfold bidding, expiring_after, k. destruct start as [[c t]|]; [|cbn; split; [intros (?&?&_); by split_and!|tauto]].
    destruct (s_bids st !! (c, t, bidder)) as [o|] eqn:Eo.
    2: { cbn. split; [|tauto]. intros (H1&H2&_). split_and!; try done. intros c' t' o [= -> ->]. congruence. }
    pose proof (bid_pk p st Hwf _ _ Eo) as Ek. injection Ek as Ec Et Eb.
    unfold beyond, lex_before, bid_by_expiry, bid_by_nft, price_key, t_seconds. cbn. split.
    + intros (H1&H2&_&Hb). split_and!; try done. intros c' t' o' [= <- <-] Ho. assert (o' = o) as -> by congruence. rewrite <-Ec, <-Et.
      destruct Hb as [?|(?&[[?|[? ?]]|(_&Hb)])]; [by left|right; split; [done|by left]|right; split; [done|by right]|]. rewrite H2 in Hb. by apply bytes_irrefl in Hb.
    + intros (H1&H2&Hb). specialize (Hb c t o eq_refl Eo). rewrite <-Ec, <-Et in Hb. split_and!; try done.
      destruct Hb as [?|(?&[?|[? ?]])]; [by left|right; split; [done|]; left; by left|right; split; [done|]; left; by right].
Qed.

Lemma cbids_price_page coll start limit : p_valid p coll = true -> (forall n w, start = Some (n, w) -> p_valid p w = true) ->
  exists rows, query_collection_bids_sorted_by_price p st coll start limit = Ok rows /\
  page_of cbid_by_price (fun b => cbidding st b /\ cb_coll b = coll /\ cbid_after start b) limit rows.
Proof.
  intros Hv Hc. unfold query_collection_bids_sorted_by_price. rewrite valid_ok by done. eexists. split.
  { destruct start as [[n w]|]; [|reflexivity]. rewrite bind_ok. rewrite (valid_ok p w) by (by eapply Hc). reflexivity. }
  rewrite <-(filter_true (index_scan _ _ _ _)).
  apply (entries_page (price_leb cbid_leb) _ (linear_price _ _ linear_cbid) (s_cbids st) (fun b => (cb_coll b, cb_bidder b)) (cbid_pk p st Hwf)
    (price_key cb_price) (fun b => coll_is coll (cb_coll b)) (fun _ => true) false limit ((fun o => (fst o, (coll, snd o))) <$> start)); [price_inj|..].
  - intros y z _ _ Hs Hs'. apply coll_is_spec in Hs, Hs'. unfold precedes, lex_before, cbid_by_price, price_key. cbn. rewrite Hs, Hs'.
    intros [?|(?&[Hb|[_ ?]])]; [by left|by apply coll_irrefl in Hb|by right].
  - intros y. rewrite coll_is_spec. unfold cbidding, beyond, cbid_after, lex_before, price_key. destruct start as [[n w]|]; cbn; [|tauto]. split.
    + intros (H1&H2&_&[H4|(H4&[H5|[_ H5]])]); [tauto|rewrite H2 in H5; by apply coll_irrefl in H5|]. split_and!; try done. by right.
    + intros (H1&H2&[H4|[H4 H5]]); [tauto|]. split_and!; try done. right. split; [done|]. by right.
Qed.
Lemma reverse_cbids_price_page coll start limit : p_valid p coll = true -> (forall n w, start = Some (n, w) -> p_valid p w = true) ->
  exists rows, reverse_query_collection_bids_sorted_by_price p st coll start limit = Ok rows /\
  page_of (fun a b => cbid_by_price b a) (fun b => cbidding st b /\ cb_coll b = coll /\ cbid_below start b) limit rows.
Proof.
  intros Hv Hc. unfold reverse_query_collection_bids_sorted_by_price. rewrite valid_ok by done. eexists. split.
  { destruct start as [[n w]|]; [|reflexivity]. rewrite bind_ok. rewrite (valid_ok p w) by (by eapply Hc). reflexivity. }
  rewrite <-(filter_true (index_scan _ _ _ _)).
  apply (entries_page (price_leb cbid_leb) _ (linear_price _ _ linear_cbid) (s_cbids st) (fun b => (cb_coll b, cb_bidder b)) (cbid_pk p st Hwf)
    (price_key cb_price) (fun b => coll_is coll (cb_coll b)) (fun _ => true) true limit ((fun o => (fst o, (coll, snd o))) <$> start)); [price_inj|..].
  - intros y z _ _ Hs Hs'. apply coll_is_spec in Hs, Hs'. unfold precedes, lex_before, cbid_by_price, price_key. cbn. rewrite Hs, Hs'.
    intros [?|(?&[Hb|[_ ?]])]; [by left|by apply coll_irrefl in Hb|by right].
  - intros y. rewrite coll_is_spec. unfold cbidding, beyond, cbid_below, lex_before, price_key. destruct start as [[n w]|]; cbn; [|tauto]. split.
    + intros (H1&H2&_&[H4|(H4&[H5|[_ H5]])]); [tauto|rewrite H2 in H5; by apply coll_irrefl in H5|]. split_and!; try done. by right.
    + intros (H1&H2&[H4|[H4 H5]]); [tauto|]. split_and!; try done. right. split; [done|]. by right.
Qed.
Lemma cbids_bidder_page bidder start limit : p_valid p bidder = true -> (forall c, start = Some c -> p_valid p c = true) ->
  exists rows, query_collection_bids_by_bidder p st bidder start limit = Ok rows /\
  page_of cbid_by_coll (fun b => cbidding st b /\ cb_bidder b = bidder /\ (forall c, start = Some c -> coll_before c (cb_coll b))) limit rows.
Proof.
  intros Hv Hc. unfold query_collection_bids_by_bidder. rewrite valid_ok by done. eexists. split.
  { destruct start as [c|]; [|reflexivity]. rewrite bind_ok. rewrite (valid_ok p c) by (by eapply Hc). reflexivity. }
  rewrite <-(filter_true (index_scan _ _ _ _)).
  apply (entries_page cbid_leb _ linear_cbid (s_cbids st) (fun b => (cb_coll b, cb_bidder b)) (cbid_pk p st Hwf) fst (fun b => bool_decide (cb_bidder b = bidder)) (fun _ => true)
    false limit ((fun c => (c, bidder)) <$> start)); [done|..].
  - intros y z _ _ Hs Hs'. apply bool_decide_eq_true in Hs, Hs'. unfold precedes, lex_before, cbid_by_coll. cbn. rewrite Hs, Hs'.
    intros [?|(?&Hb)]; [done|]. by apply bytes_irrefl in Hb.
  - intros y. rewrite bool_decide_eq_true. unfold cbidding, beyond, lex_before. destruct start as [c|]; cbn; [|split; [intros (?&?&_); by split_and!|tauto]]. split.
    + intros (H1&H2&_&[H4|[_ H4]]); [|rewrite H2 in H4; by apply bytes_irrefl in H4]. split_and!; try done. by intros ? [= <-].
    + intros (H1&H2&H3). split_and!; try done. left. by apply H3.
Qed.
Lemma cbids_expiry_page bidder start limit : p_valid p bidder = true ->
  (forall c w, start = Some (c, w) -> p_valid p c = true /\ p_valid p w = true) ->
  exists rows, query_collection_bids_by_bidder_sorted_by_expiry p st bidder start limit = Ok rows /\
  page_of cbid_by_expiry (fun b => cbidding st b /\ cb_bidder b = bidder /\ cbid_expiring_after st start b) limit rows.
Proof.
  intros Hv Hc. unfold query_collection_bids_by_bidder_sorted_by_expiry. rewrite valid_ok by done. rewrite bind_ok.
  set (k := match start with Some (c, w) => match s_cbids st !! (c, w) with Some b => Some (t_seconds (cb_expires b), (c, w)) | None => None end | None => None end).
  eexists. split.
  { transitivity (s ← Ok k; Ok (map snd (take (limit_nat limit) (index_scan (price_leb cbid_leb) (price_key (λ b : cbid, t_seconds (cb_expires b)))
      (entries (λ b : cbid, bool_decide (cb_bidder b = bidder)) (s_cbids st)) (asc s))))); [|reflexivity].
    f_equal. unfold k. destruct start as [[c w]|]; [|reflexivity]. destruct (Hc c w eq_refl). rewrite (valid_ok p w), bind_ok, (valid_ok p c) by done. reflexivity. }
  rewrite <-(filter_true (index_scan _ _ _ _)).
  apply (entries_page (price_leb cbid_leb) _ (linear_price _ _ linear_cbid) (s_cbids st) (fun b => (cb_coll b, cb_bidder b)) (cbid_pk p st Hwf)
    (price_key (fun b => t_seconds (cb_expires b))) (fun b => bool_decide (cb_bidder b = bidder)) (fun _ => true) false limit k); [price_inj|..].
  - intros y z _ _ Hs Hs'. apply bool_decide_eq_true in Hs, Hs'. unfold precedes, lex_before, cbid_by_expiry, cbid_by_coll, price_key, t_seconds. cbn. rewrite Hs, Hs'.
    intros [?|(?&[?|(_&Hb)])]; [by left|by right|]. by apply bytes_irrefl in Hb.
  - intros y. rewrite bool_decide_eq_true. unfold cbidding, cbid_expiring_after, k. destruct start as [[c w]|]; [|cbn; split; [intros (?&?&_); by split_and!|tauto]].
    destruct (s_cbids st !! (c, w)) as [o|] eqn:Eo.
    2: { cbn. split; [|tauto]. intros (H1&H2&_). split_and!; try done. intros c' w' o [= -> ->]. congruence. }
    unfold beyond, lex_before, price_key, t_seconds. cbn. split.
    + intros (H1&H2&_&Hb). split_and!; try done. intros c' w' o' [= <- <-] Ho. assert (o' = o) as -> by congruence.
      destruct Hb as [?|(?&[?|[? ?]])]; [by left|right; split; [done|by left]|right; split; [done|by right]].
    + intros (H1&H2&Hb). specialize (Hb c w o eq_refl Eo). split_and!; try done.
      destruct Hb as [?|(?&[?|[? ?]])]; [by left|right; split; [done|by left]|right; split; [done|by right]].
Qed.
End Queries.

(** ** The bids on an NFT *)
Lemma before_app s a b : bytes_before (String.append s a) (String.append s b) <-> bytes_before a b.
Proof.
  unfold bytes_before. induction s as [|c s IH]; [done|]. rewrite !str_app_cons. cbn [String.compare].
  rewrite ascii_compare_N, N.compare_refl. apply IH.
Qed.
Definition key_prefix (coll : string) (tok : N) : string :=
  String.append (be_bytes 2 (N.of_nat (String.length coll))) (String.append coll (String.append (be_bytes 2 4) (be_bytes 4 tok))).
Lemma app_assoc a b c : String.append (String.append a b) c = String.append a (String.append b c).
Proof. induction a as [|x a IH]; [done|]. rewrite !str_app_cons. by rewrite IH. Qed.
Lemma raw_key_prefix coll tok w : raw_bid_key (coll, tok, w) = String.append (key_prefix coll tok) w.
Proof. unfold raw_bid_key, key_prefix. by rewrite !app_assoc. Qed.
Lemma app_cancel s a b : String.append s a = String.append s b -> a = b.
Proof. induction s as [|c s IH]; [done|]. rewrite !str_app_cons. intros [= ?]. auto. Qed.

(** The first byte of a text, where there is one. *)
Definition starts_above (n : N) (s : string) : Prop := match s with EmptyString => False | String c _ => n < N_of_ascii c end.

Section Bids.
Context (p : params) (st : state) (Hwf : wf p st).

Lemma bids_page coll tok limit : p_valid p coll = true -> exists rows, query_bids p st coll tok None limit = Ok rows /\
  page_of bid_by_bidder (fun b => bidding st b /\ b_coll b = coll /\ b_tok b = tok) limit rows.
Proof.
  intros Hv. unfold query_bids. rewrite valid_ok by done. eexists. split; [reflexivity|]. rewrite <-(filter_true (index_scan _ _ _ _)).
  apply (entries_page str_leb _ linear_str (s_bids st) (fun b => (b_coll b, b_tok b, b_bidder b)) (bid_pk p st Hwf) (fun y => raw_bid_key (fst y))
    (fun b => coll_is coll (b_coll b) && (b_tok b =? tok)) (fun _ => true) false limit None).
  - intros [[[c t] w] y] [[[c' t'] w'] y'] [Hy Hs]%entries_elem [Hy' Hs']%entries_elem. cbn [fst snd] in *.
    apply (bid_pk p st Hwf) in Hy, Hy'. injection Hy as -> -> ->. injection Hy' as -> -> ->.
    apply andb_true_iff in Hs as [Hc Ht], Hs' as [Hc' Ht']. apply coll_is_spec in Hc, Hc'. apply N.eqb_eq in Ht, Ht'.
    rewrite !raw_key_prefix, Hc, Hc', Ht, Ht'. intros E. by apply app_cancel in E as ->.
  - intros y z _ _ Hs Hs'. apply andb_true_iff in Hs as [Hc Ht], Hs' as [Hc' Ht']. apply coll_is_spec in Hc, Hc'. apply N.eqb_eq in Ht, Ht'.
    unfold precedes, bid_by_bidder. cbn [fst]. rewrite !raw_key_prefix, Hc, Hc', Ht, Ht'. apply before_app.
  - intros y. rewrite andb_true_iff, coll_is_spec, N.eqb_eq. unfold bidding, beyond. cbn. tauto.
Qed.
(** With an offset nothing is ever found: the keys begin with the length of the collection's address. *)
Lemma bids_offset coll tok start limit : p_valid p coll = true -> (String.length coll < 256)%nat -> starts_above 0 start ->
  query_bids p st coll tok (Some start) limit = Ok [].
Proof.
  intros Hv Hlen Hs. unfold query_bids. rewrite valid_ok by done. rewrite bind_ok.
  assert (index_scan str_leb (fun y => raw_bid_key (fst y)) (entries (fun b => coll_is coll (b_coll b) && (b_tok b =? tok)) (s_bids st))
    (asc (Some start)) = []) as ->; [|by rewrite take_nil].
  apply elem_of_nil_inv. intros [[[c t] w] y] Hy. apply index_scan_elem in Hy as [[Hy Hm]%entries_elem Hb]. cbn [fst snd] in *.
  apply (bid_pk p st Hwf) in Hy. injection Hy as -> -> ->. apply andb_true_iff in Hm as [Hc Ht]. apply coll_is_spec in Hc.
  apply (in_range_bounds str_leb (fun y => raw_bid_key (fst y)) bytes_before (lin_before _ _ linear_str)) in Hb.
  unfold in_range, asc in Hb. cbn [qo_min qo_max fmap option_fmap option_map fst] in Hb. destruct Hb as [Hb _].
  destruct start as [|d start]; [done|]. cbn in Hs. unfold raw_bid_key in Hb. cbn [be_bytes] in Hb. rewrite Hc in Hb.
  unfold bytes_before in Hb.
  assert (N.of_nat (String.length coll) / 256 = 0) as Ez by (apply N.div_small; lia). rewrite Ez in Hb.
  rewrite !app_assoc, !str_app_nil, !str_app_cons in Hb. cbn [String.compare] in Hb.
  rewrite ascii_compare_N in Hb. change (N_of_ascii (ascii_of_N (0 mod 256))) with 0 in Hb.
  destruct (N.compare_spec (N_of_ascii d) 0); [lia|lia|done].
Qed.
End Bids.

Section History.
Context (p : params) (x : ext) (st : state) (H : v1_history p x st).
Let Hwf := history_wf _ _ _ H.

Lemma expiry_continues bidder c t o limit : p_valid p bidder = true -> p_valid p c = true -> s_bids st !! (c, t, bidder) = Some o ->
  exists rows, query_bids_by_bidder_sorted_by_expiry p st bidder (Some (c, t)) limit = Ok rows /\
    page_of bid_by_expiry (fun b => bidding st b /\ b_bidder b = bidder /\ bid_by_expiry o b) limit rows.
Proof.
  intros Hb Hc Ho. destruct (bids_expiry_page p st Hwf bidder (Some (c, t)) limit Hb) as (rows&E&all&[H1 H2]&->); [by intros ? ? [= <- _]|].
  exists (take (V1Spec.page_size limit) all). split; [done|]. exists all. split; [|done]. split; [done|]. intros y. rewrite H2.
  split; intros (?&?&Hy); split_and!; try done.
  - by eapply Hy.
  - intros c' t' o' [= <- <-] Ho'. assert (o' = o) as -> by congruence. done.
Qed.
Lemma expiry_starts_over bidder c t limit : p_valid p bidder = true -> p_valid p c = true -> s_bids st !! (c, t, bidder) = None ->
  query_bids_by_bidder_sorted_by_expiry p st bidder (Some (c, t)) limit = query_bids_by_bidder_sorted_by_expiry p st bidder None limit.
Proof.
  intros Hb Hc Ho. unfold query_bids_by_bidder_sorted_by_expiry. rewrite !valid_ok by done. rewrite !bind_ok, Ho. done.
Qed.
End History.
