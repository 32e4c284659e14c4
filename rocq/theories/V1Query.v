(** Queries of marketplace v1: which listings are complete when read page by page (C64). *)
From stdpp Require Import relations pretty.
From Verif Require Import Base Common Chain BaseFacts ChainFacts IndexRange IndexFacts QuerySpec IndexWalk SaleFacts Plain
  V1Model V1Spec V1Facts V1Inv V1Reach.

(** * Orders *)
Record linear {K} (leb : K -> K -> bool) (before : K -> K -> Prop) : Prop := {
  lin_total : forall x y, leb x y = true \/ leb y x = true;
  lin_trans : forall x y z, leb x y = true -> leb y z = true -> leb x z = true;
  lin_antisym : forall x y, leb x y = true -> leb y x = true -> x = y;
  lin_before : forall x y, leb x y = false <-> before y x;
}.
Lemma linear_N : linear N.leb N.lt.
Proof. split; intros; rewrite ?N.leb_le, ?N.leb_gt in *; lia. Qed.
Lemma linear_str : linear str_leb bytes_before.
Proof. split; [apply str_leb_total|apply str_leb_trans|apply str_leb_antisym|apply str_leb_before]. Qed.
Lemma linear_lenstr : linear lenstr_leb coll_before.
Proof.
  pose proof linear_str as [T R A B]. unfold lenstr_leb, coll_before.
  split.
  - intros x y. destruct (Nat.ltb_spec (String.length x) (String.length y)); [by left|].
    destruct (Nat.eqb_spec (String.length x) (String.length y)) as [E|E].
    + rewrite E, Nat.ltb_irrefl, Nat.eqb_refl. cbn. apply T.
    + right. destruct (Nat.ltb_spec (String.length y) (String.length x)); [done|lia].
  - intros x y z. destruct (Nat.ltb_spec (String.length x) (String.length y)); destruct (Nat.ltb_spec (String.length y) (String.length z));
      destruct (Nat.ltb_spec (String.length x) (String.length z)); cbn; try done; try lia;
      destruct (Nat.eqb_spec (String.length x) (String.length y)); destruct (Nat.eqb_spec (String.length y) (String.length z));
      destruct (Nat.eqb_spec (String.length x) (String.length z)); cbn; try done; try lia. apply R.
  - intros x y. destruct (Nat.ltb_spec (String.length x) (String.length y)); destruct (Nat.ltb_spec (String.length y) (String.length x));
      destruct (Nat.eqb_spec (String.length x) (String.length y)); destruct (Nat.eqb_spec (String.length y) (String.length x)); cbn; try done; try lia.
    apply A.
  - intros x y. destruct (Nat.ltb_spec (String.length x) (String.length y)); destruct (Nat.eqb_spec (String.length x) (String.length y)) as [E|E]; cbn.
    + lia.
    + split; [done|]. intros [?|[? _]]; lia.
    + rewrite B. split; [by right|]. intros [?|[_ ?]]; [lia|done].
    + split; [|done]. intros _. left. lia.
Qed.
Definition lex_before {A B} (ba : A -> A -> Prop) (bb : B -> B -> Prop) (u w : A * B) : Prop :=
  ba (fst u) (fst w) \/ (fst u = fst w /\ bb (snd u) (snd w)).
Lemma linear_lex {A B} `{EqDecision A} lea ba leb bb : @linear A lea ba -> @linear B leb bb -> linear (lex_leb lea leb) (lex_before ba bb).
Proof.
  intros [T R S U] [T' R' S' U']. unfold lex_leb, lex_before. split.
  - intros [x x'] [y y']. cbn. case_bool_decide as E; [subst; rewrite bool_decide_eq_true_2 by done; apply T'|].
    rewrite bool_decide_eq_false_2 by congruence. apply T.
  - intros [x x'] [y y'] [z z']. cbn. repeat case_bool_decide; subst; try done; try congruence; eauto.
  - intros [x x'] [y y']. cbn. repeat case_bool_decide; subst; try done; try congruence.
    + intros. f_equal. eauto.
    + intros H1 H2. exfalso. eauto.
  - intros [x x'] [y y']. cbn. case_bool_decide; subst.
    + rewrite U'. split; [by right|]. intros [H|[_ H]]; [|done]. apply U in H. destruct (T y y); congruence.
    + rewrite U. split; [by left|]. intros [H'|[H' _]]; [done|congruence].
Qed.
Definition linear_ask := linear_lex _ _ _ _ linear_lenstr linear_N.
Definition linear_bid := linear_lex _ _ _ _ linear_ask linear_str.
Definition linear_cbid := linear_lex _ _ _ _ linear_lenstr linear_str.
Definition linear_price {K} leb before (H : @linear K leb before) := linear_lex _ _ _ _ linear_N H.

(** * Walking a listing *)
Lemma filter_swap {A} (f g : A -> bool) l : List.filter f (List.filter g l) = List.filter g (List.filter f l).
Proof. induction l as [|y l IH]; [done|]. cbn. destruct (f y) eqn:E1, (g y) eqn:E2; cbn; rewrite ?E1, ?E2, IH; done. Qed.
Lemma filter_imp {A} (f h : A -> bool) l : (forall y, y ∈ l -> f y = true -> h y = true) -> List.filter f (List.filter h l) = List.filter f l.
Proof.
  induction l as [|y l IH]; [done|]. intros H. cbn. destruct (h y) eqn:E1; cbn.
  - destruct (f y); rewrite IH; try done; intros; apply H; try done; by right.
  - destruct (f y) eqn:E2; [rewrite (H y) in E1; [done|by left|done]|]. apply IH. intros; apply H; [by right|done].
Qed.

Lemma filter_length_le {A} (f : A -> bool) l : (length (List.filter f l) <= length l)%nat.
Proof. induction l as [|y l IH]; cbn; [done|]. destruct (f y); cbn; lia. Qed.
Lemma filter_true {A} (l : list A) : List.filter (fun _ => true) l = l.
Proof. induction l as [|y l IH]; cbn; [done|]. by rewrite IH. Qed.

Section Walk.
Context {K E O B : Type} (leb : K -> K -> bool) (before : K -> K -> Prop) (lin : linear leb before).
Context (key : E -> K) (L : list E) (g h : E -> bool) (f : E -> B) (d : bool) (n : nat).
Context (query : option O -> result (list B)) (offset : B -> O).
Let opts (after : option K) : qopts K := after_opts d None after.
Let S := List.filter h (List.filter g (listing leb key L d)).
Context (Hkeys : NoDup (key <$> L)) (Hn : n <> 0%nat).
(** The first page starts at the beginning of [h], which is closed under going on. *)
Context (Hfirst : query None = Ok (map f (take n S))).
Context (Hup : forall u w, u ∈ L -> w ∈ L -> h u = true -> precedes before key d u w -> h w = true).
(** Asking for more after a row. *)
Context (Hnext : forall u, u ∈ L -> query (Some (offset (f u))) = Ok (map f (take n (List.filter g (index_scan leb key L (opts (Some (key u)))))))).

Let Tot := lin_total _ _ lin. Let Tra := lin_trans _ _ lin. Let Ant := lin_antisym _ _ lin. Let Bef := lin_before _ _ lin.

Lemma S_elem y : y ∈ S <-> y ∈ L /\ g y = true /\ h y = true.
Proof. unfold S. rewrite !elem_filter, listing_elem by (exact Tot || exact Tra). tauto. Qed.
Lemma S_sorted : StronglySorted (precedes before key d) S.
Proof. unfold S. by apply sorted_filter, sorted_filter, listing_sorted. Qed.
Lemma next_page S1 S2 u : S = S1 ++ S2 -> last S1 = Some u ->
  List.filter g (index_scan leb key L (opts (Some (key u)))) = S2.
Proof.
  intros ES Eu. pose proof S_sorted as HS. rewrite ES in HS. pose proof (after_split leb key before Tot Tra Bef d None S1 S2 HS) as H.
  rewrite Eu in H. cbn [fmap option_fmap option_map] in H. rewrite <-H, <-ES. unfold S. unfold opts. rewrite scan_listing, after_desc, (filter_swap g).
  symmetry. apply filter_imp. intros y Hy Hb. apply elem_filter in Hy as [Hy Hg]. apply listing_elem in Hy.
  assert (u ∈ S) as Hu. { rewrite ES. apply last_Some in Eu as [S0 ->]. rewrite !elem_of_app, elem_of_list_singleton. auto. }
  apply S_elem in Hu as (Hu&_&Hh). apply (Hup u y); try done.
  apply (in_range_bounds leb key before Bef) in Hb. unfold precedes. unfold opts, after_opts in Hb. unfold in_range in Hb. destruct d; cbn in Hb; tauto.
Qed.
Lemma page_walk_from S1 S2 fuel start : S = S1 ++ S2 -> (length S2 < fuel)%nat ->
  (S1 = [] /\ start = None \/ exists u, last S1 = Some u /\ start = Some (offset (f u))) ->
  page_walk query offset start fuel = map f S2.
Proof.
  revert S1 S2 start. induction fuel as [|fuel IH]; intros S1 S2 start ES Hl Hst; [lia|]. cbn [page_walk].
  assert (query start = Ok (map f (take n S2))) as ->.
  { destruct Hst as [[-> ->]|(u&Hu&->)]; [by rewrite Hfirst, ES|].
    rewrite Hnext; [by rewrite (next_page S1 S2 u)|]. assert (u ∈ S) as Hin.
    { rewrite ES. apply last_Some in Hu as [S0 ->]. rewrite !elem_of_app, elem_of_list_singleton. auto. }
    by apply S_elem in Hin as (?&_). }
  destruct S2 as [|y S2]; [by rewrite take_nil|]. destruct n as [|n']; [done|]. 
  change (map f (take (Datatypes.S n') (y :: S2))) with (f <$> take (Datatypes.S n') (y :: S2)). rewrite fmap_last.
  destruct (last (take (Datatypes.S n') (y :: S2))) as [z|] eqn:Ez; [|by apply last_None in Ez]. cbn [fmap option_fmap option_map].
  rewrite <-(take_drop (Datatypes.S n') (y :: S2)) at 2. rewrite map_app. f_equal.
  apply (IH (S1 ++ take (Datatypes.S n') (y :: S2))).
  - by rewrite <-app_assoc, take_drop.
  - cbn in *. rewrite drop_length. lia.
  - right. exists z. by rewrite last_app, Ez.
Qed.
Lemma walk_lists (rel : B -> B -> Prop) (matching : B -> Prop) fuel :
  (forall u w, u ∈ L -> w ∈ L -> precedes before key d u w -> rel (f u) (f w)) ->
  (forall y, (exists u, u ∈ L /\ g u = true /\ h u = true /\ y = f u) <-> matching y) -> (length L < fuel)%nat ->
  lists_all rel matching (page_walk query offset None fuel).
Proof.
  intros Hrel Hm Hf. rewrite (page_walk_from [] S); [|done| |by left].
  2: { eapply Nat.le_lt_trans; [|exact Hf]. unfold S. rewrite <-(listing_length leb key L d). 
       etrans; [apply filter_length_le|]. apply filter_length_le. }
  split.
  - pose proof S_sorted as HS. assert (forall y, y ∈ S -> y ∈ L) as Hin by (intros y Hy; by apply S_elem in Hy as (?&_)). clear -HS Hrel Hin.
    induction HS as [|y l Hl IH Hy]; cbn; [constructor|]. constructor; [apply IH; intros; apply Hin; by right|].
    rewrite Forall_forall in Hy. apply Forall_forall. intros z Hz. apply elem_of_list_fmap in Hz as (w&->&Hw). apply Hrel; [apply Hin; by left|apply Hin; by right|by apply Hy].
  - intros y. rewrite <-Hm. change (map f S) with (f <$> S). rewrite elem_of_list_fmap. setoid_rewrite S_elem. naive_solver.
Qed.
End Walk.

(** A listing over the entries of a map. *)
Section Entries.
Context {PK K A O : Type} `{Countable PK} (leb : K -> K -> bool) (before : K -> K -> Prop) (lin : linear leb before).
Context (m : gmap PK A) (pk : A -> PK) (Hpk : forall k y, m !! k = Some y -> k = pk y).
Context (key : PK * A -> K) (sel g : A -> bool) (d : bool) (n : nat) (start : option K).
Context (Hinj : forall u w, key u = key w -> fst u = fst w) (Hn : n <> 0%nat).
Context (query : option O -> result (list A)) (offset : A -> O).
Let L := entries sel m.
Let page (after : option K) := map snd (take n (List.filter (fun u => g (snd u)) (index_scan leb key L (after_opts d None after)))).
Definition beyond (k : option K) (k' : K) : Prop := match k with None => True | Some k => if d then before k' k else before k k' end.

Lemma entries_elem u : u ∈ L <-> m !! fst u = Some (snd u) /\ sel (snd u) = true.
Proof. destruct u as [k y]. unfold L, entries. rewrite elem_filter, elem_of_map_to_list. done. Qed.
Lemma NoDup_filter_fst (q : PK * A -> bool) (l : list (PK * A)) : NoDup (fst <$> l) -> NoDup (fst <$> List.filter q l).
Proof.
  induction l as [|u l IH]; cbn; [done|]. intros [H1 H2]%NoDup_cons. destruct (q u); [|by apply IH]. cbn. apply NoDup_cons. split; [|by apply IH].
  intros (w&E&Hw)%elem_of_list_fmap. apply elem_filter in Hw as [Hw _]. apply H1. rewrite E. by apply elem_of_list_fmap_1.
Qed.
Lemma entries_NoDup : NoDup (key <$> L).
Proof.
  assert (NoDup (fst <$> L)) as Hnd by apply NoDup_filter_fst, NoDup_fst_map_to_list. clear -Hnd Hinj.
  induction L as [|u l IH]; cbn in *; [constructor|]. apply NoDup_cons in Hnd as [H1 H2]. apply NoDup_cons. split; [|by apply IH].
  intros (w&E&Hw)%elem_of_list_fmap. apply H1. rewrite (Hinj _ _ E). by apply elem_of_list_fmap_1.
Qed.
Lemma entries_length : (length L <= size m)%nat.
Proof. unfold L, entries. etrans; [apply filter_length_le|]. done. Qed.

Lemma entries_walk (rel : A -> A -> Prop) (matching : A -> Prop) fuel :
  query None = Ok (page start) ->
  (forall y, m !! pk y = Some y -> sel y = true -> query (Some (offset y)) = Ok (page (Some (key (pk y, y))))) ->
  (forall y z, m !! pk y = Some y -> m !! pk z = Some z -> sel y = true -> sel z = true ->
     precedes before key d (pk y, y) (pk z, z) -> rel y z) ->
  (forall y, m !! pk y = Some y /\ sel y = true /\ g y = true /\ beyond start (key (pk y, y)) <-> matching y) ->
  (size m < fuel)%nat -> lists_all rel matching (page_walk query offset None fuel).
Proof.
  intros Hfirst Hnext Hrel Hm Hf. pose proof (lin_total _ _ lin) as Tot. pose proof (lin_trans _ _ lin) as Tra. pose proof (lin_before _ _ lin) as Bef.
  pose proof (lin_antisym _ _ lin) as Ant.
  assert (forall u, u ∈ L -> u = (pk (snd u), snd u)) as HL.
  { intros [k y] [Hy _]%entries_elem. cbn in *. by rewrite <-(Hpk _ _ Hy). }
  eapply (walk_lists leb before lin key L (fun u => g (snd u)) (in_bounds leb key (after_opts d None start)) snd d n).
  - apply entries_NoDup.
  - done.
  - rewrite Hfirst. unfold page. rewrite scan_listing, after_desc, (filter_swap (fun u => g (snd u))). done.
  - intros u w Hu Hw Hb Hp. apply (in_range_bounds leb key before Bef) in Hb. apply (in_range_bounds leb key before Bef).
    unfold in_range, after_opts, precedes in *. pose proof (before_trans leb before Tot Tra Bef) as Btr.
    destruct start as [k|]; destruct d; cbn in *; try done; destruct Hb; eauto.
  - intros u Hu. pose proof Hu as [Hl Hs]%entries_elem. rewrite (HL u Hu) in Hl. cbn in Hl. rewrite Hnext by done. rewrite <-(HL u Hu). done.
  - intros u w Hu Hw Hp. pose proof Hu as [Hl Hs]%entries_elem. pose proof Hw as [Hl' Hs']%entries_elem.
    rewrite (HL u Hu) in Hl. rewrite (HL w Hw) in Hl'. cbn in *. apply Hrel; try done. by rewrite <-(HL u Hu), <-(HL w Hw).
  - assert (forall u, in_bounds leb key (after_opts d None start) u = true <-> beyond start (key u)) as Hbd.
    { intros u. rewrite (in_range_bounds leb key before Bef). unfold in_range, after_opts, beyond. destruct start, d; cbn; tauto. }
    intros y. rewrite <-Hm. setoid_rewrite Hbd. split.
    + intros (u&Hu&Hg&Hh&->). pose proof Hu as [Hl Hs]%entries_elem. rewrite (HL u Hu) in Hl, Hh. cbn in *. done.
    + intros (Hl&Hs&Hg&Hb). exists (pk y, y). split_and!; try done. by apply entries_elem.
  - eapply Nat.le_lt_trans; [apply entries_length|done].
Qed.
End Entries.

Section Queries.
Context (p : params) (st : state) (Hwf : wf p st).
Implicit Types (limit : option N) (fuel : nat).

Lemma limit_pos limit : limit <> Some 0 -> limit_nat limit <> 0%nat.
Proof. intros Hl. unfold limit_nat, DEFAULT_QUERY_LIMIT, MAX_QUERY_LIMIT. destruct limit as [n|]; cbn; [|done]. assert (n <> 0) by congruence. lia. Qed.
Lemma valid_ok a : p_valid p a = true -> addr_validate p a = Ok a.
Proof. intros H. unfold addr_validate. by rewrite H. Qed.
Lemma ask_pk k y : s_asks st !! k = Some y -> k = (k_coll y, k_tok y).
Proof. intros H. by apply (wf_ask _ _ Hwf) in H as (?&_). Qed.
Lemma bid_pk k y : s_bids st !! k = Some y -> k = (b_coll y, b_tok y, b_bidder y).
Proof. intros H. by apply (wf_bid _ _ Hwf) in H as (?&_). Qed.
Lemma cbid_pk k y : s_cbids st !! k = Some y -> k = (cb_coll y, cb_bidder y).
Proof. intros H. by apply (wf_cbid _ _ Hwf) in H as (?&_). Qed.
Lemma shown_visible inactive a : shown inactive a = true <-> visible inactive a.
Proof. unfold shown, visible. destruct inactive as [[|]|]; split; try tauto; try (intros [?|?]; congruence). all: by right. Qed.
Lemma coll_is_spec coll c : coll_is coll c = true <-> c = coll.
Proof. unfold coll_is. by rewrite bool_decide_eq_true. Qed.
Lemma coll_irrefl c : ~ coll_before c c.
Proof. intros [?|[_ Hb]]; [lia|]. apply str_leb_before in Hb. destruct (str_leb_total c c); congruence. Qed.
Lemma bytes_irrefl c : ~ bytes_before c c.
Proof. intros Hb. apply str_leb_before in Hb. destruct (str_leb_total c c); congruence. Qed.

(** ** Asks *)
Lemma asks_walk coll inactive limit fuel : p_valid p coll = true -> limit <> Some 0 -> (size (s_asks st) < fuel)%nat ->
  lists_all ask_by_token (fun a => listed st a /\ k_coll a = coll /\ visible inactive a /\ 0 < k_tok a)
    (page_walk (fun start => query_asks p st coll inactive start limit) k_tok None fuel).
Proof.
  intros Hv Hl Hf. eapply (entries_walk ask_leb _ linear_ask (s_asks st) (fun a => (k_coll a, k_tok a)) ask_pk fst
    (fun a => coll_is coll (k_coll a)) (shown inactive) false (limit_nat limit) (Some (coll, 0))); try done.
  - by apply limit_pos.
  - unfold query_asks. by rewrite valid_ok.
  - intros y Hy Hs. apply coll_is_spec in Hs. unfold query_asks. rewrite valid_ok by done. subst. done.
  - intros y z _ _ Hs Hs'. apply coll_is_spec in Hs, Hs'. unfold precedes, lex_before, ask_by_token. cbn. subst. intros [Hc|[_ ?]]; [|done].
    by rewrite Hs' in Hc; apply coll_irrefl in Hc.
  - intros y. rewrite coll_is_spec, shown_visible. unfold listed, beyond, lex_before. cbn. split.
    + intros (H1&H2&H3&[H4|[_ H4]]); [|done]. rewrite H2 in H4. by apply coll_irrefl in H4.
    + intros (H1&H2&H3&H4). split_and!; try done. by right.
Qed.

Lemma reverse_asks_walk coll inactive top limit fuel : p_valid p coll = true -> limit <> Some 0 -> (size (s_asks st) < fuel)%nat ->
  lists_all (fun a b => ask_by_token b a) (fun a => listed st a /\ k_coll a = coll /\ visible inactive a /\ k_tok a < top)
    (page_walk (fun start => reverse_query_asks p st coll inactive (Some (default top start)) limit) k_tok None fuel).
Proof.
  intros Hv Hl Hf. eapply (entries_walk ask_leb _ linear_ask (s_asks st) (fun a => (k_coll a, k_tok a)) ask_pk fst
    (fun a => coll_is coll (k_coll a)) (shown inactive) true (limit_nat limit) (Some (coll, top))); try done.
  - by apply limit_pos.
  - unfold reverse_query_asks. by rewrite valid_ok.
  - intros y Hy Hs. apply coll_is_spec in Hs. unfold reverse_query_asks. rewrite valid_ok by done. subst. done.
  - intros y z _ _ Hs Hs'. apply coll_is_spec in Hs, Hs'. unfold precedes, lex_before, ask_by_token. cbn. subst. intros [Hc|[_ ?]]; [|done].
    by rewrite Hs' in Hc; apply coll_irrefl in Hc.
  - intros y. rewrite coll_is_spec, shown_visible. unfold listed, beyond, lex_before. cbn. split.
    + intros (H1&H2&H3&[H4|[_ H4]]); [|done]. rewrite H2 in H4. by apply coll_irrefl in H4.
    + intros (H1&H2&H3&H4). split_and!; try done. by right.
Qed.
Lemma reverse_asks_empty coll inactive limit rows : reverse_query_asks p st coll inactive None limit = Ok rows -> rows = [].
Proof.
  unfold reverse_query_asks. intros (c&Hc&H)%bind_Ok. apply addr_validate_Ok in Hc as [-> _]. injection H as <-. cbn [default].
  destruct (List.filter _ _) as [|u l] eqn:E; [by rewrite take_nil|]. exfalso.
  assert (u ∈ u :: l) as Hu by (by left). rewrite <-E in Hu. apply elem_filter in Hu as [Hu _]. apply index_scan_elem in Hu as [Hu Hb].
  apply (in_range_bounds ask_leb fst _ (lin_before _ _ linear_ask)) in Hb. unfold in_range, desc in Hb. cbn in Hb. destruct Hb as [_ Hb].
  apply entries_elem in Hu as [Hu Hs]. apply coll_is_spec in Hs. apply ask_pk in Hu. rewrite Hu in Hb. unfold lex_before in Hb. cbn in Hb.
  rewrite Hs in Hb. destruct Hb as [Hb|[_ Hb]]; [by apply coll_irrefl in Hb|lia].
Qed.

Lemma asks_price_walk coll inactive limit fuel : p_valid p coll = true -> limit <> Some 0 -> (size (s_asks st) < fuel)%nat ->
  lists_all ask_by_price (fun a => listed st a /\ k_coll a = coll /\ visible inactive a)
    (page_walk (fun start => query_asks_sorted_by_price p st coll inactive start limit) (fun a => (k_price a, k_tok a)) None fuel).
Proof.
  intros Hv Hl Hf. eapply (entries_walk (price_leb ask_leb) _ (linear_price _ _ linear_ask) (s_asks st) (fun a => (k_coll a, k_tok a)) ask_pk (price_key k_price)
    (fun a => coll_is coll (k_coll a)) (shown inactive) false (limit_nat limit) None); try done.
  - intros u w [= _ ?]. done.
  - by apply limit_pos.
  - unfold query_asks_sorted_by_price. by rewrite valid_ok.
  - intros y Hy Hs. apply coll_is_spec in Hs. unfold query_asks_sorted_by_price. rewrite valid_ok by done. subst. done.
  - intros y z _ _ Hs Hs'. apply coll_is_spec in Hs, Hs'. unfold precedes, lex_before, ask_by_price, price_key. cbn. rewrite Hs, Hs'.
    intros [?|(?&[Hc|[_ ?]])]; [by left|by apply coll_irrefl in Hc|by right].
  - intros y. rewrite coll_is_spec, shown_visible. unfold listed, beyond. cbn. tauto.
Qed.

Lemma reverse_asks_price_walk coll inactive limit fuel : p_valid p coll = true -> limit <> Some 0 -> (size (s_asks st) < fuel)%nat ->
  lists_all (fun a b => ask_by_price b a) (fun a => listed st a /\ k_coll a = coll /\ visible inactive a)
    (page_walk (fun start => reverse_query_asks_sorted_by_price p st coll inactive start limit) (fun a => (k_price a, k_tok a)) None fuel).
Proof.
  intros Hv Hl Hf. eapply (entries_walk (price_leb ask_leb) _ (linear_price _ _ linear_ask) (s_asks st) (fun a => (k_coll a, k_tok a)) ask_pk (price_key k_price)
    (fun a => coll_is coll (k_coll a)) (shown inactive) true (limit_nat limit) None); try done.
  - intros u w [= _ ?]. done.
  - by apply limit_pos.
  - unfold reverse_query_asks_sorted_by_price. by rewrite valid_ok.
  - intros y Hy Hs. apply coll_is_spec in Hs. unfold reverse_query_asks_sorted_by_price. rewrite valid_ok by done. subst. done.
  - intros y z _ _ Hs Hs'. apply coll_is_spec in Hs, Hs'. unfold precedes, lex_before, ask_by_price, price_key. cbn. rewrite Hs, Hs'.
    intros [?|(?&[Hc|[_ ?]])]; [by left|by apply coll_irrefl in Hc|by right].
  - intros y. rewrite coll_is_spec, shown_visible. unfold listed, beyond. cbn. tauto.
Qed.

Lemma asks_seller_walk seller inactive limit fuel : p_valid p seller = true -> limit <> Some 0 -> (size (s_asks st) < fuel)%nat ->
  lists_all ask_by_nft (fun a => listed st a /\ k_seller a = seller /\ visible inactive a)
    (page_walk (fun start => query_asks_by_seller p st seller inactive start limit) (fun a => (k_coll a, k_tok a)) None fuel).
Proof.
  intros Hv Hl Hf. eapply (entries_walk ask_leb _ linear_ask (s_asks st) (fun a => (k_coll a, k_tok a)) ask_pk fst
    (fun a => bool_decide (k_seller a = seller)) (shown inactive) false (limit_nat limit) None); try done.
  - by apply limit_pos.
  - unfold query_asks_by_seller. by rewrite valid_ok.
  - intros y Hy Hs. unfold query_asks_by_seller. rewrite (valid_ok _ Hv). apply (wf_ask _ _ Hwf) in Hy as (_&_&_&_&_&Hvc). cbn [mbind result_bind].
    rewrite (valid_ok _ Hvc). done.
  - intros y. rewrite bool_decide_eq_true, shown_visible. unfold listed, beyond. cbn. tauto.
Qed.

(** ** Bids *)
Lemma bids_bidder_walk bidder limit fuel : p_valid p bidder = true -> limit <> Some 0 -> (size (s_bids st) < fuel)%nat ->
  lists_all bid_by_nft (fun b => bidding st b /\ b_bidder b = bidder)
    (page_walk (fun start => query_bids_by_bidder p st bidder start limit) (fun b => (b_coll b, b_tok b)) None fuel).
Proof.
  intros Hv Hl Hf. eapply (entries_walk bid_leb _ linear_bid (s_bids st) (fun b => (b_coll b, b_tok b, b_bidder b)) bid_pk fst
    (fun b => bool_decide (b_bidder b = bidder)) (fun _ => true) false (limit_nat limit) None); try done.
  - by apply limit_pos.
  - unfold query_bids_by_bidder. rewrite valid_ok by done. cbn beta. by rewrite filter_true.
  - intros y Hy Hs. unfold query_bids_by_bidder. rewrite (valid_ok _ Hv). apply (wf_bid _ _ Hwf) in Hy as (_&_&_&Hvc&_). cbn [mbind result_bind].
    rewrite (valid_ok _ Hvc). cbn beta. rewrite filter_true. apply bool_decide_eq_true in Hs. by rewrite Hs.
  - intros y z _ _ Hs Hs'. apply bool_decide_eq_true in Hs, Hs'. unfold precedes, lex_before, bid_by_nft. cbn. rewrite Hs, Hs'.
    intros [[?|[? ?]]|(?&Hb)]; [by left|by right|]. by apply bytes_irrefl in Hb.
  - intros y. rewrite bool_decide_eq_true. unfold bidding, beyond. cbn. tauto.
Qed.
Lemma bids_expiry_walk bidder limit fuel : p_valid p bidder = true -> limit <> Some 0 -> (size (s_bids st) < fuel)%nat ->
  lists_all bid_by_expiry (fun b => bidding st b /\ b_bidder b = bidder)
    (page_walk (fun start => query_bids_by_bidder_sorted_by_expiry p st bidder start limit) (fun b => (b_coll b, b_tok b)) None fuel).
Proof.
  intros Hv Hl Hf. eapply (entries_walk (price_leb bid_leb) _ (linear_price _ _ linear_bid) (s_bids st) (fun b => (b_coll b, b_tok b, b_bidder b)) bid_pk
    (price_key (fun b => t_seconds (b_expires b))) (fun b => bool_decide (b_bidder b = bidder)) (fun _ => true) false (limit_nat limit) None); try done.
  - intros u w [= _ ?]. done.
  - by apply limit_pos.
  - unfold query_bids_by_bidder_sorted_by_expiry. rewrite valid_ok by done. cbn beta. by rewrite filter_true.
  - intros y Hy Hs. apply bool_decide_eq_true in Hs. unfold query_bids_by_bidder_sorted_by_expiry. rewrite (valid_ok _ Hv).
    pose proof Hy as (_&_&_&Hvc&_)%(wf_bid _ _ Hwf). cbn [mbind result_bind].
    rewrite (valid_ok _ Hvc). cbn [mbind result_bind]. rewrite <-Hs, Hy. cbn beta. rewrite filter_true. done.
  - intros y z _ _ Hs Hs'. apply bool_decide_eq_true in Hs, Hs'. unfold precedes, lex_before, bid_by_expiry, bid_by_nft, price_key, t_seconds. cbn. rewrite Hs, Hs'.
    intros [?|(?&[[?|[? ?]]|(_&Hb)])]; [by left|right; split; [done|by left]|right; split; [done|by right]|]. by apply bytes_irrefl in Hb.
  - intros y. rewrite bool_decide_eq_true. unfold bidding, beyond. cbn. tauto.
Qed.

Lemma bids_price_walk coll limit fuel : p_valid p coll = true -> limit <> Some 0 -> (size (s_bids st) < fuel)%nat ->
  lists_all bid_by_price (fun b => bidding st b /\ b_coll b = coll)
    (page_walk (fun start => query_bids_sorted_by_price p st coll start limit) (fun b => (b_price b, b_tok b, b_bidder b)) None fuel).
Proof.
  intros Hv Hl Hf. eapply (entries_walk (price_leb bid_leb) _ (linear_price _ _ linear_bid) (s_bids st) (fun b => (b_coll b, b_tok b, b_bidder b)) bid_pk
    (price_key b_price) (fun b => coll_is coll (b_coll b)) (fun _ => true) false (limit_nat limit) None); try done.
  - intros u w [= _ ?]. done.
  - by apply limit_pos.
  - unfold query_bids_sorted_by_price. rewrite valid_ok by done. cbn beta. by rewrite filter_true.
  - intros y Hy Hs. apply coll_is_spec in Hs. unfold query_bids_sorted_by_price. rewrite valid_ok by done. cbn beta. rewrite filter_true. by subst.
  - intros y z _ _ Hs Hs'. apply coll_is_spec in Hs, Hs'. unfold precedes, lex_before, bid_by_price, price_key. cbn. rewrite Hs, Hs'.
    intros [?|(?&[[Hc|[_ ?]]|(Ht&Hb)])]; [by left|by apply coll_irrefl in Hc|right; split; [done|by left]|].
    right; split; [done|right]. split; [congruence|done].
  - intros y. rewrite coll_is_spec. unfold bidding, beyond. cbn. tauto.
Qed.
Lemma cbids_price_walk coll limit fuel : p_valid p coll = true -> limit <> Some 0 -> (size (s_cbids st) < fuel)%nat ->
  (forall b, cbidding st b -> p_valid p (cb_bidder b) = true) ->
  lists_all cbid_by_price (fun b => cbidding st b /\ cb_coll b = coll)
    (page_walk (fun start => query_collection_bids_sorted_by_price p st coll start limit) (fun b => (cb_price b, cb_bidder b)) None fuel).
Proof.
  intros Hv Hl Hf Hval. eapply (entries_walk (price_leb cbid_leb) _ (linear_price _ _ linear_cbid) (s_cbids st) (fun b => (cb_coll b, cb_bidder b)) cbid_pk
    (price_key cb_price) (fun b => coll_is coll (cb_coll b)) (fun _ => true) false (limit_nat limit) None); try done.
  - intros u w [= _ ?]. done.
  - by apply limit_pos.
  - unfold query_collection_bids_sorted_by_price. rewrite valid_ok by done. cbn beta. by rewrite filter_true.
  - intros y Hy Hs. apply coll_is_spec in Hs. unfold query_collection_bids_sorted_by_price. rewrite (valid_ok _ Hv). cbn [mbind result_bind].
    rewrite valid_ok by (by apply Hval). cbn beta. rewrite filter_true. by subst.
  - intros y z _ _ Hs Hs'. apply coll_is_spec in Hs, Hs'. unfold precedes, lex_before, cbid_by_price, price_key. cbn. rewrite Hs, Hs'.
    intros [?|(?&[Hc|[_ ?]])]; [by left|by apply coll_irrefl in Hc|by right].
  - intros y. rewrite coll_is_spec. unfold cbidding, beyond. cbn. tauto.
Qed.

Lemma reverse_bids_price_walk coll limit fuel : p_valid p coll = true -> limit <> Some 0 -> (size (s_bids st) < fuel)%nat ->
  lists_all (fun a b => bid_by_price b a) (fun b => bidding st b /\ b_coll b = coll)
    (page_walk (fun start => reverse_query_bids_sorted_by_price p st coll start limit) (fun b => (b_price b, b_tok b, b_bidder b)) None fuel).
Proof.
  intros Hv Hl Hf. eapply (entries_walk (price_leb bid_leb) _ (linear_price _ _ linear_bid) (s_bids st) (fun b => (b_coll b, b_tok b, b_bidder b)) bid_pk
    (price_key b_price) (fun b => coll_is coll (b_coll b)) (fun _ => true) true (limit_nat limit) None); try done.
  - intros u w [= _ ?]. done.
  - by apply limit_pos.
  - unfold reverse_query_bids_sorted_by_price. rewrite valid_ok by done. cbn beta. by rewrite filter_true.
  - intros y Hy Hs. apply coll_is_spec in Hs. unfold reverse_query_bids_sorted_by_price. rewrite valid_ok by done. cbn beta. rewrite filter_true. by subst.
  - intros y z _ _ Hs Hs'. apply coll_is_spec in Hs, Hs'. unfold precedes, lex_before, bid_by_price, price_key. cbn. rewrite Hs, Hs'.
    intros [?|(?&[[Hc|[_ ?]]|(Ht&Hb)])]; [by left|by apply coll_irrefl in Hc|right; split; [done|by left]|].
    right; split; [done|right]. split; [congruence|done].
  - intros y. rewrite coll_is_spec. unfold bidding, beyond. cbn. tauto.
Qed.
Lemma reverse_cbids_price_walk coll limit fuel : p_valid p coll = true -> limit <> Some 0 -> (size (s_cbids st) < fuel)%nat ->
  (forall b, cbidding st b -> p_valid p (cb_bidder b) = true) ->
  lists_all (fun a b => cbid_by_price b a) (fun b => cbidding st b /\ cb_coll b = coll)
    (page_walk (fun start => reverse_query_collection_bids_sorted_by_price p st coll start limit) (fun b => (cb_price b, cb_bidder b)) None fuel).
Proof.
  intros Hv Hl Hf Hval. eapply (entries_walk (price_leb cbid_leb) _ (linear_price _ _ linear_cbid) (s_cbids st) (fun b => (cb_coll b, cb_bidder b)) cbid_pk
    (price_key cb_price) (fun b => coll_is coll (cb_coll b)) (fun _ => true) true (limit_nat limit) None); try done.
  - intros u w [= _ ?]. done.
  - by apply limit_pos.
  - unfold reverse_query_collection_bids_sorted_by_price. rewrite valid_ok by done. cbn beta. by rewrite filter_true.
  - intros y Hy Hs. apply coll_is_spec in Hs. unfold reverse_query_collection_bids_sorted_by_price. rewrite (valid_ok _ Hv). cbn [mbind result_bind].
    rewrite valid_ok by (by apply Hval). cbn beta. rewrite filter_true. by subst.
  - intros y z _ _ Hs Hs'. apply coll_is_spec in Hs, Hs'. unfold precedes, lex_before, cbid_by_price, price_key. cbn. rewrite Hs, Hs'.
    intros [?|(?&[Hc|[_ ?]])]; [by left|by apply coll_irrefl in Hc|by right].
  - intros y. rewrite coll_is_spec. unfold cbidding, beyond. cbn. tauto.
Qed.

Lemma cbids_bidder_walk bidder limit fuel : p_valid p bidder = true -> limit <> Some 0 -> (size (s_cbids st) < fuel)%nat ->
  lists_all cbid_by_coll (fun b => cbidding st b /\ cb_bidder b = bidder)
    (page_walk (fun start => query_collection_bids_by_bidder p st bidder start limit) cb_coll None fuel).
Proof.
  intros Hv Hl Hf. eapply (entries_walk cbid_leb _ linear_cbid (s_cbids st) (fun b => (cb_coll b, cb_bidder b)) cbid_pk fst
    (fun b => bool_decide (cb_bidder b = bidder)) (fun _ => true) false (limit_nat limit) None); try done.
  - by apply limit_pos.
  - unfold query_collection_bids_by_bidder. rewrite valid_ok by done. cbn beta. by rewrite filter_true.
  - intros y Hy Hs. unfold query_collection_bids_by_bidder. rewrite (valid_ok _ Hv). apply (wf_cbid _ _ Hwf) in Hy as (_&_&_&Hvc&_). cbn [mbind result_bind].
    rewrite (valid_ok _ Hvc). cbn beta. rewrite filter_true. apply bool_decide_eq_true in Hs. by rewrite Hs.
  - intros y z _ _ Hs Hs'. apply bool_decide_eq_true in Hs, Hs'. unfold precedes, lex_before, cbid_by_coll. cbn. rewrite Hs, Hs'.
    intros [?|(?&Hb)]; [done|]. by apply bytes_irrefl in Hb.
  - intros y. rewrite bool_decide_eq_true. unfold cbidding, beyond. cbn. tauto.
Qed.
Lemma cbids_expiry_walk bidder limit fuel : p_valid p bidder = true -> limit <> Some 0 -> (size (s_cbids st) < fuel)%nat ->
  lists_all cbid_by_expiry (fun b => cbidding st b /\ cb_bidder b = bidder)
    (page_walk (fun start => query_collection_bids_by_bidder_sorted_by_expiry p st bidder start limit) (fun b => (cb_coll b, cb_bidder b)) None fuel).
Proof.
  intros Hv Hl Hf. eapply (entries_walk (price_leb cbid_leb) _ (linear_price _ _ linear_cbid) (s_cbids st) (fun b => (cb_coll b, cb_bidder b)) cbid_pk
    (price_key (fun b => t_seconds (cb_expires b))) (fun b => bool_decide (cb_bidder b = bidder)) (fun _ => true) false (limit_nat limit) None); try done.
  - intros u w [= _ ?]. done.
  - by apply limit_pos.
  - unfold query_collection_bids_by_bidder_sorted_by_expiry. rewrite valid_ok by done. cbn beta. by rewrite filter_true.
  - intros y Hy Hs. apply bool_decide_eq_true in Hs. unfold query_collection_bids_by_bidder_sorted_by_expiry. rewrite (valid_ok _ Hv).
    pose proof Hy as (_&_&_&Hvc&_)%(wf_cbid _ _ Hwf). cbn [mbind result_bind].
    rewrite (valid_ok (cb_bidder y)) by congruence. cbn [mbind result_bind]. rewrite (valid_ok _ Hvc). cbn [mbind result_bind]. rewrite Hy. cbn beta. rewrite filter_true. done.
  - intros y z _ _ Hs Hs'. apply bool_decide_eq_true in Hs, Hs'. unfold precedes, lex_before, cbid_by_expiry, cbid_by_coll, price_key, t_seconds. cbn. rewrite Hs, Hs'.
    intros [?|(?&[?|(_&Hb)])]; [by left|by right|]. by apply bytes_irrefl in Hb.
  - intros y. rewrite bool_decide_eq_true. unfold cbidding, beyond. cbn. tauto.
Qed.

(** Page sizes. *)
Ltac short := intros start rows H; repeat (let E := fresh in apply bind_Ok in H as (?&E&H)); injection H as <-; rewrite map_length, take_length; apply Nat.le_min_l.
Lemma asks_short coll inactive limit : short_pages (fun start => query_asks p st coll inactive start limit) limit.
Proof. short. Qed.
Lemma reverse_asks_short coll inactive limit : short_pages (fun start => reverse_query_asks p st coll inactive start limit) limit.
Proof. short. Qed.
Lemma asks_price_short coll inactive limit : short_pages (fun start => query_asks_sorted_by_price p st coll inactive start limit) limit.
Proof. short. Qed.
Lemma reverse_asks_price_short coll inactive limit : short_pages (fun start => reverse_query_asks_sorted_by_price p st coll inactive start limit) limit.
Proof. short. Qed.
Lemma asks_seller_short seller inactive limit : short_pages (fun start => query_asks_by_seller p st seller inactive start limit) limit.
Proof. short. Qed.
Lemma bids_short coll tok limit : short_pages (fun start => query_bids p st coll tok start limit) limit.
Proof. short. Qed.
Lemma bids_bidder_short bidder limit : short_pages (fun start => query_bids_by_bidder p st bidder start limit) limit.
Proof. short. Qed.
Lemma bids_price_short coll limit : short_pages (fun start => query_bids_sorted_by_price p st coll start limit) limit.
Proof. short. Qed.
Lemma reverse_bids_price_short coll limit : short_pages (fun start => reverse_query_bids_sorted_by_price p st coll start limit) limit.
Proof. short. Qed.
Lemma bids_expiry_short bidder limit : short_pages (fun start => query_bids_by_bidder_sorted_by_expiry p st bidder start limit) limit.
Proof. short. Qed.
Lemma cbids_price_short coll limit : short_pages (fun start => query_collection_bids_sorted_by_price p st coll start limit) limit.
Proof. short. Qed.
Lemma reverse_cbids_price_short coll limit : short_pages (fun start => reverse_query_collection_bids_sorted_by_price p st coll start limit) limit.
Proof. short. Qed.
Lemma cbids_bidder_short bidder limit : short_pages (fun start => query_collection_bids_by_bidder p st bidder start limit) limit.
Proof. short. Qed.
Lemma cbids_expiry_short bidder limit : short_pages (fun start => query_collection_bids_by_bidder_sorted_by_expiry p st bidder start limit) limit.
Proof. short. Qed.

(** The count of asks. *)
Lemma ask_count_spec coll n : query_ask_count p st coll = Ok n ->
  exists rows, NoDup rows /\ (forall a, a ∈ rows <-> listed st a /\ k_coll a = coll) /\
    n = N.of_nat (length rows) mod 4294967296 /\ (N.of_nat (length rows) < 4294967296 -> n = N.of_nat (length rows)).
Proof.
  unfold query_ask_count. intros (c&Hc&H)%bind_Ok. apply addr_validate_Ok in Hc as [-> _]. injection H as <-.
  set (L := entries (fun a => coll_is coll (k_coll a)) (s_asks st)). exists (snd <$> L). split_and!.
  - assert (NoDup (fst <$> L)) as Hnd by apply NoDup_filter_fst, NoDup_fst_map_to_list.
    assert (forall u, u ∈ L -> fst u = (k_coll (snd u), k_tok (snd u))) as Hk.
    { intros u [Hu _]%entries_elem. by apply ask_pk. }
    clear -Hnd Hk. induction L as [|u l IH]; cbn in *; [constructor|]. apply NoDup_cons in Hnd as [H1 H2]. apply NoDup_cons. split.
    + intros (w&E&Hw)%elem_of_list_fmap. apply H1. rewrite (Hk u) by (by left). rewrite E, <-(Hk w) by (by right). by apply elem_of_list_fmap_1.
    + apply IH; [done|]. intros w Hw. apply Hk. by right.
  - intros a. rewrite elem_of_list_fmap. split.
    + intros ([k y]&->&Hu). apply entries_elem in Hu as [Hu Hc]. cbn in *. apply coll_is_spec in Hc. unfold listed. by rewrite <-(ask_pk _ _ Hu).
    + intros [Hl Hc]. exists ((k_coll a, k_tok a), a). split; [done|]. apply entries_elem. split; [done|]. by apply coll_is_spec.
  - by rewrite fmap_length.
  - rewrite fmap_length. intros Hs. by rewrite N.mod_small.
Qed.
End Queries.
