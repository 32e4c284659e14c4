(** Index ranges are pages, and walking through the pages visits everything once. *)
From Coq Require Import String.
From Verif Require Import Base BaseFacts IndexRange IndexFacts QuerySpec.

Lemma ascii_compare_N x y : Ascii.compare x y = N.compare (N_of_ascii x) (N_of_ascii y).
Proof. reflexivity. Qed.
Lemma str_leb_before x y : str_leb x y = false <-> id_before y x.
Proof.
  unfold id_before. revert y. induction x as [|a x IH]; intros [|b y]; cbn; try done.
  rewrite ascii_compare_N. destruct (N.compare_spec (N_of_ascii b) (N_of_ascii a)) as [E|E|E].
  - rewrite E, N.ltb_irrefl. apply IH.
  - rewrite (proj2 (N.ltb_ge _ _)) by lia. rewrite (proj2 (N.ltb_lt _ _)) by lia. done.
  - rewrite (proj2 (N.ltb_lt _ _)) by lia. done.
Qed.
Lemma pkey_leb_before x y : pkey_leb x y = false <-> price_before y x.
Proof.
  unfold pkey_leb, price_before. rewrite <-str_leb_before.
  destruct (N.ltb_spec (fst x) (fst y)), (N.eqb_spec (fst x) (fst y)); cbn.
  all: split; [intros|intros [?|[? ?]]]; try done; try lia; auto.
Qed.

Section Walk.
Context {K A : Type} (leb : K -> K -> bool) (key : A -> K) (before : K -> K -> Prop).
Context (leb_total : forall x y, leb x y = true \/ leb y x = true).
Context (leb_trans : forall x y z, leb x y = true -> leb y z = true -> leb x z = true).
Context (leb_antisym : forall x y, leb x y = true -> leb y x = true -> x = y).
Context (leb_before : forall x y, leb x y = false <-> before y x).

Lemma before_irrefl x : ~ before x x.
Proof. rewrite <-leb_before. destruct (leb_total x x); congruence. Qed.
Lemma before_trans x y z : before x y -> before y z -> before x z.
Proof.
  rewrite <-!leb_before. intros H1 H2. destruct (leb z x) eqn:E; [|done].
  destruct (leb_total x y) as [H|H]; [|congruence]. rewrite (leb_trans _ _ _ E H) in H2. done.
Qed.
Lemma leb_neq_before x y : leb x y = true -> x <> y -> before x y.
Proof. intros H Hn. rewrite <-leb_before. destruct (leb y x) eqn:E; [|done]. by destruct (Hn (leb_antisym _ _ H E)). Qed.

Lemma in_range_bounds o x : in_bounds leb key o x = true <-> in_range before o (key x).
Proof.
  unfold in_bounds, in_range, in_min, in_max. rewrite andb_true_iff.
  f_equiv; [destruct (qo_min o) as [[m|m]|]|destruct (qo_max o) as [[m|m]|]]; try done.
  - rewrite <-leb_before. by destruct (leb m (key x)).
  - rewrite negb_true_iff. apply leb_before.
  - rewrite <-leb_before. by destruct (leb (key x) m).
  - rewrite negb_true_iff. apply leb_before.
Qed.

Lemma precedes_trans d x y z : precedes before key d x y -> precedes before key d y z -> precedes before key d x z.
Proof. destruct d; cbn; eauto using before_trans. Qed.

Lemma sorted_app (R : A -> A -> Prop) l1 l2 :
  StronglySorted R (l1 ++ l2) <->
  StronglySorted R l1 /\ StronglySorted R l2 /\ (forall x y, x ∈ l1 -> y ∈ l2 -> R x y).
Proof.
  induction l1 as [|x l1 IH]; cbn.
  - split; [intros H; split_and!; [constructor|done|by intros ? ? ?%elem_of_nil]|by intros (_&?&_)].
  - split.
    + intros H. apply StronglySorted_inv in H as [H1 H2]. apply IH in H1 as (?&?&H3).
      rewrite Forall_app, !Forall_forall in H2. destruct H2 as [H2a H2b].
      split_and!; [constructor; [done|by rewrite Forall_forall]|done|].
      intros a b [->|Ha]%elem_of_cons Hb; eauto.
    + intros (H1&H2&H3). apply StronglySorted_inv in H1 as [H1 H1'].
      constructor; [apply IH; split_and!; try done; intros; apply H3; [by right|done]|].
      rewrite Forall_app. split; [done|]. rewrite Forall_forall. intros y Hy. apply H3; [by left|done].
Qed.
Lemma sorted_reverse (R : A -> A -> Prop) l : StronglySorted R l -> StronglySorted (flip R) (reverse l).
Proof.
  induction 1 as [|x l Hl IH Hx]; [constructor|]. rewrite reverse_cons. apply sorted_app.
  split; [done|]. split; [constructor; constructor|].
  intros a b Ha ->%elem_of_list_singleton. rewrite elem_of_reverse in Ha. rewrite Forall_forall in Hx. exact (Hx _ Ha).
Qed.
Lemma sorted_strict l : NoDup (key <$> l) -> StronglySorted (kle leb key) l -> StronglySorted (precedes before key false) l.
Proof.
  intros Hn H. induction H as [|x l Hl IH Hx]; [constructor|]. cbn in Hn. apply NoDup_cons in Hn as [Hn1 Hn2].
  constructor; [auto|]. rewrite Forall_forall in Hx |- *. intros y Hy. apply leb_neq_before; [by apply Hx|].
  intros E. apply Hn1. rewrite E. by apply elem_of_list_fmap_1.
Qed.

(** All entries in listing order. *)
Definition listing (l : list A) (desc : bool) : list A :=
  if desc then reverse (sort_by leb key l) else sort_by leb key l.
Lemma listing_sorted l d : NoDup (key <$> l) -> StronglySorted (precedes before key d) (listing l d).
Proof.
  intros Hn. assert (StronglySorted (precedes before key false) (sort_by leb key l)) as Hs.
  { apply sorted_strict; [|by apply sort_by_sorted].
    rewrite (fmap_Permutation key _ _ (sort_by_perm leb key l)). done. }
  destruct d; [|done]. apply sorted_reverse in Hs. exact Hs.
Qed.
Lemma listing_elem l d x : x ∈ listing l d <-> x ∈ l.
Proof. destruct d; unfold listing; rewrite ?elem_of_reverse; by rewrite sort_by_perm. Qed.
Lemma listing_length l d : length (listing l d) = length l.
Proof. destruct d; unfold listing; rewrite ?reverse_length; by rewrite (sort_by_perm leb key l). Qed.
Lemma filter_reverse (f : A -> bool) l : List.filter f (reverse l) = reverse (List.filter f l).
Proof.
  induction l as [|x l IH]; [done|]. rewrite reverse_cons, List.filter_app, IH. cbn [List.filter].
  destruct (f x); [by rewrite reverse_cons|by rewrite app_nil_r].
Qed.
Lemma scan_listing l o :
  index_scan leb key l o = List.filter (in_bounds leb key o) (listing l (descending o)).
Proof.
  unfold index_scan, listing, descending. destruct (qo_desc o) as [[|]|]; cbn; try done.
  by rewrite filter_reverse.
Qed.

Lemma elem_filter (f : A -> bool) (l : list A) x : x ∈ List.filter f l <-> x ∈ l /\ f x = true.
Proof. by rewrite !elem_of_list_In, filter_In. Qed.
Lemma sorted_filter (R : A -> A -> Prop) (f : A -> bool) l : StronglySorted R l -> StronglySorted R (List.filter f l).
Proof.
  induction 1 as [|x l Hl IH Hx]; cbn; [constructor|]. destruct (f x); [|done]. constructor; [done|].
  rewrite Forall_forall in Hx |- *. intros y [Hy _]%elem_filter. auto.
Qed.

(** Every index range is a page. *)
Lemma range_page l o (matching : A -> Prop) :
  NoDup (key <$> l) -> (forall x, x ∈ l <-> matching x) ->
  page before key matching o (index_range leb key l o).
Proof.
  intros Hn Hm. unfold index_range. rewrite scan_listing.
  pose proof (listing_sorted l (descending o) Hn) as Hs.
  set (L := List.filter _ _). assert (StronglySorted (precedes before key (descending o)) L) as HL by (by apply sorted_filter).
  assert (forall x, x ∈ L <-> matching x /\ in_range before o (key x)) as Hel.
  { intros x. unfold L. rewrite elem_filter, listing_elem, Hm, in_range_bounds. done. }
  clearbody L. assert (page_size o = qo_limit_nat o) as Hz by (unfold page_size, qo_limit_nat; by destruct (qo_limit o)).
  set (n := qo_limit_nat o) in *.
  rewrite <-(take_drop n L) in HL. apply sorted_app in HL as (H1&H2&H3).
  constructor.
  - done.
  - intros x Hx. apply Hel. rewrite <-(take_drop n L). apply elem_of_app. by left.
  - rewrite Hz, take_length. lia.
  - rewrite Hz. intros x Hx Hr. assert (x ∈ L) as Hin by (by apply Hel). rewrite <-(take_drop n L) in Hin.
    apply elem_of_app in Hin as [?|Hin]; [by left|]. right. split; [|by eauto].
    rewrite take_length. assert (length (drop n L) <> 0%nat) as Hd.
    { destruct (drop n L); [by apply elem_of_nil in Hin|done]. }
    rewrite drop_length in Hd. fold n. lia.
Qed.

(** Walking. *)
Definition after_opts (desc : bool) (limit : option N) (after : option K) : qopts K :=
  if desc then QOpts (Some true) limit None (BExcl <$> after) else QOpts (Some false) limit (BExcl <$> after) None.
Lemma after_desc d limit after : descending (after_opts d limit after) = d.
Proof. by destruct d. Qed.
Lemma filter_all (f : A -> bool) l : (forall x, x ∈ l -> f x = true) -> List.filter f l = l.
Proof.
  induction l as [|x l IH]; intros H; cbn; [done|]. rewrite H by (by left). f_equal. apply IH. intros; apply H. by right.
Qed.
Lemma filter_none (f : A -> bool) l : (forall x, x ∈ l -> f x = false) -> List.filter f l = [].
Proof.
  induction l as [|x l IH]; intros H; cbn; [done|]. rewrite H by (by left). apply IH. intros; apply H. by right.
Qed.
Lemma after_split d limit S1 S2 :
  StronglySorted (precedes before key d) (S1 ++ S2) ->
  List.filter (in_bounds leb key (after_opts d limit (key <$> last S1))) (S1 ++ S2) = S2.
Proof.
  intros Hs. destruct (last S1) as [z|] eqn:Ez.
  - apply last_Some in Ez as [S0 ->]. rewrite List.filter_app, filter_none, filter_all; [done|..].
    + intros x Hx. apply in_range_bounds.
      apply sorted_app in Hs as (_&_&H). specialize (H z x). rewrite elem_of_app, elem_of_list_singleton in H.
      specialize (H (or_intror eq_refl) Hx). destruct d; cbn in *; split; done.
    + intros x Hx. apply not_true_is_false. rewrite in_range_bounds. intros Hr.
      assert (x = z \/ precedes before key d x z) as Hxz.
      { apply sorted_app in Hs as (Hs&_). apply sorted_app in Hs as (_&_&Hs).
        apply elem_of_app in Hx as [Hx|Hx%elem_of_list_singleton]; [right|by left].
        apply Hs; [done|]. by apply elem_of_list_singleton. }
      assert (precedes before key d z x) as Hzx by (by destruct d; cbn in *; destruct Hr).
      destruct Hxz as [->|Hxz].
      * destruct d; cbn in Hzx; by apply before_irrefl in Hzx.
      * pose proof (precedes_trans _ _ _ _ Hxz Hzx) as H. destruct d; cbn in H; by apply before_irrefl in H.
  - apply last_None in Ez as ->. cbn. apply filter_all. intros x _. by destruct d.
Qed.

Lemma walk_from {B} (f : A -> B) (keyB : B -> K) l d limit fuel S1 S2 :
  NoDup (key <$> l) -> (forall x, x ∈ l -> keyB (f x) = key x) ->
  limit <> Some 0 -> listing l d = S1 ++ S2 -> (length S2 < fuel)%nat ->
  walk keyB (fun o => f <$> index_range leb key l o) d limit (key <$> last S1) fuel = f <$> S2.
Proof.
  intros Hn Hf Hlim. revert S1 S2. induction fuel as [|fuel IH]; intros S1 S2 HL Hlen; [lia|]. cbn [walk].
  change (if d then _ else _) with (after_opts d limit (key <$> last S1)).
  set (o := after_opts d limit (key <$> last S1)).
  assert (index_range leb key l o = take (qo_limit_nat o) S2) as ->.
  { unfold index_range. f_equal. rewrite scan_listing. unfold o. rewrite after_desc, HL. apply after_split.
    rewrite <-HL. by apply listing_sorted. }
  assert (exists n, qo_limit_nat o = S n) as [n ->].
  { unfold qo_limit_nat. assert (qo_limit o = limit) as -> by (by destruct d).
    destruct limit as [m|]; cbn; [|by eexists].
    assert (m <> 0) by congruence. exists (Nat.pred (N.to_nat (m `min` MAX_QUERY_LIMIT))). unfold MAX_QUERY_LIMIT. lia. }
  destruct S2 as [|x S2]; [done|]. 
  rewrite fmap_last. destruct (last (take (S n) (x :: S2))) as [z|] eqn:Ez.
  2: { apply last_None in Ez. done. }
  cbn [fmap option_fmap option_map].
  rewrite <-(take_drop (S n) (x :: S2)) at 2. rewrite fmap_app. f_equal.
  assert (last (S1 ++ take (S n) (x :: S2)) = Some z) as Elast by (by rewrite last_app, Ez).
  rewrite Hf.
  2: { apply (listing_elem l d). rewrite HL, <-(take_drop (S n) (x :: S2)).
       apply last_Some in Ez as [? ->]. rewrite !elem_of_app, elem_of_list_singleton. auto. }
  change (Some (key z)) with (key <$> Some z). rewrite <-Elast.
  apply IH; [by rewrite <-app_assoc, take_drop|]. cbn in *. rewrite drop_length. lia.
Qed.

Lemma walk_all {B} (f : A -> B) (keyB : B -> K) l d limit fuel :
  NoDup (key <$> l) -> (forall x, x ∈ l -> keyB (f x) = key x) -> limit <> Some 0 -> (length l < fuel)%nat ->
  walk keyB (fun o => f <$> index_range leb key l o) d limit None fuel = f <$> listing l d.
Proof.
  intros Hn Hf Hlim Hlen. apply (walk_from f keyB l d limit fuel [] (listing l d)); try done. by rewrite listing_length.
Qed.
End Walk.

Section Map.
Context {K A B : Type} (leb : K -> K -> bool) (key : A -> K) (before : K -> K -> Prop).
Context (leb_total : forall x y, leb x y = true \/ leb y x = true).
Context (leb_trans : forall x y z, leb x y = true -> leb y z = true -> leb x z = true).
Context (leb_antisym : forall x y, leb x y = true -> leb y x = true -> x = y).
Context (leb_before : forall x y, leb x y = false <-> before y x).
Context (f : A -> B) (keyB : B -> K) (l : list A) (matching : B -> Prop).
Context (Hn : NoDup (key <$> l)) (Hf : forall x, x ∈ l -> keyB (f x) = key x).
Context (Hm : forall y, (exists x, x ∈ l /\ y = f x) <-> matching y).

Lemma precedes_map d x y : x ∈ l -> y ∈ l -> precedes before keyB d (f x) (f y) <-> precedes before key d x y.
Proof. intros Hx Hy. unfold precedes. by rewrite !Hf by done. Qed.
Lemma sorted_map d l' : (forall x, x ∈ l' -> x ∈ l) -> StronglySorted (precedes before key d) l' ->
  StronglySorted (precedes before keyB d) (f <$> l').
Proof.
  intros Hin H. induction H as [|x l' Hl' IH Hx]; cbn; [constructor|].
  constructor; [apply IH; intros; apply Hin; by right|].
  rewrite Forall_forall in Hx. apply Forall_forall. intros y (z&->&Hz)%elem_of_list_fmap.
  apply precedes_map; [apply Hin; by left|apply Hin; by right|by apply Hx].
Qed.
Lemma query_page o : page before keyB matching o (f <$> index_range leb key l o).
Proof.
  destruct (range_page leb key before leb_total leb_trans leb_antisym leb_before l o (fun x => x ∈ l) Hn) as [H1 H2 H3 H4]; [done|].
  constructor.
  - apply sorted_map; [|done]. intros x Hx. by apply H2.
  - intros y (x&->&Hx)%elem_of_list_fmap. apply H2 in Hx as [Hx1 Hx2]. split; [apply Hm; eauto|]. by rewrite Hf.
  - by rewrite fmap_length.
  - intros y Hy Hr. apply Hm in Hy as (x&Hx&->). rewrite Hf in Hr by done.
    destruct (H4 x Hx Hr) as [Hin|[Hlen Hb]]; [left; by apply elem_of_list_fmap_1|right].
    split; [by rewrite fmap_length|]. intros y (z&->&Hz)%elem_of_list_fmap. apply precedes_map; [by apply H2|done|]. by apply Hb.
Qed.
Lemma query_walk d limit fuel : limit <> Some 0 -> (length l < fuel)%nat ->
  complete_walk before keyB matching d (walk keyB (fun o => f <$> index_range leb key l o) d limit None fuel).
Proof.
  intros Hlim Hfuel. rewrite walk_all with (before := before) by done. split.
  - apply sorted_map; [intros x; by rewrite listing_elem|]. by apply listing_sorted.
  - intros y. rewrite <-Hm, elem_of_list_fmap. setoid_rewrite listing_elem; naive_solver.
Qed.
End Map.
