(** Facts about index range scans: content, order, extremal elements, paging. *)
From Verif Require Import Base IndexRange BaseFacts.

Lemma pkey_leb_refl x : pkey_leb x x = true.
Proof. unfold pkey_leb. rewrite N.eqb_refl, str_leb_refl. by rewrite orb_true_r. Qed.
Lemma pkey_leb_total x y : pkey_leb x y = true \/ pkey_leb y x = true.
Proof.
  unfold pkey_leb. destruct (str_leb_total (snd x) (snd y)) as [H|H]; rewrite H; rewrite !andb_true_r;
  destruct (N.ltb_spec (fst x) (fst y)), (N.eqb_spec (fst x) (fst y)),
    (N.ltb_spec (fst y) (fst x)), (N.eqb_spec (fst y) (fst x)); cbn; auto; lia.
Qed.
Lemma pkey_leb_antisym x y : pkey_leb x y = true -> pkey_leb y x = true -> x = y.
Proof.
  destruct x as [a i], y as [b j]. unfold pkey_leb; cbn.
  destruct (N.ltb_spec a b), (N.eqb_spec a b), (N.ltb_spec b a), (N.eqb_spec b a); cbn; try done; try lia.
  intros. f_equal; [lia|]. by apply str_leb_antisym.
Qed.
Lemma pkey_leb_trans x y z : pkey_leb x y = true -> pkey_leb y z = true -> pkey_leb x z = true.
Proof.
  destruct x as [a i], y as [b j], z as [c k]. unfold pkey_leb; cbn.
  destruct (N.ltb_spec a b), (N.eqb_spec a b), (N.ltb_spec b c), (N.eqb_spec b c),
    (N.ltb_spec a c), (N.eqb_spec a c); cbn; try done; try lia. apply str_leb_trans.
Qed.
Lemma pkey_leb_fst x y : pkey_leb x y = true -> fst x <= fst y.
Proof. unfold pkey_leb. destruct (N.ltb_spec (fst x) (fst y)), (N.eqb_spec (fst x) (fst y)); cbn; try done; lia. Qed.
Lemma pkey_min_incl n k : pkey_leb (n, "") k = (n <=? fst k).
Proof. unfold pkey_leb; cbn. rewrite andb_true_r. lia. Qed.
Lemma pkey_max_excl n k : negb (pkey_leb (n, "") k) = (fst k <? n).
Proof. rewrite pkey_min_incl. lia. Qed.

Section Facts.
Context {K A : Type} (leb : K -> K -> bool) (key : A -> K).
Context (leb_total : forall x y, leb x y = true \/ leb y x = true).
Context (leb_trans : forall x y z, leb x y = true -> leb y z = true -> leb x z = true).

Lemma leb_refl x : leb x x = true.
Proof. by destruct (leb_total x x). Qed.

Definition kle (x y : A) : Prop := leb (key x) (key y) = true.

Lemma insert_sorted_perm x l : insert_sorted leb key x l ≡ₚ x :: l.
Proof.
  induction l as [|y l IH]; cbn; [done|]. destruct (leb _ _); [done|]. rewrite IH. apply perm_swap.
Qed.
Lemma sort_by_perm l : sort_by leb key l ≡ₚ l.
Proof. induction l as [|x l IH]; cbn; [done|]. rewrite insert_sorted_perm. by f_equiv. Qed.

Lemma insert_sorted_sorted x l :
  StronglySorted kle l -> StronglySorted kle (insert_sorted leb key x l).
Proof.
  induction 1 as [|y l Hl IH Hy]; cbn; [by repeat constructor|].
  destruct (leb (key x) (key y)) eqn:E.
  - constructor; [by constructor|]. constructor; [done|].
    eapply Forall_impl; [done|]. intros z Hz. eapply leb_trans; eauto.
  - constructor; [done|]. rewrite insert_sorted_perm. constructor; [|done].
    unfold kle. destruct (leb_total (key x) (key y)); congruence.
Qed.
Lemma sort_by_sorted l : StronglySorted kle (sort_by leb key l).
Proof. induction l as [|x l IH]; cbn; [constructor|]. by apply insert_sorted_sorted. Qed.

Lemma filter_sorted (f : A -> bool) l : StronglySorted kle l -> StronglySorted kle (List.filter f l).
Proof.
  induction 1 as [|y l Hl IH Hy]; cbn; [constructor|]. destruct (f y); [|done].
  constructor; [done|]. rewrite Forall_forall in Hy |- *. intros z Hz. apply Hy.
  apply elem_of_list_In, filter_In in Hz as [Hz _]. by apply elem_of_list_In.
Qed.

Definition in_bounds (o : qopts K) (x : A) : bool :=
  in_min leb (qo_min o) (key x) && in_max leb (qo_max o) (key x).

Lemma index_scan_elem l o x : x ∈ index_scan leb key l o <-> x ∈ l /\ in_bounds o x = true.
Proof.
  unfold index_scan. set (f := fun x => _ && _).
  assert (x ∈ List.filter f (sort_by leb key l) <-> x ∈ l /\ in_bounds o x = true) as H.
  { rewrite elem_of_list_In, filter_In, <-elem_of_list_In, sort_by_perm. done. }
  destruct (default false (qo_desc o)); [by rewrite elem_of_reverse|done].
Qed.

Lemma index_range_elem l o x : x ∈ index_range leb key l o -> x ∈ l /\ in_bounds o x = true.
Proof.
  unfold index_range. intros H. apply index_scan_elem.
  rewrite <-(take_drop (qo_limit_nat o) (index_scan leb key l o)). by apply elem_of_app; left.
Qed.

Lemma take1_last {B} (l : list B) : last (take 1 l) = head l.
Proof. by destruct l. Qed.

Lemma top_desc_some l mn mx x :
  last (index_range leb key l (QOpts (Some true) (Some 1) mn mx)) = Some x ->
  let o := QOpts (Some true) (Some 1) mn mx in
  x ∈ l /\ in_bounds o x = true /\ forall y, y ∈ l -> in_bounds o y = true -> leb (key y) (key x) = true.
Proof.
  intros H. cbv zeta. set (o := QOpts _ _ _ _) in *.
  unfold index_range in H. change (qo_limit_nat o) with 1%nat in H. rewrite take1_last in H.
  assert (x ∈ index_scan leb key l o) as Hx by by apply head_Some_elem_of.
  apply index_scan_elem in Hx as [Hx1 Hx2]. split_and!; [done|done|].
  intros y Hy1 Hy2.
  assert (y ∈ index_scan leb key l o) as Hy by by apply index_scan_elem.
  unfold index_scan in H, Hy. change (default false (qo_desc o)) with true in H, Hy. cbv iota in H, Hy.
  set (L := List.filter _ _) in *.
  assert (StronglySorted kle L) as HL by apply filter_sorted, sort_by_sorted.
  rewrite head_reverse in H. rewrite elem_of_reverse in Hy.
  apply last_Some in H as [L' HL']. rewrite HL' in HL, Hy.
  apply elem_of_app in Hy as [Hy|Hy].
  - clear -HL Hy. induction L' as [|z L' IH]; [by apply elem_of_nil in Hy|].
    cbn in HL. inversion_clear HL as [|? ? HL1 HL2]. apply elem_of_cons in Hy as [->|Hy]; [|auto].
    rewrite Forall_forall in HL2. apply HL2, elem_of_app. right. by apply elem_of_list_singleton.
  - apply elem_of_list_singleton in Hy as ->. apply leb_refl.
Qed.

Lemma top_asc_some l mn mx x :
  last (index_range leb key l (QOpts (Some false) (Some 1) mn mx)) = Some x ->
  let o := QOpts (Some false) (Some 1) mn mx in
  x ∈ l /\ in_bounds o x = true /\ forall y, y ∈ l -> in_bounds o y = true -> leb (key x) (key y) = true.
Proof.
  intros H. cbv zeta. set (o := QOpts _ _ _ _) in *.
  unfold index_range in H. change (qo_limit_nat o) with 1%nat in H. rewrite take1_last in H.
  assert (x ∈ index_scan leb key l o) as Hx by by apply head_Some_elem_of.
  apply index_scan_elem in Hx as [Hx1 Hx2]. split_and!; [done|done|].
  intros y Hy1 Hy2.
  assert (y ∈ index_scan leb key l o) as Hy by by apply index_scan_elem.
  unfold index_scan in H, Hy. change (default false (qo_desc o)) with false in H, Hy. cbv iota in H, Hy.
  set (L := List.filter _ _) in *.
  assert (StronglySorted kle L) as HL by apply filter_sorted, sort_by_sorted.
  destruct L as [|z L]; [discriminate|]. injection H as <-.
  inversion_clear HL as [|? ? HL1 HL2]. apply elem_of_cons in Hy as [->|Hy]; [apply leb_refl|].
  rewrite Forall_forall in HL2. by apply HL2.
Qed.

Lemma top_none l b mn mx :
  last (index_range leb key l (QOpts (Some b) (Some 1) mn mx)) = None ->
  forall y, y ∈ l -> in_bounds (QOpts (Some b) (Some 1) mn mx) y = false.
Proof.
  intros H y Hy. set (o := QOpts _ _ _ _) in *.
  unfold index_range in H. change (qo_limit_nat o) with 1%nat in H. rewrite take1_last in H.
  destruct (in_bounds o y) eqn:E; [|done].
  assert (y ∈ index_scan leb key l o) as Hy' by by apply index_scan_elem.
  destruct (index_scan leb key l o); [by apply elem_of_nil in Hy'|discriminate].
Qed.
End Facts.
