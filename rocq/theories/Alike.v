(** C140: lemmas shared by the three contracts. *)
From Verif Require Import Base Common IndexRange IndexFacts Storage AlikeSpec.

Section Alike.
Context (p : params) (r : addr -> addr) (Hr : renaming p r).

Lemma same_account x y : bool_decide (r x = r y) = bool_decide (x = y).
Proof. apply bool_decide_ext. split; [apply Hr|by intros ->]. Qed.
Lemma other_account x y : bool_decide (r x <> r y) = bool_decide (x <> y).
Proof. apply bool_decide_ext. split; intros H E; apply H; [by rewrite E|by apply (rn_inj _ _ Hr)]. Qed.
Lemma self_account x : bool_decide (r x = p_self p) = bool_decide (x = p_self p).
Proof. apply bool_decide_ext. split; [|intros ->; exact (rn_self _ _ Hr)]. intros H. apply (rn_inj _ _ Hr). by rewrite (rn_self _ _ Hr). Qed.
Lemma validate_renamed s : addr_validate p (r s) = r <$> addr_validate p s.
Proof. unfold addr_validate. rewrite (rn_valid _ _ Hr). by destruct (p_valid p s). Qed.
Lemma maybe_renamed (s : option string) : maybe_addr p (r <$> s) = (fun o : option addr => r <$> o) <$> maybe_addr p s.
Proof. destruct s as [s|]; [|done]. cbn. rewrite validate_renamed. by destruct (addr_validate p s). Qed.
Lemma address_or_renamed (o : option addr) a : address_or (r <$> o) (r a) = r (address_or o a).
Proof. by destruct o. Qed.
End Alike.

Lemma swap_swap a b x : swap a b (swap a b x) = x.
Proof. unfold swap. repeat case_bool_decide; congruence. Qed.
Lemma swap_renaming p a b : a <> p_self p -> b <> p_self p -> p_valid p a = p_valid p b -> renaming p (swap a b).
Proof.
  intros Ha Hb Hv. split.
  - intros x y E. by rewrite <-(swap_swap a b x), E, swap_swap.
  - unfold swap. by rewrite !bool_decide_eq_false_2.
  - intros x. unfold swap. repeat case_bool_decide; congruence.
Qed.
Lemma mirror_renamed a b v : view_renamed (swap a b) v (mirror a b v).
Proof.
  split; cbn; intros.
  - by destruct (q_owner v c t).
  - by rewrite swap_swap.
  - by destruct (q_info v c).
  - by destruct (q_royalty v reg c pr) as [[[?|] [?|]]|].
  - by destruct (q_admin v) as [[?|]|].
Qed.

Lemma sort_commutes {K A B} (leb : K -> K -> bool) (key : A -> K) (key' : B -> K) (f : A -> B) l :
  (forall x, key' (f x) = key x) -> sort_by leb key' (f <$> l) = f <$> sort_by leb key l.
Proof.
  intros Hk. induction l as [|x l IH]; [done|]. rewrite fmap_cons. unfold sort_by in *. cbn [foldr]. rewrite IH. clear IH.
  generalize (foldr (insert_sorted leb key) [] l). intros s. induction s as [|y s IHs]; [done|].
  cbn [insert_sorted fmap list_fmap]. rewrite !Hk. destruct (leb (key x) (key y)); [done|]. cbn. f_equal. exact IHs.
Qed.
Lemma filter_commutes {A B} (f : A -> B) (P : B -> bool) (Q : A -> bool) l :
  (forall x, P (f x) = Q x) -> List.filter P (f <$> l) = f <$> List.filter Q l.
Proof. intros H. induction l as [|x l IH]; [done|]. cbn. rewrite H. destruct (Q x); cbn; by rewrite <-IH. Qed.
Lemma scan_commutes {K A B} (leb : K -> K -> bool) (key : A -> K) (key' : B -> K) (f : A -> B) l o :
  (forall x, key' (f x) = key x) -> index_scan leb key' (f <$> l) o = f <$> index_scan leb key l o.
Proof.
  intros Hk. unfold index_scan. rewrite (sort_commutes leb key key' f) by done.
  rewrite (filter_commutes f _ (fun x => in_min leb (qo_min o) (key x) && in_max leb (qo_max o) (key x))) by (intros; by rewrite Hk).
  destruct (default false (qo_desc o)); [|done]. by rewrite fmap_reverse.
Qed.
(** A scan does not depend on the order in which the entries are given, if no two have the same key. *)
Lemma scan_any_order {K B} (leb : K -> K -> bool) (key : B -> K) (l l' : list B) o :
  (forall x y, leb x y = true \/ leb y x = true) -> (forall x y z, leb x y = true -> leb y z = true -> leb x z = true) ->
  (forall x y, leb x y = true -> leb y x = true -> x = y) ->
  NoDup (key <$> l) -> l ≡ₚ l' -> index_scan leb key l o = index_scan leb key l' o.
Proof.
  intros Ht Htr Ha Hn Hp. unfold index_scan. assert (sort_by leb key l = sort_by leb key l') as ->; [|done].
  apply (sorted_unique (kle leb key)).
  - intros u w Hu Hw H1 H2. rewrite sort_by_perm in Hu, Hw. rewrite <-Hp in Hw. unfold kle in *.
    apply (fmap_nodup_inj key l); try done. by apply Ha.
  - by apply sort_by_sorted.
  - by apply sort_by_sorted.
  - by rewrite !sort_by_perm.
Qed.
Lemma filter_perm {A} (P : A -> bool) l l' : l ≡ₚ l' -> List.filter P l ≡ₚ List.filter P l'.
Proof.
  induction 1 as [|x l l' _ IH|x y l|l l' l'' _ IH1 _ IH2]; cbn; [done| | |by etransitivity].
  - destruct (P x); [by constructor|done].
  - destruct (P x), (P y); by try constructor.
Qed.
(** Renaming what is stored under a key commutes with a look at an index that the renaming leaves alone. *)
Lemma range_commutes {I} `{Countable I} {K V} (leb : K -> K -> bool) (key : I * V -> K) (f : V -> V) (P : I * V -> bool) (m : gmap I V) o :
  (forall x y, leb x y = true \/ leb y x = true) -> (forall x y z, leb x y = true -> leb y z = true -> leb x z = true) ->
  (forall x y, leb x y = true -> leb y x = true -> x = y) -> (forall x y, key x = key y -> fst x = fst y) ->
  (forall i x, key (i, f x) = key (i, x)) -> (forall i x, P (i, f x) = P (i, x)) ->
  snd <$> index_range leb key (List.filter P (map_to_list (f <$> m))) o = f <$> (snd <$> index_range leb key (List.filter P (map_to_list m)) o).
Proof.
  intros Ht Htr Ha Hi Hk HP. unfold index_range. rewrite !fmap_take. f_equal. rewrite <-list_fmap_compose.
  rewrite (scan_any_order leb key _ (prod_map id f <$> List.filter P (map_to_list m))); [|done|done|done|..].
  - rewrite (scan_commutes leb key key (prod_map id f)) by (intros [i x]; apply Hk). by rewrite <-!list_fmap_compose.
  - apply NoDup_fmap_2_strong.
    + intros [i x] [j y] Hx Hy E. apply Hi in E. cbn in E. subst j. f_equal.
      apply elem_of_list_In, filter_In in Hx as [Hx _]. apply elem_of_list_In, filter_In in Hy as [Hy _].
      apply elem_of_list_In, elem_of_map_to_list in Hx. apply elem_of_list_In, elem_of_map_to_list in Hy. congruence.
    + apply NoDup_ListNoDup, List.NoDup_filter, NoDup_ListNoDup, NoDup_map_to_list.
  - rewrite <-(filter_commutes (prod_map id f) P P) by (intros [i x]; apply HP).
    apply (filter_perm P). apply map_to_list_fmap.
Qed.
