(** Orders of the auction indexes, and the list of auctions that EndBlock selects. *)
From Verif Require Import Base Common Chain BaseFacts ChainFacts IndexRange IndexFacts QuerySpec IndexWalk
  RAModel RASpec RAFacts.

(** * Lexicographic composition of orders *)
Lemma akey_leb_before x y : akey_leb x y = false <-> key_before y x.
Proof.
  destruct x as [c t], y as [c' t']. unfold akey_leb, key_before. cbn [fst snd].
  pose proof (str_leb_before c' c) as H1. pose proof (str_leb_before c c') as H1'.
  pose proof (str_leb_before t t') as H2.
  destruct (Nat.ltb_spec (String.length c) (String.length c')) as [Hl|Hl]; cbn [orb andb].
  { split; [done|]. intros [?|[? _]]; lia. }
  destruct (Nat.eqb_spec (String.length c) (String.length c')) as [He|He]; cbn [orb andb].
  2: { split; [|done]. intros _. left. lia. }
  destruct (str_leb c' c) eqn:Ec; cbn.
  2: { split; [done|]. intros [?|(_&[Hb|[-> _]])]; [lia| |by rewrite str_leb_refl in Ec].
       assert (id_before c c') as Hb' by (by apply H1).
       assert (str_leb c c' = false) as E by (by apply H1').
       destruct (str_leb_total c c'); congruence. }
  case_bool_decide as Ecc; cbn.
  - subst c'. destruct (str_leb t t') eqn:Et; split; try done.
    + intros [?|(_&[Hb|[_ Hb]])]; [lia| |apply H2 in Hb; done].
      apply H1' in Hb. by rewrite str_leb_refl in Hb.
    + intros _. right. split; [done|]. right. split; [done|]. by apply H2.
  - split; [|done]. intros _. right. split; [done|]. left. apply H1'.
    destruct (str_leb c c') eqn:E; [|done]. exfalso. by apply Ecc, str_leb_antisym.
Qed.

Lemma id_before_irrefl x : ~ id_before x x.
Proof. intros H%str_leb_before. by rewrite str_leb_refl in H. Qed.
Lemma id_before_trans x y z : id_before x y -> id_before y z -> id_before x z.
Proof.
  rewrite <-!str_leb_before. intros H1 H2. destruct (str_leb z x) eqn:E; [|done].
  destruct (str_leb_total x y) as [H|H]; [|congruence]. rewrite (str_leb_trans _ _ _ E H) in H2. done.
Qed.
Lemma id_before_total x y : x = y \/ id_before x y \/ id_before y x.
Proof.
  rewrite <-!str_leb_before. destruct (str_leb y x) eqn:E1; [|by auto]. destruct (str_leb x y) eqn:E2; [|by auto].
  left. by apply str_leb_antisym.
Qed.

Lemma key_before_irrefl x : ~ key_before x x.
Proof. intros [?|(_&[H|[_ H]])]; [lia|by apply id_before_irrefl in H|by apply id_before_irrefl in H]. Qed.
Lemma key_before_trans x y z : key_before x y -> key_before y z -> key_before x z.
Proof.
  destruct x as [c t], y as [c' t'], z as [c'' t'']. unfold key_before. cbn.
  intros [H1|(E1&H1)] [H2|(E2&H2)]; try (left; lia). right. split; [lia|].
  destruct H1 as [H1|[<- H1]], H2 as [H2|[<- H2]]; eauto using id_before_trans.
Qed.
Lemma key_before_total x y : x = y \/ key_before x y \/ key_before y x.
Proof.
  destruct x as [c t], y as [c' t']. unfold key_before. cbn.
  destruct (Nat.lt_trichotomy (String.length c) (String.length c')) as [H|[H|H]]; [by auto| |by auto].
  destruct (id_before_total c c') as [->|[Hc|Hc]]; [|by auto 8..].
  destruct (id_before_total t t') as [->|[Ht|Ht]]; by auto 10.
Qed.

Section FromBefore.
Context {K : Type} (leb : K -> K -> bool) (before : K -> K -> Prop).
Context (H : forall x y, leb x y = false <-> before y x).
Context (Hi : forall x, ~ before x x) (Ht : forall x y z, before x y -> before y z -> before x z).
Context (Htot : forall x y, x = y \/ before x y \/ before y x).
Lemma before_leb x y : leb x y = true <-> ~ before y x.
Proof. rewrite <-H. by destruct (leb x y). Qed.
Lemma from_total x y : leb x y = true \/ leb y x = true.
Proof. rewrite !before_leb. destruct (Htot x y) as [->|[Hb|Hb]]; [by auto|left|right]; intros Hb'; eapply Hi, Ht; done. Qed.
Lemma from_trans x y z : leb x y = true -> leb y z = true -> leb x z = true.
Proof.
  rewrite !before_leb. intros H1 H2 H3. destruct (Htot x y) as [->|[Hb|Hb]]; [done| |done].
  apply H2. eapply Ht; done.
Qed.
Lemma from_antisym x y : leb x y = true -> leb y x = true -> x = y.
Proof. rewrite !before_leb. intros H1 H2. by destruct (Htot x y) as [->|[Hb|Hb]]. Qed.
End FromBefore.

Lemma akey_leb_total x y : akey_leb x y = true \/ akey_leb y x = true.
Proof. eapply from_total; eauto using akey_leb_before, key_before_irrefl, key_before_trans, key_before_total. Qed.
Lemma akey_leb_trans x y z : akey_leb x y = true -> akey_leb y z = true -> akey_leb x z = true.
Proof. eapply from_trans; eauto using akey_leb_before, key_before_irrefl, key_before_trans, key_before_total. Qed.
Lemma akey_leb_antisym x y : akey_leb x y = true -> akey_leb y x = true -> x = y.
Proof. eapply from_antisym; eauto using akey_leb_before, key_before_irrefl, key_before_trans, key_before_total. Qed.

Lemma end_before_irrefl x : ~ end_before x x.
Proof. intros [?|[_ H]]; [lia|by apply key_before_irrefl in H]. Qed.
Lemma end_before_trans x y z : end_before x y -> end_before y z -> end_before x z.
Proof. unfold end_before. intros [H1|[E1 H1]] [H2|[E2 H2]]; try (left; lia). right. split; [lia|]. by eapply key_before_trans. Qed.
Lemma end_before_total x y : x = y \/ end_before x y \/ end_before y x.
Proof.
  destruct x as [n k], y as [n' k']. unfold end_before. cbn.
  destruct (N.lt_trichotomy n n') as [?|[->|?]]; [by auto| |by auto].
  destruct (key_before_total k k') as [->|[?|?]]; by auto 10.
Qed.
Lemma ekey_leb_before x y : ekey_leb x y = false <-> end_before y x.
Proof.
  destruct x as [n k], y as [n' k']. unfold ekey_leb, end_before. cbn. rewrite <-akey_leb_before.
  destruct (N.ltb_spec n n'); cbn; [split; [done|intros [?|[? _]]; lia]|].
  destruct (N.eqb_spec n n'); cbn; split.
  - intros ?. right. auto.
  - intros [?|[_ ?]]; [lia|done].
  - intros _. left. lia.
  - done.
Qed.
Lemma ekey_leb_total x y : ekey_leb x y = true \/ ekey_leb y x = true.
Proof. eapply from_total; eauto using ekey_leb_before, end_before_irrefl, end_before_trans, end_before_total. Qed.
Lemma ekey_leb_trans x y z : ekey_leb x y = true -> ekey_leb y z = true -> ekey_leb x z = true.
Proof. eapply from_trans; eauto using ekey_leb_before, end_before_irrefl, end_before_trans, end_before_total. Qed.
Lemma ekey_leb_antisym x y : ekey_leb x y = true -> ekey_leb y x = true -> x = y.
Proof. eapply from_antisym; eauto using ekey_leb_before, end_before_irrefl, end_before_trans, end_before_total. Qed.

(** * The due list *)
Section Due.
Context (p : params) (st : state) (Hwf : wf p st).

Lemma entry_key_nodup : NoDup (entry_ekey <$> map_to_list (s_auctions st)).
Proof.
  apply NoDup_fmap_1 with (f := snd). rewrite <-list_fmap_compose. apply (NoDup_fst_map_to_list (s_auctions st)).
Qed.
Lemma entry_key k a : (k, a) ∈ map_to_list (s_auctions st) -> a_ekey a = entry_ekey (k, a).
Proof.
  rewrite elem_of_map_to_list. intros H. apply (wf_auction _ _ Hwf) in H as [<- _]. unfold a_ekey, entry_ekey, end_index, end_second.
  cbn. done.
Qed.

Lemma sorted_fmap {A B} (R : A -> A -> Prop) (S : B -> B -> Prop) (f : A -> B) (l : list A) :
  (forall x y, x ∈ l -> y ∈ l -> R x y -> S (f x) (f y)) -> StronglySorted R l -> StronglySorted S (f <$> l).
Proof.
  intros H. induction 1 as [|x l Hl IH Hx]; cbn; [constructor|]. constructor.
  - apply IH. intros y z ? ?. apply H; by right.
  - rewrite Forall_forall in Hx. apply Forall_forall. intros b (y&->&Hy)%elem_of_list_fmap.
    apply H; [by left|by right|by apply Hx].
Qed.

Definition all_due (bound : N) : list auction :=
  snd <$> index_scan ekey_leb entry_ekey (map_to_list (s_auctions st))
            (QOpts (Some false) None None (Some (BExcl (bound, ("", ""))))).
Lemma all_due_elem bound a : a ∈ all_due bound <-> s_auctions st !! a_key a = Some a /\ end_second a < bound.
Proof.
  unfold all_due. rewrite elem_of_list_fmap. split.
  - intros ([k a']&->&Hx). apply index_scan_elem in Hx as [Hx Hb]. rewrite elem_of_map_to_list in Hx. cbn.
    destruct (wf_auction _ _ Hwf _ _ Hx) as [-> _]. split; [done|].
    apply (in_range_bounds ekey_leb entry_ekey end_before ekey_leb_before) in Hb as [_ Hb]. cbn in Hb.
    destruct Hb as [Hb|[_ Hb]]; [done|]. exfalso. destruct Hb as [Hb|(_&[Hb|[_ Hb]])]; cbn in Hb; [lia| |];
      apply str_leb_before in Hb; by rewrite str_leb_empty in Hb.
  - intros [Ha Hb]. exists (a_key a, a). split; [done|]. apply index_scan_elem. rewrite elem_of_map_to_list. split; [done|].
    apply (in_range_bounds ekey_leb entry_ekey end_before ekey_leb_before). split; [done|]. left. exact Hb.
Qed.
Lemma all_due_sorted bound : StronglySorted (fun a b => end_before (a_ekey a) (a_ekey b)) (all_due bound).
Proof.
  unfold all_due. apply sorted_fmap with (R := precedes end_before entry_ekey false).
  - intros [k a] [k' a'] H1 H2. apply index_scan_elem in H1 as [H1 _], H2 as [H2 _]. unfold precedes. cbn [snd].
    by rewrite (entry_key _ _ H1), (entry_key _ _ H2).
  - rewrite (scan_listing ekey_leb entry_ekey). apply sorted_filter.
    apply listing_sorted; [exact ekey_leb_total|exact ekey_leb_trans|exact ekey_leb_antisym|exact ekey_leb_before|].
    apply entry_key_nodup.
Qed.
Lemma due_take bound limit : due_auctions st bound limit = take (N.to_nat limit) (all_due bound).
Proof. done. Qed.

Lemma sorted_nodup {A} (R : A -> A -> Prop) (l : list A) : (forall x, ~ R x x) -> StronglySorted R l -> NoDup l.
Proof.
  intros HR. induction 1 as [|x l Hl IH Hx]; [constructor|]. apply NoDup_cons. split; [|done].
  intros Hin. rewrite Forall_forall in Hx. by apply Hx, HR in Hin.
Qed.
Lemma due_sorted bound limit : StronglySorted (fun a b => end_before (a_ekey a) (a_ekey b)) (due_auctions st bound limit).
Proof.
  rewrite due_take. pose proof (all_due_sorted bound) as H. rewrite <-(take_drop (N.to_nat limit) (all_due bound)) in H.
  by apply sorted_app in H as (H&_).
Qed.
Lemma due_nodup bound limit : NoDup (a_key <$> due_auctions st bound limit).
Proof.
  apply NoDup_fmap_2_strong.
  - intros x y Hx Hy E. apply (due_elem p) in Hx as [Hx _], Hy as [Hy _]; [|done..]. rewrite E in Hx. congruence.
  - eapply sorted_nodup; [|apply due_sorted]. intros x. cbn. apply end_before_irrefl.
Qed.
(** Complete up to the limit, in index order. *)
Lemma due_complete bound limit a : s_auctions st !! a_key a = Some a -> end_second a < bound ->
  a ∈ due_auctions st bound limit \/
  (length (due_auctions st bound limit) = N.to_nat limit /\
   forall b, b ∈ due_auctions st bound limit -> end_before (a_ekey b) (a_ekey a)).
Proof.
  intros Ha Hb. assert (a ∈ all_due bound) as Hin by (by apply all_due_elem). rewrite due_take.
  pose proof (all_due_sorted bound) as Hs. set (n := N.to_nat limit) in *.
  rewrite <-(take_drop n (all_due bound)) in Hin, Hs. apply sorted_app in Hs as (_&_&Hs).
  apply elem_of_app in Hin as [?|Hin]; [by left|right]. split; [|by eauto].
  rewrite take_length. assert (length (drop n (all_due bound)) <> 0%nat) as Hd.
  { destruct (drop n (all_due bound)); [by apply elem_of_nil in Hin|done]. }
  rewrite drop_length in Hd. lia.
Qed.
Lemma due_length bound limit : (length (due_auctions st bound limit) <= N.to_nat limit)%nat.
Proof. rewrite due_take, take_length. lia. Qed.
End Due.
