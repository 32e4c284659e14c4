(** The key-value store beneath cw-storage-plus: byte keys in byte order, and the layout of items, maps and indexed maps.

    cw-storage-plus itself is not in the repository.  Its layout is written down here: an [Item] lives under its bare name; a [Map]
    entry under the length-prefixed namespace, the length-prefixed parts of the key but the last, and the last part; an entry of a
    [MultiIndex] under the length-prefixed index namespace, the length-prefixed parts of the index, and the bytes of the primary
    key, holding the length of the latter; a range is read in byte order.  What is proved is that the maps and sorted scans used by
    the models of the contracts are what this layout yields for the namespaces and index functions of the contracts. *)
From stdpp Require Import relations pretty.
From Verif Require Import Base BaseFacts IndexRange IndexFacts QuerySpec IndexWalk.
From Verif Require V1Model.

Local Infix "+++" := String.append (at level 60, right associativity).

(** * Layout *)
(** cw_storage_plus::helpers::encode_length; namespaces and keys longer than 65535 bytes panic there and are excluded by hypotheses
    here *)
Definition lp (s : string) : string := be_bytes 2 (N.of_nat (String.length s)) +++ s.
Fixpoint lps (l : list string) : string := match l with [] => "" | s :: l => lp s +++ lps l end.
(** PrimaryKey::joined_key *)
Fixpoint join (l : list string) : string :=
  match l with [] => "" | [s] => s | s :: l => lp s +++ join l end.

(** A record of the contract or, in an index, the length of a primary key. *)
Inductive value (R : Type) : Type := Rec (r : R) | Len (n : N).
Arguments Rec {R} _.
Arguments Len {R} _.

(** [MultiIndex::new(ix_of, _, ix_ns)] and [IndexedMap::new(tb_ns, tb_ix)] with keys made of the parts [tb_pk].  A [Map] is one
    without indexes. *)
Record index (A : Type) : Type := Index { ix_ns : string; ix_of : A -> list string }.
Arguments Index {A} _ _.
Arguments ix_ns {A} _.
Arguments ix_of {A} _ _.
Record table (PK A R : Type) : Type := Table {
  tb_ns : string; tb_pk : PK -> list string; tb_ix : list (index A); tb_in : A -> R; tb_out : R -> option A }.
Arguments Table {PK A R} _ _ _ _ _.
Arguments tb_ns {PK A R} _.
Arguments tb_pk {PK A R} _ _.
Arguments tb_ix {PK A R} _.
Arguments tb_in {PK A R} _ _.
Arguments tb_out {PK A R} _ _.

Section Tables.
Context {PK A R : Type} (T : table PK A R).
Notation store := (gmap string (value R)).
Definition raw_pk (k : PK) : string := join (tb_pk T k).
Definition prim_at (k : PK) : string := lp (tb_ns T) +++ raw_pk k.
Definition index_at (k : PK) (y : A) (i : index A) : string := lp (ix_ns i) +++ lps (ix_of i y) +++ raw_pk k.

(** Map::may_load *)
Definition get_at (s : store) (b : string) : option A := match s !! b with Some (Rec r) => tb_out T r | _ => None end.
Definition load (k : PK) (s : store) : option A := get_at s (prim_at k).
(** MultiIndex::save and remove for each index *)
Definition index_drop (k : PK) (y : A) (s : store) : store := foldr (fun i s => delete (index_at k y i) s) s (tb_ix T).
Definition index_put (k : PK) (y : A) (s : store) : store :=
  foldr (fun i s => <[index_at k y i := Len (N.of_nat (String.length (raw_pk k)))]> s) s (tb_ix T).
Definition index_drop_old (k : PK) (s : store) : store := match load k s with Some o => index_drop k o s | None => s end.
(** IndexedMap::save and remove (both through [replace]) *)
Definition save (k : PK) (y : A) (s : store) : store :=
  <[prim_at k := Rec (tb_in T y)]> (index_put k y (index_drop_old k s)).
Definition remove (k : PK) (s : store) : store := delete (prim_at k) (index_drop_old k s).

(** The entries of the store whose key starts with [P], without it. *)
Fixpoint strip (P b : string) : option string :=
  match P, b with
  | EmptyString, _ => Some b
  | String x P, String y b => if bool_decide (x = y) then strip P b else None
  | _, _ => None
  end.
Definition below (P : string) (s : store) : list (string * value R) :=
  omap (fun u => (fun b => (b, snd u)) <$> strip P (fst u)) (map_to_list s).
(** Prefix::range over a map: pairs of remaining key bytes and records *)
Definition read_map (P : string) (o : qopts string) (s : store) : list A :=
  omap (fun u => match snd u with Rec r => tb_out T r | Len _ => None end) (index_scan str_leb fst (below P s) o).
(** ... with the keys *)
Definition read_pairs (P : string) (o : qopts string) (s : store) : list (string * A) :=
  omap (fun u => match snd u with Rec r => pair (fst u) <$> tb_out T r | Len _ => None end) (index_scan str_leb fst (below P s) o).
(** Prefix::range over an index: the last bytes, as many as the value says, are the primary key of the record to load *)
Definition tail_bytes (n : nat) (b : string) : string := String.substring (String.length b - n) n b.
Definition read_index (P : string) (o : qopts string) (s : store) : list A :=
  omap (fun u => match snd u with Len n => get_at s (lp (tb_ns T) +++ tail_bytes (N.to_nat n) (fst u)) | Rec _ => None end)
    (index_scan str_leb fst (below P s) o).
End Tables.

(** * Strings *)
Definition short (s : string) : Prop := N.of_nat (String.length s) < 65536.
Definition apart (a b : string) : Prop := strip a b = None /\ strip b a = None.

Lemma strip_app P x : strip P (P +++ x) = Some x.
Proof. induction P as [|c P IH]; [done|]. rewrite str_app_cons. cbn [strip]. by rewrite bool_decide_true. Qed.
Lemma strip_Some P b x : strip P b = Some x -> b = P +++ x.
Proof.
  revert b. induction P as [|c P IH]; intros [|d b]; cbn [strip]; try (by intros [= <-]).
  case_bool_decide as E; [|done]. subst d. rewrite str_app_cons. intros H. f_equal. by apply IH.
Qed.
Lemma apart_sym a b : apart a b -> apart b a.
Proof. intros [? ?]. by split. Qed.
Lemma apart_cons c a b : apart (String c a) (String c b) <-> apart a b.
Proof. unfold apart. cbn [strip]. by rewrite !bool_decide_true. Qed.
Lemma apart_app_l s a b : apart a b -> apart (s +++ a) (s +++ b).
Proof. intros H. induction s as [|c s IH]; [done|]. rewrite !str_app_cons. by apply apart_cons. Qed.
Lemma apart_app a b x y : apart a b -> apart (a +++ x) (b +++ y).
Proof.
  revert b. induction a as [|c a IH]; intros [|d b]; try (intros [? ?]; done).
  destruct (decide (c = d)) as [->|Hn]; [rewrite apart_cons; intros H; rewrite !str_app_cons; by apply apart_cons, IH|].
  intros _. rewrite !str_app_cons. unfold apart. cbn [strip]. by rewrite !bool_decide_false by congruence.
Qed.
Lemma apart_neq a b : apart a b -> a <> b.
Proof. intros [H _] ->. pose proof (strip_app b "") as E. rewrite str_app_nil_r in E. congruence. Qed.
Lemma apart_same_length a b : String.length a = String.length b -> a <> b -> apart a b.
Proof.
  revert b. induction a as [|c a IH]; intros [|d b]; try done. cbn [String.length]. intros [= Hl] Hn.
  destruct (decide (c = d)) as [->|Hc]; [apply apart_cons, IH; congruence|]. unfold apart. cbn [strip]. by rewrite !bool_decide_false by congruence.
Qed.
Lemma apart_leb a b x y : apart a b -> str_leb (a +++ x) (b +++ y) = str_leb a b.
Proof.
  revert b. induction a as [|c a IH]; intros [|d b]; try (intros [? ?]; done). rewrite !str_app_cons. cbn [str_leb].
  destruct (decide (c = d)) as [->|Hn]; [rewrite apart_cons, N.ltb_irrefl; apply IH|].
  intros _. destruct (N.ltb_spec (N_of_ascii c) (N_of_ascii d)); [done|]. destruct (N.ltb_spec (N_of_ascii d) (N_of_ascii c)); [done|].
  destruct Hn. apply N_of_ascii_inj. lia.
Qed.
Lemma leb_app_same s x y : str_leb (s +++ x) (s +++ y) = str_leb x y.
Proof. induction s as [|c s IH]; [done|]. rewrite !str_app_cons. cbn [str_leb]. by rewrite N.ltb_irrefl. Qed.
Lemma app_cancel s a b : s +++ a = s +++ b -> a = b.
Proof. induction s as [|c s IH]; [done|]. rewrite !str_app_cons. intros [= ?]. auto. Qed.

Lemma lp_apart a b : short a -> short b -> a <> b -> apart (lp a) (lp b).
Proof.
  unfold short, lp. intros Ha Hb Hn. destruct (decide (String.length a = String.length b)) as [E|E].
  - rewrite E. apply apart_app_l. by apply apart_same_length.
  - apply apart_app, apart_same_length; [by rewrite !be_bytes_length|]. intros H. apply be_bytes_inj in H; [lia|change (256 ^ N.of_nat 2) with 65536; lia..].
Qed.
Lemma lp_inj a b x y : short a -> short b -> lp a +++ x = lp b +++ y -> a = b /\ x = y.
Proof.
  intros Ha Hb H. destruct (decide (a = b)) as [->|Hn]; [split; [done|by apply app_cancel in H]|].
  destruct (apart_neq _ _ (apart_app _ _ x y (lp_apart a b Ha Hb Hn)) H).
Qed.
Lemma lps_inj l l' x y : length l = length l' -> Forall short l -> Forall short l' -> lps l +++ x = lps l' +++ y -> l = l' /\ x = y.
Proof.
  revert l'. induction l as [|a l IH]; intros [|b l']; cbn [length lps]; try done. intros [= Hl] [Ha Hs]%Forall_cons [Hb Hs']%Forall_cons.
  rewrite <-!str_app_assoc. intros H. apply lp_inj in H as [-> H]; try done. by apply IH in H as [-> ->].
Qed.
(** All parts but the last. *)
Fixpoint shorts (l : list string) : Prop := match l with [] => True | [_] => True | s :: l => short s /\ shorts l end.
Lemma join_inj l l' : length l = length l' -> shorts l -> shorts l' -> join l = join l' -> l = l'.
Proof.
  revert l'. induction l as [|a l IH]; intros [|b l']; try done. intros [= Hl]. destruct l as [|a' l], l' as [|b' l']; try done.
  - cbn [join]. by intros _ _ ->.
  - change (shorts (a :: a' :: l)) with (short a /\ shorts (a' :: l)). change (shorts (b :: b' :: l')) with (short b /\ shorts (b' :: l')).
    change (join (a :: a' :: l)) with (lp a +++ join (a' :: l)). change (join (b :: b' :: l')) with (lp b +++ join (b' :: l')).
    intros [Ha Hs] [Hb Hs'] H. apply lp_inj in H as [-> H]; try done. f_equal. by apply IH.
Qed.

(** * Order *)
Definition embeds {K} (dom : K -> Prop) (leb : K -> K -> bool) (enc : K -> string) : Prop :=
  forall k k', dom k -> dom k' -> str_leb (enc k) (enc k') = leb k k'.
Definition splits {K} (dom : K -> Prop) (enc : K -> string) : Prop := forall k k', dom k -> dom k' -> k <> k' -> apart (enc k) (enc k').

Lemma embeds_be n : embeds (fun x => x < 256 ^ N.of_nat n) N.leb (be_bytes n).
Proof.
  induction n as [|n IH]; intros x y Hx Hy.
  - change (256 ^ N.of_nat 0) with 1 in *. assert (x = 0) as -> by lia. assert (y = 0) as -> by lia. done.
  - replace (256 ^ N.of_nat (S n)) with (256 ^ N.of_nat n * 256) in Hx, Hy by (rewrite Nat2N.inj_succ, N.pow_succ_r'; lia).
    assert (x / 256 < 256 ^ N.of_nat n) as Hx' by (apply N.div_lt_upper_bound; lia).
    assert (y / 256 < 256 ^ N.of_nat n) as Hy' by (apply N.div_lt_upper_bound; lia).
    pose proof (N.div_mod x 256 ltac:(lia)) as Ex. pose proof (N.div_mod y 256 ltac:(lia)) as Ey.
    pose proof (N.mod_lt x 256 ltac:(lia)) as Mx. pose proof (N.mod_lt y 256 ltac:(lia)) as My.
    cbn [be_bytes]. destruct (decide (x / 256 = y / 256)) as [E|E].
    + rewrite E, leb_app_same. cbn [str_leb]. rewrite !N_ascii_embedding by done.
      destruct (N.ltb_spec (x mod 256) (y mod 256)), (N.ltb_spec (y mod 256) (x mod 256)), (N.leb_spec x y); lia.
    + rewrite apart_leb; [|apply apart_same_length; [by rewrite !be_bytes_length|intros H; by apply be_bytes_inj in H]].
      rewrite IH by done. destruct (N.leb_spec (x / 256) (y / 256)), (N.leb_spec x y); lia.
Qed.
Lemma splits_be n : splits (fun x => x < 256 ^ N.of_nat n) (be_bytes n).
Proof. intros x y Hx Hy Hn. apply apart_same_length; [by rewrite !be_bytes_length|]. intros H. by apply be_bytes_inj in H. Qed.
Lemma embeds_str : embeds (fun _ => True) str_leb id.
Proof. done. Qed.
Lemma embeds_lp : embeds short V1Model.lenstr_leb lp.
Proof.
  intros a b Ha Hb. unfold V1Model.lenstr_leb. unfold short in *. destruct (Nat.eqb_spec (String.length a) (String.length b)) as [E|E].
  - rewrite E, Nat.ltb_irrefl. cbn. unfold lp. by rewrite E, leb_app_same.
  - rewrite andb_false_l, orb_false_r. unfold lp.
    assert (forall s, N.of_nat (String.length s) < 65536 -> N.of_nat (String.length s) < 256 ^ N.of_nat 2) as Hs
      by (intros s Hs; change (256 ^ N.of_nat 2) with 65536; lia).
    rewrite apart_leb by (apply (splits_be 2); [by apply Hs..|lia]). rewrite (embeds_be 2) by (by apply Hs).
    destruct (N.leb_spec (N.of_nat (String.length a)) (N.of_nat (String.length b))), (Nat.ltb_spec (String.length a) (String.length b)); lia.
Qed.
Lemma splits_lp : splits short lp.
Proof. intros a b. apply lp_apart. Qed.
Lemma embeds_lex {A B} `{EqDecision A} (da : A -> Prop) (db : B -> Prop) lea leb ea eb :
  embeds da lea ea -> splits da ea -> embeds db leb eb ->
  embeds (fun u => da (fst u) /\ db (snd u)) (V1Model.lex_leb lea leb) (fun u => ea (fst u) +++ eb (snd u)).
Proof.
  intros Ha Hs Hb [a b] [a' b'] [H1 H2] [H3 H4]. unfold V1Model.lex_leb. cbn [fst snd] in *. case_bool_decide as E.
  - subst a'. rewrite leb_app_same. by apply Hb.
  - rewrite apart_leb by (by apply Hs). by apply Ha.
Qed.
Lemma splits_lex {A B} `{EqDecision A} (da : A -> Prop) (db : B -> Prop) ea eb :
  splits da ea -> splits db eb -> splits (fun u => da (fst u) /\ db (snd u)) (fun u => ea (fst u) +++ eb (snd u)).
Proof.
  intros Ha Hb [a b] [a' b'] [H1 H2] [H3 H4] Hn. cbn [fst snd] in *. destruct (decide (a = a')) as [->|Ha']; [apply apart_app_l, Hb; congruence|].
  by apply apart_app, Ha.
Qed.

(** * What a table looks like in the store *)
Section Represents.
Context {PK A R : Type} `{Countable PK} (T : table PK A R).
Notation store := (gmap string (value R)).
Definition names : list string := tb_ns T :: (ix_ns <$> tb_ix T).
(** The part of the store belonging to the table. *)
Definition in_table (b : string) : Prop := exists ns x, ns ∈ names /\ b = lp ns +++ x.
(** The entries there are for the contents [g]: one for each record and one for each record and index. *)
Definition entry (g : gmap PK A) (b : string) (v : value R) : Prop :=
  exists k y, g !! k = Some y /\
    ((b = prim_at T k /\ v = Rec (tb_in T y)) \/
     (exists i, i ∈ tb_ix T /\ b = index_at T k y i /\ v = Len (N.of_nat (String.length (raw_pk T k))))).
Definition represents (g : gmap PK A) (s : store) : Prop := forall b v, in_table b -> (s !! b = Some v <-> entry g b v).
End Represents.

(** What is asked of a table and of the keys and records kept in it. *)
Record table_ok {PK A R} (T : table PK A R) (okk : PK -> Prop) (oky : A -> Prop) : Prop := {
  to_nodup : NoDup (names T);
  to_short : Forall short (names T);
  to_pk : forall k k', okk k -> okk k' -> raw_pk T k = raw_pk T k' -> k = k';
  to_arity : forall i y y', i ∈ tb_ix T -> oky y -> oky y' -> length (ix_of i y) = length (ix_of i y');
  to_parts : forall i y, i ∈ tb_ix T -> oky y -> Forall short (ix_of i y);
  to_out : forall y, tb_out T (tb_in T y) = Some y;
}.
Arguments to_nodup {PK A R T okk oky} _.
Arguments to_short {PK A R T okk oky} _.
Arguments to_pk {PK A R T okk oky} _ _ _ _ _ _.
Arguments to_arity {PK A R T okk oky} _ _ _ _ _ _ _.
Arguments to_parts {PK A R T okk oky} _ _ _ _ _.
Arguments to_out {PK A R T okk oky} _ _.

Lemma fmap_nodup_inj {B C} (f : B -> C) l x y : NoDup (f <$> l) -> x ∈ l -> y ∈ l -> f x = f y -> x = y.
Proof.
  induction l as [|z l IH]; cbn; intros Hn Hx Hy E; [by apply elem_of_nil in Hx|]. apply NoDup_cons in Hn as [Hz Hn].
  apply elem_of_cons in Hx as [->|Hx], Hy as [->|Hy]; [done| | |by apply IH].
  - destruct Hz. rewrite E. by apply elem_of_list_fmap_1.
  - destruct Hz. rewrite <-E. by apply elem_of_list_fmap_1.
Qed.

Section Facts.
Context {PK A R : Type} `{Countable PK} (T : table PK A R) (okk : PK -> Prop) (oky : A -> Prop) (Hok : table_ok T okk oky).
Notation store := (gmap string (value R)).
Definition fit (g : gmap PK A) : Prop := forall k y, g !! k = Some y -> okk k /\ oky y.

Lemma ns_in i : i ∈ tb_ix T -> ix_ns i ∈ names T.
Proof. intros Hi. right. by apply elem_of_list_fmap_1. Qed.
Lemma ns_short ns : ns ∈ names T -> short ns.
Proof. intros Hn. pose proof (to_short Hok) as Hs. rewrite Forall_forall in Hs. by apply Hs. Qed.
Lemma ns_prim_ne i : i ∈ tb_ix T -> tb_ns T <> ix_ns i.
Proof. intros Hi E. pose proof (to_nodup Hok) as Hn. apply NoDup_cons in Hn as [Hn _]. apply Hn. rewrite E. by apply elem_of_list_fmap_1. Qed.
Lemma ns_index_inj i i' : i ∈ tb_ix T -> i' ∈ tb_ix T -> ix_ns i = ix_ns i' -> i = i'.
Proof. pose proof (to_nodup Hok) as Hn. apply NoDup_cons in Hn as [_ Hn]. by apply fmap_nodup_inj. Qed.
Lemma prim_in k : in_table T (prim_at T k).
Proof. exists (tb_ns T), (raw_pk T k). split; [by left|done]. Qed.
Lemma index_in k y i : i ∈ tb_ix T -> in_table T (index_at T k y i).
Proof. intros Hi. exists (ix_ns i), (lps (ix_of i y) +++ raw_pk T k). split; [by apply ns_in|done]. Qed.
Lemma entry_in g b v : entry T g b v -> in_table T b.
Proof. intros (k&y&_&[[-> _]|(i&Hi&->&_)]); [apply prim_in|by apply index_in]. Qed.
Lemma prim_inj k k' : okk k -> okk k' -> prim_at T k = prim_at T k' -> k = k'.
Proof. intros Hk Hk' E. apply app_cancel in E. by apply (to_pk Hok). Qed.
Lemma prim_index k k' y i : i ∈ tb_ix T -> prim_at T k <> index_at T k' y i.
Proof.
  intros Hi E. apply lp_inj in E as [E _]; [by apply (ns_prim_ne i)|apply ns_short; by left|by apply ns_short, ns_in].
Qed.
Lemma index_inj k k' y y' i i' : okk k -> okk k' -> oky y -> oky y' -> i ∈ tb_ix T -> i' ∈ tb_ix T ->
  index_at T k y i = index_at T k' y' i' -> k = k'.
Proof.
  intros Hk Hk' Hy Hy' Hi Hi' E. apply lp_inj in E as [E E']; [|by apply ns_short, ns_in..].
  apply ns_index_inj in E as ->; [|done..].
  apply lps_inj in E' as [_ E']; [by apply (to_pk Hok)|by apply (to_arity Hok)|by apply (to_parts Hok)..].
Qed.
Lemma get_prim g s k y : fit g -> represents T g s -> g !! k = Some y -> get_at T s (prim_at T k) = Some y.
Proof.
  intros Hf Hr Hy. unfold get_at. assert (s !! prim_at T k = Some (Rec (tb_in T y))) as -> by (apply Hr; [apply prim_in|]; exists k, y; auto).
  apply (to_out Hok).
Qed.
(** Loading a record. *)
Lemma load_represents g s k : fit g -> okk k -> represents T g s -> load T k s = g !! k.
Proof.
  intros Hf Hk Hr. destruct (g !! k) as [y|] eqn:E; [by eapply get_prim|]. unfold load, get_at.
  destruct (s !! prim_at T k) as [v|] eqn:Ev; [|done]. apply Hr in Ev as (k'&y'&Hy'&[[Ek _]|(i&Hi&Ek&_)]); [| |apply prim_in].
  - destruct (Hf _ _ Hy') as [Hk' _]. apply prim_inj in Ek; [|done..]. congruence.
  - by apply prim_index in Ek.
Qed.
Lemma drop_lookup l k y (s : store) b :
  foldr (fun i s => delete (index_at T k y i) s) s l !! b = if decide (b ∈ (index_at T k y <$> l)) then None else s !! b.
Proof.
  induction l as [|i l IH]; cbn [foldr fmap list_fmap].
  - rewrite decide_False by apply not_elem_of_nil. done.
  - destruct (decide (b = index_at T k y i)) as [->|Hn].
    + rewrite lookup_delete, decide_True by (by left). done.
    + rewrite lookup_delete_ne, IH by done. destruct (decide (b ∈ index_at T k y <$> l)) as [Hb|Hb].
      * rewrite decide_True by (by right). done.
      * rewrite decide_False; [done|]. by intros [?|?]%elem_of_cons.
Qed.
Lemma put_lookup l k y (s : store) b n :
  foldr (fun i s => <[index_at T k y i := Len n]> s) s l !! b = if decide (b ∈ (index_at T k y <$> l)) then Some (Len n) else s !! b.
Proof.
  induction l as [|i l IH]; cbn [foldr fmap list_fmap].
  - rewrite decide_False by apply not_elem_of_nil. done.
  - destruct (decide (b = index_at T k y i)) as [->|Hn].
    + rewrite lookup_insert, decide_True by (by left). done.
    + rewrite lookup_insert_ne, IH by done. destruct (decide (b ∈ index_at T k y <$> l)) as [Hb|Hb].
      * rewrite decide_True by (by right). done.
      * rewrite decide_False; [done|]. by intros [?|?]%elem_of_cons.
Qed.
(** The old index entries are gone, and nothing else. *)
Definition olds (g : gmap PK A) (k : PK) : list string := match g !! k with Some y => index_at T k y <$> tb_ix T | None => [] end.
Lemma olds_elem g k b : b ∈ olds g k <-> exists y i, g !! k = Some y /\ i ∈ tb_ix T /\ b = index_at T k y i.
Proof.
  unfold olds. destruct (g !! k) as [y|].
  - rewrite elem_of_list_fmap. split; [intros (i&->&Hi); by exists y, i|]. intros (y'&i&[= <-]&Hi&->). by exists i.
  - split; [by intros ?%elem_of_nil|]. by intros (?&?&?&_).
Qed.
Lemma drop_old_lookup g s k b : fit g -> okk k -> represents T g s -> index_drop_old T k s !! b = if decide (b ∈ olds g k) then None else s !! b.
Proof.
  intros Hf Hk Hr. unfold index_drop_old, olds. rewrite (load_represents g s k) by done. destruct (g !! k) as [y|] eqn:E.
  - apply drop_lookup.
  - rewrite decide_False by apply not_elem_of_nil. done.
Qed.
(** What is kept is what belongs to other keys. *)
Lemma kept g s k b v : fit g -> okk k -> represents T g s -> in_table T b -> b <> prim_at T k ->
  (if decide (b ∈ olds g k) then None else s !! b) = Some v <->
  exists k' y, k' <> k /\ g !! k' = Some y /\
    ((b = prim_at T k' /\ v = Rec (tb_in T y)) \/
     (exists i, i ∈ tb_ix T /\ b = index_at T k' y i /\ v = Len (N.of_nat (String.length (raw_pk T k'))))).
Proof.
  intros Hf Hk Hr Hb Hp. split.
  - destruct (decide (b ∈ olds g k)) as [|Ho]; [done|]. intros Hv. apply Hr in Hv as (k'&y&Hy&He); [|done]. exists k', y. split_and!; try done.
    intros ->. destruct He as [[-> _]|(i&Hi&->&_)]; [done|]. apply Ho, olds_elem. by exists y, i.
  - intros (k'&y&Hn&Hy&He). destruct (Hf _ _ Hy) as [Hk' Hy']. rewrite decide_False.
    + apply Hr; [done|]. by exists k', y.
    + intros (y0&i0&Hy0&Hi0&->)%olds_elem. destruct (Hf _ _ Hy0) as [_ Hy0']. apply Hn. symmetry. destruct He as [[E _]|(i&Hi&E&_)].
      * symmetry in E. by apply prim_index in E.
      * eapply index_inj; [..|exact E]; done.
Qed.
(** Saving a record. *)
Lemma save_represents g s k y : fit g -> okk k -> oky y -> represents T g s -> represents T (<[k := y]> g) (save T k y s).
Proof.
  intros Hf Hk Hy Hr b v Hb. unfold save. destruct (decide (b = prim_at T k)) as [->|Hp].
  - rewrite lookup_insert. split.
    + intros [= <-]. exists k, y. rewrite lookup_insert. auto.
    + intros (k'&y'&Hy'&[[E ->]|(i&Hi&E&_)]); [|by apply prim_index in E].
      assert (k' = k) as ->; [|rewrite lookup_insert in Hy'; by simplify_eq].
      destruct (decide (k' = k)) as [|Hn]; [done|]. rewrite lookup_insert_ne in Hy' by done. destruct (Hf _ _ Hy') as [Hk' _].
      symmetry. by apply prim_inj.
  - rewrite lookup_insert_ne by done. unfold index_put. rewrite put_lookup, (drop_old_lookup g) by done.
    destruct (decide (b ∈ index_at T k y <$> tb_ix T)) as [Hi|Hi].
    + apply elem_of_list_fmap in Hi as (i&->&Hi). split.
      * intros [= <-]. exists k, y. rewrite lookup_insert. split; [done|]. right. by exists i.
      * intros (k'&y'&Hy'&[[E _]|(i'&Hi'&E&->)]); [symmetry in E; by apply prim_index in E|].
        destruct (decide (k' = k)) as [->|Hn]; [done|]. rewrite lookup_insert_ne in Hy' by done. destruct (Hf _ _ Hy') as [Hk' Hy''].
        destruct Hn. symmetry. eapply index_inj; [..|exact E]; done.
    + rewrite kept by done. split.
      * intros (k'&y'&Hn&Hy'&He). exists k', y'. rewrite lookup_insert_ne by done. done.
      * intros (k'&y'&Hy'&He). destruct (decide (k' = k)) as [->|Hn].
        -- rewrite lookup_insert in Hy'. injection Hy' as <-. destruct He as [[E _]|(i&Hi'&E&_)]; [done|]. destruct Hi. rewrite E. by apply elem_of_list_fmap_1.
        -- rewrite lookup_insert_ne in Hy' by done. by exists k', y'.
Qed.
Lemma save_frame g s k y b : fit g -> okk k -> represents T g s -> ~ in_table T b -> save T k y s !! b = s !! b.
Proof.
  intros Hf Hk Hr Hb. unfold save, index_put. rewrite lookup_insert_ne by (intros <-; apply Hb, prim_in).
  rewrite put_lookup, (drop_old_lookup g) by done. rewrite !decide_False; [done|..].
  - intros (y'&i&_&Hi&->)%olds_elem. by apply Hb, index_in.
  - intros (i&->&Hi)%elem_of_list_fmap. by apply Hb, index_in.
Qed.
Lemma save_fit g k y : fit g -> okk k -> oky y -> fit (<[k := y]> g).
Proof. intros Hf Hk Hy k' y' [[<- <-]|[_ ?]]%lookup_insert_Some; [done|by apply Hf]. Qed.
(** Removing a record. *)
Lemma remove_represents g s k : fit g -> okk k -> represents T g s -> represents T (delete k g) (remove T k s).
Proof.
  intros Hf Hk Hr b v Hb. unfold remove. destruct (decide (b = prim_at T k)) as [->|Hp].
  - rewrite lookup_delete. split; [done|]. intros (k'&y'&[Hn Hy']%lookup_delete_Some&[[E _]|(i&Hi&E&_)]); [|by apply prim_index in E].
    destruct (Hf _ _ Hy') as [Hk' _]. by apply prim_inj in E.
  - rewrite lookup_delete_ne, (drop_old_lookup g), kept by done. split.
    + intros (k'&y'&Hn&Hy'&He). exists k', y'. rewrite lookup_delete_ne by done. done.
    + intros (k'&y'&[Hn Hy']%lookup_delete_Some&He). exists k', y'. done.
Qed.
Lemma remove_frame g s k b : fit g -> okk k -> represents T g s -> ~ in_table T b -> remove T k s !! b = s !! b.
Proof.
  intros Hf Hk Hr Hb. unfold remove. rewrite lookup_delete_ne by (intros <-; apply Hb, prim_in).
  rewrite (drop_old_lookup g) by done. rewrite decide_False; [done|]. intros (y'&i&_&Hi&->)%olds_elem. by apply Hb, index_in.
Qed.
Lemma remove_fit g k : fit g -> fit (delete k g).
Proof. intros Hf k' y' [_ ?]%lookup_delete_Some. by apply Hf. Qed.
(** The contents determine the store, and every contents has one. *)
Lemma represents_unique g s s' : represents T g s -> represents T g s' -> forall b, in_table T b -> s !! b = s' !! b.
Proof. intros Hs Hs' b Hb. apply option_eq. intros v. by rewrite (Hs b v Hb), (Hs' b v Hb). Qed.
Lemma represents_frame g s s' : represents T g s -> (forall b, in_table T b -> s' !! b = s !! b) -> represents T g s'.
Proof. intros Hs E b v Hb. rewrite E by done. by apply Hs. Qed.
Lemma represents_empty s : (forall b, in_table T b -> s !! b = None) -> represents T ∅ s.
Proof. intros Hs b v Hb. rewrite Hs by done. split; [done|]. by intros (k&y&Hy&_). Qed.
Lemma represents_exists g (s : store) : fit g -> (forall b, in_table T b -> s !! b = None) ->
  exists s', represents T g s' /\ forall b, ~ in_table T b -> s' !! b = s !! b.
Proof.
  intros Hf Hs. induction g as [|k y g Hk IH] using map_ind; [exists s; split; [by apply represents_empty|done]|].
  assert (okk k /\ oky y) as [Hk' Hy'] by (apply Hf; by rewrite lookup_insert).
  assert (fit g) as Hf' by (intros k' y' E; apply Hf; rewrite lookup_insert_ne; [done|]; intros <-; congruence).
  destruct (IH Hf') as (s'&Hr&Hfr). exists (save T k y s'). split; [by apply save_represents|].
  intros b Hb. rewrite (save_frame g) by done. by apply Hfr.
Qed.
End Facts.

(** * Reading in order *)
Definition enc_bound {K} (enc : K -> string) (b : qbound K) : qbound string := match b with BIncl k => BIncl (enc k) | BExcl k => BExcl (enc k) end.
Definition enc_opts {K} (enc : K -> string) (o : qopts K) : qopts string :=
  QOpts (qo_desc o) (qo_limit o) (enc_bound enc <$> qo_min o) (enc_bound enc <$> qo_max o).
Definition bound_key {K} (b : qbound K) : K := match b with BIncl k => k | BExcl k => k end.
(** Both bounds are keys that can be stored. *)
Definition opts_in {K} (dom : K -> Prop) (o : qopts K) : Prop :=
  forall b, qo_min o = Some b \/ qo_max o = Some b -> dom (bound_key b).

Section Sorting.
Context {K B : Type} (leb : K -> K -> bool) (key : B -> K) (dom : K -> Prop) (enc : K -> string) (He : embeds dom leb enc).
Context {V : Type} (f : B -> string * V).

Lemma sort_map l : (forall y, y ∈ l -> dom (key y) /\ fst (f y) = enc (key y)) ->
  sort_by str_leb fst (f <$> l) = f <$> sort_by leb key l.
Proof.
  intros Hl. induction l as [|y l IH]; [done|]. rewrite fmap_cons.
  change (insert_sorted str_leb fst (f y) (sort_by str_leb fst (f <$> l)) = f <$> insert_sorted leb key y (sort_by leb key l)).
  rewrite IH by (intros; apply Hl; by right).
  assert (forall z, z ∈ sort_by leb key l -> dom (key z) /\ fst (f z) = enc (key z)) as Hs.
  { intros z Hz. rewrite sort_by_perm in Hz. apply Hl. by right. }
  destruct (Hl y) as [Hd Hy]; [by left|]. clear IH. induction (sort_by leb key l) as [|z m IH]; [done|].
  cbn [fmap list_fmap insert_sorted]. destruct (Hs z) as [Hdz Hz]; [by left|]. rewrite Hy, Hz, He by done.
  destruct (leb (key y) (key z)); [done|]. cbn [fmap list_fmap]. f_equal. apply IH. intros; apply Hs; by right.
Qed.
Lemma filter_map (g : string * V -> bool) (h : B -> bool) l : (forall y, y ∈ l -> g (f y) = h y) -> List.filter g (f <$> l) = f <$> List.filter h l.
Proof.
  intros Hl. induction l as [|y l IH]; [done|]. cbn [fmap list_fmap List.filter]. rewrite Hl by (by left).
  change (list_fmap _ _ f l) with (f <$> l). rewrite IH by (intros; apply Hl; by right). by destruct (h y).
Qed.
Lemma scan_map l o : (forall y, y ∈ l -> dom (key y) /\ fst (f y) = enc (key y)) -> opts_in dom o ->
  index_scan str_leb fst (f <$> l) (enc_opts enc o) = f <$> index_scan leb key l o.
Proof.
  intros Hl Ho. unfold index_scan. rewrite sort_map by done.
  rewrite (filter_map _ (fun y => in_min leb (qo_min o) (key y) && in_max leb (qo_max o) (key y))).
  - unfold enc_opts. cbn [qo_desc]. destruct (default false (qo_desc o)); [|done]. by rewrite fmap_reverse.
  - intros y Hy. rewrite sort_by_perm in Hy. destruct (Hl y Hy) as [Hd E]. rewrite E. unfold enc_opts. cbn [qo_min qo_max]. f_equal.
    + unfold in_min. destruct (qo_min o) as [[k|k]|] eqn:Em; cbn [enc_bound fmap option_fmap option_map]; [| |done].
      * rewrite He; [done| |done]. by apply (Ho (BIncl k)); left.
      * rewrite He; [done|done|]. by apply (Ho (BExcl k)); left.
    + unfold in_max. destruct (qo_max o) as [[k|k]|] eqn:Em; cbn [enc_bound fmap option_fmap option_map]; [| |done].
      * rewrite He; [done|done|]. by apply (Ho (BIncl k)); right.
      * rewrite He; [done| |done]. by apply (Ho (BExcl k)); right.
Qed.
End Sorting.

Lemma sorted_unique {B} (R : B -> B -> Prop) l1 l2 : (forall x y, x ∈ l1 -> y ∈ l2 -> R x y -> R y x -> x = y) ->
  StronglySorted R l1 -> StronglySorted R l2 -> l1 ≡ₚ l2 -> l1 = l2.
Proof.
  intros Ha Hl1. revert l2 Ha. induction Hl1 as [|x1 l1 ? IH Hx1]; intros l2 Ha Hl2 E; [symmetry; by apply Permutation_nil|].
  destruct Hl2 as [|x2 l2 ? Hx2]; [by apply Permutation_nil_r in E|].
  assert (x1 = x2) as ->.
  { rewrite Forall_forall in Hx1, Hx2. assert (x2 ∈ x1 :: l1) as Hx2' by (rewrite E; by left).
    assert (x1 ∈ x2 :: l2) as Hx1' by (rewrite <-E; by left).
    apply elem_of_cons in Hx1' as [?|Hx1']; [done|]. apply elem_of_cons in Hx2' as [?|Hx2']; [done|]. apply Ha; [by left|by left|by apply Hx1|by apply Hx2]. }
  f_equal. apply IH; [|done|by apply (inj (x2 ::.))]. intros; apply Ha; [by right..|done|done].
Qed.
Lemma scan_perm {V} (l l' : list (string * V)) o : NoDup (fst <$> l) -> l ≡ₚ l' -> index_scan str_leb fst l o = index_scan str_leb fst l' o.
Proof.
  intros Hn Hp. unfold index_scan. assert (sort_by str_leb fst l = sort_by str_leb fst l') as ->; [|done].
  apply (sorted_unique (kle str_leb fst)).
  - intros u w Hu Hw H1 H2. rewrite sort_by_perm in Hu, Hw. rewrite <-Hp in Hw. unfold kle in *.
    apply (fmap_nodup_inj fst l); try done. by apply str_leb_antisym.
  - apply sort_by_sorted; [apply str_leb_total|apply str_leb_trans].
  - apply sort_by_sorted; [apply str_leb_total|apply str_leb_trans].
  - by rewrite !sort_by_perm.
Qed.

Section Below.
Context {R : Type}.
Notation store := (gmap string (value R)).
Lemma below_elem P (s : store) x v : (x, v) ∈ below P s <-> s !! (P +++ x) = Some v.
Proof.
  unfold below. rewrite elem_of_list_omap. split.
  - intros ([b w]&Hb&E). cbn [fst snd] in E. apply elem_of_map_to_list in Hb. destruct (strip P b) as [x'|] eqn:Es; [|done].
    cbn in E. injection E as -> ->. by apply strip_Some in Es as ->.
  - intros E. exists (P +++ x, v). split; [by apply elem_of_map_to_list|]. cbn [fst snd]. by rewrite strip_app.
Qed.
Lemma below_nodup P (s : store) : NoDup (fst <$> below P s).
Proof.
  unfold below. pose proof (NoDup_fst_map_to_list s) as Hn. induction (map_to_list s) as [|[b v] l IH]; [constructor|].
  cbn in Hn. apply NoDup_cons in Hn as [Hb Hn]. cbn [omap list_omap fst snd]. destruct (strip P b) as [x|] eqn:Es; cbn [fmap option_fmap option_map]; [|by apply IH].
  cbn [fmap list_fmap fst]. apply NoDup_cons. split; [|by apply IH]. intros ([x' v']&E&Hx)%elem_of_list_fmap. cbn in E. subst x'.
  apply elem_of_list_omap in Hx as ([b' w]&Hb'&E). cbn [fst snd] in E. destruct (strip P b') as [x'|] eqn:Es'; [|done]. cbn in E. injection E as -> ->.
  apply strip_Some in Es as ->. apply strip_Some in Es' as ->. apply Hb. apply elem_of_list_fmap. by exists (P +++ x, v').
Qed.
Lemma below_perm {B} P (s : store) (f : B -> string * value R) l :
  NoDup l -> (forall y z, y ∈ l -> z ∈ l -> f y = f z -> y = z) -> (forall x v, s !! (P +++ x) = Some v <-> exists y, y ∈ l /\ f y = (x, v)) ->
  below P s ≡ₚ f <$> l.
Proof.
  intros Hl Hi Hs. apply NoDup_Permutation.
  - apply (NoDup_fmap_1 fst), below_nodup.
  - clear Hs. induction Hl as [|y l Hy Hl IH]; [constructor|]. cbn. apply NoDup_cons. split.
    + intros (z&E&Hz)%elem_of_list_fmap. apply Hi in E as ->; [done|by left|by right].
    + apply IH. intros; apply Hi; [by right..|done].
  - intros [x v]. rewrite below_elem, Hs, elem_of_list_fmap. split; intros (y&?&?); by exists y.
Qed.
Lemma tail_app a b : tail_bytes (String.length b) (a +++ b) = b.
Proof.
  unfold tail_bytes. rewrite str_length_app. replace (String.length a + String.length b - String.length b)%nat with (String.length a) by lia.
  induction a as [|c a IH]; [|rewrite str_app_cons; exact IH]. rewrite str_app_nil. cbn [String.length].
  induction b as [|c b IH]; [done|]. cbn [String.length substring]. by rewrite IH.
Qed.
End Below.

Section Read.
Context {PK A R : Type} `{Countable PK} (T : table PK A R) (okk : PK -> Prop) (oky : A -> Prop) (Hok : table_ok T okk oky).
Context (g : gmap PK A) (s : gmap string (value R)) (Hf : fit okk oky g) (Hr : represents T g s).
Context {K : Type} (leb : K -> K -> bool) (key : PK * A -> K) (dom : K -> Prop) (enc : K -> string) (He : embeds dom leb enc).

(** Reading an index below the parts [c]: the records whose index begins with [c], in the order of the remaining parts and the
    primary key. *)
Lemma read_index_scan i c (sel : A -> bool) o : i ∈ tb_ix T -> Forall short c ->
  (forall y, oky y -> (length c <= length (ix_of i y))%nat /\ (sel y = true <-> take (length c) (ix_of i y) = c)) ->
  (forall k y, g !! k = Some y -> sel y = true -> dom (key (k, y)) /\ enc (key (k, y)) = lps (drop (length c) (ix_of i y)) +++ raw_pk T k) ->
  opts_in dom o ->
  read_index T (lp (ix_ns i) +++ lps c) (enc_opts enc o) s = snd <$> index_scan leb key (List.filter (fun u => sel (snd u)) (map_to_list g)) o.
Proof.
  intros Hi Hc Hsel Hkey Ho. set (L := List.filter (fun u => sel (snd u)) (map_to_list g)).
  assert (forall k y, (k, y) ∈ L <-> g !! k = Some y /\ sel y = true) as HL.
  { intros k y. unfold L. rewrite elem_of_list_In, filter_In, <-elem_of_list_In, elem_of_map_to_list. done. }
  set (f := fun u : PK * A => (enc (key u), @Len R (N.of_nat (String.length (raw_pk T (fst u)))))).
  assert (below (lp (ix_ns i) +++ lps c) s ≡ₚ f <$> L) as Hp.
  { apply below_perm.
    - unfold L. apply NoDup_ListNoDup, List.NoDup_filter, NoDup_ListNoDup, NoDup_map_to_list.
    - intros [k y] [k' y'] [Hy Hs]%HL [Hy' Hs']%HL E. destruct (Hf _ _ Hy) as [Hk Hok1], (Hf _ _ Hy') as [Hk' Hok2].
      destruct (Hkey _ _ Hy Hs) as [_ E1], (Hkey _ _ Hy' Hs') as [_ E2]. unfold f in E. injection E as E _.
      assert (k = k') as <-; [|congruence]. apply (index_inj T okk oky Hok k k' y y' i i); try done. unfold index_at. f_equal.
      destruct (Hsel y Hok1) as [_ Hc1]. destruct (Hsel y' Hok2) as [_ Hc2]. apply Hc1 in Hs. apply Hc2 in Hs'.
      rewrite <-(take_drop (length c) (ix_of i y)), <-(take_drop (length c) (ix_of i y')), Hs, Hs'.
      assert (forall a b, lps (a ++ b) = lps a +++ lps b) as Happ
        by (intros a b; induction a as [|z a IH]; [done|]; cbn [lps app]; by rewrite IH, str_app_assoc).
      rewrite !Happ, <-!str_app_assoc. f_equal. by rewrite <-E1, <-E2.
    - intros x v. rewrite <-str_app_assoc.
      assert (forall a b, lps (a ++ b) = lps a +++ lps b) as Happ
        by (intros a b; induction a as [|z a IH]; [done|]; cbn [lps app]; by rewrite IH, str_app_assoc).
      rewrite (Hr _ v) by (eexists _, _; split; [by apply ns_in, Hi|done]). split.
      + intros (k&y&Hy&[[E _]|(i'&Hi'&E&->)]).
        * apply lp_inj in E as [E _]; [symmetry in E; by apply (ns_prim_ne T okk oky Hok i) in E|by apply (ns_short T okk oky Hok), ns_in|].
          apply (ns_short T okk oky Hok). by left.
        * apply lp_inj in E as [E E']; [|by apply (ns_short T okk oky Hok), ns_in..]. apply (ns_index_inj T okk oky Hok) in E as <-; [|done..].
          destruct (Hf _ _ Hy) as [Hk Hy1]. destruct (Hsel y Hy1) as [Hlen Hc1].
          rewrite <-(take_drop (length c) (ix_of i y)), Happ, <-str_app_assoc in E'.
          pose proof (to_parts Hok i y Hi Hy1) as Hsh. rewrite <-(take_drop (length c) (ix_of i y)) in Hsh. apply Forall_app in Hsh as [Hsh _].
          apply lps_inj in E' as [Ec ->]; [|rewrite take_length; lia|done|done].
          assert (sel y = true) as Hs by (by apply Hc1). exists (k, y). split; [by apply HL|]. unfold f. destruct (Hkey _ _ Hy Hs) as [_ ->]. done.
      + intros ([k y]&[Hy Hs]%HL&E). unfold f in E. cbn [fst] in E. injection E as <- <-. destruct (Hkey _ _ Hy Hs) as [_ ->].
        exists k, y. split; [done|]. right. exists i. split_and!; [done| |done]. unfold index_at. f_equal.
        destruct (Hf _ _ Hy) as [_ Hy1]. destruct (Hsel y Hy1) as [_ Hc1]. apply Hc1 in Hs.
        rewrite <-(take_drop (length c) (ix_of i y)) at 2. by rewrite Hs, Happ, <-str_app_assoc. }
  unfold read_index. rewrite (scan_perm _ (f <$> L)) by (done || apply below_nodup).
  rewrite (scan_map leb key dom enc He f) by (done || (intros [k y] [Hy Hs]%HL; split; [by apply Hkey|done])).
  assert (forall u, u ∈ index_scan leb key L o -> u ∈ L) as Hin by (intros u Hu; by apply index_scan_elem in Hu as [? _]).
  induction (index_scan leb key L o) as [|[k y] l IH]; [done|]. cbn [fmap list_fmap omap list_omap fst snd f].
  assert ((k, y) ∈ L) as [Hy Hs]%HL by (apply Hin; by left). destruct (Hkey _ _ Hy Hs) as [_ ->].
  rewrite Nat2N.id, tail_app. change (lp (tb_ns T) +++ raw_pk T k) with (prim_at T k). rewrite (get_prim T okk oky Hok g s k y) by done.
  f_equal. apply IH. intros; apply Hin; by right.
Qed.
(** Reading the map itself. *)
Lemma read_pairs_scan o :
  (forall k y, g !! k = Some y -> dom (key (k, y)) /\ enc (key (k, y)) = raw_pk T k) -> opts_in dom o ->
  read_pairs T (lp (tb_ns T)) (enc_opts enc o) s = (fun u => (raw_pk T (fst u), snd u)) <$> index_scan leb key (map_to_list g) o.
Proof.
  intros Hkey Ho. set (L := map_to_list g).
  assert (forall k y, (k, y) ∈ L <-> g !! k = Some y) as HL by (intros k y; apply elem_of_map_to_list).
  set (f := fun u : PK * A => (enc (key u), @Rec R (tb_in T (snd u)))).
  assert (below (lp (tb_ns T)) s ≡ₚ f <$> L) as Hp.
  { apply below_perm.
    - apply NoDup_map_to_list.
    - intros [k y] [k' y'] Hy%HL Hy'%HL E. destruct (Hf _ _ Hy) as [Hk _], (Hf _ _ Hy') as [Hk' _].
      destruct (Hkey _ _ Hy) as [_ E1], (Hkey _ _ Hy') as [_ E2]. unfold f in E. injection E as E _.
      assert (k = k') as <-; [|congruence]. apply (to_pk Hok); try done. congruence.
    - intros x v. rewrite (Hr _ v) by (eexists _, _; split; [by left|done]). split.
      + intros (k&y&Hy&[[E ->]|(i'&Hi'&E&->)]).
        * apply app_cancel in E as ->. exists (k, y). split; [by apply HL|]. unfold f. destruct (Hkey _ _ Hy) as [_ ->]. done.
        * apply lp_inj in E as [E _]; [by apply (ns_prim_ne T okk oky Hok i') in E|apply (ns_short T okk oky Hok); by left|].
          by apply (ns_short T okk oky Hok), ns_in.
      + intros ([k y]&Hy%HL&E). unfold f in E. cbn [fst snd] in E. injection E as <- <-. destruct (Hkey _ _ Hy) as [_ ->].
        exists k, y. split; [done|]. by left. }
  unfold read_pairs. rewrite (scan_perm _ (f <$> L)) by (done || apply below_nodup).
  rewrite (scan_map leb key dom enc He f) by (done || (intros [k y] Hy%HL; split; [by apply Hkey|done])).
  assert (forall u, u ∈ index_scan leb key L o -> u ∈ L) as Hin by (intros u Hu; by apply index_scan_elem in Hu as [? _]).
  induction (index_scan leb key L o) as [|[k y] l IH]; [done|]. cbn [fmap list_fmap omap list_omap fst snd f].
  assert ((k, y) ∈ L) as Hy%HL by (apply Hin; by left). destruct (Hkey _ _ Hy) as [_ ->].
  rewrite (to_out Hok). cbn [fmap option_fmap option_map]. f_equal. apply IH. intros; apply Hin; by right.
Qed.
Lemma read_map_pairs P o : read_map T P o s = snd <$> read_pairs T P o s.
Proof.
  unfold read_map, read_pairs. induction (index_scan str_leb fst (below P s) o) as [|[b [r|n]] l IH]; [done| |done].
  cbn [omap list_omap snd fst]. destruct (tb_out T r); cbn [fmap option_fmap option_map list_fmap]; by rewrite <-?IH.
Qed.
Lemma read_map_scan o :
  (forall k y, g !! k = Some y -> dom (key (k, y)) /\ enc (key (k, y)) = raw_pk T k) -> opts_in dom o ->
  read_map T (lp (tb_ns T)) (enc_opts enc o) s = snd <$> index_scan leb key (map_to_list g) o.
Proof. intros Hkey Ho. rewrite read_map_pairs, read_pairs_scan by done. rewrite <-list_fmap_compose. done. Qed.
End Read.

(** * Keys of the contracts *)
Lemma embeds_ext {K} (dom : K -> Prop) leb leb' enc : (forall k k', leb' k k' = leb k k') -> embeds dom leb enc -> embeds dom leb' enc.
Proof. intros E He k k' Hk Hk'. rewrite E. by apply He. Qed.
Lemma lp_be n x : lp (be_bytes n x) = be_bytes 2 (N.of_nat n) +++ be_bytes n x.
Proof. unfold lp. by rewrite be_bytes_length. Qed.
Lemma embeds_lp_be n : embeds (fun x => x < 256 ^ N.of_nat n) N.leb (fun x => lp (be_bytes n x)).
Proof. intros x y Hx Hy. rewrite !lp_be, leb_app_same. by apply embeds_be. Qed.
Lemma splits_lp_be n : splits (fun x => x < 256 ^ N.of_nat n) (fun x => lp (be_bytes n x)).
Proof. intros x y Hx Hy Hn. rewrite !lp_be. by apply apart_app_l, splits_be. Qed.
Lemma lps_app l l' : lps (l ++ l') = lps l +++ lps l'.
Proof. induction l as [|s l IH]; [done|]. cbn [lps app]. by rewrite IH, str_app_assoc. Qed.
Lemma short_be n x : N.of_nat n < 65536 -> short (be_bytes n x).
Proof. unfold short. by rewrite be_bytes_length. Qed.

Lemma pow4 : 256 ^ N.of_nat 4 = 2 ^ 32. Proof. vm_compute. reflexivity. Qed.
Lemma pow8 : 256 ^ N.of_nat 8 = 2 ^ 64. Proof. vm_compute. reflexivity. Qed.
Lemma pow16 : 256 ^ N.of_nat 16 = 2 ^ 128. Proof. vm_compute. reflexivity. Qed.
(** A number of [n] bytes, then a key. *)
Lemma embeds_number {K} n m (dom : K -> Prop) leb enc : 256 ^ N.of_nat n = m -> embeds dom leb enc ->
  embeds (fun u : N * K => fst u < m /\ dom (snd u)) (V1Model.lex_leb N.leb leb) (fun u => lp (be_bytes n (fst u)) +++ enc (snd u)).
Proof. intros <- He. exact (embeds_lex _ _ _ _ _ _ (embeds_lp_be n) (splits_lp_be n) He). Qed.
(** A name, then a key. *)
Lemma embeds_name {K} (dom : K -> Prop) leb enc : embeds dom leb enc ->
  embeds (fun u : string * K => short (fst u) /\ dom (snd u)) (V1Model.lex_leb V1Model.lenstr_leb leb) (fun u => lp (fst u) +++ enc (snd u)).
Proof. intros He. exact (embeds_lex _ _ _ _ _ _ embeds_lp splits_lp He). Qed.
Lemma read_all {B} (l : list B) : List.filter (fun _ => true) l = l.
Proof. induction l as [|x l IH]; [done|]. cbn. by rewrite IH. Qed.

(** Regions of the store: two tables without a common namespace share no byte key, and the key of an item is in no table. *)
Lemma tables_apart {PK A PK' A' R} (T : table PK A R) (T' : table PK' A' R) b :
  Forall short (names T) -> Forall short (names T') -> Forall (fun ns => ns ∉ names T') (names T) -> in_table T b -> in_table T' b -> False.
Proof.
  rewrite !Forall_forall. intros H1 H2 Hn (ns&x&Hns&->) (ns'&x'&Hns'&E). apply lp_inj in E as [-> _]; [|by apply H1|by apply H2].
  by apply (Hn ns').
Qed.
Definition item_key (b : string) : Prop := match b with String c _ => c <> Ascii.zero | EmptyString => True end.
Lemma item_apart {PK A R} (T : table PK A R) b : Forall (fun ns => N.of_nat (String.length ns) < 256) (names T) -> item_key b -> ~ in_table T b.
Proof.
  rewrite Forall_forall. intros Hs Hb (ns&x&Hns&->). specialize (Hs _ Hns). unfold lp in Hb. revert Hb.
  cbn [be_bytes]. rewrite N.div_small by done. vm_compute (be_bytes 0 _). intros H. apply H. done.
Qed.

Lemma in_table_strip {PK A R} (T : table PK A R) b : in_table T b <-> Exists (fun ns => is_Some (strip (lp ns) b)) (names T).
Proof.
  rewrite Exists_exists. split.
  - intros (ns&x&Hn&->). exists ns. split; [done|]. rewrite strip_app. eauto.
  - intros (ns&Hn&x&Hx). exists ns, x. split; [done|]. by apply strip_Some.
Qed.
Global Instance in_table_dec {PK A R} (T : table PK A R) b : Decision (in_table T b).
Proof. refine (cast_if (decide (Exists (fun ns => is_Some (strip (lp ns) b)) (names T)))); by rewrite in_table_strip. Defined.

Lemma represents_none {PK A R} `{Countable PK} (T : table PK A R) (s : gmap string (value R)) b : represents T ∅ s -> in_table T b -> s !! b = None.
Proof. intros Hr Hb. destruct (s !! b) as [v|] eqn:E; [|done]. apply (Hr b v Hb) in E as (k&y&Hy&_). done. Qed.

(** The conditions on namespaces, by computation. *)
Definition names_check (l : list string) : bool :=
  bool_decide (NoDup l) && forallb (fun ns => N.of_nat (String.length ns) <? 256) l.
Lemma names_short l : names_check l = true -> NoDup l /\ Forall short l /\ Forall (fun ns => N.of_nat (String.length ns) < 256) l.
Proof.
  unfold names_check. rewrite andb_true_iff, bool_decide_eq_true, forallb_forall. intros [Hn Hs]. split; [done|].
  rewrite !Forall_forall. unfold short. split; intros x Hx%elem_of_list_In%Hs%N.ltb_lt; lia.
Qed.
Lemma table_ok_intro {PK A R} (T : table PK A R) (okk : PK -> Prop) (oky : A -> Prop) :
  names_check (names T) = true -> (forall k k', okk k -> okk k' -> raw_pk T k = raw_pk T k' -> k = k') -> (forall y, tb_out T (tb_in T y) = Some y) ->
  (forall i y y', i ∈ tb_ix T -> oky y -> oky y' -> length (ix_of i y) = length (ix_of i y')) ->
  (forall i y, i ∈ tb_ix T -> oky y -> Forall short (ix_of i y)) -> table_ok T okk oky.
Proof. intros (Hn&Hs&_)%names_short. by split. Qed.
Lemma tables_apart_b {PK A PK' A' R} (T : table PK A R) (T' : table PK' A' R) b :
  names_check (names T ++ names T') = true -> in_table T b -> in_table T' b -> False.
Proof.
  intros (Hn&Hs&_)%names_short. apply NoDup_app in Hn as (_&Hn&_). apply Forall_app in Hs as [H1 H2].
  apply tables_apart; [done..|]. by apply Forall_forall.
Qed.
Definition item_check (b : string) : bool := match b with String c _ => negb (N_of_ascii c =? 0) | EmptyString => true end.
Lemma item_apart_b {PK A R} (T : table PK A R) b : names_check (names T) && item_check b = true -> in_table T b -> False.
Proof.
  intros [(_&_&Hs)%names_short Hb]%andb_true_iff. apply item_apart; [done|]. destruct b as [|c b]; [done|]. cbn in *. intros ->. done.
Qed.
