(** Reserve auction queries: sorted, complete and pageable (C51). *)
From Verif Require Import Base BaseFacts Common Chain ChainFacts IndexRange IndexFacts QuerySpec IndexWalk V2Query
  RAModel RASpec RAFacts RAIndex RAInv.

(** * Walking from a starting key, for any query whose answers are pages *)
Section Walk.
Context {K A : Type} (before : K -> K -> Prop) (key : A -> K) (matching : A -> Prop) (d : bool) (limit : option N).
Context (query : K -> list A).
Context (before_irrefl : forall x, ~ before x x) (before_trans : forall x y z, before x y -> before y z -> before x z).
Context (Hpage : forall k, page before key matching (unpack_query_options (Some d) limit (Some k)) (query k)).
Context (Hlim : limit <> Some 0).

Definition comes_after (k : K) (x : A) : Prop := if d then before (key x) k else before k (key x).

Fixpoint walk_after (k : K) (fuel : nat) : list A :=
  match fuel with
  | O => []
  | S fuel => let res := query k in
      match last res with None => [] | Some x => res ++ walk_after (key x) fuel end
  end.

Lemma after_in_range k x : in_range before (unpack_query_options (Some d) limit (Some k)) (key x) <-> comes_after k x.
Proof. unfold in_range, comes_after, unpack_query_options. destruct d; cbn; tauto. Qed.
Lemma after_precedes x y : precedes before key d x y <-> comes_after (key x) y.
Proof. unfold precedes, comes_after. by destruct d. Qed.
Lemma comes_after_trans k x y : comes_after k x -> comes_after (key x) y -> comes_after k y.
Proof. unfold comes_after. destruct d; eauto. Qed.
Lemma comes_after_irrefl x : ~ comes_after (key x) x.
Proof. unfold comes_after. destruct d; auto. Qed.

Lemma walk_after_all fuel : forall k (L : list A),
  (forall x, matching x -> comes_after k x -> x ∈ L) -> (length L < fuel)%nat ->
  StronglySorted (precedes before key d) (walk_after k fuel) /\
  (forall x, x ∈ walk_after k fuel <-> matching x /\ comes_after k x).
Proof.
  induction fuel as [|fuel IH]; intros k L HL Hlen; [lia|]. cbn [walk_after].
  pose proof (Hpage k) as [H1 H2 H3 H4].
  assert (descending (unpack_query_options (Some d) limit (Some k)) = d) as Ed by (by destruct d).
  rewrite Ed in H1, H4.
  assert (forall x, x ∈ query k -> matching x /\ comes_after k x) as Hs.
  { intros x Hx. apply H2 in Hx as [? Hx]. split; [done|]. by apply after_in_range. }
  assert (page_size (unpack_query_options (Some d) limit (Some k)) <> 0%nat) as Hn.
  { unfold page_size. assert (qo_limit (unpack_query_options (Some d) limit (Some k)) = limit) as -> by (by destruct d).
    destruct limit as [n|]; cbn; [|done]. assert (n <> 0) by congruence. lia. }
  destruct (last (query k)) as [z|] eqn:Ez.
  2: { apply last_None in Ez. rewrite Ez in *. cbn in *. split; [constructor|]. intros x. rewrite elem_of_nil.
       split; [done|]. intros [Hx Ha]. apply after_in_range in Ha. destruct (H4 x Hx Ha) as [Hin|[E _]]; [by apply elem_of_nil in Hin|].
       by rewrite <-E in Hn. }
  apply last_Some in Ez as [l' Ez].
  assert (z ∈ query k) as Hz by (rewrite Ez, elem_of_app, elem_of_list_singleton; auto).
  assert (forall x, x ∈ query k -> x = z \/ comes_after (key x) z) as Hle.
  { intros x Hx. rewrite Ez in H1, Hx. apply sorted_app in H1 as (_&_&H1).
    apply elem_of_app in Hx as [Hx|Hx%elem_of_list_singleton]; [right|by left].
    apply after_precedes, H1; [done|by apply elem_of_list_singleton]. }
  destruct (Hs z Hz) as [Hmz Haz].
  destruct (elem_of_list_split _ _ (HL z Hmz Haz)) as (L1&L2&EL).
  destruct (IH (key z) (L1 ++ L2)) as [I1 I2].
  { intros x Hx Hax. assert (x ∈ L) as Hin by (apply HL; eauto using comes_after_trans).
    rewrite EL in Hin. rewrite elem_of_app, elem_of_cons in Hin. rewrite elem_of_app.
    destruct Hin as [?|[->|?]]; [by auto| |by auto]. by apply comes_after_irrefl in Hax. }
  { rewrite EL in Hlen. rewrite app_length in *. cbn in Hlen. lia. }
  split.
  - apply sorted_app. split; [done|]. split; [done|]. intros x y Hx Hy. apply I2 in Hy as [_ Hy]. apply after_precedes.
    destruct (Hle x Hx) as [->|?]; [done|]. by eapply comes_after_trans.
  - intros x. rewrite elem_of_app, I2. split.
    + intros [Hx|[Hx Ha]]; [by apply Hs|]. split; [done|]. by eapply comes_after_trans.
    + intros [Hx Ha]. apply after_in_range in Ha. destruct (H4 x Hx Ha) as [?|[_ Hb]]; [by left|right].
      split; [done|]. by apply after_precedes, Hb.
Qed.
End Walk.

Section Query.
Context (p : params) (st : state) (Hwf : wf p st).

Lemma key_ok k a : s_auctions st !! k = Some a -> a_key a = k.
Proof. intros H. by apply (wf_auction _ _ Hwf) in H as [<- _]. Qed.

Ltac orders := first [exact ekey_leb_total|exact ekey_leb_trans|exact ekey_leb_antisym|exact ekey_leb_before
  |exact akey_leb_total|exact akey_leb_trans|exact akey_leb_antisym|exact akey_leb_before
  |exact str_leb_total|exact str_leb_trans|exact str_leb_antisym|exact str_leb_before].

(** Auctions of one seller. *)
Lemma elem_auction_filter (f : akey * auction -> bool) k x :
  (k, x) ∈ List.filter f (map_to_list (s_auctions st)) <-> s_auctions st !! k = Some x /\ f (k, x) = true.
Proof. by rewrite elem_of_list_In, filter_In, <-elem_of_list_In, elem_of_map_to_list. Qed.
Lemma auction_filter_len (f : akey * auction -> bool) :
  (length (List.filter f (map_to_list (s_auctions st))) <= size (s_auctions st))%nat.
Proof. unfold size, map_size. induction (map_to_list (s_auctions st)) as [|x l IH]; cbn; [done|]. destruct (f x); cbn; lia. Qed.

Lemma seller_entries seller y :
  (exists x, x ∈ List.filter (fun x => bool_decide (a_seller (snd x) = seller)) (map_to_list (s_auctions st)) /\ y = snd x) <->
  (s_auctions st !! a_key y = Some y /\ a_seller y = seller).
Proof.
  split.
  - intros ([k x]&Hx&->). apply elem_auction_filter in Hx as [Hx Hf]. cbn in *. rewrite (key_ok _ _ Hx). split; [done|].
    by apply bool_decide_eq_true in Hf.
  - intros [Hy Hs]. exists (a_key y, y). split; [|done]. apply elem_auction_filter. split; [done|]. by apply bool_decide_eq_true.
Qed.
Lemma seller_page seller desc limit after res :
  query_auctions_by_seller p st seller desc limit after = Ok res ->
  page key_before a_key (fun x => s_auctions st !! a_key x = Some x /\ a_seller x = seller)
    (unpack_query_options desc limit after) res.
Proof.
  unfold query_auctions_by_seller. intros (u&_&H)%bind_Ok. injection H as <-.
  apply query_page; try orders; [apply nodup_filter_fmap, NoDup_fst_map_to_list| |apply seller_entries].
  intros [k x] [Hx _]%elem_auction_filter. cbn. by apply key_ok.
Qed.
Lemma seller_walk seller desc limit fuel :
  p_valid p seller = true -> limit <> Some 0 -> (size (s_auctions st) < fuel)%nat ->
  complete_walk key_before a_key (fun x => s_auctions st !! a_key x = Some x /\ a_seller x = seller) desc
    (walk a_key (fun o => match query_auctions_by_seller p st seller (qo_desc o) (qo_limit o)
                                  (match (if desc then qo_max o else qo_min o) with Some (BExcl k) => Some k | _ => None end) with
                          | Ok l => l | Err _ => [] end) desc limit None fuel).
Proof.
  intros Hv Hlim Hfuel.
  set (L := List.filter (fun x : akey * auction => bool_decide (a_seller (snd x) = seller)) (map_to_list (s_auctions st))).
  assert (complete_walk key_before a_key (fun x => s_auctions st !! a_key x = Some x /\ a_seller x = seller) desc
    (walk a_key (fun o => snd <$> index_range akey_leb fst L o) desc limit None fuel)) as H.
  { apply query_walk; try orders; [apply nodup_filter_fmap, NoDup_fst_map_to_list| |apply seller_entries|done|].
    - intros [k x] [Hx _]%elem_auction_filter. cbn. by apply key_ok.
    - eapply Nat.le_lt_trans; [apply auction_filter_len|done]. }
  assert (forall after, walk a_key (fun o => snd <$> index_range akey_leb fst L o) desc limit after fuel =
    walk a_key (fun o => match query_auctions_by_seller p st seller (qo_desc o) (qo_limit o)
                                  (match (if desc then qo_max o else qo_min o) with Some (BExcl k) => Some k | _ => None end) with
                          | Ok l => l | Err _ => [] end) desc limit after fuel) as <-; [|exact H].
  clear Hfuel H. induction fuel as [|fuel IH]; intros after; [done|]. cbn [walk].
  match goal with |- context [query_auctions_by_seller ?a ?b ?c ?d ?e ?f] => set (q := query_auctions_by_seller a b c d e f) end.
  assert (q = Ok (snd <$> index_range akey_leb fst L
     (if desc then QOpts (Some true) limit None (BExcl <$> after) else QOpts (Some false) limit (BExcl <$> after) None))) as ->.
  { unfold q, query_auctions_by_seller, addr_validate. rewrite Hv. cbn [mbind result_bind]. f_equal. f_equal. unfold L. f_equal.
    destruct desc, after; reflexivity. }
  destruct (last _); [|done]. f_equal. apply IH.
Qed.

(** Auctions by end time: those of the second [t] after the given key and those ending later, or the other way round. *)
Definition in_end_index (d : bool) (x : auction) : Prop :=
  s_auctions st !! a_key x = Some x /\ (d = false -> end_second x < U64_MAX).
Lemma end_entries y : (exists x, x ∈ map_to_list (s_auctions st) /\ y = snd x) <-> s_auctions st !! a_key y = Some y.
Proof.
  split.
  - intros ([k x]&Hx&->). rewrite elem_of_map_to_list in Hx. cbn. by rewrite (key_ok _ _ Hx).
  - intros Hy. exists (a_key y, y). by rewrite elem_of_map_to_list.
Qed.
Lemma below_empty n k m : end_before (n, k) (m, ("", "")) <-> n < m.
Proof.
  unfold end_before. cbn. split; [|by left]. intros [?|[_ Hb]]; [done|]. exfalso.
  destruct Hb as [Hb|(_&[Hb|[_ Hb]])]; cbn in Hb; [lia| |]; apply str_leb_before in Hb; by rewrite str_leb_empty in Hb.
Qed.
Lemma end_page t desc limit after :
  page end_before a_ekey (in_end_index (default false desc))
    (unpack_query_options desc limit (Some (t, default ("", "") after)))
    (query_auctions_by_end_time st t desc limit after).
Proof.
  unfold query_auctions_by_end_time.
  match goal with |- page _ _ _ _ (_ <$> index_range _ _ _ ?oo) => set (o := oo) end.
  assert (page end_before a_ekey (fun x => s_auctions st !! a_key x = Some x) o
    (snd <$> index_range ekey_leb entry_ekey (map_to_list (s_auctions st)) o)) as [H1 H2 H3 H4].
  { apply query_page; try orders; [by eapply entry_key_nodup| |apply end_entries].
    intros [k x] Hx. cbn. by eapply entry_key. }
  set (o' := unpack_query_options desc limit (Some (t, default ("", "") after))).
  assert (@descending (N * akey) o = descending o') as Ed by done. assert (@page_size (N * akey) o = page_size o') as El by done.
  rewrite Ed in H1, H4. rewrite El in H3, H4.
  assert (forall x, in_range end_before o (a_ekey x) <->
    in_range end_before o' (a_ekey x) /\ (default false desc = false -> end_second x < U64_MAX)) as Hr.
  { intros x. unfold o, o', unpack_query_options, in_range. destruct (default false desc); cbn.
    { split; [by intros ?; split|by intros [? _]]. }
    unfold a_ekey at 2. rewrite below_empty. split; [intros [? ?]; by split_and!|intros [[? _] ?]; auto]. }
  constructor; [done| |done|].
  - intros x Hx. apply H2 in Hx as [? Hx]. apply Hr in Hx as [? ?]. done.
  - intros x [Hx Hm] Hb. apply H4; [done|]. by apply Hr.
Qed.

(** Walking by end time: ask again with the end second and the key of the last entry. *)
Fixpoint end_walk (desc : bool) (limit : option N) (t : N) (after : option akey) (fuel : nat) : list auction :=
  match fuel with
  | O => []
  | S fuel =>
      let res := query_auctions_by_end_time st t (Some desc) limit after in
      match last res with
      | None => []
      | Some x => res ++ end_walk desc limit (end_second x) (Some (a_key x)) fuel
      end
  end.
Lemma end_walk_after desc limit fuel : forall t after,
  end_walk desc limit t after fuel =
  walk_after a_ekey (fun k => query_auctions_by_end_time st (fst k) (Some desc) limit (Some (snd k))) (t, default ("", "") after) fuel.
Proof.
  induction fuel as [|fuel IH]; intros t after; [done|]. cbn [end_walk walk_after fst snd].
  assert (query_auctions_by_end_time st t (Some desc) limit after =
    query_auctions_by_end_time st t (Some desc) limit (Some (default ("", "") after))) as -> by (by destruct after).
  destruct (last _) as [x|]; [|done]. f_equal. apply IH.
Qed.
Lemma end_walk_all desc limit t after fuel : limit <> Some 0 -> (size (s_auctions st) < fuel)%nat ->
  complete_walk end_before a_ekey
    (fun x => in_end_index desc x /\
      if desc then end_before (a_ekey x) (t, default ("", "") after) else end_before (t, default ("", "") after) (a_ekey x))
    desc (end_walk desc limit t after fuel).
Proof.
  intros Hlim Hfuel. rewrite end_walk_after. unfold complete_walk.
  apply (walk_after_all end_before a_ekey (in_end_index desc) desc limit
    (fun k => query_auctions_by_end_time st (fst k) (Some desc) limit (Some (snd k)))
    end_before_irrefl end_before_trans) with (L := snd <$> map_to_list (s_auctions st)).
  - intros [n k]. exact (end_page n (Some desc) limit (Some k)).
  - done.
  - intros x [Hx _] _. apply elem_of_list_fmap. exists (a_key x, x). by rewrite elem_of_map_to_list.
  - by rewrite fmap_length.
Qed.

(** Minimum reserve prices, ordered by denom. *)
Lemma mins_entries y :
  (exists x, x ∈ map_to_list (s_mins st) /\ y = Coin (fst x) (snd x)) <-> s_mins st !! c_denom y = Some (c_amount y).
Proof.
  split.
  - intros ([k x]&Hx&->). by rewrite elem_of_map_to_list in Hx.
  - intros Hy. exists (c_denom y, c_amount y). rewrite elem_of_map_to_list. by destruct y.
Qed.
Lemma mins_page desc limit after :
  page id_before c_denom (fun c => s_mins st !! c_denom c = Some (c_amount c))
    (unpack_query_options desc limit after) (query_min_reserve_prices st desc limit after).
Proof.
  unfold query_min_reserve_prices. apply query_page; try orders; [apply NoDup_fst_map_to_list|by intros [? ?]|apply mins_entries].
Qed.
Lemma mins_walk desc limit fuel : limit <> Some 0 -> (size (s_mins st) < fuel)%nat ->
  complete_walk id_before c_denom (fun c => s_mins st !! c_denom c = Some (c_amount c)) desc
    (walk c_denom (fun o => query_min_reserve_prices st (qo_desc o) (qo_limit o)
                              (match (if desc then qo_max o else qo_min o) with Some (BExcl k) => Some k | _ => None end))
       desc limit None fuel).
Proof.
  intros Hlim Hfuel.
  assert (complete_walk id_before c_denom (fun c => s_mins st !! c_denom c = Some (c_amount c)) desc
    (walk c_denom (fun o => (fun x => Coin (fst x) (snd x)) <$> index_range str_leb fst (map_to_list (s_mins st)) o) desc limit None fuel)) as H.
  { apply query_walk; try orders; [apply NoDup_fst_map_to_list|by intros [? ?]|apply mins_entries|done|done]. }
  assert (forall after, walk c_denom (fun o => (fun x => Coin (fst x) (snd x)) <$> index_range str_leb fst (map_to_list (s_mins st)) o) desc limit after fuel =
    walk c_denom (fun o => query_min_reserve_prices st (qo_desc o) (qo_limit o)
                              (match (if desc then qo_max o else qo_min o) with Some (BExcl k) => Some k | _ => None end))
       desc limit after fuel) as <-; [|exact H].
  clear Hfuel H. induction fuel as [|fuel IH]; intros after; [done|]. cbn [walk].
  match goal with |- context [query_min_reserve_prices ?b ?c ?d ?e] => set (q := query_min_reserve_prices b c d e) end.
  assert (q = (fun x => Coin (fst x) (snd x)) <$> index_range str_leb fst (map_to_list (s_mins st))
     (if desc then QOpts (Some true) limit None (BExcl <$> after) else QOpts (Some false) limit (BExcl <$> after) None)) as ->.
  { unfold q, query_min_reserve_prices. f_equal. f_equal. destruct desc, after; reflexivity. }
  destruct (last _); [|done]. f_equal. apply IH.
Qed.
End Query.

Lemma unpack_after {K} desc limit (after : option K) : unpack_query_options desc limit after = opts_after desc limit after.
Proof. by destruct desc as [[]|]. Qed.
