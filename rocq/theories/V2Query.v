(** Marketplace v2 queries: sorted, complete, pageable (C25, C26) and faithful lookups (C27). *)
From Verif Require Import Base BaseFacts Common Chain ChainFacts IndexRange IndexFacts QuerySpec IndexWalk V2Model V2Spec
  V2Facts V2Match V2Inv V2Sale V2Trade V2Reach V2Book.

Section Query.
Context (p : params) (st : state) (Hwf : wf p st).

Lemma elem_map_filter {A} (m : gmap string A) (f : string * A -> bool) i x :
  (i, x) ∈ List.filter f (map_to_list m) <-> m !! i = Some x /\ f (i, x) = true.
Proof. by rewrite elem_of_list_In, filter_In, <-elem_of_list_In, elem_of_map_to_list. Qed.
Lemma nodup_filter_fmap {A B} (g : A -> B) (f : A -> bool) (l : list A) :
  NoDup (g <$> l) -> NoDup (g <$> List.filter f l).
Proof.
  induction l as [|x l IH]; cbn; [done|]. intros [H1 H2]%NoDup_cons.
  destruct (f x); cbn; [|auto]. apply NoDup_cons. split; [|auto]. contradict H1.
  apply elem_of_list_fmap in H1 as (y&->&Hy). apply elem_of_list_fmap_1.
  rewrite elem_of_list_In, filter_In, <-elem_of_list_In in Hy. by apply Hy.
Qed.
Lemma nodup_fst {A} (m : gmap string A) (f : string * A -> bool) : NoDup (fst <$> List.filter f (map_to_list m)).
Proof. apply nodup_filter_fmap, NoDup_fst_map_to_list. Qed.
Lemma nodup_pkey {A} (m : gmap string A) (g : string * A -> N) (f : string * A -> bool) :
  NoDup ((fun x => (g x, fst x)) <$> List.filter f (map_to_list m)).
Proof.
  apply nodup_filter_fmap. apply NoDup_fmap_1 with (f := snd) .
  rewrite <-list_fmap_compose. apply (NoDup_fst_map_to_list m).
Qed.
Lemma filter_len {A} (m : gmap string A) (f : string * A -> bool) : (length (List.filter f (map_to_list m)) <= size m)%nat.
Proof.
  unfold size, map_size. induction (map_to_list m) as [|x l IH]; cbn; [done|]. destruct (f x); cbn; lia.
Qed.
Lemma matched {A} (m : gmap string A) (id : A -> string) (f : string * A -> bool) (P : A -> Prop) :
  (forall i x, m !! i = Some x -> id x = i) -> (forall i x, m !! i = Some x -> f (i, x) = true <-> P x) ->
  forall y, (exists x, x ∈ List.filter f (map_to_list m) /\ y = snd x) <-> (m !! id y = Some y /\ P y).
Proof.
  intros Hid Hf y. split.
  - intros ([i x]&Hx&->). apply elem_map_filter in Hx as [Hx Hfx]. cbn. rewrite (Hid _ _ Hx). split; [done|by eapply Hf, Hfx].
  - intros [Hy HP]. exists (id y, y). split; [|done]. apply elem_map_filter. split; [done|by apply Hf].
Qed.


Lemma ask_id_ok i a : s_asks st !! i = Some a -> a_id a = i.
Proof. intros H. by apply (wf_ask _ _ Hwf) in H as [? _]. Qed.
Lemma bid_id_ok i b : s_bids st !! i = Some b -> b_id b = i.
Proof. intros H. by apply (wf_bid _ _ Hwf) in H as [? _]. Qed.
Lemma cbid_id_ok i b : s_cbids st !! i = Some b -> cb_id b = i.
Proof. intros H. by apply (wf_cbid _ _ Hwf) in H as [? _]. Qed.

Ltac key_ok lem := intros [? ?] [? ?]%elem_map_filter; cbn; unfold ask_key, bid_key, cbid_key, ask_pkey, bid_pkey, cbid_pkey,
  ask_amount, bid_amount, cbid_amount; cbn; by rewrite (lem _ _ ltac:(eassumption)).
Ltac orders := first [exact pkey_leb_total|exact pkey_leb_trans|exact pkey_leb_antisym|exact pkey_leb_before
  |exact str_leb_total|exact str_leb_trans|exact str_leb_antisym|exact str_leb_before].

(** The three price queries. *)
Lemma asks_page coll dn o : 
  page price_before ask_key (fun x => s_asks st !! a_id x = Some x /\ a_coll x = coll /\ c_denom (d_price (a_det x)) = dn) o (query_asks_by_collection_denom st coll dn o).
Proof.
  intros. apply query_page; try orders; [apply nodup_pkey|key_ok ask_id_ok|].
  apply matched; [apply ask_id_ok|]. intros i x _. cbn. by rewrite andb_true_iff, !bool_decide_eq_true.
Qed.
Lemma asks_walk coll dn desc limit fuel :  limit <> Some 0 -> (size (s_asks st) < fuel)%nat ->
  complete_walk price_before ask_key (fun x => s_asks st !! a_id x = Some x /\ a_coll x = coll /\ c_denom (d_price (a_det x)) = dn) desc (walk ask_key (query_asks_by_collection_denom st coll dn) desc limit None fuel).
Proof.
  intros. apply query_walk; try orders; [apply nodup_pkey|key_ok ask_id_ok| |done|eapply Nat.le_lt_trans; [apply filter_len|done]].
  apply matched; [apply ask_id_ok|]. intros i x _. cbn. by rewrite andb_true_iff, !bool_decide_eq_true.
Qed.

Lemma token_match coll tok i b : slash_free p -> p_valid p coll = true -> s_bids st !! i = Some b ->
  token_index_str (b_coll b) (b_tok b) = token_index_str coll tok <-> b_coll b = coll /\ b_tok b = tok.
Proof.
  intros Hs Hv Hb. apply (wf_bid _ _ Hwf) in Hb as (_&_&Hvb&_). split; [|by intros [-> ->]].
  apply token_index_str_inj; rewrite no_slash_has, Hs; done.
Qed.

Lemma bids_page coll tok dn o : slash_free p -> p_valid p coll = true ->
  page price_before bid_key (fun x => s_bids st !! b_id x = Some x /\ (b_coll x = coll /\ b_tok x = tok) /\ c_denom (d_price (b_det x)) = dn) o (query_bids_by_token_price st coll tok dn o).
Proof.
  intros. apply query_page; try orders; [apply nodup_pkey|key_ok bid_id_ok|].
  apply matched; [apply bid_id_ok|]. intros i x Hx. cbn. by rewrite andb_true_iff, !bool_decide_eq_true, (token_match _ _ i).
Qed.
Lemma bids_walk coll tok dn desc limit fuel : slash_free p -> p_valid p coll = true -> limit <> Some 0 -> (size (s_bids st) < fuel)%nat ->
  complete_walk price_before bid_key (fun x => s_bids st !! b_id x = Some x /\ (b_coll x = coll /\ b_tok x = tok) /\ c_denom (d_price (b_det x)) = dn) desc (walk bid_key (query_bids_by_token_price st coll tok dn) desc limit None fuel).
Proof.
  intros. apply query_walk; try orders; [apply nodup_pkey|key_ok bid_id_ok| |done|eapply Nat.le_lt_trans; [apply filter_len|done]].
  apply matched; [apply bid_id_ok|]. intros i x Hx. cbn. by rewrite andb_true_iff, !bool_decide_eq_true, (token_match _ _ i).
Qed.

Lemma cbids_page coll dn o : 
  page price_before cbid_key (fun x => s_cbids st !! cb_id x = Some x /\ cb_coll x = coll /\ c_denom (d_price (cb_det x)) = dn) o (query_collection_bids_by_price st coll dn o).
Proof.
  intros. apply query_page; try orders; [apply nodup_pkey|key_ok cbid_id_ok|].
  apply matched; [apply cbid_id_ok|]. intros i x _. cbn. by rewrite andb_true_iff, !bool_decide_eq_true.
Qed.
Lemma cbids_walk coll dn desc limit fuel :  limit <> Some 0 -> (size (s_cbids st) < fuel)%nat ->
  complete_walk price_before cbid_key (fun x => s_cbids st !! cb_id x = Some x /\ cb_coll x = coll /\ c_denom (d_price (cb_det x)) = dn) desc (walk cbid_key (query_collection_bids_by_price st coll dn) desc limit None fuel).
Proof.
  intros. apply query_walk; try orders; [apply nodup_pkey|key_ok cbid_id_ok| |done|eapply Nat.le_lt_trans; [apply filter_len|done]].
  apply matched; [apply cbid_id_ok|]. intros i x _. cbn. by rewrite andb_true_iff, !bool_decide_eq_true.
Qed.

(** The three creator queries. *)
Lemma asks_of_page creator coll o : 
  page id_before a_id (fun x => s_asks st !! a_id x = Some x /\ a_creator x = creator /\ a_coll x = coll) o (query_asks_by_creator_collection st creator coll o).
Proof.
  intros. apply query_page; try orders; [apply nodup_fst|key_ok ask_id_ok|].
  apply matched; [apply ask_id_ok|]. intros i x _. cbn. by rewrite andb_true_iff, !bool_decide_eq_true.
Qed.
Lemma asks_of_walk creator coll desc limit fuel :  limit <> Some 0 -> (size (s_asks st) < fuel)%nat ->
  complete_walk id_before a_id (fun x => s_asks st !! a_id x = Some x /\ a_creator x = creator /\ a_coll x = coll) desc (walk a_id (query_asks_by_creator_collection st creator coll) desc limit None fuel).
Proof.
  intros. apply query_walk; try orders; [apply nodup_fst|key_ok ask_id_ok| |done|eapply Nat.le_lt_trans; [apply filter_len|done]].
  apply matched; [apply ask_id_ok|]. intros i x _. cbn. by rewrite andb_true_iff, !bool_decide_eq_true.
Qed.

Lemma bids_of_page creator coll o : 
  page id_before b_id (fun x => s_bids st !! b_id x = Some x /\ b_creator x = creator /\ b_coll x = coll) o (query_bids_by_creator_collection st creator coll o).
Proof.
  intros. apply query_page; try orders; [apply nodup_fst|key_ok bid_id_ok|].
  apply matched; [apply bid_id_ok|]. intros i x _. cbn. by rewrite andb_true_iff, !bool_decide_eq_true.
Qed.
Lemma bids_of_walk creator coll desc limit fuel :  limit <> Some 0 -> (size (s_bids st) < fuel)%nat ->
  complete_walk id_before b_id (fun x => s_bids st !! b_id x = Some x /\ b_creator x = creator /\ b_coll x = coll) desc (walk b_id (query_bids_by_creator_collection st creator coll) desc limit None fuel).
Proof.
  intros. apply query_walk; try orders; [apply nodup_fst|key_ok bid_id_ok| |done|eapply Nat.le_lt_trans; [apply filter_len|done]].
  apply matched; [apply bid_id_ok|]. intros i x _. cbn. by rewrite andb_true_iff, !bool_decide_eq_true.
Qed.

Lemma cbids_of_page creator coll o : 
  page id_before cb_id (fun x => s_cbids st !! cb_id x = Some x /\ cb_creator x = creator /\ cb_coll x = coll) o (query_collection_bids_by_creator_collection st creator coll o).
Proof.
  intros. apply query_page; try orders; [apply nodup_fst|key_ok cbid_id_ok|].
  apply matched; [apply cbid_id_ok|]. intros i x _. cbn. by rewrite andb_true_iff, !bool_decide_eq_true.
Qed.
Lemma cbids_of_walk creator coll desc limit fuel :  limit <> Some 0 -> (size (s_cbids st) < fuel)%nat ->
  complete_walk id_before cb_id (fun x => s_cbids st !! cb_id x = Some x /\ cb_creator x = creator /\ cb_coll x = coll) desc (walk cb_id (query_collection_bids_by_creator_collection st creator coll) desc limit None fuel).
Proof.
  intros. apply query_walk; try orders; [apply nodup_fst|key_ok cbid_id_ok| |done|eapply Nat.le_lt_trans; [apply filter_len|done]].
  apply matched; [apply cbid_id_ok|]. intros i x _. cbn. by rewrite andb_true_iff, !bool_decide_eq_true.
Qed.

(** Lookups by id. *)
Lemma omap_ids {A} (m : gmap string A) (id : A -> string) (ids : list string) :
  (forall i x, m !! i = Some x -> id x = i) ->
  id <$> omap (fun i => m !! i) ids = filter (fun i => is_Some (m !! i)) ids.
Proof.
  intros Hid. induction ids as [|i ids IH]; [done|]. rewrite filter_cons.
  destruct (m !! i) as [x|] eqn:E; [rewrite decide_True by eauto|rewrite decide_False by (by intros [? ?])];
    cbn [omap list_omap]; rewrite E; [|exact IH].
  cbn [fmap list_fmap]. rewrite (Hid _ _ E). f_equal. exact IH.
Qed.
Lemma query_asks_ids (ids : list string) : a_id <$> query_asks st ids = filter (fun i => is_Some (s_asks st !! i)) ids.
Proof. apply omap_ids, ask_id_ok. Qed.
Lemma query_bids_ids (ids : list string) : b_id <$> query_bids st ids = filter (fun i => is_Some (s_bids st !! i)) ids.
Proof. apply omap_ids, bid_id_ok. Qed.
Lemma query_cbids_ids (ids : list string) : cb_id <$> query_collection_bids st ids = filter (fun i => is_Some (s_cbids st !! i)) ids.
Proof. apply omap_ids, cbid_id_ok. Qed.
Lemma query_asks_resting ids a : a ∈ query_asks st ids -> s_asks st !! a_id a = Some a.
Proof. intros (i&_&Hi)%elem_of_list_omap. by rewrite (ask_id_ok _ _ Hi). Qed.
Lemma query_bids_resting ids b : b ∈ query_bids st ids -> s_bids st !! b_id b = Some b.
Proof. intros (i&_&Hi)%elem_of_list_omap. by rewrite (bid_id_ok _ _ Hi). Qed.
Lemma query_cbids_resting ids b : b ∈ query_collection_bids st ids -> s_cbids st !! cb_id b = Some b.
Proof. intros (i&_&Hi)%elem_of_list_omap. by rewrite (cbid_id_ok _ _ Hi). Qed.
End Query.
