(** The storage of contracts/stargaze-marketplace-v2 in bytes.  File references are relative to
    /repo/contracts/stargaze-marketplace-v2/src. *)
From stdpp Require Import relations pretty.
From Verif Require Import Base BaseFacts Common IndexRange IndexFacts QuerySpec IndexWalk V2Model Storage.
From Verif Require V1Model Migrate.

Local Infix "+++" := String.append (at level 60, right associativity).

(** * Layout *)
Inductive record : Type :=
  | RInfo (c : Migrate.cw2) | RConfig (c : config) | RNonce (n : N) | RDenom (d : denom) | RFee (n : N)
  | RAsk (a : ask) | RBid (b : bid) | RCBid (b : cbid).
Notation store := (gmap string (value record)).

(** state.rs:65-71, and cw2's CONTRACT *)
Definition info_key : string := "contract_info".
Definition config_key : string := "C".
Definition nonce_key : string := "N".
Definition denom_table : table addr denom record :=
  Table "D" (fun c => [c]) [] RDenom (fun r => match r with RDenom d => Some d | _ => None end).
Definition fee_table : table denom N record :=
  Table "L" (fun d => [d]) [] RFee (fun r => match r with RFee n => Some n | _ => None end).
(** state.rs:88-108 *)
Definition ask_price_index : index ask :=
  Index "a_p" (fun a => [a_coll a; c_denom (d_price (a_det a)); be_bytes 16 (c_amount (d_price (a_det a)))]).
Definition ask_creator_index : index ask := Index "a_c" (fun a => [a_creator a; a_coll a]).
Definition ask_table : table order_id ask record :=
  Table "a" (fun i => [i]) [ask_price_index; ask_creator_index] RAsk (fun r => match r with RAsk a => Some a | _ => None end).
(** state.rs:125-145 *)
Definition bid_price_index : index bid :=
  Index "o_p" (fun b => [token_index_str (b_coll b) (b_tok b); c_denom (d_price (b_det b)); be_bytes 16 (c_amount (d_price (b_det b)))]).
Definition bid_creator_index : index bid := Index "o_c" (fun b => [b_creator b; b_coll b]).
Definition bid_table : table order_id bid record :=
  Table "o" (fun i => [i]) [bid_price_index; bid_creator_index] RBid (fun r => match r with RBid b => Some b | _ => None end).
(** state.rs:163-183 *)
Definition cbid_price_index : index cbid :=
  Index "c_p" (fun b => [cb_coll b; c_denom (d_price (cb_det b)); be_bytes 16 (c_amount (d_price (cb_det b)))]).
Definition cbid_creator_index : index cbid := Index "c_c" (fun b => [cb_creator b; cb_coll b]).
Definition cbid_table : table order_id cbid record :=
  Table "c" (fun i => [i]) [cbid_price_index; cbid_creator_index] RCBid (fun r => match r with RCBid b => Some b | _ => None end).

(** * Specification *)
(** What a store holds for a state and a version record: the items, each map, and nothing else. *)
Definition in_layout (b : string) : Prop :=
  b ∈ [info_key; config_key; nonce_key] \/ in_table denom_table b \/ in_table fee_table b \/ in_table ask_table b \/
  in_table bid_table b \/ in_table cbid_table b.
Global Instance in_layout_dec b : Decision (in_layout b). Proof. apply _. Defined.
Record stored (info : option Migrate.cw2) (st : state) (s : store) : Prop := {
  so_info : s !! info_key = (fun c => Rec (RInfo c)) <$> info;
  so_config : s !! config_key = Some (Rec (RConfig (s_config st)));
  so_nonce : s !! nonce_key = Some (Rec (RNonce (s_nonce st)));
  so_denoms : represents denom_table (s_denoms st) s;
  so_fees : represents fee_table (s_fees st) s;
  so_asks : represents ask_table (s_asks st) s;
  so_bids : represents bid_table (s_bids st) s;
  so_cbids : represents cbid_table (s_cbids st) s;
  so_rest : forall b, ~ in_layout b -> s !! b = None;
}.
(** Strings in an index are at most 65535 bytes long (longer ones make cw-storage-plus panic) and amounts are u128. *)
Definition price_fits (c : coin) : Prop := short (c_denom c) /\ c_amount c < 2 ^ 128.
Definition ask_fits (a : ask) : Prop := short (a_coll a) /\ short (a_creator a) /\ price_fits (d_price (a_det a)).
Definition bid_fits (b : bid) : Prop :=
  short (b_coll b) /\ short (b_creator b) /\ short (token_index_str (b_coll b) (b_tok b)) /\ price_fits (d_price (b_det b)).
Definition cbid_fits (b : cbid) : Prop := short (cb_coll b) /\ short (cb_creator b) /\ price_fits (d_price (cb_det b)).
Definition any {K} (_ : K) : Prop := True.
Definition fits (st : state) : Prop :=
  (forall i a, s_asks st !! i = Some a -> ask_fits a) /\ (forall i b, s_bids st !! i = Some b -> bid_fits b) /\
  (forall i b, s_cbids st !! i = Some b -> cbid_fits b).

(** The writes the contract makes to its storage, on the bytes and on the state of the model. *)
Inductive write : Type :=
  | WConfig (c : config) | WNonce (n : N)
  | WDenom (coll : addr) (d : denom) | WNoDenom (coll : addr)
  | WFee (d : denom) (n : N) | WNoFee (d : denom)
  | WAsk (i : order_id) (a : ask) | WNoAsk (i : order_id)
  | WBid (i : order_id) (b : bid) | WNoBid (i : order_id)
  | WCBid (i : order_id) (b : cbid) | WNoCBid (i : order_id).
Definition write_fits (w : write) : Prop :=
  match w with WAsk _ a => ask_fits a | WBid _ b => bid_fits b | WCBid _ b => cbid_fits b | _ => True end.
Definition write_bytes (s : store) (w : write) : store :=
  match w with
  | WConfig c => <[config_key := Rec (RConfig c)]> s
  | WNonce n => <[nonce_key := Rec (RNonce n)]> s
  | WDenom c d => save denom_table c d s
  | WNoDenom c => remove denom_table c s
  | WFee d n => save fee_table d n s
  | WNoFee d => remove fee_table d s
  | WAsk i a => save ask_table i a s
  | WNoAsk i => remove ask_table i s
  | WBid i b => save bid_table i b s
  | WNoBid i => remove bid_table i s
  | WCBid i b => save cbid_table i b s
  | WNoCBid i => remove cbid_table i s
  end.
Definition write_state (st : state) (w : write) : state :=
  match w with
  | WConfig c => set_config st c
  | WNonce n => set_nonce st n
  | WDenom c d => set_denoms st (<[c := d]> (s_denoms st))
  | WNoDenom c => set_denoms st (delete c (s_denoms st))
  | WFee d n => set_fees st (<[d := n]> (s_fees st))
  | WNoFee d => set_fees st (delete d (s_fees st))
  | WAsk i a => set_asks st (<[i := a]> (s_asks st))
  | WNoAsk i => set_asks st (delete i (s_asks st))
  | WBid i b => set_bids st (<[i := b]> (s_bids st))
  | WNoBid i => set_bids st (delete i (s_bids st))
  | WCBid i b => set_cbids st (<[i := b]> (s_cbids st))
  | WNoCBid i => set_cbids st (delete i (s_cbids st))
  end.

(** * Facts *)
Lemma short_be16 x : short (be_bytes 16 x).
Proof. by apply short_be. Qed.
Ltac indexes :=
  repeat match goal with
  | H : _ ∈ [] |- _ => by apply elem_of_nil in H
  | H : _ ∈ _ :: _ |- _ => apply elem_of_cons in H as [->|H]
  end.
Lemma denom_ok : table_ok denom_table any any.
Proof. apply table_ok_intro; [by vm_compute|done|done|..]; intros i; [intros y y'|intros y]; cbn [tb_ix denom_table]; intros Hi; indexes. Qed.
Lemma fee_ok : table_ok fee_table any any.
Proof. apply table_ok_intro; [by vm_compute|done|done|..]; intros i; [intros y y'|intros y]; cbn [tb_ix fee_table]; intros Hi; indexes. Qed.
Lemma ask_ok : table_ok ask_table any ask_fits.
Proof.
  apply table_ok_intro; [by vm_compute|done|done|..]; intros i; [intros y y'|intros y]; cbn [tb_ix ask_table]; intros Hi; [by indexes|].
  intros (H1&H2&H3&H4). indexes; cbn [ix_of ask_price_index ask_creator_index]; repeat (apply Forall_cons; split); try done; apply short_be16.
Qed.
Lemma bid_ok : table_ok bid_table any bid_fits.
Proof.
  apply table_ok_intro; [by vm_compute|done|done|..]; intros i; [intros y y'|intros y]; cbn [tb_ix bid_table]; intros Hi; [by indexes|].
  intros (H1&H2&H3&H4&H5). indexes; cbn [ix_of bid_price_index bid_creator_index]; repeat (apply Forall_cons; split); try done; apply short_be16.
Qed.
Lemma cbid_ok : table_ok cbid_table any cbid_fits.
Proof.
  apply table_ok_intro; [by vm_compute|done|done|..]; intros i; [intros y y'|intros y]; cbn [tb_ix cbid_table]; intros Hi; [by indexes|].
  intros (H1&H2&H3&H4). indexes; cbn [ix_of cbid_price_index cbid_creator_index]; repeat (apply Forall_cons; split); try done; apply short_be16.
Qed.

(** The regions are disjoint. *)
Ltac regions := apply tables_apart_b; by vm_compute.
Lemma denom_fee b : in_table denom_table b -> in_table fee_table b -> False. Proof. regions. Qed.
Lemma denom_ask b : in_table denom_table b -> in_table ask_table b -> False. Proof. regions. Qed.
Lemma denom_bid b : in_table denom_table b -> in_table bid_table b -> False. Proof. regions. Qed.
Lemma denom_cbid b : in_table denom_table b -> in_table cbid_table b -> False. Proof. regions. Qed.
Lemma fee_ask b : in_table fee_table b -> in_table ask_table b -> False. Proof. regions. Qed.
Lemma fee_bid b : in_table fee_table b -> in_table bid_table b -> False. Proof. regions. Qed.
Lemma fee_cbid b : in_table fee_table b -> in_table cbid_table b -> False. Proof. regions. Qed.
Lemma ask_bid b : in_table ask_table b -> in_table bid_table b -> False. Proof. regions. Qed.
Lemma ask_cbid b : in_table ask_table b -> in_table cbid_table b -> False. Proof. regions. Qed.
Lemma bid_cbid b : in_table bid_table b -> in_table cbid_table b -> False. Proof. regions. Qed.
Ltac no_item := apply item_apart_b; by vm_compute.
Lemma item_denom b : b ∈ [info_key; config_key; nonce_key] -> in_table denom_table b -> False.
Proof. intros Hb. indexes; no_item. Qed.
Lemma item_fee b : b ∈ [info_key; config_key; nonce_key] -> in_table fee_table b -> False.
Proof. intros Hb. indexes; no_item. Qed.
Lemma item_ask b : b ∈ [info_key; config_key; nonce_key] -> in_table ask_table b -> False.
Proof. intros Hb. indexes; no_item. Qed.
Lemma item_bid b : b ∈ [info_key; config_key; nonce_key] -> in_table bid_table b -> False.
Proof. intros Hb. indexes; no_item. Qed.
Lemma item_cbid b : b ∈ [info_key; config_key; nonce_key] -> in_table cbid_table b -> False.
Proof. intros Hb. indexes; no_item. Qed.
Lemma info_item : info_key ∈ [info_key; config_key; nonce_key]. Proof. set_solver. Qed.
Lemma config_item : config_key ∈ [info_key; config_key; nonce_key]. Proof. set_solver. Qed.
Lemma nonce_item : nonce_key ∈ [info_key; config_key; nonce_key]. Proof. set_solver. Qed.
Local Hint Resolve denom_fee denom_ask denom_bid denom_cbid fee_ask fee_bid fee_cbid ask_bid ask_cbid bid_cbid
  item_denom item_fee item_ask item_bid item_cbid info_item config_item nonce_item : regions.

(** A change confined to one region. *)
Ltac fields := cbn [s_config s_nonce s_denoms s_fees s_asks s_bids s_cbids set_config set_nonce set_denoms set_fees set_asks set_bids set_cbids].
Section Confined.
Context (info : option Migrate.cw2) (st : state) (s s' : store) (Hs : stored info st s).
Ltac confined Hd :=
  destruct Hs; split; fields; try assumption;
  match goal with
  | |- represents _ _ _ => eapply represents_frame; [eassumption|]; intros; apply Hd; intros ?; by eauto with regions
  | |- forall b, ~ in_layout b -> _ => intros b Hb; rewrite Hd; [by auto|]; intros ?; apply Hb; unfold in_layout; tauto
  | |- _ !! _ = _ => rewrite Hd; [assumption|intros ?; by eauto with regions]
  end.
Lemma stored_denoms g : (forall b, ~ in_table denom_table b -> s' !! b = s !! b) -> represents denom_table g s' -> stored info (set_denoms st g) s'.
Proof. intros Hd Hr. confined Hd. Qed.
Lemma stored_fees g : (forall b, ~ in_table fee_table b -> s' !! b = s !! b) -> represents fee_table g s' -> stored info (set_fees st g) s'.
Proof. intros Hd Hr. confined Hd. Qed.
Lemma stored_asks g : (forall b, ~ in_table ask_table b -> s' !! b = s !! b) -> represents ask_table g s' -> stored info (set_asks st g) s'.
Proof. intros Hd Hr. confined Hd. Qed.
Lemma stored_bids g : (forall b, ~ in_table bid_table b -> s' !! b = s !! b) -> represents bid_table g s' -> stored info (set_bids st g) s'.
Proof. intros Hd Hr. confined Hd. Qed.
Lemma stored_cbids g : (forall b, ~ in_table cbid_table b -> s' !! b = s !! b) -> represents cbid_table g s' -> stored info (set_cbids st g) s'.
Proof. intros Hd Hr. confined Hd. Qed.
Ltac item_write k := 
  destruct Hs; split; fields; try (by rewrite lookup_insert); try (rewrite lookup_insert_ne by (unfold info_key, config_key, nonce_key; congruence); assumption);
  match goal with
  | |- represents _ _ _ => eapply represents_frame; [eassumption|]; intros; apply lookup_insert_ne; intros <-; by eauto with regions
  | |- forall b, ~ in_layout b -> _ => intros b Hb; rewrite lookup_insert_ne; [by auto|]; intros <-; apply Hb; left; by eauto with regions
  end.
Lemma stored_config c : stored info (set_config st c) (<[config_key := Rec (RConfig c)]> s).
Proof. item_write config_key. Qed.
Lemma stored_nonce n : stored info (set_nonce st n) (<[nonce_key := Rec (RNonce n)]> s).
Proof. item_write nonce_key. Qed.
Lemma stored_info c : stored (Some c) st (<[info_key := Rec (RInfo c)]> s).
Proof. item_write info_key. Qed.
End Confined.

Lemma fits_asks st : fits st -> fit any ask_fits (s_asks st).
Proof. intros (H&_) k y E. split; [done|by eapply H]. Qed.
Lemma fits_bids st : fits st -> fit any bid_fits (s_bids st).
Proof. intros (_&H&_) k y E. split; [done|by eapply H]. Qed.
Lemma fits_cbids st : fits st -> fit any cbid_fits (s_cbids st).
Proof. intros (_&_&H) k y E. split; [done|by eapply H]. Qed.
Lemma fits_any {K A} `{Countable K} (g : gmap K A) : fit any any g.
Proof. done. Qed.

(** One write. *)
Lemma write_stored info st s w : fits st -> write_fits w -> stored info st s -> stored info (write_state st w) (write_bytes s w).
Proof.
  intros Hf Hw Hs. pose proof (fits_asks _ Hf) as Ha. pose proof (fits_bids _ Hf) as Hb. pose proof (fits_cbids _ Hf) as Hc.
  pose proof Hs as Hs'. destruct Hs' as [_ _ _ Hrd Hrf Hra Hrb Hrc _].
  destruct w; cbn [write_state write_bytes write_fits] in *.
  - by apply stored_config.
  - by apply stored_nonce.
  - apply (stored_denoms info st s _ Hs); [intros b Hn; by apply (save_frame denom_table any any denom_ok (s_denoms st))|].
    by apply (save_represents denom_table any any denom_ok).
  - apply (stored_denoms info st s _ Hs); [intros b Hn; by apply (remove_frame denom_table any any denom_ok (s_denoms st))|].
    by apply (remove_represents denom_table any any denom_ok).
  - apply (stored_fees info st s _ Hs); [intros b Hn; by apply (save_frame fee_table any any fee_ok (s_fees st))|].
    by apply (save_represents fee_table any any fee_ok).
  - apply (stored_fees info st s _ Hs); [intros b Hn; by apply (remove_frame fee_table any any fee_ok (s_fees st))|].
    by apply (remove_represents fee_table any any fee_ok).
  - apply (stored_asks info st s _ Hs); [intros b Hn; by apply (save_frame ask_table any ask_fits ask_ok (s_asks st))|].
    by apply (save_represents ask_table any ask_fits ask_ok).
  - apply (stored_asks info st s _ Hs); [intros b Hn; by apply (remove_frame ask_table any ask_fits ask_ok (s_asks st))|].
    by apply (remove_represents ask_table any ask_fits ask_ok).
  - apply (stored_bids info st s _ Hs); [intros b' Hn; by apply (save_frame bid_table any bid_fits bid_ok (s_bids st))|].
    by apply (save_represents bid_table any bid_fits bid_ok).
  - apply (stored_bids info st s _ Hs); [intros b' Hn; by apply (remove_frame bid_table any bid_fits bid_ok (s_bids st))|].
    by apply (remove_represents bid_table any bid_fits bid_ok).
  - apply (stored_cbids info st s _ Hs); [intros b' Hn; by apply (save_frame cbid_table any cbid_fits cbid_ok (s_cbids st))|].
    by apply (save_represents cbid_table any cbid_fits cbid_ok).
  - apply (stored_cbids info st s _ Hs); [intros b' Hn; by apply (remove_frame cbid_table any cbid_fits cbid_ok (s_cbids st))|].
    by apply (remove_represents cbid_table any cbid_fits cbid_ok).
Qed.
Lemma write_fits_state st w : fits st -> write_fits w -> fits (write_state st w).
Proof.
  intros (H1&H2&H3) Hw. destruct w; cbn [write_state write_fits] in *; unfold fits; fields; split_and!; try done;
    intros j y Hj; try (apply lookup_insert_Some in Hj as [[_ <-]|[_ Hj]]; [done|]); try (apply lookup_delete_Some in Hj as [_ Hj]); by eauto.
Qed.
(** Any number of writes. *)
Lemma writes_stored info ws : forall st s, fits st -> Forall write_fits ws -> stored info st s ->
  fits (foldl write_state st ws) /\ stored info (foldl write_state st ws) (foldl write_bytes s ws).
Proof.
  induction ws as [|w ws IH]; intros st s Hf Hw Hs; [done|]. apply Forall_cons in Hw as [Hw Hws]. cbn [foldl].
  apply IH; [by apply write_fits_state|done|by apply write_stored].
Qed.
(** The state determines the store. *)
Lemma stored_unique info st s s' : stored info st s -> stored info st s' -> s = s'.
Proof.
  intros [H1 H2 H3 H4 H5 H6 H7 H8 H9] [G1 G2 G3 G4 G5 G6 G7 G8 G9]. apply map_eq. intros b. apply option_eq. intros v.
  destruct (decide (in_layout b)) as [Hb|Hb]; [|by rewrite H9, G9]. destruct Hb as [Hb|[Hb|[Hb|[Hb|[Hb|Hb]]]]].
  - indexes; [by rewrite H1, G1|by rewrite H2, G2|by rewrite H3, G3].
  - by rewrite (H4 b v Hb), (G4 b v Hb).
  - by rewrite (H5 b v Hb), (G5 b v Hb).
  - by rewrite (H6 b v Hb), (G6 b v Hb).
  - by rewrite (H7 b v Hb), (G7 b v Hb).
  - by rewrite (H8 b v Hb), (G8 b v Hb).
Qed.
(** Every state has one. *)
Definition blank (info : option Migrate.cw2) (c : config) (n : N) : store :=
  partial_alter (fun _ => (fun c => Rec (RInfo c)) <$> info) info_key (<[config_key := Rec (RConfig c)]> (<[nonce_key := Rec (RNonce n)]> ∅)).
Lemma blank_lookup info c n b : b ∉ [info_key; config_key; nonce_key] -> blank info c n !! b = None.
Proof.
  intros Hb. unfold blank. rewrite lookup_partial_alter_ne by (intros <-; apply Hb; set_solver).
  rewrite !lookup_insert_ne by (intros <-; apply Hb; set_solver). done.
Qed.
Lemma blank_stored info c n : stored info (State c ∅ ∅ n ∅ ∅ ∅) (blank info c n).
Proof.
  split; fields; [by unfold blank; rewrite lookup_partial_alter|..];
    try (unfold blank; rewrite lookup_partial_alter_ne by (unfold info_key, config_key, nonce_key; congruence)).
  - by rewrite lookup_insert.
  - rewrite lookup_insert_ne by (unfold config_key, nonce_key; congruence). by rewrite lookup_insert.
  - apply represents_empty. intros b Hb. apply blank_lookup. intros ?. by eauto with regions.
  - apply represents_empty. intros b Hb. apply blank_lookup. intros ?. by eauto with regions.
  - apply represents_empty. intros b Hb. apply blank_lookup. intros ?. by eauto with regions.
  - apply represents_empty. intros b Hb. apply blank_lookup. intros ?. by eauto with regions.
  - apply represents_empty. intros b Hb. apply blank_lookup. intros ?. by eauto with regions.
  - intros b Hb. apply blank_lookup. intros ?. apply Hb. by left.
Qed.
Lemma stored_exists info st : fits st -> exists s : store, stored info st s.
Proof.
  intros Hf. pose proof (blank_stored info (s_config st) (s_nonce st)) as H0.
  edestruct (represents_exists denom_table any any denom_ok (s_denoms st)) as (s1&R1&F1);
    [apply fits_any|intros b; apply represents_none, (so_denoms _ _ _ H0)|].
  pose proof (stored_denoms _ _ _ _ H0 _ F1 R1) as H1.
  edestruct (represents_exists fee_table any any fee_ok (s_fees st)) as (s2&R2&F2);
    [apply fits_any|intros b; apply represents_none, (so_fees _ _ _ H1)|].
  pose proof (stored_fees _ _ _ _ H1 _ F2 R2) as H2.
  edestruct (represents_exists ask_table any ask_fits ask_ok (s_asks st)) as (s3&R3&F3);
    [by apply fits_asks|intros b; apply represents_none, (so_asks _ _ _ H2)|].
  pose proof (stored_asks _ _ _ _ H2 _ F3 R3) as H3.
  edestruct (represents_exists bid_table any bid_fits bid_ok (s_bids st)) as (s4&R4&F4);
    [by apply fits_bids|intros b; apply represents_none, (so_bids _ _ _ H3)|].
  pose proof (stored_bids _ _ _ _ H3 _ F4 R4) as H4.
  edestruct (represents_exists cbid_table any cbid_fits cbid_ok (s_cbids st)) as (s5&R5&F5);
    [by apply fits_cbids|intros b; apply represents_none, (so_cbids _ _ _ H4)|].
  pose proof (stored_cbids _ _ _ _ H4 _ F5 R5) as H5. exists s5. by destruct st.
Qed.

(** * Reading *)
(** query.rs and orders.rs load by id; helpers.rs:66 and execute.rs load denominations and fees *)
Lemma loads_stored info st (s : store) : fits st -> stored info st s ->
  (forall c, load denom_table c s = s_denoms st !! c) /\ (forall d, load fee_table d s = s_fees st !! d) /\
  (forall i, load ask_table i s = s_asks st !! i) /\ (forall i, load bid_table i s = s_bids st !! i) /\
  (forall i, load cbid_table i s = s_cbids st !! i).
Proof.
  intros Hf []. split_and!; intros k.
  - by apply (load_represents denom_table any any denom_ok).
  - by apply (load_represents fee_table any any fee_ok).
  - apply (load_represents ask_table any ask_fits ask_ok); by try apply fits_asks.
  - apply (load_represents bid_table any bid_fits bid_ok); by try apply fits_bids.
  - apply (load_represents cbid_table any cbid_fits cbid_ok); by try apply fits_cbids.
Qed.

(** Below a price prefix: the amount, then the order id. *)
Definition price_enc (k : pkey) : string := lp (be_bytes 16 (fst k)) +++ snd k.
Definition price_dom (k : pkey) : Prop := fst k < 2 ^ 128.
Lemma price_embeds : embeds price_dom pkey_leb price_enc.
Proof.
  apply (embeds_ext price_dom (V1Model.lex_leb N.leb str_leb));
    [|intros k k' Hk Hk'; exact (embeds_number 16 _ _ _ _ pow16 embeds_str k k' (conj Hk I) (conj Hk' I))].
  intros [a i] [b j]. unfold pkey_leb, V1Model.lex_leb. cbn [fst snd]. case_bool_decide as E.
  - subst. rewrite N.ltb_irrefl, N.eqb_refl. done.
  - destruct (N.ltb_spec a b), (N.eqb_spec a b), (N.leb_spec a b); cbn; done || lia.
Qed.
Lemma id_embeds : embeds any str_leb (fun i : string => i).
Proof. done. Qed.

(** A read of an index below the parts [c], with a limit. *)
Definition read_page {A} (T : table order_id A record) (i : index A) (c : list string) {K} (enc : K -> string) (o : qopts K) (s : store) : list A :=
  take (qo_limit_nat o) (read_index T (lp (ix_ns i) +++ lps c) (enc_opts enc o) s).

Lemma read_asks_by_price info st (s : store) coll dn o : fits st -> stored info st s -> short coll -> short dn -> opts_in price_dom o ->
  read_page ask_table ask_price_index [coll; dn] price_enc o s = query_asks_by_collection_denom st coll dn o.
Proof.
  intros Hf Hs Hc Hd Ho. unfold read_page, query_asks_by_collection_denom, index_range. rewrite fmap_take. f_equal.
  rewrite (read_index_scan ask_table any ask_fits ask_ok (s_asks st) s (fits_asks _ Hf) (so_asks _ _ _ Hs) pkey_leb ask_pkey price_dom price_enc
    price_embeds ask_price_index [coll; dn] (fun a => bool_decide (a_coll a = coll) && bool_decide (c_denom (d_price (a_det a)) = dn))).
  - done.
  - set_solver.
  - by repeat constructor.
  - intros a _. split; [cbn; lia|]. rewrite andb_true_iff, !bool_decide_eq_true. cbn. split; [by intros [-> ->]|]. by intros [= -> ->].
  - intros k a Ha _. destruct (fits_asks _ Hf _ _ Ha) as [_ (_&_&_&H)]. split; [done|]. unfold price_enc. cbn. by rewrite str_app_nil_r.
  - done.
Qed.
Lemma read_bids_by_price info st (s : store) coll tok dn o : fits st -> stored info st s -> short (token_index_str coll tok) -> short dn -> opts_in price_dom o ->
  read_page bid_table bid_price_index [token_index_str coll tok; dn] price_enc o s = query_bids_by_token_price st coll tok dn o.
Proof.
  intros Hf Hs Hc Hd Ho. unfold read_page, query_bids_by_token_price, index_range. rewrite fmap_take. f_equal.
  rewrite (read_index_scan bid_table any bid_fits bid_ok (s_bids st) s (fits_bids _ Hf) (so_bids _ _ _ Hs) pkey_leb bid_pkey price_dom price_enc
    price_embeds bid_price_index [token_index_str coll tok; dn]
    (fun b => bool_decide (token_index_str (b_coll b) (b_tok b) = token_index_str coll tok) && bool_decide (c_denom (d_price (b_det b)) = dn))).
  - done.
  - set_solver.
  - by repeat constructor.
  - intros a _. split; [cbn; lia|]. rewrite andb_true_iff, !bool_decide_eq_true. cbn [take length ix_of bid_price_index].
    split; [by intros [-> ->]|]. intros [= E1 E2]. done.
  - intros k a Ha _. destruct (fits_bids _ Hf _ _ Ha) as [_ (_&_&_&_&H)]. split; [done|]. unfold price_enc. cbn. by rewrite str_app_nil_r.
  - done.
Qed.
Lemma read_cbids_by_price info st (s : store) coll dn o : fits st -> stored info st s -> short coll -> short dn -> opts_in price_dom o ->
  read_page cbid_table cbid_price_index [coll; dn] price_enc o s = query_collection_bids_by_price st coll dn o.
Proof.
  intros Hf Hs Hc Hd Ho. unfold read_page, query_collection_bids_by_price, index_range. rewrite fmap_take. f_equal.
  rewrite (read_index_scan cbid_table any cbid_fits cbid_ok (s_cbids st) s (fits_cbids _ Hf) (so_cbids _ _ _ Hs) pkey_leb cbid_pkey price_dom price_enc
    price_embeds cbid_price_index [coll; dn] (fun a => bool_decide (cb_coll a = coll) && bool_decide (c_denom (d_price (cb_det a)) = dn))).
  - done.
  - set_solver.
  - by repeat constructor.
  - intros a _. split; [cbn; lia|]. rewrite andb_true_iff, !bool_decide_eq_true. cbn. split; [by intros [-> ->]|]. by intros [= -> ->].
  - intros k a Ha _. destruct (fits_cbids _ Hf _ _ Ha) as [_ (_&_&_&H)]. split; [done|]. unfold price_enc. cbn. by rewrite str_app_nil_r.
  - done.
Qed.
Lemma read_asks_by_creator info st (s : store) creator coll o : fits st -> stored info st s -> short creator -> short coll ->
  read_page ask_table ask_creator_index [creator; coll] (fun i : string => i) o s = query_asks_by_creator_collection st creator coll o.
Proof.
  intros Hf Hs Hc Hd. unfold read_page, query_asks_by_creator_collection, index_range. rewrite fmap_take. f_equal.
  rewrite (read_index_scan ask_table any ask_fits ask_ok (s_asks st) s (fits_asks _ Hf) (so_asks _ _ _ Hs) str_leb fst any (fun i : string => i)
    id_embeds ask_creator_index [creator; coll] (fun a => bool_decide (a_creator a = creator) && bool_decide (a_coll a = coll))).
  - done.
  - set_solver.
  - by repeat constructor.
  - intros a _. split; [cbn; lia|]. rewrite andb_true_iff, !bool_decide_eq_true. cbn. split; [by intros [-> ->]|]. by intros [= -> ->].
  - intros k a Ha _. split; [done|]. cbn. done.
  - done.
Qed.
Lemma read_bids_by_creator info st (s : store) creator coll o : fits st -> stored info st s -> short creator -> short coll ->
  read_page bid_table bid_creator_index [creator; coll] (fun i : string => i) o s = query_bids_by_creator_collection st creator coll o.
Proof.
  intros Hf Hs Hc Hd. unfold read_page, query_bids_by_creator_collection, index_range. rewrite fmap_take. f_equal.
  rewrite (read_index_scan bid_table any bid_fits bid_ok (s_bids st) s (fits_bids _ Hf) (so_bids _ _ _ Hs) str_leb fst any (fun i : string => i)
    id_embeds bid_creator_index [creator; coll] (fun a => bool_decide (b_creator a = creator) && bool_decide (b_coll a = coll))).
  - done.
  - set_solver.
  - by repeat constructor.
  - intros a _. split; [cbn; lia|]. rewrite andb_true_iff, !bool_decide_eq_true. cbn. split; [by intros [-> ->]|]. by intros [= -> ->].
  - intros k a Ha _. split; [done|]. cbn. done.
  - done.
Qed.
Lemma read_cbids_by_creator info st (s : store) creator coll o : fits st -> stored info st s -> short creator -> short coll ->
  read_page cbid_table cbid_creator_index [creator; coll] (fun i : string => i) o s = query_collection_bids_by_creator_collection st creator coll o.
Proof.
  intros Hf Hs Hc Hd. unfold read_page, query_collection_bids_by_creator_collection, index_range. rewrite fmap_take. f_equal.
  rewrite (read_index_scan cbid_table any cbid_fits cbid_ok (s_cbids st) s (fits_cbids _ Hf) (so_cbids _ _ _ Hs) str_leb fst any (fun i : string => i)
    id_embeds cbid_creator_index [creator; coll] (fun a => bool_decide (cb_creator a = creator) && bool_decide (cb_coll a = coll))).
  - done.
  - set_solver.
  - by repeat constructor.
  - intros a _. split; [cbn; lia|]. rewrite andb_true_iff, !bool_decide_eq_true. cbn. split; [by intros [-> ->]|]. by intros [= -> ->].
  - intros k a Ha _. split; [done|]. cbn. done.
  - done.
Qed.
