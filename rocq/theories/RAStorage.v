(** The storage of contracts/reserve-auction in bytes.  File references are relative to /repo/contracts/reserve-auction/src. *)
From stdpp Require Import relations pretty.
From Verif Require Import Base BaseFacts Common IndexRange IndexFacts QuerySpec IndexWalk RAModel Storage.
From Verif Require V1Model Migrate.

Local Infix "+++" := String.append (at level 60, right associativity).

(** * Layout *)
Inductive record : Type := RInfo (c : Migrate.cw2) | RConfig (c : config) | RHalt (h : halt_manager) | RMin (n : N) | RAuction (a : auction).
Notation store := (gmap string (value record)).

(** state.rs:56, 134, and cw2's CONTRACT *)
Definition info_key : string := "contract_info".
Definition config_key : string := "cfg".
Definition halt_key : string := "hm".
(** state.rs:60 *)
Definition min_table : table string N record :=
  Table "mrp" (fun d => [d]) [] RMin (fun r => match r with RMin n => Some n | _ => None end).
(** state.rs:110-120 *)
Definition seller_index : index auction := Index "a__s" (fun a => [a_seller a]).
Definition end_time_index : index auction := Index "a__et" (fun a => [be_bytes 8 (end_index a)]).
Definition auction_table : table akey auction record :=
  Table "a" (fun k => [fst k; snd k]) [seller_index; end_time_index] RAuction (fun r => match r with RAuction a => Some a | _ => None end).

(** * Specification *)
Definition items : list string := [info_key; config_key; halt_key].
Definition in_layout (b : string) : Prop := b ∈ items \/ in_table min_table b \/ in_table auction_table b.
Global Instance in_layout_dec b : Decision (in_layout b). Proof. apply _. Defined.
Record stored (info : option Migrate.cw2) (st : state) (s : store) : Prop := {
  so_info : s !! info_key = (fun c => Rec (RInfo c)) <$> info;
  so_config : s !! config_key = Some (Rec (RConfig (s_config st)));
  so_halt : s !! halt_key = Some (Rec (RHalt (s_halt st)));
  so_mins : represents min_table (s_mins st) s;
  so_auctions : represents auction_table (s_auctions st) s;
  so_rest : forall b, ~ in_layout b -> s !! b = None;
}.
(** Strings that are prefixed with their length have at most 65535 bytes, and timestamps are u64. *)
Definition any {K} (_ : K) : Prop := True.
Definition key_fits (k : akey) : Prop := short (fst k).
Definition auction_fits (a : auction) : Prop := short (a_seller a) /\ forall t, a_end a = Some t -> t < 2 ^ 64.
Definition fits (st : state) : Prop := forall k a, s_auctions st !! k = Some a -> key_fits k /\ auction_fits a.

(** The writes the contract makes to its storage. *)
Inductive write : Type :=
  | WConfig (c : config) | WHalt (h : halt_manager) | WMin (d : string) (n : N) | WNoMin (d : string)
  | WAuction (k : akey) (a : auction) | WNoAuction (k : akey).
Definition write_fits (w : write) : Prop :=
  match w with WAuction k a => key_fits k /\ auction_fits a | WNoAuction k => key_fits k | _ => True end.
Definition write_bytes (s : store) (w : write) : store :=
  match w with
  | WConfig c => <[config_key := Rec (RConfig c)]> s
  | WHalt h => <[halt_key := Rec (RHalt h)]> s
  | WMin d n => save min_table d n s
  | WNoMin d => remove min_table d s
  | WAuction k a => save auction_table k a s
  | WNoAuction k => remove auction_table k s
  end.
Definition set_config (st : state) (c : config) : state := State c (s_mins st) (s_halt st) (s_auctions st).
Definition set_mins (st : state) (m : gmap string N) : state := State (s_config st) m (s_halt st) (s_auctions st).
Definition write_state (st : state) (w : write) : state :=
  match w with
  | WConfig c => set_config st c
  | WHalt h => set_halt st h
  | WMin d n => set_mins st (<[d := n]> (s_mins st))
  | WNoMin d => set_mins st (delete d (s_mins st))
  | WAuction k a => set_auctions st (<[k := a]> (s_auctions st))
  | WNoAuction k => set_auctions st (delete k (s_auctions st))
  end.

(** * Facts *)
Ltac indexes :=
  repeat match goal with
  | H : _ ∈ [] |- _ => by apply elem_of_nil in H
  | H : _ ∈ _ :: _ |- _ => apply elem_of_cons in H as [->|H]
  end.
Lemma min_ok : table_ok min_table any any.
Proof. apply table_ok_intro; [by vm_compute|done|done|..]; intros i; [intros y y'|intros y]; cbn [tb_ix min_table]; intros Hi; indexes. Qed.
Lemma auction_ok : table_ok auction_table key_fits auction_fits.
Proof.
  apply table_ok_intro; [by vm_compute| |done|..].
  - intros [c t] [c' t'] Hc Hc' E. change (lp c +++ t = lp c' +++ t') in E. by apply lp_inj in E as [-> ->].
  - intros i y y'. cbn [tb_ix auction_table]. intros Hi. by indexes.
  - intros i y. cbn [tb_ix auction_table]. intros Hi [Hs _]. indexes; cbn [ix_of seller_index end_time_index]; repeat (apply Forall_cons; split); try done.
Qed.
Lemma min_auction b : in_table min_table b -> in_table auction_table b -> False. Proof. apply tables_apart_b; by vm_compute. Qed.
Lemma item_min b : b ∈ items -> in_table min_table b -> False.
Proof. unfold items. intros Hb. indexes; apply item_apart_b; by vm_compute. Qed.
Lemma item_auction b : b ∈ items -> in_table auction_table b -> False.
Proof. unfold items. intros Hb. indexes; apply item_apart_b; by vm_compute. Qed.
Lemma info_item : info_key ∈ items. Proof. unfold items. set_solver. Qed.
Lemma config_item : config_key ∈ items. Proof. unfold items. set_solver. Qed.
Lemma halt_item : halt_key ∈ items. Proof. unfold items. set_solver. Qed.
Local Hint Resolve min_auction item_min item_auction info_item config_item halt_item : regions.

Ltac fields := cbn [s_config s_mins s_halt s_auctions set_config set_mins set_halt set_auctions].
Section Confined.
Context (info : option Migrate.cw2) (st : state) (s s' : store) (Hs : stored info st s).
Ltac confined Hd :=
  destruct Hs; split; fields; try assumption;
  match goal with
  | |- represents _ _ _ => eapply represents_frame; [eassumption|]; intros; apply Hd; intros ?; by eauto with regions
  | |- forall b, ~ in_layout b -> _ => intros b Hb; rewrite Hd; [by auto|]; intros ?; apply Hb; unfold in_layout; tauto
  | |- _ !! _ = _ => rewrite Hd; [assumption|intros ?; by eauto with regions]
  end.
Lemma stored_mins g : (forall b, ~ in_table min_table b -> s' !! b = s !! b) -> represents min_table g s' -> stored info (set_mins st g) s'.
Proof. intros Hd Hr. confined Hd. Qed.
Lemma stored_auctions g : (forall b, ~ in_table auction_table b -> s' !! b = s !! b) -> represents auction_table g s' -> stored info (set_auctions st g) s'.
Proof. intros Hd Hr. confined Hd. Qed.
Ltac item_write :=
  destruct Hs; split; fields; try (by rewrite lookup_insert);
  try (rewrite lookup_insert_ne by (unfold info_key, config_key, halt_key; congruence); assumption);
  match goal with
  | |- represents _ _ _ => eapply represents_frame; [eassumption|]; intros; apply lookup_insert_ne; intros <-; by eauto with regions
  | |- forall b, ~ in_layout b -> _ => intros b Hb; rewrite lookup_insert_ne; [by auto|]; intros <-; apply Hb; left; by eauto with regions
  end.
Lemma stored_config c : stored info (set_config st c) (<[config_key := Rec (RConfig c)]> s).
Proof. item_write. Qed.
Lemma stored_halt h : stored info (set_halt st h) (<[halt_key := Rec (RHalt h)]> s).
Proof. item_write. Qed.
Lemma stored_info c : stored (Some c) st (<[info_key := Rec (RInfo c)]> s).
Proof. item_write. Qed.
End Confined.

Lemma fits_any {K A} `{Countable K} (g : gmap K A) : fit any any g.
Proof. done. Qed.
Lemma write_stored info st s w : fits st -> write_fits w -> stored info st s -> stored info (write_state st w) (write_bytes s w).
Proof.
  intros Hf Hw Hs. assert (fit key_fits auction_fits (s_auctions st)) as Ha by exact Hf.
  pose proof (so_mins _ _ _ Hs) as Hrm. pose proof (so_auctions _ _ _ Hs) as Hra.
  destruct w; cbn [write_state write_bytes write_fits] in *.
  - by apply stored_config.
  - by apply stored_halt.
  - apply (stored_mins info st s _ Hs); [intros b Hn; by apply (save_frame min_table any any min_ok (s_mins st))|].
    by apply (save_represents min_table any any min_ok).
  - apply (stored_mins info st s _ Hs); [intros b Hn; by apply (remove_frame min_table any any min_ok (s_mins st))|].
    by apply (remove_represents min_table any any min_ok).
  - destruct Hw as [Hk Hy].
    apply (stored_auctions info st s _ Hs); [intros b Hn; by apply (save_frame auction_table key_fits auction_fits auction_ok (s_auctions st))|].
    by apply (save_represents auction_table key_fits auction_fits auction_ok).
  - apply (stored_auctions info st s _ Hs); [intros b Hn; by apply (remove_frame auction_table key_fits auction_fits auction_ok (s_auctions st))|].
    by apply (remove_represents auction_table key_fits auction_fits auction_ok).
Qed.
Lemma write_fits_state st w : fits st -> write_fits w -> fits (write_state st w).
Proof.
  intros H1 Hw. destruct w; cbn [write_state write_fits] in *; unfold fits; fields; try done;
    intros j y Hj; try (apply lookup_insert_Some in Hj as [[<- <-]|[_ Hj]]; [done|]); try (apply lookup_delete_Some in Hj as [_ Hj]); by eauto.
Qed.
Lemma writes_stored info ws : forall st s, fits st -> Forall write_fits ws -> stored info st s ->
  fits (foldl write_state st ws) /\ stored info (foldl write_state st ws) (foldl write_bytes s ws).
Proof.
  induction ws as [|w ws IH]; intros st s Hf Hw Hs; [done|]. apply Forall_cons in Hw as [Hw Hws]. cbn [foldl].
  apply IH; [by apply write_fits_state|done|by apply write_stored].
Qed.
Lemma stored_unique info st s s' : stored info st s -> stored info st s' -> s = s'.
Proof.
  intros [H1 H2 H3 H4 H5 H6] [G1 G2 G3 G4 G5 G6]. apply map_eq. intros b. apply option_eq. intros v.
  destruct (decide (in_layout b)) as [Hb|Hb]; [|by rewrite H6, G6]. destruct Hb as [Hb|[Hb|Hb]].
  - unfold items in Hb. indexes; [by rewrite H1, G1|by rewrite H2, G2|by rewrite H3, G3].
  - by rewrite (H4 b v Hb), (G4 b v Hb).
  - by rewrite (H5 b v Hb), (G5 b v Hb).
Qed.
Definition blank (info : option Migrate.cw2) (c : config) (h : halt_manager) : store :=
  partial_alter (fun _ => (fun c => Rec (RInfo c)) <$> info) info_key (<[config_key := Rec (RConfig c)]> (<[halt_key := Rec (RHalt h)]> ∅)).
Lemma blank_lookup info c h b : b ∉ items -> blank info c h !! b = None.
Proof.
  intros Hb. unfold blank. rewrite lookup_partial_alter_ne by (intros <-; apply Hb, info_item).
  rewrite lookup_insert_ne by (intros <-; apply Hb, config_item). rewrite lookup_insert_ne by (intros <-; apply Hb, halt_item). done.
Qed.
Lemma blank_stored info c h : stored info (State c ∅ h ∅) (blank info c h).
Proof.
  split; fields; [by unfold blank; rewrite lookup_partial_alter|..];
    try (unfold blank; rewrite lookup_partial_alter_ne by (unfold info_key, config_key, halt_key; congruence)).
  - by rewrite lookup_insert.
  - rewrite lookup_insert_ne by (unfold config_key, halt_key; congruence). by rewrite lookup_insert.
  - apply represents_empty. intros b Hb. apply blank_lookup. intros ?. by eauto with regions.
  - apply represents_empty. intros b Hb. apply blank_lookup. intros ?. by eauto with regions.
  - intros b Hb. apply blank_lookup. intros ?. apply Hb. by left.
Qed.
Lemma stored_exists info st : fits st -> exists s : store, stored info st s.
Proof.
  intros Hf. pose proof (blank_stored info (s_config st) (s_halt st)) as H0.
  edestruct (represents_exists min_table any any min_ok (s_mins st)) as (s1&R1&F1);
    [apply fits_any|intros b; apply represents_none, (so_mins _ _ _ H0)|].
  pose proof (stored_mins _ _ _ _ H0 _ F1 R1) as H1.
  edestruct (represents_exists auction_table key_fits auction_fits auction_ok (s_auctions st)) as (s2&R2&F2);
    [exact Hf|intros b; apply represents_none, (so_auctions _ _ _ H1)|].
  pose proof (stored_auctions _ _ _ _ H1 _ F2 R2) as H2. exists s2. by destruct st.
Qed.

(** * Reading *)
Lemma loads_stored info st (s : store) : fits st -> stored info st s ->
  (forall d, load min_table d s = s_mins st !! d) /\ (forall k, key_fits k -> load auction_table k s = s_auctions st !! k).
Proof.
  intros Hf []. split.
  - intros k. by apply (load_represents min_table any any min_ok).
  - intros k Hk. by apply (load_represents auction_table key_fits auction_fits auction_ok).
Qed.
(** The bytes of an auction's key, and of a key of the end time index. *)
Definition akey_enc (k : akey) : string := lp (fst k) +++ snd k.
Definition ekey_enc (k : ekey) : string := lp (be_bytes 8 (fst k)) +++ akey_enc (snd k).
Definition ekey_fits (k : ekey) : Prop := fst k < 2 ^ 64 /\ key_fits (snd k).
Lemma akey_embeds : embeds key_fits akey_leb akey_enc.
Proof.
  apply (embeds_ext key_fits (V1Model.lex_leb V1Model.lenstr_leb str_leb));
    [|intros k k' Hk Hk'; exact (embeds_name _ _ _ embeds_str k k' (conj Hk I) (conj Hk' I))].
  intros [c t] [c' t']. unfold akey_leb, V1Model.lex_leb, V1Model.lenstr_leb. cbn [fst snd]. case_bool_decide as E.
  - subst c'. rewrite Nat.ltb_irrefl, Nat.eqb_refl. cbn. destruct (str_leb_total c c) as [H|H]; by rewrite H.
  - rewrite andb_false_l, orb_false_r. f_equal. f_equal. destruct (str_leb c' c) eqn:E1, (str_leb c c') eqn:E2; try done.
    + by destruct E; apply str_leb_antisym.
    + destruct (str_leb_total c c'); congruence.
Qed.
Lemma ekey_embeds : embeds ekey_fits ekey_leb ekey_enc.
Proof.
  apply (embeds_ext ekey_fits (V1Model.lex_leb N.leb akey_leb)); [|exact (embeds_number 8 _ _ _ _ pow8 akey_embeds)].
  intros [n k] [n' k']. unfold ekey_leb, V1Model.lex_leb. cbn [fst snd]. case_bool_decide as E.
  - subst n'. by rewrite N.ltb_irrefl, N.eqb_refl.
  - destruct (N.ltb_spec n n'), (N.eqb_spec n n'), (N.leb_spec n n'); cbn; done || lia.
Qed.
Lemma end_index_fits a : auction_fits a -> end_index a < 2 ^ 64.
Proof.
  intros [_ Ha]. unfold end_index. destruct (a_end a) as [t|]; [|by vm_compute]. specialize (Ha t eq_refl). unfold t_seconds, NANOS.
  eapply N.le_lt_trans; [apply N.div_le_upper_bound; [done|]|exact Ha]. clear. nia.
Qed.
Lemma read_seller info st (s : store) seller o : fits st -> stored info st s -> short seller -> opts_in key_fits o ->
  read_index auction_table (lp "a__s" +++ lps [seller]) (enc_opts akey_enc o) s =
  snd <$> index_scan akey_leb fst (List.filter (fun x => bool_decide (a_seller (snd x) = seller)) (map_to_list (s_auctions st))) o.
Proof.
  intros Hf Hs Hc Ho. change "a__s" with (ix_ns seller_index).
  rewrite (read_index_scan auction_table key_fits auction_fits auction_ok (s_auctions st) s Hf (so_auctions _ _ _ Hs) akey_leb fst key_fits akey_enc
    akey_embeds seller_index [seller] (fun a => bool_decide (a_seller a = seller))).
  - done.
  - unfold auction_table. cbn [tb_ix]. set_solver.
  - by repeat constructor.
  - intros a _. split; [cbn; lia|]. rewrite bool_decide_eq_true. cbn. split; [by intros ->|]. by intros [= ->].
  - intros k a Ha _. destruct (Hf _ _ Ha) as [H _]. split; [done|]. by destruct k.
  - done.
Qed.
Lemma read_end_time info st (s : store) o : fits st -> stored info st s -> opts_in ekey_fits o ->
  read_index auction_table (lp "a__et") (enc_opts ekey_enc o) s = snd <$> index_scan ekey_leb entry_ekey (map_to_list (s_auctions st)) o.
Proof.
  intros Hf Hs Ho. rewrite <-(str_app_nil_r (lp "a__et")). change "a__et" with (ix_ns end_time_index). change "" with (lps []).
  rewrite (read_index_scan auction_table key_fits auction_fits auction_ok (s_auctions st) s Hf (so_auctions _ _ _ Hs) ekey_leb entry_ekey ekey_fits ekey_enc
    ekey_embeds end_time_index [] (fun _ => true)).
  - by rewrite read_all.
  - unfold auction_table. cbn [tb_ix]. set_solver.
  - constructor.
  - intros a _. split; [cbn; lia|done].
  - intros k a Ha _. destruct (Hf _ _ Ha) as [H H']. split; [split; [by apply end_index_fits|done]|].
    unfold ekey_enc, entry_ekey, akey_enc. cbn [fst snd drop length ix_of end_time_index lps]. by rewrite str_app_nil_r.
  - done.
Qed.
Lemma read_mins info st (s : store) o : stored info st s ->
  read_pairs min_table (lp "mrp") (enc_opts (fun d : string => d) o) s = index_scan str_leb fst (map_to_list (s_mins st)) o.
Proof.
  intros Hs. change "mrp" with (tb_ns min_table).
  rewrite (read_pairs_scan min_table any any min_ok (s_mins st) s (fits_any _) (so_mins _ _ _ Hs) str_leb fst any (fun d : string => d)); [|done..].
  rewrite <-(list_fmap_id (index_scan _ _ _ _)) at 2. apply list_fmap_ext. by intros ? [d n].
Qed.
(** sudo.rs:86-100 *)
Lemma read_due info st (s : store) bound limit : fits st -> stored info st s -> bound < 2 ^ 64 ->
  take (N.to_nat limit) (read_index auction_table (lp "a__et") (enc_opts ekey_enc (QOpts (Some false) None None (Some (BExcl (bound, ("", "")))))) s) =
  due_auctions st bound limit.
Proof.
  intros Hf Hs Hb. unfold due_auctions. f_equal. apply (read_end_time info st s); [done..|]. intros b [[=]|[= <-]]. by split.
Qed.
