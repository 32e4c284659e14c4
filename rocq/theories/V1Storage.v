(** The storage of contracts/marketplace in bytes.  File references are relative to /repo/contracts/marketplace/src. *)
From stdpp Require Import relations pretty.
From Verif Require Import Base BaseFacts Common IndexRange IndexFacts QuerySpec IndexWalk V1Model Storage.
From Verif Require Migrate.

Local Infix "+++" := String.append (at level 60, right associativity).

(** * Layout *)
Inductive record : Type := RInfo (c : Migrate.cw2) | RParams (x : sudo_params) | RHooks (l : list addr) | RAsk (a : ask) | RBid (b : bid) | RCBid (b : cbid).
Notation store := (gmap string (value record)).

(** state.rs:35-40, and cw2's CONTRACT; the hook lists are items of sg_controllers::Hooks *)
Definition info_key : string := "contract_info".
Definition params_key : string := "sudo-params".
Definition ask_hooks_key : string := "ask-hooks".
Definition bid_hooks_key : string := "bid-hooks".
Definition sale_hooks_key : string := "sale-hooks".
Definition cbid_hooks_key : string := "collection-bid-hooks".
(** state.rs:88-128 *)
Definition ask_collection_index : index ask := Index "asks__collection" (fun a => [k_coll a]).
Definition ask_price_index : index ask := Index "asks__collection_price" (fun a => [k_coll a; be_bytes 16 (k_price a)]).
Definition ask_seller_index : index ask := Index "asks__seller" (fun a => [k_seller a]).
Definition ask_table : table (string * N) ask record :=
  Table "asks" (fun k => [fst k; be_bytes 4 (snd k)]) [ask_collection_index; ask_price_index; ask_seller_index]
    RAsk (fun r => match r with RAsk a => Some a | _ => None end).
(** state.rs:167-226 *)
Definition bid_collection_index : index bid := Index "bids__collection" (fun b => [b_coll b]).
Definition bid_token_index : index bid := Index "bids__collection_token_id" (fun b => [b_coll b; be_bytes 4 (b_tok b)]).
Definition bid_price_index : index bid := Index "bids__collection_price" (fun b => [b_coll b; be_bytes 16 (b_price b)]).
Definition bid_bidder_index : index bid := Index "bids__bidder" (fun b => [b_bidder b]).
Definition bid_expiry_index : index bid := Index "bids__bidder_expires_at" (fun b => [b_bidder b; be_bytes 8 (t_seconds (b_expires b))]).
Definition bid_table : table (string * N * string) bid record :=
  Table "bids" (fun k => [fst (fst k); be_bytes 4 (snd (fst k)); snd k])
    [bid_collection_index; bid_token_index; bid_price_index; bid_bidder_index; bid_expiry_index]
    RBid (fun r => match r with RBid b => Some b | _ => None end).
(** state.rs:244-297 *)
Definition cbid_collection_index : index cbid := Index "col_bids__collection" (fun b => [cb_coll b]).
Definition cbid_price_index : index cbid := Index "col_bids__collection_price" (fun b => [cb_coll b; be_bytes 16 (cb_price b)]).
Definition cbid_bidder_index : index cbid := Index "col_bids__bidder" (fun b => [cb_bidder b]).
Definition cbid_expiry_index : index cbid := Index "col_bids__bidder_expires_at" (fun b => [cb_bidder b; be_bytes 8 (t_seconds (cb_expires b))]).
Definition cbid_table : table (string * string) cbid record :=
  Table "col_bids" (fun k => [fst k; snd k]) [cbid_collection_index; cbid_price_index; cbid_bidder_index; cbid_expiry_index]
    RCBid (fun r => match r with RCBid b => Some b | _ => None end).

(** * Specification *)
Definition hook_items : list string := [ask_hooks_key; bid_hooks_key; sale_hooks_key; cbid_hooks_key].
Definition items : list string := [info_key; params_key] ++ hook_items.
Definition in_layout (b : string) : Prop := b ∈ items \/ in_table ask_table b \/ in_table bid_table b \/ in_table cbid_table b.
Global Instance in_layout_dec b : Decision (in_layout b). Proof. apply _. Defined.
(** A hook list that was never written counts as empty ([may_load] with a default). *)
Definition hooks_at (s : store) (b : string) (l : list addr) : Prop :=
  s !! b = Some (Rec (RHooks l)) \/ (s !! b = None /\ l = []).
Record stored (info : option Migrate.cw2) (st : state) (s : store) : Prop := {
  so_info : s !! info_key = (fun c => Rec (RInfo c)) <$> info;
  so_params : s !! params_key = Some (Rec (RParams (s_params st)));
  so_ask_hooks : hooks_at s ask_hooks_key (s_ask_hooks st);
  so_bid_hooks : hooks_at s bid_hooks_key (s_bid_hooks st);
  so_sale_hooks : hooks_at s sale_hooks_key (s_sale_hooks st);
  so_cbid_hooks : hooks_at s cbid_hooks_key (s_cbid_hooks st);
  so_asks : represents ask_table (s_asks st) s;
  so_bids : represents bid_table (s_bids st) s;
  so_cbids : represents cbid_table (s_cbids st) s;
  so_rest : forall b, ~ in_layout b -> s !! b = None;
}.
(** Strings that are prefixed with their length have at most 65535 bytes; token ids are u32, prices u128, timestamps u64. *)
Definition ask_key_fits (k : string * N) : Prop := short (fst k) /\ snd k < 2 ^ 32.
Definition bid_key_fits (k : string * N * string) : Prop := ask_key_fits (fst k).
Definition cbid_key_fits (k : string * string) : Prop := short (fst k).
Definition ask_fits (a : ask) : Prop := short (k_coll a) /\ short (k_seller a) /\ k_price a < 2 ^ 128.
Definition bid_fits (b : bid) : Prop := short (b_coll b) /\ short (b_bidder b) /\ b_tok b < 2 ^ 32 /\ b_price b < 2 ^ 128 /\ b_expires b < 2 ^ 64.
Definition cbid_fits (b : cbid) : Prop := short (cb_coll b) /\ short (cb_bidder b) /\ cb_price b < 2 ^ 128 /\ cb_expires b < 2 ^ 64.
Definition fits (st : state) : Prop :=
  (forall k a, s_asks st !! k = Some a -> ask_key_fits k /\ ask_fits a) /\
  (forall k b, s_bids st !! k = Some b -> bid_key_fits k /\ bid_fits b) /\
  (forall k b, s_cbids st !! k = Some b -> cbid_key_fits k /\ cbid_fits b).

(** The writes the contract makes to its storage. *)
Inductive write : Type :=
  | WParams (x : sudo_params) | WAskHooks (l : list addr) | WBidHooks (l : list addr) | WSaleHooks (l : list addr)
  | WAsk (k : string * N) (a : ask) | WNoAsk (k : string * N)
  | WBid (k : string * N * string) (b : bid) | WNoBid (k : string * N * string)
  | WCBid (k : string * string) (b : cbid) | WNoCBid (k : string * string).
Definition write_fits (w : write) : Prop :=
  match w with
  | WAsk k a => ask_key_fits k /\ ask_fits a | WNoAsk k => ask_key_fits k
  | WBid k b => bid_key_fits k /\ bid_fits b | WNoBid k => bid_key_fits k
  | WCBid k b => cbid_key_fits k /\ cbid_fits b | WNoCBid k => cbid_key_fits k
  | _ => True
  end.
Definition write_bytes (s : store) (w : write) : store :=
  match w with
  | WParams x => <[params_key := Rec (RParams x)]> s
  | WAskHooks l => <[ask_hooks_key := Rec (RHooks l)]> s
  | WBidHooks l => <[bid_hooks_key := Rec (RHooks l)]> s
  | WSaleHooks l => <[sale_hooks_key := Rec (RHooks l)]> s
  | WAsk k a => save ask_table k a s
  | WNoAsk k => remove ask_table k s
  | WBid k b => save bid_table k b s
  | WNoBid k => remove bid_table k s
  | WCBid k b => save cbid_table k b s
  | WNoCBid k => remove cbid_table k s
  end.
Definition write_state (st : state) (w : write) : state :=
  match w with
  | WParams x => set_params st x
  | WAskHooks l => set_hooks st l (s_bid_hooks st) (s_sale_hooks st)
  | WBidHooks l => set_hooks st (s_ask_hooks st) l (s_sale_hooks st)
  | WSaleHooks l => set_hooks st (s_ask_hooks st) (s_bid_hooks st) l
  | WAsk k a => set_asks st (<[k := a]> (s_asks st))
  | WNoAsk k => set_asks st (delete k (s_asks st))
  | WBid k b => set_bids st (<[k := b]> (s_bids st))
  | WNoBid k => set_bids st (delete k (s_bids st))
  | WCBid k b => set_cbids st (<[k := b]> (s_cbids st))
  | WNoCBid k => set_cbids st (delete k (s_cbids st))
  end.

(** * Facts *)
Ltac indexes :=
  repeat match goal with
  | H : _ ∈ [] |- _ => by apply elem_of_nil in H
  | H : _ ∈ _ :: _ |- _ => apply elem_of_cons in H as [->|H]
  end.
Lemma seconds_fit t : t < 2 ^ 64 -> t_seconds t < 2 ^ 64.
Proof. intros Ht. unfold t_seconds, NANOS. eapply N.le_lt_trans; [apply N.div_le_upper_bound; [done|]|exact Ht]. clear. nia. Qed.
Lemma be4_inj x y : x < 2 ^ 32 -> y < 2 ^ 32 -> be_bytes 4 x = be_bytes 4 y -> x = y.
Proof. rewrite <-pow4. apply be_bytes_inj. Qed.
Ltac parts := cbn [ix_of ask_collection_index ask_price_index ask_seller_index bid_collection_index bid_token_index bid_price_index bid_bidder_index
  bid_expiry_index cbid_collection_index cbid_price_index cbid_bidder_index cbid_expiry_index]; repeat (apply Forall_cons; split); try assumption;
  try (by apply short_be); try apply Forall_nil.
Lemma ask_ok : table_ok ask_table ask_key_fits ask_fits.
Proof.
  apply table_ok_intro; [by vm_compute| |done|..].
  - intros [c t] [c' t'] [Hc Ht] [Hc' Ht'] E. change (lp c +++ be_bytes 4 t = lp c' +++ be_bytes 4 t') in E. apply lp_inj in E as [-> E]; [|done..].
    by apply be4_inj in E as ->.
  - intros i y y'. cbn [tb_ix ask_table]. intros Hi. by indexes.
  - intros i y. cbn [tb_ix ask_table]. intros Hi (H1&H2&H3). clear H3. indexes; by parts.
Qed.
Lemma bid_ok : table_ok bid_table bid_key_fits bid_fits.
Proof.
  apply table_ok_intro; [by vm_compute| |done|..].
  - intros [[c t] b] [[c' t'] b'] [Hc Ht] [Hc' Ht'] E. cbn [fst snd] in *.
    change (lp c +++ lp (be_bytes 4 t) +++ b = lp c' +++ lp (be_bytes 4 t') +++ b') in E. apply lp_inj in E as [-> E]; [|done..].
    apply lp_inj in E as [E ->]; [|by apply short_be..]. by apply be4_inj in E as ->.
  - intros i y y'. cbn [tb_ix bid_table]. intros Hi. by indexes.
  - intros i y. cbn [tb_ix bid_table]. intros Hi (H1&H2&_). indexes; by parts.
Qed.
Lemma cbid_ok : table_ok cbid_table cbid_key_fits cbid_fits.
Proof.
  apply table_ok_intro; [by vm_compute| |done|..].
  - intros [c b] [c' b'] Hc Hc' E. change (lp c +++ b = lp c' +++ b') in E. by apply lp_inj in E as [-> ->].
  - intros i y y'. cbn [tb_ix cbid_table]. intros Hi. by indexes.
  - intros i y. cbn [tb_ix cbid_table]. intros Hi (H1&H2&_). indexes; by parts.
Qed.
Lemma ask_bid b : in_table ask_table b -> in_table bid_table b -> False. Proof. apply tables_apart_b; by vm_compute. Qed.
Lemma ask_cbid b : in_table ask_table b -> in_table cbid_table b -> False. Proof. apply tables_apart_b; by vm_compute. Qed.
Lemma bid_cbid b : in_table bid_table b -> in_table cbid_table b -> False. Proof. apply tables_apart_b; by vm_compute. Qed.
Ltac no_item := unfold items, hook_items; cbn [app]; intros Hb; indexes; apply item_apart_b; by vm_compute.
Lemma item_ask b : b ∈ items -> in_table ask_table b -> False. Proof. no_item. Qed.
Lemma item_bid b : b ∈ items -> in_table bid_table b -> False. Proof. no_item. Qed.
Lemma item_cbid b : b ∈ items -> in_table cbid_table b -> False. Proof. no_item. Qed.
Ltac an_item := unfold items, hook_items; cbn [app]; set_solver.
Lemma info_item : info_key ∈ items. Proof. an_item. Qed.
Lemma params_item : params_key ∈ items. Proof. an_item. Qed.
Lemma ask_hooks_item : ask_hooks_key ∈ items. Proof. an_item. Qed.
Lemma bid_hooks_item : bid_hooks_key ∈ items. Proof. an_item. Qed.
Lemma sale_hooks_item : sale_hooks_key ∈ items. Proof. an_item. Qed.
Lemma cbid_hooks_item : cbid_hooks_key ∈ items. Proof. an_item. Qed.
Local Hint Resolve ask_bid ask_cbid bid_cbid item_ask item_bid item_cbid info_item params_item ask_hooks_item bid_hooks_item sale_hooks_item
  cbid_hooks_item : regions.

Ltac fields := cbn [s_params s_asks s_bids s_cbids s_ask_hooks s_bid_hooks s_sale_hooks s_cbid_hooks set_params set_asks set_bids set_cbids set_hooks].
Section Confined.
Context (info : option Migrate.cw2) (st : state) (s s' : store) (Hs : stored info st s).
Ltac confined Hd :=
  destruct Hs; split; fields; try assumption;
  match goal with
  | |- represents _ _ _ => eapply represents_frame; [eassumption|]; intros; apply Hd; intros ?; by eauto with regions
  | |- forall b, ~ in_layout b -> _ => intros b Hb; rewrite Hd; [by auto|]; intros ?; apply Hb; unfold in_layout; tauto
  | |- _ !! _ = _ => rewrite Hd; [assumption|intros ?; by eauto with regions]
  | |- hooks_at _ _ _ => unfold hooks_at in *; rewrite Hd; [assumption|intros ?; by eauto with regions]
  end.
Lemma stored_asks g : (forall b, ~ in_table ask_table b -> s' !! b = s !! b) -> represents ask_table g s' -> stored info (set_asks st g) s'.
Proof. intros Hd Hr. confined Hd. Qed.
Lemma stored_bids g : (forall b, ~ in_table bid_table b -> s' !! b = s !! b) -> represents bid_table g s' -> stored info (set_bids st g) s'.
Proof. intros Hd Hr. confined Hd. Qed.
Lemma stored_cbids g : (forall b, ~ in_table cbid_table b -> s' !! b = s !! b) -> represents cbid_table g s' -> stored info (set_cbids st g) s'.
Proof. intros Hd Hr. confined Hd. Qed.
Ltac other := unfold info_key, params_key, ask_hooks_key, bid_hooks_key, sale_hooks_key, cbid_hooks_key; congruence.
Ltac item_write :=
  destruct Hs; split; fields; unfold hooks_at in *; try (by rewrite lookup_insert); try (by left; rewrite lookup_insert);
  try (rewrite lookup_insert_ne by other; assumption);
  match goal with
  | |- represents _ _ _ => eapply represents_frame; [eassumption|]; intros; apply lookup_insert_ne; intros <-; by eauto with regions
  | |- forall b, ~ in_layout b -> _ => intros b Hb; rewrite lookup_insert_ne; [by auto|]; intros <-; apply Hb; left; by eauto with regions
  end.
Lemma stored_params x : stored info (set_params st x) (<[params_key := Rec (RParams x)]> s).
Proof. item_write. Qed.
Lemma stored_ask_hooks l : stored info (set_hooks st l (s_bid_hooks st) (s_sale_hooks st)) (<[ask_hooks_key := Rec (RHooks l)]> s).
Proof. item_write. Qed.
Lemma stored_bid_hooks l : stored info (set_hooks st (s_ask_hooks st) l (s_sale_hooks st)) (<[bid_hooks_key := Rec (RHooks l)]> s).
Proof. item_write. Qed.
Lemma stored_sale_hooks l : stored info (set_hooks st (s_ask_hooks st) (s_bid_hooks st) l) (<[sale_hooks_key := Rec (RHooks l)]> s).
Proof. item_write. Qed.
Lemma stored_info c : stored (Some c) st (<[info_key := Rec (RInfo c)]> s).
Proof. item_write. Qed.
End Confined.

Lemma fits_asks st : fits st -> fit ask_key_fits ask_fits (s_asks st).
Proof. intros (H&_). exact H. Qed.
Lemma fits_bids st : fits st -> fit bid_key_fits bid_fits (s_bids st).
Proof. intros (_&H&_). exact H. Qed.
Lemma fits_cbids st : fits st -> fit cbid_key_fits cbid_fits (s_cbids st).
Proof. intros (_&_&H). exact H. Qed.
Lemma write_stored info st s w : fits st -> write_fits w -> stored info st s -> stored info (write_state st w) (write_bytes s w).
Proof.
  intros Hf Hw Hs. pose proof (fits_asks _ Hf) as Ha. pose proof (fits_bids _ Hf) as Hb. pose proof (fits_cbids _ Hf) as Hc.
  pose proof (so_asks _ _ _ Hs) as Hra. pose proof (so_bids _ _ _ Hs) as Hrb. pose proof (so_cbids _ _ _ Hs) as Hrc.
  destruct w; cbn [write_state write_bytes write_fits] in *.
  - by apply stored_params.
  - by apply stored_ask_hooks.
  - by apply stored_bid_hooks.
  - by apply stored_sale_hooks.
  - destruct Hw as [Hk Hy].
    apply (stored_asks info st s _ Hs); [intros b Hn; by apply (save_frame ask_table ask_key_fits ask_fits ask_ok (s_asks st))|].
    by apply (save_represents ask_table ask_key_fits ask_fits ask_ok).
  - apply (stored_asks info st s _ Hs); [intros b Hn; by apply (remove_frame ask_table ask_key_fits ask_fits ask_ok (s_asks st))|].
    by apply (remove_represents ask_table ask_key_fits ask_fits ask_ok).
  - destruct Hw as [Hk Hy].
    apply (stored_bids info st s _ Hs); [intros b' Hn; by apply (save_frame bid_table bid_key_fits bid_fits bid_ok (s_bids st))|].
    by apply (save_represents bid_table bid_key_fits bid_fits bid_ok).
  - apply (stored_bids info st s _ Hs); [intros b' Hn; by apply (remove_frame bid_table bid_key_fits bid_fits bid_ok (s_bids st))|].
    by apply (remove_represents bid_table bid_key_fits bid_fits bid_ok).
  - destruct Hw as [Hk Hy].
    apply (stored_cbids info st s _ Hs); [intros b' Hn; by apply (save_frame cbid_table cbid_key_fits cbid_fits cbid_ok (s_cbids st))|].
    by apply (save_represents cbid_table cbid_key_fits cbid_fits cbid_ok).
  - apply (stored_cbids info st s _ Hs); [intros b' Hn; by apply (remove_frame cbid_table cbid_key_fits cbid_fits cbid_ok (s_cbids st))|].
    by apply (remove_represents cbid_table cbid_key_fits cbid_fits cbid_ok).
Qed.
Lemma write_fits_state st w : fits st -> write_fits w -> fits (write_state st w).
Proof.
  intros (H1&H2&H3) Hw. destruct w; cbn [write_state write_fits] in *; unfold fits; fields; split_and!; try assumption;
    intros j y Hj; try (apply lookup_insert_Some in Hj as [[<- <-]|[_ Hj]]; [assumption|]); try (apply lookup_delete_Some in Hj as [_ Hj]); by eauto.
Qed.
Lemma writes_stored info ws : forall st s, fits st -> Forall write_fits ws -> stored info st s ->
  fits (foldl write_state st ws) /\ stored info (foldl write_state st ws) (foldl write_bytes s ws).
Proof.
  induction ws as [|w ws IH]; intros st s Hf Hw Hs; [done|]. apply Forall_cons in Hw as [Hw Hws]. cbn [foldl].
  apply IH; [by apply write_fits_state|done|by apply write_stored].
Qed.
(** The state determines the store, but for the difference between an empty hook list and an absent one. *)
Lemma stored_unique info st (s s' : store) : stored info st s -> stored info st s' -> forall b, b ∉ hook_items -> s !! b = s' !! b.
Proof.
  intros [H1 H2 _ _ _ _ H4 H5 H6 H7] [G1 G2 _ _ _ _ G4 G5 G6 G7] b Hh. apply option_eq. intros v.
  destruct (decide (in_layout b)) as [Hb|Hb]; [|by rewrite H7, G7]. destruct Hb as [Hb|[Hb|[Hb|Hb]]].
  - unfold items in Hb. apply elem_of_app in Hb as [Hb|Hb]; [|done]. clear Hh. indexes; [by rewrite H1, G1|by rewrite H2, G2].
  - by rewrite (H4 b v Hb), (G4 b v Hb).
  - by rewrite (H5 b v Hb), (G5 b v Hb).
  - by rewrite (H6 b v Hb), (G6 b v Hb).
Qed.
Definition blank (info : option Migrate.cw2) (x : sudo_params) (a b s c : list addr) : store :=
  partial_alter (fun _ => (fun c => Rec (RInfo c)) <$> info) info_key
    (<[params_key := Rec (RParams x)]> (<[ask_hooks_key := Rec (RHooks a)]> (<[bid_hooks_key := Rec (RHooks b)]>
    (<[sale_hooks_key := Rec (RHooks s)]> (<[cbid_hooks_key := Rec (RHooks c)]> ∅))))).
Lemma blank_lookup info x a b s c i : i ∉ items -> blank info x a b s c !! i = None.
Proof.
  intros Hi. unfold blank. rewrite lookup_partial_alter_ne by (intros <-; apply Hi, info_item).
  rewrite lookup_insert_ne by (intros <-; apply Hi, params_item). rewrite lookup_insert_ne by (intros <-; apply Hi, ask_hooks_item).
  rewrite lookup_insert_ne by (intros <-; apply Hi, bid_hooks_item). rewrite lookup_insert_ne by (intros <-; apply Hi, sale_hooks_item).
  rewrite lookup_insert_ne by (intros <-; apply Hi, cbid_hooks_item). done.
Qed.
Lemma blank_stored info x a b s c : stored info (State x ∅ ∅ ∅ a b s c) (blank info x a b s c).
Proof.
  split; fields; [by unfold blank; rewrite lookup_partial_alter| | | | | |..]; unfold hooks_at; try left;
    try (unfold blank; rewrite lookup_partial_alter_ne by (unfold info_key, params_key, ask_hooks_key, bid_hooks_key, sale_hooks_key, cbid_hooks_key; congruence);
      repeat (rewrite lookup_insert_ne by (unfold info_key, params_key, ask_hooks_key, bid_hooks_key, sale_hooks_key, cbid_hooks_key; congruence));
      by rewrite lookup_insert).
  - apply represents_empty. intros i Hb. apply blank_lookup. intros ?. by eauto with regions.
  - apply represents_empty. intros i Hb. apply blank_lookup. intros ?. by eauto with regions.
  - apply represents_empty. intros i Hb. apply blank_lookup. intros ?. by eauto with regions.
  - intros i Hb. apply blank_lookup. intros ?. apply Hb. by left.
Qed.
Lemma stored_exists info st : fits st -> exists s : store, stored info st s.
Proof.
  intros Hf. pose proof (blank_stored info (s_params st) (s_ask_hooks st) (s_bid_hooks st) (s_sale_hooks st) (s_cbid_hooks st)) as H0.
  edestruct (represents_exists ask_table ask_key_fits ask_fits ask_ok (s_asks st)) as (s1&R1&F1);
    [by apply fits_asks|intros b; apply represents_none, (so_asks _ _ _ H0)|].
  pose proof (stored_asks _ _ _ _ H0 _ F1 R1) as H1.
  edestruct (represents_exists bid_table bid_key_fits bid_fits bid_ok (s_bids st)) as (s2&R2&F2);
    [by apply fits_bids|intros b; apply represents_none, (so_bids _ _ _ H1)|].
  pose proof (stored_bids _ _ _ _ H1 _ F2 R2) as H2.
  edestruct (represents_exists cbid_table cbid_key_fits cbid_fits cbid_ok (s_cbids st)) as (s3&R3&F3);
    [by apply fits_cbids|intros b; apply represents_none, (so_cbids _ _ _ H2)|].
  pose proof (stored_cbids _ _ _ _ H2 _ F3 R3) as H3. exists s3. by destruct st.
Qed.

(** * Reading *)
Lemma loads_stored info st (s : store) : fits st -> stored info st s ->
  (forall k, ask_key_fits k -> Storage.load ask_table k s = s_asks st !! k) /\
  (forall k, bid_key_fits k -> Storage.load bid_table k s = s_bids st !! k) /\
  (forall k, cbid_key_fits k -> Storage.load cbid_table k s = s_cbids st !! k).
Proof.
  intros (Ha&Hb&Hc) []. split_and!; intros k Hk.
  - by apply (load_represents ask_table ask_key_fits ask_fits ask_ok).
  - by apply (load_represents bid_table bid_key_fits bid_fits bid_ok).
  - by apply (load_represents cbid_table cbid_key_fits cbid_fits cbid_ok).
Qed.
(** The bytes of the primary keys, and of those with a price or an expiry before. *)
Definition ask_enc (k : string * N) : string := lp (fst k) +++ be_bytes 4 (snd k).
Definition bid_enc (k : string * N * string) : string := (lp (fst (fst k)) +++ lp (be_bytes 4 (snd (fst k)))) +++ snd k.
Definition cbid_enc (k : string * string) : string := lp (fst k) +++ snd k.
Definition price_enc {K} (enc : K -> string) (u : N * K) : string := lp (be_bytes 16 (fst u)) +++ enc (snd u).
Definition expiry_enc {K} (enc : K -> string) (u : N * K) : string := lp (be_bytes 8 (fst u)) +++ enc (snd u).
Definition price_dom {K} (dom : K -> Prop) (u : N * K) : Prop := fst u < 2 ^ 128 /\ dom (snd u).
Definition expiry_dom {K} (dom : K -> Prop) (u : N * K) : Prop := fst u < 2 ^ 64 /\ dom (snd u).
Lemma ask_embeds : embeds ask_key_fits ask_leb ask_enc.
Proof. unfold ask_key_fits, ask_leb, ask_enc. pose proof (embeds_name _ _ _ (embeds_be 4)) as H. rewrite pow4 in H. exact H. Qed.
Lemma bid_embeds : embeds bid_key_fits bid_leb bid_enc.
Proof.
  pose proof (embeds_lex _ _ _ _ _ _ embeds_lp splits_lp (embeds_lp_be 4)) as H1. pose proof (splits_lex _ _ _ _ splits_lp (splits_lp_be 4)) as H2.
  rewrite pow4 in H1, H2. pose proof (embeds_lex _ _ _ _ _ _ H1 H2 embeds_str) as H. intros k k' Hk Hk'. exact (H k k' (conj Hk I) (conj Hk' I)).
Qed.
Lemma cbid_embeds : embeds cbid_key_fits cbid_leb cbid_enc.
Proof. intros k k' Hk Hk'. exact (embeds_name _ _ _ embeds_str k k' (conj Hk I) (conj Hk' I)). Qed.
Lemma price_embeds {K} (dom : K -> Prop) leb enc : embeds dom leb enc -> embeds (price_dom dom) (price_leb leb) (price_enc enc).
Proof. intros H. exact (embeds_number 16 _ _ _ _ pow16 H). Qed.
Lemma expiry_embeds {K} (dom : K -> Prop) leb enc : embeds dom leb enc -> embeds (expiry_dom dom) (price_leb leb) (expiry_enc enc).
Proof. intros H. exact (embeds_number 8 _ _ _ _ pow8 H). Qed.
Lemma read_asks_collection info st (s : store) coll o : fits st -> stored info st s -> short coll -> opts_in ask_key_fits o ->
  read_index ask_table (lp "asks__collection" +++ lps [coll]) (enc_opts ask_enc o) s = snd <$> index_scan ask_leb fst (entries (fun a => coll_is coll (k_coll a)) (s_asks st)) o.
Proof.
  intros Hf Hs Hc Ho. change "asks__collection" with (ix_ns ask_collection_index).
  rewrite (read_index_scan ask_table ask_key_fits ask_fits ask_ok (s_asks st) s (fits_asks _ Hf) (so_asks _ _ _ Hs) ask_leb fst ask_key_fits ask_enc
    ask_embeds ask_collection_index [coll] (fun a => coll_is coll (k_coll a))).
  - done.
  - unfold ask_table. cbn [tb_ix]. set_solver.
  - by repeat constructor.
  - intros a _. split; [cbn; lia|]. unfold coll_is. rewrite bool_decide_eq_true. cbn. split; [by intros ->|]. by intros [= ->].
  - intros k y Hy _. destruct (fits_asks _ Hf _ _ Hy) as [Hk Hy']. split; [done|by destruct k].
  - done.
Qed.
Lemma read_asks_price info st (s : store) coll o : fits st -> stored info st s -> short coll -> opts_in (price_dom ask_key_fits) o ->
  read_index ask_table (lp "asks__collection_price" +++ lps [coll]) (enc_opts (price_enc ask_enc) o) s = snd <$> index_scan (price_leb ask_leb) (price_key k_price) (entries (fun a => coll_is coll (k_coll a)) (s_asks st)) o.
Proof.
  intros Hf Hs Hc Ho. change "asks__collection_price" with (ix_ns ask_price_index).
  rewrite (read_index_scan ask_table ask_key_fits ask_fits ask_ok (s_asks st) s (fits_asks _ Hf) (so_asks _ _ _ Hs) (price_leb ask_leb) (price_key k_price) (price_dom ask_key_fits) (price_enc ask_enc)
    (price_embeds _ _ _ ask_embeds) ask_price_index [coll] (fun a => coll_is coll (k_coll a))).
  - done.
  - unfold ask_table. cbn [tb_ix]. set_solver.
  - by repeat constructor.
  - intros a _. split; [cbn; lia|]. unfold coll_is. rewrite bool_decide_eq_true. cbn. split; [by intros ->|]. by intros [= ->].
  - intros k y Hy _. destruct (fits_asks _ Hf _ _ Hy) as [Hk Hy']. destruct Hy' as (_&_&Hp). split; [by split|]. unfold price_enc, price_key. cbn [fst snd drop length ix_of ask_price_index lps]. by rewrite str_app_nil_r; destruct k.
  - done.
Qed.
Lemma read_asks_seller info st (s : store) seller o : fits st -> stored info st s -> short seller -> opts_in ask_key_fits o ->
  read_index ask_table (lp "asks__seller" +++ lps [seller]) (enc_opts ask_enc o) s = snd <$> index_scan ask_leb fst (entries (fun a => bool_decide (k_seller a = seller)) (s_asks st)) o.
Proof.
  intros Hf Hs Hc Ho. change "asks__seller" with (ix_ns ask_seller_index).
  rewrite (read_index_scan ask_table ask_key_fits ask_fits ask_ok (s_asks st) s (fits_asks _ Hf) (so_asks _ _ _ Hs) ask_leb fst ask_key_fits ask_enc
    ask_embeds ask_seller_index [seller] (fun a => bool_decide (k_seller a = seller))).
  - done.
  - unfold ask_table. cbn [tb_ix]. set_solver.
  - by repeat constructor.
  - intros a _. split; [cbn; lia|]. unfold coll_is. rewrite bool_decide_eq_true. cbn. split; [by intros ->|]. by intros [= ->].
  - intros k y Hy _. destruct (fits_asks _ Hf _ _ Hy) as [Hk Hy']. split; [done|by destruct k].
  - done.
Qed.
Lemma read_bids_price info st (s : store) coll o : fits st -> stored info st s -> short coll -> opts_in (price_dom bid_key_fits) o ->
  read_index bid_table (lp "bids__collection_price" +++ lps [coll]) (enc_opts (price_enc bid_enc) o) s = snd <$> index_scan (price_leb bid_leb) (price_key b_price) (entries (fun b => coll_is coll (b_coll b)) (s_bids st)) o.
Proof.
  intros Hf Hs Hc Ho. change "bids__collection_price" with (ix_ns bid_price_index).
  rewrite (read_index_scan bid_table bid_key_fits bid_fits bid_ok (s_bids st) s (fits_bids _ Hf) (so_bids _ _ _ Hs) (price_leb bid_leb) (price_key b_price) (price_dom bid_key_fits) (price_enc bid_enc)
    (price_embeds _ _ _ bid_embeds) bid_price_index [coll] (fun b => coll_is coll (b_coll b))).
  - done.
  - unfold bid_table. cbn [tb_ix]. set_solver.
  - by repeat constructor.
  - intros a _. split; [cbn; lia|]. unfold coll_is. rewrite bool_decide_eq_true. cbn. split; [by intros ->|]. by intros [= ->].
  - intros k y Hy _. destruct (fits_bids _ Hf _ _ Hy) as [Hk Hy']. destruct Hy' as (_&_&_&Hp&_). split; [by split|]. unfold price_enc, price_key. cbn [fst snd drop length ix_of bid_price_index lps]. rewrite str_app_nil_r. f_equal. destruct k as [[c t] b]. unfold bid_enc. cbn [fst snd]. by rewrite <-str_app_assoc.
  - done.
Qed.
Lemma read_bids_bidder info st (s : store) bidder o : fits st -> stored info st s -> short bidder -> opts_in bid_key_fits o ->
  read_index bid_table (lp "bids__bidder" +++ lps [bidder]) (enc_opts bid_enc o) s = snd <$> index_scan bid_leb fst (entries (fun b => bool_decide (b_bidder b = bidder)) (s_bids st)) o.
Proof.
  intros Hf Hs Hc Ho. change "bids__bidder" with (ix_ns bid_bidder_index).
  rewrite (read_index_scan bid_table bid_key_fits bid_fits bid_ok (s_bids st) s (fits_bids _ Hf) (so_bids _ _ _ Hs) bid_leb fst bid_key_fits bid_enc
    bid_embeds bid_bidder_index [bidder] (fun b => bool_decide (b_bidder b = bidder))).
  - done.
  - unfold bid_table. cbn [tb_ix]. set_solver.
  - by repeat constructor.
  - intros a _. split; [cbn; lia|]. unfold coll_is. rewrite bool_decide_eq_true. cbn. split; [by intros ->|]. by intros [= ->].
  - intros k y Hy _. destruct (fits_bids _ Hf _ _ Hy) as [Hk Hy']. split; [done|]. cbn [fst snd drop length ix_of bid_bidder_index lps]. rewrite str_app_nil. destruct k as [[c t] b]. unfold bid_enc. cbn [fst snd]. by rewrite <-str_app_assoc.
  - done.
Qed.
Lemma read_bids_expiry info st (s : store) bidder o : fits st -> stored info st s -> short bidder -> opts_in (expiry_dom bid_key_fits) o ->
  read_index bid_table (lp "bids__bidder_expires_at" +++ lps [bidder]) (enc_opts (expiry_enc bid_enc) o) s = snd <$> index_scan (price_leb bid_leb) (price_key (fun b => t_seconds (b_expires b))) (entries (fun b => bool_decide (b_bidder b = bidder)) (s_bids st)) o.
Proof.
  intros Hf Hs Hc Ho. change "bids__bidder_expires_at" with (ix_ns bid_expiry_index).
  rewrite (read_index_scan bid_table bid_key_fits bid_fits bid_ok (s_bids st) s (fits_bids _ Hf) (so_bids _ _ _ Hs) (price_leb bid_leb) (price_key (fun b => t_seconds (b_expires b))) (expiry_dom bid_key_fits) (expiry_enc bid_enc)
    (expiry_embeds _ _ _ bid_embeds) bid_expiry_index [bidder] (fun b => bool_decide (b_bidder b = bidder))).
  - done.
  - unfold bid_table. cbn [tb_ix]. set_solver.
  - by repeat constructor.
  - intros a _. split; [cbn; lia|]. unfold coll_is. rewrite bool_decide_eq_true. cbn. split; [by intros ->|]. by intros [= ->].
  - intros k y Hy _. destruct (fits_bids _ Hf _ _ Hy) as [Hk Hy']. destruct Hy' as (_&_&_&_&Hp). split; [split; [by apply seconds_fit|done]|]. unfold expiry_enc, price_key. cbn [fst snd drop length ix_of bid_expiry_index lps]. rewrite str_app_nil_r. f_equal. destruct k as [[c t] b]. unfold bid_enc. cbn [fst snd]. by rewrite <-str_app_assoc.
  - done.
Qed.
(** query.rs:462-482 reads this index with a bound given in bytes. *)
Lemma read_bids_token info st (s : store) coll tok o : fits st -> stored info st s -> short coll -> tok < 2 ^ 32 ->
  read_index bid_table (lp "bids__collection_token_id" +++ lps [coll; be_bytes 4 tok]) (enc_opts (fun b : string => b) o) s =
  snd <$> index_scan str_leb (fun y => raw_bid_key (fst y)) (entries (fun b => coll_is coll (b_coll b) && (b_tok b =? tok)) (s_bids st)) o.
Proof.
  intros Hf Hs Hc Ht. change "bids__collection_token_id" with (ix_ns bid_token_index).
  rewrite (read_index_scan bid_table bid_key_fits bid_fits bid_ok (s_bids st) s (fits_bids _ Hf) (so_bids _ _ _ Hs) str_leb
    (fun y => raw_bid_key (fst y)) (fun _ => True) (fun b : string => b) embeds_str bid_token_index [coll; be_bytes 4 tok]
    (fun b => coll_is coll (b_coll b) && (b_tok b =? tok))).
  - done.
  - unfold bid_table. cbn [tb_ix]. set_solver.
  - repeat (apply Forall_cons; split); [done|by apply short_be|by apply Forall_nil].
  - intros b (_&_&Hb&_). split; [cbn; lia|]. unfold coll_is. rewrite andb_true_iff, bool_decide_eq_true, N.eqb_eq.
    cbn [take length ix_of bid_token_index]. split; [by intros [-> ->]|]. intros E. split; [congruence|]. apply be4_inj; [exact Hb|exact Ht|congruence].
  - intros [[c t] b] y _ _. split; [done|]. cbn [drop length ix_of bid_token_index lps]. rewrite str_app_nil.
    change (raw_pk bid_table (c, t, b)) with (lp c +++ lp (be_bytes 4 t) +++ b). rewrite lp_be. unfold raw_bid_key, lp. cbn [fst].
    by rewrite <-!str_app_assoc.
  - done.
Qed.
Lemma read_cbids_price info st (s : store) coll o : fits st -> stored info st s -> short coll -> opts_in (price_dom cbid_key_fits) o ->
  read_index cbid_table (lp "col_bids__collection_price" +++ lps [coll]) (enc_opts (price_enc cbid_enc) o) s = snd <$> index_scan (price_leb cbid_leb) (price_key cb_price) (entries (fun b => coll_is coll (cb_coll b)) (s_cbids st)) o.
Proof.
  intros Hf Hs Hc Ho. change "col_bids__collection_price" with (ix_ns cbid_price_index).
  rewrite (read_index_scan cbid_table cbid_key_fits cbid_fits cbid_ok (s_cbids st) s (fits_cbids _ Hf) (so_cbids _ _ _ Hs) (price_leb cbid_leb) (price_key cb_price) (price_dom cbid_key_fits) (price_enc cbid_enc)
    (price_embeds _ _ _ cbid_embeds) cbid_price_index [coll] (fun b => coll_is coll (cb_coll b))).
  - done.
  - unfold cbid_table. cbn [tb_ix]. set_solver.
  - by repeat constructor.
  - intros a _. split; [cbn; lia|]. unfold coll_is. rewrite bool_decide_eq_true. cbn. split; [by intros ->|]. by intros [= ->].
  - intros k y Hy _. destruct (fits_cbids _ Hf _ _ Hy) as [Hk Hy']. destruct Hy' as (_&_&Hp&_). split; [by split|]. unfold price_enc, price_key. cbn [fst snd drop length ix_of cbid_price_index lps]. by rewrite str_app_nil_r; destruct k.
  - done.
Qed.
Lemma read_cbids_bidder info st (s : store) bidder o : fits st -> stored info st s -> short bidder -> opts_in cbid_key_fits o ->
  read_index cbid_table (lp "col_bids__bidder" +++ lps [bidder]) (enc_opts cbid_enc o) s = snd <$> index_scan cbid_leb fst (entries (fun b => bool_decide (cb_bidder b = bidder)) (s_cbids st)) o.
Proof.
  intros Hf Hs Hc Ho. change "col_bids__bidder" with (ix_ns cbid_bidder_index).
  rewrite (read_index_scan cbid_table cbid_key_fits cbid_fits cbid_ok (s_cbids st) s (fits_cbids _ Hf) (so_cbids _ _ _ Hs) cbid_leb fst cbid_key_fits cbid_enc
    cbid_embeds cbid_bidder_index [bidder] (fun b => bool_decide (cb_bidder b = bidder))).
  - done.
  - unfold cbid_table. cbn [tb_ix]. set_solver.
  - by repeat constructor.
  - intros a _. split; [cbn; lia|]. unfold coll_is. rewrite bool_decide_eq_true. cbn. split; [by intros ->|]. by intros [= ->].
  - intros k y Hy _. destruct (fits_cbids _ Hf _ _ Hy) as [Hk Hy']. split; [done|by destruct k].
  - done.
Qed.
Lemma read_cbids_expiry info st (s : store) bidder o : fits st -> stored info st s -> short bidder -> opts_in (expiry_dom cbid_key_fits) o ->
  read_index cbid_table (lp "col_bids__bidder_expires_at" +++ lps [bidder]) (enc_opts (expiry_enc cbid_enc) o) s = snd <$> index_scan (price_leb cbid_leb) (price_key (fun b => t_seconds (cb_expires b))) (entries (fun b => bool_decide (cb_bidder b = bidder)) (s_cbids st)) o.
Proof.
  intros Hf Hs Hc Ho. change "col_bids__bidder_expires_at" with (ix_ns cbid_expiry_index).
  rewrite (read_index_scan cbid_table cbid_key_fits cbid_fits cbid_ok (s_cbids st) s (fits_cbids _ Hf) (so_cbids _ _ _ Hs) (price_leb cbid_leb) (price_key (fun b => t_seconds (cb_expires b))) (expiry_dom cbid_key_fits) (expiry_enc cbid_enc)
    (expiry_embeds _ _ _ cbid_embeds) cbid_expiry_index [bidder] (fun b => bool_decide (cb_bidder b = bidder))).
  - done.
  - unfold cbid_table. cbn [tb_ix]. set_solver.
  - by repeat constructor.
  - intros a _. split; [cbn; lia|]. unfold coll_is. rewrite bool_decide_eq_true. cbn. split; [by intros ->|]. by intros [= ->].
  - intros k y Hy _. destruct (fits_cbids _ Hf _ _ Hy) as [Hk Hy']. destruct Hy' as (_&_&_&Hp). split; [split; [by apply seconds_fit|done]|]. unfold expiry_enc, price_key. cbn [fst snd drop length ix_of cbid_expiry_index lps]. by rewrite str_app_nil_r; destruct k.
  - done.
Qed.
(** query.rs:210-230 reads the map itself. *)
Lemma read_asks info st (s : store) o : fits st -> stored info st s -> opts_in ask_key_fits o ->
  read_map ask_table (lp "asks") (enc_opts ask_enc o) s = snd <$> index_scan ask_leb fst (map_to_list (s_asks st)) o.
Proof.
  intros Hf Hs Ho. change "asks" with (tb_ns ask_table).
  rewrite (read_map_scan ask_table ask_key_fits ask_fits ask_ok (s_asks st) s (fits_asks _ Hf) (so_asks _ _ _ Hs) ask_leb fst ask_key_fits ask_enc ask_embeds); [done| |done].
  intros k y Hy. destruct (fits_asks _ Hf _ _ Hy) as [Hk _]. by destruct k.
Qed.
