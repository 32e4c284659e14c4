(** The NFT books of marketplace v2. *)
From stdpp Require Import relations.
From Verif Require Import Base BaseFacts Common Chain ChainFacts QuerySpec SaleFacts LedgerSpec NftBooksSpec V2Model V2Spec V2Facts V2Inv
  V2Reach V2Match V2Trade V2LedgerSpec V2Ledger V2NftSpec.

Section V2Nft.
Context (p : params) (Hcf : collision_free p) (Hpf : prefix_free p).

Lemma moves_app k l l' : moves k (l ++ l') = moves k l ++ moves k l'.
Proof. apply omap_app. Qed.
Lemma moves_one k c t to : moves k [MNft c t to] = if decide (k = (c, t)) then [to] else [].
Proof. cbn. by case_decide. Qed.
Lemma moves_none k l : (forall c t to, MNft c t to ∉ l) -> moves k l = [].
Proof.
  induction l as [|m l IH]; intros H; [done|]. change (m :: l) with ([m] ++ l). rewrite moves_app, IH.
  - destruct m; try done. destruct (H coll tok to). by left.
  - intros c t to Hin. eapply H. right. exact Hin.
Qed.
Lemma moves_sale k pre dn (ps : list (addr * N)) c t to post :
  (forall c t to, MNft c t to ∉ pre) -> (forall c t to, MNft c t to ∉ post) ->
  moves k (pre ++ (send_one dn <$> ps) ++ MNft c t to :: post) = if decide (k = (c, t)) then [to] else [].
Proof.
  intros Hpre Hpost. rewrite !moves_app, (moves_none _ _ Hpre), (moves_none k (send_one dn <$> ps)) by (intros; apply send_ones_no_nft).
  cbn [app]. change (MNft c t to :: post) with ([MNft c t to] ++ post). rewrite moves_app, (moves_none _ _ Hpost), app_nil_r. cbn.
  by case_decide.
Qed.
Lemma not_listed st k : ~ listed st k <-> unlisted st (fst k) (snd k).
Proof.
  destruct k as [c t]. cbn. split.
  - intros H i a Ha [E1 E2]. apply H. exists i, a. by subst.
  - intros H (i&a&Ha&[= <- <-]). by eapply H.
Qed.

Lemma same_id st i a c t : wf p st -> s_asks st !! i = Some a -> p_valid p c = true -> i = generate_id p [c; t] -> a_coll a = c /\ a_tok a = t.
Proof.
  intros Hwf Ha Hc Hi. destruct (wf_ask _ _ Hwf _ _ Ha) as (_&Hg&_&Hv&_).
  eapply ask_id_inj; try done. by rewrite <- Hi, <- Hg.
Qed.
Lemma listed_delete st st' a k : wf p st -> a_id a = generate_id p [a_coll a; a_tok a] -> p_valid p (a_coll a) = true ->
  s_asks st' = delete (a_id a) (s_asks st) ->
  ((a_coll a, a_tok a) = k -> ~ listed st' k) /\ ((a_coll a, a_tok a) <> k -> listed st k <-> listed st' k).
Proof.
  intros Hwf Hid Hv E. split.
  - intros <- (i&b&Hb&[= E1 E2]). rewrite E in Hb. apply lookup_delete_Some in Hb as [Hne Hb].
    destruct (wf_ask _ _ Hwf _ _ Hb) as (_&Hg&_). apply Hne. rewrite Hid, Hg. by rewrite E1, E2.
  - intros Hk. split; intros (i&b&Hb&Eb).
    + exists i, b. split; [|done]. rewrite E. apply lookup_delete_Some. split; [|done]. intros <-.
      destruct (same_id _ _ _ _ _ Hwf Hb Hv Hid) as [E1 E2]. apply Hk. by rewrite <- Eb, E1, E2.
    + rewrite E in Hb. apply lookup_delete_Some in Hb as [_ Hb]. by exists i, b.
Qed.

Lemma sale_valid v e sender funds st m st' msgs a mb f pre post : wf p st -> effect p v e sender funds st m st' msgs ->
  sale_result p v e sender funds st m st' msgs a mb f pre post -> p_valid p (a_coll a) = true.
Proof.
  intros Hwf He Hr. pose proof (sr_cause _ _ _ _ _ _ _ _ _ _ _ _ _ _ Hr) as Hc.
  destruct (sr_trade _ _ _ _ _ _ _ _ _ _ _ _ _ _ Hr) as [m id coll tok d mb Hm Hrest|id d a0 mb Ha|id d a0 i Ha|m coll tok d a0 i Hm Ha
    |id d b a0 Hb Hcr Ha|id d b a0 Hb [[Ha _]|[i ->]]|m coll d a0 i Hm Ha|id d cb a0 Hb Hcr Ha|id tok d cb a0 Hb [[Ha _]|[i ->]]];
    try (by destruct (wf_ask _ _ Hwf _ _ Ha) as (_&_&_&?&_)).
  - destruct Hm; subst m; by destruct Hc as (_&_&?&_).
  - by destruct (wf_bid _ _ Hwf _ _ Hb) as (_&_&?&_).
  - by destruct (wf_cbid _ _ Hwf _ _ Hb) as (_&_&?&_).
Qed.
Lemma listed_same st st' k : s_asks st' = s_asks st -> listed st k <-> listed st' k.
Proof. intros E. unfold listed. by rewrite E. Qed.

Lemma step_moves v e s fu m st st' ms k : wf p st -> s <> p_self p -> effect p v e s fu st m st' ms ->
  nft_step (p_self p) (Entry s fu m st st' ms) k (moves k ms).
Proof.
  intros Hwf Hs He. destruct (effect_sale_or_not _ _ _ _ _ _ _ _ _ Hwf He) as [Hno|(a&mb&f&pre&post&Hr)].
  - destruct Hno as (_&_&Hno).
    assert (s_asks st' = s_asks st -> (forall c t to, MNft c t to ∉ ms) -> nft_step (p_self p) (Entry s fu m st st' ms) k (moves k ms)) as Hsame.
    { intros E Hn. rewrite moves_none by done. apply keeps. by apply listed_same. }
    destruct He; try (apply Hsame; [done|]; try (intros; apply refund_no_nft); intros; by repeat (rewrite elem_of_cons || rewrite elem_of_nil); naive_solver).
    all: try (exfalso; destruct Hno as [Hn|[[id' E]|(c&t&d'&E&i&[x Hi]&Hn)]];
      [by eapply Hn; rewrite ?elem_of_cons, ?elem_of_app; eauto 10 using elem_of_list_here|by first [discriminate|destruct H; subst]|
       by first [discriminate|cbn in Hi; apply lookup_delete_Some in Hi as [_ Hi]; congruence]]).
    + (* list *) clear Hno Hsame.
      change (moves k [MSend (cf_fee_manager (s_config st)) [lp]; MNft coll tok (p_self p)]) with (moves k [MNft coll tok (p_self p)]).
      rewrite moves_one. case_decide as E.
      * subst k. eapply lists; cbn [en_msg en_before en_after fst snd]; [done| |].
        -- intros (i&b&Hb&[= E1 E2]). destruct (wf_ask _ _ Hwf _ _ Hb) as (_&Hg&_). unfold a in H8. cbn [a_id ask_new] in H8.
           rewrite E1, E2 in Hg. congruence.
        -- exists (a_id a), a. cbn [set_asks s_asks]. by rewrite lookup_insert.
      * apply keeps. cbn [en_before en_after]. split; intros (i&b&Hb&Eb).
        -- exists i, b. split; [|done]. cbn [set_asks s_asks]. rewrite lookup_insert_ne; [done|]. intros <-. congruence.
        -- cbn [set_asks s_asks] in Hb. apply lookup_insert_Some in Hb as [[_ <-]|[_ Hb]]; [by destruct E|]. by exists i, b.
    + (* reprice *) clear Hno Hsame. apply keeps. cbn [en_before en_after]. destruct (wf_ask _ _ Hwf _ _ H1) as (Hid&_).
      split; intros (i&b&Hb&Eb).
      * destruct (decide (i = id)) as [->|Hne].
        -- exists id, a. cbn [set_asks s_asks]. unfold a. cbn [a_id]. rewrite Hid, lookup_insert. split; [done|]. cbn. congruence.
        -- exists i, b. split; [|done]. cbn [set_asks s_asks]. unfold a. cbn [a_id]. rewrite Hid. by rewrite lookup_insert_ne.
      * cbn [set_asks s_asks] in Hb. apply lookup_insert_Some in Hb as [[_ <-]|[_ Hb]]; [|by exists i, b].
        exists id, a0. done.
    + (* withdraw *) clear Hno Hsame. destruct (wf_ask _ _ Hwf _ _ H0) as (Hid&Hg&_&Hv&_).
      rewrite moves_one.
      destruct (listed_delete st (set_asks st (delete (a_id a) (s_asks st))) a k) as [H2 H3]; [done|by rewrite Hid|done|done|].
      case_decide as E.
      * eapply withdraws; cbn [en_msg en_before en_after en_by]; try done. by apply H2.
      * apply keeps. apply H3. congruence.
  - pose proof (sale_valid _ _ _ _ _ _ _ _ _ _ _ _ _ Hwf He Hr) as Hv. destruct Hr as [Htr -> Hpre Hpost _ _ Ha _ _ _ Hid _ _].
    rewrite moves_sale.
    + destruct (listed_delete st st' a k Hwf Hid Hv Ha) as [H2 H3]. case_decide as E.
      * eapply sells_it; cbn [en_msg en_before en_after en_by]; try done. by apply H2.
      * apply keeps. apply H3. congruence.
    + intros c t to Hin. pose proof (forwards_no_nft _ _ _ _ _ Hpre) as HF. rewrite Forall_forall in HF. by apply HF in Hin.
    + intros c t to Hin. pose proof (change_no_nft _ _ Hpost) as HF. rewrite Forall_forall in HF. by apply HF in Hin.
Qed.
Lemma entry_moves st l h k : trace p st l -> h ∈ l -> nft_step (p_self p) h k (moves k (en_msgs h)).
Proof.
  intros Ht Hh. destruct (entry_call _ _ _ _ Ht Hh) as (l0&v&e&Ht0&_&Hs&H). destruct h as [s fu m b a ms]. cbn in *.
  eapply step_moves; [|done|by eapply execute_effect]. eapply history_wf. by eapply trace_history.
Qed.
Definition is_listed (st : state) (k : nft) : bool :=
  existsb (fun x : order_id * ask => bool_decide ((a_coll (snd x), a_tok (snd x)) = k)) (map_to_list (s_asks st)).
Lemma is_listed_iff st k : is_listed st k = true <-> listed st k.
Proof.
  unfold is_listed. rewrite existsb_exists. split.
  - intros ([i a]&Hin&E%bool_decide_eq_true). exists i, a. split; [|done]. by apply elem_of_map_to_list, elem_of_list_In.
  - intros (i&a&Ha&E). exists (i, a). split; [by apply elem_of_list_In, elem_of_map_to_list|by apply bool_decide_eq_true].
Qed.
Lemma nft_books st l k (b : bool) : trace p st l -> (b = true <-> listed st k) -> listed_or_passed (p_self p) (all_moves k l) b.
Proof.
  intros Ht. revert b. induction Ht as [c st H|st l v e s f m st' ms Ht IH Hs H]; intros b Hb.
  - unfold instantiate in H. inv_ok. destruct b; [|constructor]. exfalso. destruct (proj1 Hb eq_refl) as (i&a&Ha&_). cbn [s_asks] in Ha. by rewrite lookup_empty in Ha.
  - unfold all_moves in *. rewrite fmap_app, concat_app. cbn [fmap list_fmap concat]. rewrite app_nil_r.
    assert (wf p st) as Hwf by (eapply history_wf; by eapply trace_history).
    pose proof (step_moves _ _ _ _ _ _ _ _ k Hwf Hs (execute_effect _ _ _ _ _ _ _ _ _ H)) as Hst.
    specialize (IH (is_listed st k) (is_listed_iff st k)). cbn [en_msgs].
    inversion Hst as [Hk E|d Hm Hn Hl E|i a Hm Ha Hka Hcr Hn E|a mb f' Htr Hka Hn E]; cbn [en_before en_after] in *.
    + rewrite app_nil_r. replace b with (is_listed st k); [done|]. apply eq_bool_prop_intro. rewrite !Is_true_true, is_listed_iff. tauto.
    + replace b with true by (symmetry; tauto). apply p_taken. replace false with (is_listed st k); [done|].
      apply not_true_is_false. by rewrite is_listed_iff.
    + replace b with false by (symmetry; apply not_true_is_false; tauto). destruct (is_listed st k); [by apply p_given|by apply p_passed].
    + replace b with false by (symmetry; apply not_true_is_false; tauto). destruct (is_listed st k); [by apply p_given|by apply p_passed].
Qed.
End V2Nft.
