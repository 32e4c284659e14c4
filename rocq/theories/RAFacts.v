(** Inversion lemmas and storage invariants of the reserve auction. *)
From stdpp Require Import relations.
From Verif Require Import Base Common Chain BaseFacts ChainFacts IndexRange IndexFacts SaleFacts RAModel RASpec.

Section Facts.
Context (p : params) (lb : lib).

(** * Payment *)
Lemma payout_inv c seller fee roy resp msgs :
  payout_nft_sale_fees lb c seller fee roy resp = Ok msgs ->
  exists sp, sp_burn sp + sp_royalty sp + sp_seller sp = c_amount c /\
    msgs = resp ++ burn_part (c_denom c) (sp_burn sp) ++ pay_part (sp_royalty_to sp) (c_denom c) (sp_royalty sp)
                ++ pay_part seller (c_denom c) (sp_seller sp) /\
    l_fee lb (c_amount c) fee = Ok (sp_burn sp) /\
    match roy with
    | None => sp_royalty sp = 0
    | Some (to, share) => sp_royalty_to sp = to /\ l_royalty lb (c_amount c) share = Ok (sp_royalty sp)
    end.
Proof.
  assert (forall to d n, send_part to d n = pay_part to d n) as Hs.
  { intros. unfold send_part, pay_part. destruct (N.eqb_spec n 0); [rewrite decide_True by done|rewrite decide_False by done]; done. }
  assert (forall d n, (if n =? 0 then [] else [MFairBurn (Coin d n)]) = burn_part d n) as Hb.
  { intros. unfold burn_part. destruct (N.eqb_spec n 0); [rewrite decide_True by done|rewrite decide_False by done]; done. }
  unfold payout_nft_sale_fees. intros H. apply bind_Ok in H as (f&Hf&H). apply bind_Ok in H as (rest&Hr&H).
  unfold checked_sub128 in Hr. destruct (f <=? c_amount c) eqn:Ef; [|done]. injection Hr as <-.
  apply bind_Ok in H as ([rm n]&Hn&H). apply bind_Ok in H as (s&Hsl&H).
  unfold checked_sub128 in Hsl. destruct (n <=? c_amount c - f) eqn:En; [|done]. injection Hsl as <-.
  injection H as <-. rewrite Hb, Hs.
  destruct roy as [[to share]|].
  - apply bind_Ok in Hn as (n'&Hn&E). injection E as <- <-. rewrite Hs.
    exists (SaleSplit f n' (c_amount c - f - n') to). cbn. split_and!; try done. lia.
  - injection Hn as <- <-. exists (SaleSplit f 0 (c_amount c - f - 0) ""). cbn. split_and!; try done. lia.
Qed.

Lemma out_burn_part d n d' : out (burn_part d n) d' = in_denom d' (Coin d n).
Proof.
  unfold burn_part, in_denom. destruct (decide (n = 0)) as [->|]; cbn; [by destruct (decide (d = d'))|].
  destruct (decide (d = d')); [rewrite bool_decide_eq_true_2 by done|rewrite bool_decide_eq_false_2 by done]; lia.
Qed.
Lemma out_pay_part to d n d' : out (pay_part to d n) d' = in_denom d' (Coin d n).
Proof.
  unfold pay_part, in_denom. destruct (decide (n = 0)) as [->|]; cbn; [by destruct (decide (d = d'))|].
  destruct (decide (d = d')); [rewrite bool_decide_eq_true_2 by done|rewrite bool_decide_eq_false_2 by done]; lia.
Qed.
Lemma in_denom_amt d c : in_denom d c = amt [c] d.
Proof. unfold in_denom. cbn. destruct (decide (c_denom c = d)); [rewrite bool_decide_eq_true_2 by done|rewrite bool_decide_eq_false_2 by done]; lia. Qed.

Lemma out_settlement a hb sp d : splits hb sp -> out (settlement a hb sp) d = in_denom d (hb_coin hb).
Proof.
  intros H. unfold settlement. rewrite !out_app, out_burn_part, !out_pay_part. unfold splits in H.
  unfold in_denom. destruct hb as [[dn n] b]; cbn in *. destruct (decide (dn = d)); lia.
Qed.

(** * Settlement *)
Lemma within_halted h t : within_halt_window h (t_seconds t) = true <-> halted h t.
Proof.
  unfold within_halt_window, halted. rewrite existsb_exists. split.
  - intros (w&Hw&H). exists w. rewrite elem_of_list_In. apply andb_prop in H as [? ?]. split_and!; [done|lia|lia].
  - intros (w&Hw&H1&H2). exists w. rewrite <-elem_of_list_In. split; [done|].
    apply andb_true_intro. split; lia.
Qed.

Definition put (st : state) (k : akey) (o : option auction) : state :=
  set_auctions st (match o with Some a => <[k := a]> (s_auctions st) | None => delete k (s_auctions st) end).

Lemma t_plus_seconds_Ok t s t' : t_plus_seconds t s = Ok t' <-> t' = t + s * NANOS /\ t + s * NANOS <= U64_MAX.
Proof.
  unfold t_plus_seconds. destruct (N.leb_spec (t + s * NANOS) U64_MAX) as [H|H]; split.
  - intros E. injection E as <-. done.
  - by intros [-> _].
  - intros E; discriminate E.
  - intros [_ E]. lia.
Qed.

Lemma settle_inv v st now a cfg h resp st' msgs :
  settle_auction p lb v st now a cfg h resp = Ok (st', msgs) ->
  exists o em, st' = put st (a_key a) o /\ msgs = resp ++ em /\ outcome lb v now cfg h a o em.
Proof.
  unfold settle_auction. intros H. destruct (a_end a) as [t|] eqn:Et; [|done].
  apply bind_Ok in H as (u&Hu&H). apply ensure_Ok in Hu.
  destruct (within_halt_window h (t_seconds t)) eqn:Ew.
  - apply bind_Ok in H as (ne&Hne&H). apply t_plus_seconds_Ok in Hne as [-> Hle]. injection H as <- <-.
    eexists _, []. split_and!; [|by rewrite app_nil_r|].
    2: { econstructor; [done|lia| |done]. by apply within_halted. }
    done.
  - destruct (a_high a) as [hb|] eqn:Eh; [|done].
    apply bind_Ok in H as (roy&Hroy&H). apply bind_Ok in H as (ms&Hp&H). injection H as <- <-.
    apply payout_inv in Hp as (sp&Hsp&->&Hfee&Hr).
    assert (rates lb v cfg a hb sp) as Hrates.
    { split; [done|]. unfold load_collection_royalties in Hroy. destruct (q_info v (a_coll a)) as [[cs [[to sh]|]]|]; cbn in Hroy.
      - unfold addr_validate in Hroy. destruct (p_valid p to); [|done]. injection Hroy as <-. done.
      - injection Hroy as <-. done.
      - destruct (l_royalty_open lb); [|done]. injection Hroy as <-. done. }
    exists None, (settlement a hb sp). split_and!; [done| |].
    + unfold transfer_nft, settlement. by rewrite <-!app_assoc.
    + econstructor; [done|lia| |done|done|done]. rewrite <-within_halted. by rewrite Ew.
Qed.

Lemma settle_all_inv v now cfg h st l resp st' msgs :
  settle_all p lb v now cfg h st l resp = Ok (st', msgs) ->
  exists os : list (option auction * list cmsg),
    Forall2 (fun a o => outcome lb v now cfg h a (fst o) (snd o)) l os /\
    msgs = resp ++ concat (snd <$> os) /\
    st' = foldl (fun st x => put st (a_key (fst x)) (fst (snd x))) st (zip l os).
Proof.
  revert st resp. induction l as [|a l IH]; intros st resp H.
  - injection H as <- <-. exists []. cbn. split_and!; [constructor|by rewrite app_nil_r|done].
  - cbn in H. apply bind_Ok in H as ([st1 r1]&H1&H). apply settle_inv in H1 as (o&em&->&->&Ho).
    apply IH in H as (os&HF&->&->). exists ((o, em) :: os). split_and!.
    + by constructor.
    + cbn. by rewrite app_assoc.
    + done.
Qed.

(** * Well-formed storage *)
Record aok (a : auction) : Prop := {
  aok_valid : p_valid p (a_coll a) = true;
  aok_seller : a_seller a <> p_self p;
  aok_phase : phase a;
  aok_bid : forall hb, a_high a = Some hb ->
    c_denom (hb_coin hb) = c_denom (a_reserve a) /\ 0 < c_amount (hb_coin hb) /\ hb_bidder hb <> a_seller a /\
    hb_bidder hb <> p_self p;
  aok_end : forall t, a_end a = Some t -> t <= U64_MAX;
}.
Record wf (st : state) : Prop := {
  wf_config : config_validate (s_config st) = Ok tt;
  wf_auction : forall k a, s_auctions st !! k = Some a -> a_key a = k /\ aok a;
}.

Lemma wf_put st k o : wf st -> (forall a, o = Some a -> a_key a = k /\ aok a) -> wf (put st k o).
Proof.
  intros [H1 H2] Ho. split; [done|]. intros k' a'. cbn. destruct o as [a|].
  - rewrite lookup_insert_Some. intros [[<- <-]|[_ ?]]; auto.
  - rewrite lookup_delete_Some. intros [_ ?]. auto.
Qed.
Lemma aok_with_end a t now : aok a -> a_end a = Some t -> t <= now -> now <= U64_MAX -> aok (with_end a now).
Proof.
  intros [H1 H2 H3 H4 H5] Ht Hn Hm. split; try done; cbn.
  - destruct H3 as [? ? ?|f e hb ? He ? ?]; [congruence|]. eapply running; cbn; try done.
    rewrite Ht in He. injection He as <-. lia.
  - intros t' E. by injection E as <-.
Qed.
Lemma outcome_aok v now cfg h a o em : outcome lb v now cfg h a o em -> aok a ->
  forall a', o = Some a' -> a_key a' = a_key a /\ aok a'.
Proof.
  intros H Ha a' E. destruct H as [t Ht Hle _ Hm|]; [|done]. injection E as <-. split; [done|].
  eapply aok_with_end; try done. lia.
Qed.

(** Processing a list of outcomes. *)
Definition process (st : state) (l : list auction) (os : list (option auction * list cmsg)) : state :=
  foldl (fun st x => put st (a_key (fst x)) (fst (snd x))) st (zip l os).
Lemma process_config st l os : s_config (process st l os) = s_config st /\ s_mins (process st l os) = s_mins st /\
  s_halt (process st l os) = s_halt st.
Proof.
  unfold process. revert st. induction (zip l os) as [|x r IH]; intros st; cbn; [done|].
  destruct (IH (put st (a_key (fst x)) (fst (snd x)))) as (->&->&->). done.
Qed.
Lemma process_wf v now cfg h st l os :
  wf st -> Forall aok l -> Forall2 (fun a o => outcome lb v now cfg h a (fst o) (snd o)) l os -> wf (process st l os).
Proof.
  unfold process. intros Hwf Hl H. revert st Hwf. induction H as [|a o l os Ho _ IH]; intros st Hwf; cbn; [done|].
  apply Forall_cons in Hl as [Ha Hl]. apply (IH Hl). apply wf_put; [done|]. intros a' Ea.
  eapply outcome_aok; done.
Qed.
Lemma process_cons st a l o os : process st (a :: l) (o :: os) = process (put st (a_key a) (fst o)) l os.
Proof. done. Qed.
Lemma process_other st l os k : k ∉ (a_key <$> l) -> s_auctions (process st l os) !! k = s_auctions st !! k.
Proof.
  revert st os. induction l as [|a l IH]; intros st os Hk; [done|]. destruct os as [|o os]; [done|].
  rewrite process_cons. cbn in Hk. apply not_elem_of_cons in Hk as [Hk1 Hk2]. rewrite IH by done. cbn.
  destruct (fst o); [by rewrite lookup_insert_ne|by rewrite lookup_delete_ne].
Qed.
Lemma process_at st l os i a o : NoDup (a_key <$> l) -> l !! i = Some a -> os !! i = Some o ->
  s_auctions (process st l os) !! a_key a = fst o.
Proof.
  revert st os i. induction l as [|b l IH]; intros st os i Hn Ha Ho; [done|].
  destruct os as [|o' os]; [done|]. cbn in Hn. apply NoDup_cons in Hn as [Hb Hn]. rewrite process_cons.
  destruct i as [|i]; cbn in Ha, Ho.
  - injection Ha as ->. injection Ho as ->. rewrite process_other by done. cbn.
    destruct (fst o); [by rewrite lookup_insert|by rewrite lookup_delete].
  - eapply IH; done.
Qed.

(** The due auctions. *)
Lemma due_elem st bound limit a : wf st -> a ∈ due_auctions st bound limit ->
  s_auctions st !! a_key a = Some a /\ end_index a < bound.
Proof.
  unfold due_auctions. intros Hwf Ha. apply elem_of_take in Ha as (i&Ha&_). apply elem_of_list_lookup_2 in Ha.
  apply elem_of_list_fmap in Ha as ([k a']&->&Hx). apply index_scan_elem in Hx as [Hx Hb].
  rewrite elem_of_map_to_list in Hx. cbn. destruct (wf_auction _ Hwf _ _ Hx) as [-> _]. split; [done|].
  unfold in_bounds, in_min, in_max, entry_ekey in Hb. cbn -[ekey_leb] in Hb.
  unfold ekey_leb in Hb. cbn in Hb. destruct (bound <? end_index a') eqn:E1; [done|]. cbn in Hb.
  destruct (bound =? end_index a') eqn:E2; [|lia]. exfalso. cbn in Hb.
  unfold akey_leb in Hb. cbn in Hb. destruct k as [c t]. cbn in Hb. 
  destruct c as [|? c]; done.
Qed.
End Facts.
