(** Invariants of marketplace v1: storage, parameters, and conservation of coins. *)
From stdpp Require Import relations pretty.
From Verif Require Import Base Common Chain BaseFacts ChainFacts IndexRange IndexFacts SaleFacts Plain V1Model V1Spec V1Facts.

Local Opaque U128_MAX U64_MAX.

(** * Invariants *)
Definition rate_ok (r : N) : Prop := exists bps, bps <= 10000 /\ r = bps * 10 ^ 16.
Record params_ok (c : sudo_params) : Prop := {
  po_fee : rate_ok (sp_trading_fee c);
  po_finders : rate_ok (sp_max_finders_fee c);
  po_reward : rate_ok (sp_reward c);
  po_ask : er_min (sp_ask_expiry c) <= er_max (sp_ask_expiry c);
  po_bid : er_min (sp_bid_expiry c) <= er_max (sp_bid_expiry c);
  po_stale : exists secs, sp_stale c = DTime secs;
  po_operators : NoDup (sp_operators c);
}.
Record wf (p : params) (st : state) : Prop := {
  wf_params : params_ok (s_params st);
  wf_ask : forall k a, s_asks st !! k = Some a -> k = (k_coll a, k_tok a) /\ 0 < k_price a /\ k_seller a <> p_self p /\
    (forall r, k_reserve a = Some r -> r <> k_seller a /\ k_type a = FixedPrice) /\
    (forall n, k_finders a = Some n -> n <= 10000) /\ p_valid p (k_coll a) = true;
  wf_bid : forall k b, s_bids st !! k = Some b -> k = (b_coll b, b_tok b, b_bidder b) /\ 0 < b_price b /\ b_bidder b <> p_self p /\ p_valid p (b_coll b) = true /\
    (forall n, b_finders b = Some n -> n <= 10000);
  wf_cbid : forall k b, s_cbids st !! k = Some b -> k = (cb_coll b, cb_bidder b) /\ 0 < cb_price b /\ cb_bidder b <> p_self p /\ p_valid p (cb_coll b) = true /\
    (forall n, cb_finders b = Some n -> n <= 10000);
  wf_hooks : NoDup (s_ask_hooks st) /\ NoDup (s_bid_hooks st) /\ NoDup (s_sale_hooks st) /\ s_cbid_hooks st = [];
}.

Lemma rate_percent n : n <= 10000 -> rate_ok (dec_percent n).
Proof. intros H. exists n. split; [done|]. unfold dec_percent. by change (10 ^ 16) with 10000000000000000. Qed.
Lemma rate_le r : rate_ok r -> r <= 10 ^ 20.
Proof. intros (b&Hb&->). change (10 ^ 20) with (10000 * 10 ^ 16). by apply N.mul_le_mono_r. Qed.
Lemma rate_part price r : rate_ok r -> price * r / 10 ^ 20 <= price.
Proof.
  intros H%rate_le. apply N.div_le_upper_bound; [lia|]. rewrite N.mul_comm. by apply N.mul_le_mono_r.
Qed.

(** ** Lists without duplicates *)
Lemma register_NoDup l a l' : register l a = Ok l' -> NoDup l -> NoDup l'.
Proof.
  unfold register. destruct (existsb _ l) eqn:E; [done|]. intros [= <-] Hn. apply NoDup_app. split_and!; [done| |apply NoDup_singleton].
  intros y Hy ->%elem_of_list_singleton. apply not_true_iff_false in E. apply E. apply existsb_exists. exists a.
  split; [by apply elem_of_list_In|by apply bool_decide_eq_true].
Qed.
Lemma unregister_in l a l' : unregister l a = Ok l' -> sublist l' l.
Proof.
  revert l'. induction l as [|o l IH]; intros l'; cbn; [done|]. case_bool_decide.
  - intros [= <-]. by constructor.
  - intros (l1&H1&H2)%bind_Ok. injection H2 as <-. apply sublist_skip. by apply IH.
Qed.
Lemma sublist_NoDup (l l' : list addr) : sublist l' l -> NoDup l -> NoDup l'.
Proof.
  induction 1 as [|y l1 l2 Hs IH|y l1 l2 Hs IH]; [done| |]; intros [Hn Hd]%NoDup_cons; [|by apply IH].
  constructor; [|by apply IH]. intros Hin. apply Hn. by eapply elem_of_submseteq, sublist_submseteq.
Qed.
Lemma unregister_NoDup l a l' : unregister l a = Ok l' -> NoDup l -> NoDup l'.
Proof. intros H%unregister_in Hn. by eapply sublist_NoDup. Qed.
Lemma dedup_in l y : y ∈ dedup l <-> y ∈ l.
Proof.
  induction l as [|a l IH]; cbn; [done|]. rewrite (elem_of_cons l), <-IH. destruct (dedup l) as [|b l'].
  - by rewrite elem_of_cons.
  - case_bool_decide as E; [subst|by rewrite elem_of_cons]. split; [by right|]. intros [->|?]; [left|done].
Qed.
Lemma dedup_head l b l' : dedup l = b :: l' -> exists r, l = b :: r.
Proof.
  destruct l as [|a l]; cbn; [done|]. destruct (dedup l) as [|c l''] eqn:E.
  - intros [= -> _]. by eexists.
  - case_bool_decide; intros [= -> _]; subst; by eexists.
Qed.
Lemma dedup_NoDup l : StronglySorted (kle str_leb (fun s => s)) l -> NoDup (dedup l).
Proof.
  induction 1 as [|a l Hl IH Ha]; cbn; [constructor|]. destruct (dedup l) as [|b l'] eqn:E; [apply NoDup_singleton|].
  case_bool_decide as Hab; [done|]. constructor; [|done]. intros Hin. rewrite <-E in Hin. apply (proj1 (dedup_in _ _)) in Hin.
  apply dedup_head in E as (r&->). apply StronglySorted_inv in Hl as [_ Hb]. apply Hab.
  apply str_leb_antisym.
  - rewrite Forall_forall in Ha. apply (Ha b). left.
  - apply elem_of_cons in Hin as [->|Hin]; [apply str_leb_refl|]. rewrite Forall_forall in Hb. by apply (Hb a).
Qed.
Lemma map_validate_NoDup p l l' : map_validate p l = Ok l' -> NoDup l'.
Proof.
  unfold map_validate. intros (r&_&H)%bind_Ok. injection H as <-. apply dedup_NoDup.
  apply sort_by_sorted; [apply str_leb_total|intros; by eapply str_leb_trans].
Qed.

(** ** Instantiation and privileged calls *)
Lemma wf_instantiate p m st : instantiate p m = Ok st -> wf p st.
Proof.
  unfold instantiate. intros H.
  apply bind_Ok in H as (?&H1&H). apply bind_Ok in H as (?&H2&H). apply bind_Ok in H as (?&H3&H).
  apply bind_Ok in H as (?&H4&H). apply bind_Ok in H as (?&H5&H). apply bind_Ok in H as (?&H6&H).
  apply bind_Ok in H as (ops&H7&H). apply bind_Ok in H as (hooks&H8&H). injection H as <-.
  apply ensure_Ok in H1, H2, H3, H4, H5. unfold MAX_FEE_BPS in *.
  split; cbn; try (intros k a Ha; by rewrite lookup_empty in Ha).
  - split; cbn; try (apply rate_percent; lia); try lia.
    + destruct (im_stale m) as [|secs]; [done|]. by exists secs.
    + by eapply map_validate_NoDup.
  - split_and!; try constructor. destruct (im_sale_hook m).
    + apply bind_Ok in H8 as (a&_&H8). injection H8 as <-. apply NoDup_singleton.
    + injection H8 as <-. constructor.
Qed.
Lemma wf_set_params p st c : wf p st -> params_ok c -> wf p (set_params st c).
Proof. intros [? ? ? ? ?] ?. by split. Qed.
Lemma wf_set_hooks p st a b s : wf p st -> NoDup a -> NoDup b -> NoDup s -> wf p (set_hooks st a b s).
Proof. intros [? ? ? ? (?&?&?&?)] ???. by split. Qed.
Lemma params_operators p st ops : wf p st -> NoDup ops -> wf p (set_operators st ops).
Proof. intros Hw Hn. apply wf_set_params; [done|]. destruct (wf_params _ _ Hw). by split. Qed.
Lemma bps_ok_Ok o u : bps_ok o = Ok u -> forall n, o = Some n -> n <= 10000.
Proof. intros H n ->. apply ensure_Ok in H. unfold MAX_FEE_BPS in H. lia. Qed.
Lemma expiry_ok_Ok o u : expiry_ok o = Ok u -> forall r, o = Some r -> er_min r <= er_max r.
Proof. intros H n ->. apply ensure_Ok in H. lia. Qed.
Lemma wf_update_params p st u st' : sudo_update_params st u = Ok st' -> wf p st -> wf p st'.
Proof.
  unfold sudo_update_params. intros H Hw.
  apply bind_Ok in H as (?&H1&H). apply bind_Ok in H as (?&H2&H). apply bind_Ok in H as (?&H3&H).
  apply bind_Ok in H as (?&H4&H). apply bind_Ok in H as (?&H5&H). cbv zeta in H. injection H as <-.
  pose proof (bps_ok_Ok _ _ H1). pose proof (bps_ok_Ok _ _ H2). pose proof (bps_ok_Ok _ _ H3).
  pose proof (expiry_ok_Ok _ _ H4). pose proof (expiry_ok_Ok _ _ H5).
  apply wf_set_params; [done|]. destruct (wf_params _ _ Hw).
  split; cbn; try done.
  - destruct (u_trading_fee_bps u); [|done]. apply rate_percent. auto.
  - destruct (u_max_finders_fee_bps u); [|done]. apply rate_percent. auto.
  - destruct (u_reward_bps u); [|done]. apply rate_percent. auto.
  - destruct (u_ask_expiry u); cbn; auto.
  - destruct (u_bid_expiry u); cbn; auto.
  - destruct (u_stale u) as [n|]; [|done]. by exists n.
Qed.
Lemma wf_sudo p v e st m st' msgs : sudo p v e st m = Ok (st', msgs) -> wf p st -> wf p st' /\ msgs = [].
Proof.
  unfold sudo. intros H Hw. apply bind_Ok in H as (st1&H1&H). injection H as <- <-. split; [|done].
  pose proof (wf_hooks _ _ Hw) as (?&?&?&?). pose proof (po_operators _ (wf_params _ _ Hw)).
  destruct m; cbn in H1; try (apply bind_Ok in H1 as (a0&_&H1); apply bind_Ok in H1 as (l&Hl&H1); injection H1 as <-).
  - by eapply wf_update_params.
  - apply params_operators; [done|]. by eapply register_NoDup.
  - apply params_operators; [done|]. by eapply unregister_NoDup.
  - apply wf_set_hooks; try done. by eapply register_NoDup.
  - apply wf_set_hooks; try done. by eapply register_NoDup.
  - apply wf_set_hooks; try done. by eapply register_NoDup.
  - apply wf_set_hooks; try done. by eapply unregister_NoDup.
  - apply wf_set_hooks; try done. by eapply unregister_NoDup.
  - apply wf_set_hooks; try done. by eapply unregister_NoDup.
  - by injection H1 as <-.
Qed.
(** A privileged call leaves the orders alone. *)
Lemma sudo_orders p v e st m st' msgs : sudo p v e st m = Ok (st', msgs) ->
  s_asks st' = s_asks st /\ s_bids st' = s_bids st /\ s_cbids st' = s_cbids st /\ msgs = [].
Proof.
  unfold sudo. intros H. apply bind_Ok in H as (st1&H1&H). injection H as <- <-.
  destruct m; cbn in H1; try (apply bind_Ok in H1 as (a0&_&H1); apply bind_Ok in H1 as (l&Hl&H1); injection H1 as <-); try done.
  - unfold sudo_update_params in H1. do 5 apply bind_Ok in H1 as (?&_&H1). by injection H1 as <-.
  - by injection H1 as <-.
Qed.

(** ** Calls *)
Lemma wf_remove_ask p st coll tok : wf p st -> wf p (remove_ask st coll tok).
Proof. intros [? Ha ? ? ?]. split; try done. intros k a H. cbn [s_asks s_bids s_cbids remove_ask remove_bid remove_cbid store_ask store_bid store_cbid set_asks set_bids set_cbids] in H. apply lookup_delete_Some in H as [_ H]. by apply Ha. Qed.
Lemma wf_remove_bid p st coll tok who : wf p st -> wf p (remove_bid st coll tok who).
Proof. intros [? ? Hb ? ?]. split; try done. intros k a H. cbn [s_asks s_bids s_cbids remove_ask remove_bid remove_cbid store_ask store_bid store_cbid set_asks set_bids set_cbids] in H. apply lookup_delete_Some in H as [_ H]. by apply Hb. Qed.
Lemma wf_remove_cbid p st coll who : wf p st -> wf p (remove_cbid st coll who).
Proof. intros [? ? ? Hb ?]. split; try done. intros k a H. cbn [s_asks s_bids s_cbids remove_ask remove_bid remove_cbid store_ask store_bid store_cbid set_asks set_bids set_cbids] in H. apply lookup_delete_Some in H as [_ H]. by apply Hb. Qed.
Lemma wf_put_ask p st k a : wf p st -> k = (k_coll a, k_tok a) -> 0 < k_price a -> k_seller a <> p_self p ->
  (forall r, k_reserve a = Some r -> r <> k_seller a /\ k_type a = FixedPrice) ->
  (forall n, k_finders a = Some n -> n <= 10000) -> p_valid p (k_coll a) = true -> wf p (set_asks st (<[k := a]> (s_asks st))).
Proof. intros [? Ha ? ? ?] ??????. split; try done. intros k' a' H'. cbn [s_asks s_bids s_cbids remove_ask remove_bid remove_cbid store_ask store_bid store_cbid set_asks set_bids set_cbids] in H'. apply lookup_insert_Some in H' as [[<- <-]|[_ H']]; [done|]. by apply Ha. Qed.

Lemma finder_bound p st bps : wf p st -> finder_allowed st bps -> forall n, bps = Some n -> n <= 10000.
Proof.
  intros Hw Hf n Hn. apply Hf in Hn. destruct (po_finders _ (wf_params _ _ Hw)) as (b&Hb&Hr). rewrite Hr in Hn.
  apply N.mul_le_mono_pos_r in Hn; lia.
Qed.
Lemma wf_effect p x v e s f st m st' ms : s <> p_self p -> effect p x v e s f st m st' ms -> wf p st -> wf p st'.
Proof.
  intros Hs H Hw. destruct H; auto using wf_remove_ask, wf_remove_bid, wf_remove_cbid.
  - apply wf_put_ask; try done. by eapply finder_bound.
  - destruct (wf_ask _ _ Hw _ _ H1) as (Hk&_&?&?&?&?). apply wf_put_ask; done.
  - apply (wf_remove_bid _ _ (ba_coll ba) (ba_tok ba) s) in Hw. pose proof (finder_bound _ _ _ Hw (bc_fee _ _ _ _ _ _ _ H0)).
    destruct Hw as [? ? Hb ? ?]. destruct H0. split; try done.
    intros k b' H'. cbn [s_asks s_bids s_cbids remove_ask remove_bid remove_cbid store_ask store_bid store_cbid set_asks set_bids set_cbids] in H'. apply lookup_insert_Some in H' as [[<- <-]|[_ H']]; [by subst b|]. by apply Hb.
  - apply (wf_remove_cbid _ _ coll s) in Hw. pose proof (finder_bound _ _ _ Hw H4).
    destruct Hw as [? ? ? Hb ?]. split; try done.
    intros k b' H'. cbn [s_asks s_bids s_cbids remove_ask remove_bid remove_cbid store_ask store_bid store_cbid set_asks set_bids set_cbids] in H'. apply lookup_insert_Some in H' as [[<- <-]|[_ H']]; [by subst b|]. by apply Hb.
  - destruct (wf_ask _ _ Hw _ _ H1) as (Hk&?&?&?&?&?). apply wf_put_ask; done.
Qed.
Lemma execute_sub_of p x v e s f st m st' msgs : execute p x v e s f st m = Ok (st', msgs) ->
  exists ms, effect p x v e s f st m st' ms /\ msgs = map erase ms.
Proof.
  unfold execute. intros ([st1 ms]&H1&H2)%bind_Ok. injection H2 as <- <-. exists ms. split; [|done]. by apply execute_effect.
Qed.
Lemma wf_execute p x v e s f st m st' msgs : s <> p_self p -> execute p x v e s f st m = Ok (st', msgs) -> wf p st -> wf p st'.
Proof. intros Hs (ms&H&_)%execute_sub_of. by eapply wf_effect. Qed.

(** * Coins *)
Definition b_coin (b : bid) : coin := native (b_price b).
Definition cb_coin (b : cbid) : coin := native (cb_price b).
Definition liab (st : state) (d : denom) : N := esc b_coin (s_bids st) d + esc cb_coin (s_cbids st) d.

Lemma amt_native n d : amt [native n] d = if bool_decide ("ustars" = d) then n else 0.
Proof. apply amt_one. Qed.
Lemma bids_total_esc st : bids_total st = esc b_coin (s_bids st) "ustars".
Proof.
  unfold bids_total. generalize (s_bids st). intros m. induction m as [|k b m Hk IH] using map_ind.
  - by rewrite map_fold_empty, esc_empty.
  - rewrite map_fold_insert_L; [|intros; lia|done]. rewrite esc_insert_new, IH by done. unfold b_coin. by rewrite amt_native.
Qed.
Lemma cbids_total_esc st : cbids_total st = esc cb_coin (s_cbids st) "ustars".
Proof.
  unfold cbids_total. generalize (s_cbids st). intros m. induction m as [|k b m Hk IH] using map_ind.
  - by rewrite map_fold_empty, esc_empty.
  - rewrite map_fold_insert_L; [|intros; lia|done]. rewrite esc_insert_new, IH by done. unfold cb_coin. by rewrite amt_native.
Qed.

Lemma erase_plain ms : map erase (plain_msgs ms) = ms.
Proof. unfold plain_msgs. rewrite map_map. apply map_id. Qed.
Lemma out_hooks hooks d : out (hook_msgs hooks) d = 0.
Proof. induction hooks as [|h hooks IH]; [done|]. exact IH. Qed.
Lemma erase_hooks (hooks : list addr) c : map erase (map (fun h => SHook h c) hooks) = hook_msgs hooks.
Proof. unfold hook_msgs. by rewrite map_map. Qed.

(** The amount of the messages of a sale. *)
Definition split_sum (sp : split) : N :=
  x_fee sp + x_finder sp + match x_royalty sp with Some (_, n) => n | None => 0 end + x_seller sp.
Lemma split_none rate price bps r : x_finder (split_of rate price None bps r) = 0.
Proof. unfold split_of. destruct r as [[? s]|]; [|done]. by destruct (s =? 0). Qed.
Lemma out_split x sp finder to d : (finder = None -> x_finder sp = 0) ->
  out (split_msgs x sp finder to) d = if bool_decide ("ustars" = d) then split_sum sp else 0.
Proof.
  intros Hf. unfold split_msgs. rewrite !out_app. unfold split_sum.
  assert (out (if (x_fee sp =? 0) && x_zero_burn x then [] else [MFairBurn (native (x_fee sp))]) d =
    if bool_decide ("ustars" = d) then x_fee sp else 0) as ->.
  { destruct (x_fee sp =? 0) eqn:E; [destruct (x_zero_burn x)|]; cbn; case_bool_decide; lia. }
  assert (out match finder with Some f => if x_finder sp =? 0 then [] else [pay f (x_finder sp)] | None => [] end d =
    if bool_decide ("ustars" = d) then x_finder sp else 0) as ->.
  { destruct finder; [|rewrite Hf by done; cbn; by case_bool_decide]. destruct (x_finder sp =? 0) eqn:E; cbn; case_bool_decide; lia. }
  assert (out match x_royalty sp with Some (to0, n) => [pay to0 n] | None => [] end d =
    if bool_decide ("ustars" = d) then match x_royalty sp with Some (_, n) => n | None => 0 end else 0) as ->.
  { destruct (x_royalty sp) as [[? ?]|]; cbn; case_bool_decide; lia. }
  cbn. case_bool_decide; lia.
Qed.

(** Every call keeps or pays out what it took in, up to one unit of rounding in a sale. *)
Definition balanced (st st' : state) (f : list coin) (msgs : list cmsg) (d : denom) : Prop :=
  liab st' d + out msgs d = liab st d + amt f d \/
  (d = "ustars" /\ liab st' d + out msgs d + 1 = liab st d + amt f d).

Lemma liab_remove_bid st coll tok who b d : s_bids st !! (coll, tok, who) = Some b ->
  liab st d = liab (remove_bid st coll tok who) d + amt [native (b_price b)] d.
Proof. intros H. unfold liab. cbn [s_bids s_cbids remove_bid set_bids]. rewrite (esc_delete b_coin _ _ _ d H). change (native (b_price b)) with (b_coin b). lia. Qed.
Lemma liab_remove_cbid st coll who b d : s_cbids st !! (coll, who) = Some b ->
  liab st d = liab (remove_cbid st coll who) d + amt [native (cb_price b)] d.
Proof. intros H. unfold liab. cbn [s_bids s_cbids remove_cbid set_cbids]. rewrite (esc_delete cb_coin _ _ _ d H). change (native (cb_price b)) with (cb_coin b). lia. Qed.
Lemma liab_refund st coll tok who d :
  liab st d = liab (remove_bid st coll tok who) d + out (refund_of st coll tok who) d.
Proof.
  unfold refund_of. destruct (s_bids st !! (coll, tok, who)) as [b|] eqn:E.
  - rewrite (liab_remove_bid _ _ _ _ _ _ E). cbn [out out_one]. unfold pay. cbn [out out_one]. lia.
  - rewrite remove_bid_none by done. cbn. lia.
Qed.
Lemma liab_store_bid st b d : s_bids st !! (b_coll b, b_tok b, b_bidder b) = None ->
  liab (store_bid st b) d = liab st d + amt [native (b_price b)] d.
Proof. intros H. unfold liab. cbn [s_bids s_cbids store_bid set_bids]. rewrite esc_insert_new by done. change (native (b_price b)) with (b_coin b). lia. Qed.
Lemma liab_store_cbid st b d : s_cbids st !! (cb_coll b, cb_bidder b) = None ->
  liab (store_cbid st b) d = liab st d + amt [native (cb_price b)] d.
Proof. intros H. unfold liab. cbn [s_bids s_cbids store_cbid set_cbids]. rewrite esc_insert_new by done. change (native (cb_price b)) with (cb_coin b). lia. Qed.

Lemma out_sold x sp finder to coll tok who d : (finder = None -> x_finder sp = 0) ->
  out (map erase (sold_smsgs x sp finder to coll tok who)) d = if bool_decide ("ustars" = d) then split_sum sp else 0.
Proof.
  intros H. unfold sold_smsgs. fold plain_msgs. change (map SPlain) with plain_msgs. rewrite erase_plain, out_app, out_split by done.
  cbn. case_bool_decide; lia.
Qed.
Lemma fits_sum sp price : split_fits sp price -> split_sum sp = price \/ split_sum sp + 1 = price.
Proof. done. Qed.

Lemma effect_balanced p x v e s f st m st' ms d : wf p st -> effect p x v e s f st m st' ms ->
  balanced st st' f (map erase ms) d.
Proof.
  intros Hw H. unfold balanced. destruct H; rewrite ?map_app, ?out_app, ?erase_plain.
  - left. unfold ask_hooks. rewrite erase_hooks, out_hooks. change (liab (store_ask st a) d) with (liab st d).
    destruct H8 as [[-> ->]| ->]; [cbn; lia|]. destruct (fee =? 0) eqn:E.
    + apply N.eqb_eq in E. rewrite E. rewrite amt_native. cbn [out]. case_bool_decide; lia.
    + cbn [out out_one]. lia.
  - left. unfold ask_hooks. rewrite erase_hooks, out_hooks. subst f. change (liab (remove_ask st coll tok) d) with (liab st d). cbn; lia.
  - left. unfold ask_hooks. rewrite erase_hooks, out_hooks. subst f. cbn. unfold liab. cbn. lia.
  - left. unfold bid_hooks. rewrite erase_hooks, out_hooks. rewrite (liab_refund st (ba_coll ba) (ba_tok ba) s d).
    destruct H0 as [_ _ _ -> _ _ _]. rewrite liab_store_bid by (cbn; apply lookup_delete). cbn [b b_price]. lia.
  - unfold sale_hooks. rewrite erase_hooks, out_hooks, out_sold by (intros Hn; unfold sp; rewrite Hn; apply split_none).
    change (liab (remove_ask ?s _ _) d) with (liab s d). rewrite (liab_refund st (ba_coll ba) (ba_tok ba) s d).
    destruct H0 as [_ _ _ -> _ _ _]. rewrite amt_native. apply fits_sum in H7. fold sp. case_bool_decide; [|left; lia].
    destruct H7; [left; lia|right]. split; [done|lia].
  - left. unfold bid_hooks. rewrite erase_hooks, out_hooks. subst f. rewrite (liab_remove_bid _ _ _ _ _ d H0). cbn [out out_one pay amt]. lia.
  - unfold sale_hooks. rewrite erase_hooks, out_hooks, out_sold by (intros Hn; unfold sp; rewrite Hn; apply split_none). subst f.
    change (liab (remove_bid (remove_ask st coll tok) coll tok bidder) d) with (liab (remove_bid st coll tok bidder) d).
    rewrite (liab_remove_bid _ _ _ _ _ d H2), amt_native. apply fits_sum in H5. fold sp. cbn [amt]. case_bool_decide; [|left; lia].
    destruct H5; [left; lia|right]. split; [done|lia].
  - left. unfold bid_hooks. rewrite erase_hooks, out_hooks. subst f. rewrite (liab_remove_bid _ _ _ _ _ d H1). cbn [out out_one pay amt]. lia.
  - left. unfold cbid_hooks. rewrite erase_hooks, out_hooks. subst f.
    rewrite liab_store_cbid by (cbn; apply lookup_delete). cbn [b cb_price].
    destruct (s_cbids st !! (coll, s)) as [o|] eqn:E.
    + rewrite (liab_remove_cbid _ _ _ _ d E). cbn [out out_one pay]. lia.
    + rewrite remove_cbid_none by done. cbn [out]. lia.
  - left. unfold cbid_hooks. rewrite erase_hooks, out_hooks. subst f. rewrite (liab_remove_cbid _ _ _ _ d H0). cbn [out out_one pay amt]. lia.
  - unfold sale_hooks. rewrite erase_hooks, out_hooks, out_sold by (intros Hn; unfold sp; rewrite Hn; apply split_none). subst f.
    change (liab (remove_ask (remove_cbid st coll bidder) coll tok) d) with (liab (remove_cbid st coll bidder) d).
    rewrite (liab_remove_cbid _ _ _ _ d H2), amt_native. apply fits_sum in H5. fold sp. cbn [amt]. case_bool_decide; [|left; lia].
    destruct H5; [left; lia|right]. split; [done|lia].
  - left. unfold ask_hooks. rewrite erase_hooks, out_hooks. subst f. cbn. unfold liab. cbn. lia.
  - left. unfold ask_hooks. rewrite erase_hooks, out_hooks. subst f. change (liab (remove_ask st coll tok) d) with (liab st d). cbn; lia.
  - left. unfold bid_hooks. rewrite erase_hooks, out_hooks. subst f. rewrite (liab_remove_bid _ _ _ _ _ d H1). unfold pay.
    cbn [out out_one]. rewrite !amt_native. cbn [amt]. case_bool_decide; lia.
  - left. unfold cbid_hooks. rewrite erase_hooks, out_hooks. subst f. rewrite (liab_remove_cbid _ _ _ _ d H1). unfold pay.
    cbn [out out_one]. rewrite !amt_native. cbn [amt]. case_bool_decide; lia.
Qed.
Lemma execute_balanced p x v e s f st m st' msgs d : wf p st -> execute p x v e s f st m = Ok (st', msgs) -> balanced st st' f msgs d.
Proof. intros Hw (ms&H&->)%execute_sub_of. by eapply effect_balanced. Qed.
Lemma execute_liab p x v e s f st m st' msgs d : wf p st -> execute p x v e s f st m = Ok (st', msgs) ->
  liab st' d + out msgs d <= liab st d + amt f d.
Proof. intros Hw H. destruct (execute_balanced p x v e s f st m st' msgs d Hw H) as [?|[_ ?]]; lia. Qed.
