(** Sales of marketplace v2: the payments in the response are exactly the specified ones. *)
From Verif Require Import Base Common Chain BaseFacts ChainFacts IndexRange IndexFacts SaleFacts
  V2Model V2Spec V2Facts V2Match V2Inv.

(** * Sums agree with the ones used in the proofs *)
Lemma coins_in_amt cs d : coins_in cs d = amt cs d.
Proof.
  induction cs as [|c cs IH]; cbn; [done|]. rewrite IH. unfold in_denom.
  destruct (decide _) as [E|E]; [rewrite bool_decide_eq_true_2 by done|rewrite bool_decide_eq_false_2 by done]; lia.
Qed.
Lemma in_denom_amt c d : in_denom d c = amt [c] d.
Proof. pose proof (coins_in_amt [c] d) as H. cbn [coins_in] in H. lia. Qed.
Lemma paid_out_out ms d : paid_out ms d = out ms d.
Proof.
  induction ms as [|m ms IH]; [done|]. destruct m; cbn [paid_out out out_one]; rewrite IH, ?coins_in_amt, ?in_denom_amt; lia.
Qed.
Lemma sum_map_esc {A} (price : A -> coin) (m : gmap string A) d :
  sum_map (fun x => in_denom d (price x)) m = esc price m d.
Proof.
  unfold sum_map. induction m as [|i x m Hi IH] using map_ind.
  - by rewrite map_fold_empty, esc_empty.
  - rewrite map_fold_insert_L; [|lia|done].
    rewrite IH, esc_insert_new by done. by rewrite in_denom_amt.
Qed.
Lemma escrow_liab st d : escrow st d = liab st d.
Proof. unfold escrow, liab. by rewrite <-!sum_map_esc. Qed.

(** * Rounding *)
Lemma ceil_div_spec x y : 0 < y -> x <= y * ceil_div x y /\ y * ceil_div x y < x + y.
Proof.
  intros Hy. unfold ceil_div.
  pose proof (N.div_mod (x + (y - 1)) y ltac:(lia)) as Hd.
  pose proof (N.mod_lt (x + (y - 1)) y ltac:(lia)) as Hm.
  set (q := (x + (y - 1)) / y) in *. set (r := _ mod _) in *. clearbody q r. lia.
Qed.
Lemma ceil_div_unique x y q : 0 < y -> x <= y * q -> y * q < x + y -> q = ceil_div x y.
Proof.
  intros Hy H1 H2. destruct (ceil_div_spec x y Hy) as [H3 H4]. set (c := ceil_div x y) in *. clearbody c.
  nia.
Qed.
Lemma ceil_div_scale x y k : 0 < y -> 0 < k -> ceil_div (x * k) (y * k) = ceil_div x y.
Proof.
  intros Hy Hk. apply ceil_div_unique; [done| |]; destruct (ceil_div_spec (x * k) (y * k) ltac:(nia)) as [H1 H2]; nia.
Qed.
Lemma ceil_div_0 y : 0 < y -> ceil_div 0 y = 0.
Proof. intros Hy. symmetry. apply ceil_div_unique; lia. Qed.
Lemma ceil_div_pos x y : 0 < y -> 0 < x -> 0 < ceil_div x y.
Proof. intros Hy Hx. destruct (ceil_div_spec x y Hy). nia. Qed.
Lemma mul_ceil_eq a s x : mul_ceil a s = Ok x -> x = ceil_div (a * s) DEC_ONE.
Proof. unfold mul_ceil, ceil_div. cbv zeta. intros H. inv_ok. done. Qed.
Lemma mul_ceil_ok a s : ceil_div (a * s) DEC_ONE <= U128_MAX -> mul_ceil a s = Ok (ceil_div (a * s) DEC_ONE).
Proof. intros H. unfold mul_ceil, ceil_div in *. cbv zeta. destruct (_ <=? _) eqn:E; [done|lia]. Qed.

(** * Shares *)
Lemma config_check_Ok c : config_check c = Ok tt -> cf_protocol_bps c < 10000 /\ cf_maker_bps c + cf_taker_bps c < 10000.
Proof.
  unfold config_check, add64, MAX_BASIS_POINTS. intros H. inv_ok. lia.
Qed.

Lemma dec_mul_bps f m : f < 10000 -> m < 10000 -> dec_checked_mul (dec_bps f) (dec_bps m) = Ok (f * m * 10000000000).
Proof.
  intros Hf Hm. unfold dec_checked_mul, dec_bps, DEC_ONE. cbv zeta.
  replace (f * 100000000000000 * (m * 100000000000000)) with (f * m * 10000000000 * 1000000000000000000) by lia.
  rewrite N.div_mul by lia. unfold U128_MAX. destruct (_ <=? _) eqn:E; [done|]. apply N.leb_gt in E. nia.
Qed.

Definition eff (b : bool) (n : N) : N := if b then n else 0.

Lemma divide_fees_Ok c mk tk :
  config_check c = Ok tt ->
  divide_protocol_fees c mk tk = Ok
    (ProtocolFees (cf_protocol_bps c * (10000 - eff mk (cf_maker_bps c) - eff tk (cf_taker_bps c)) * 10000000000)
                  (cf_protocol_bps c * eff mk (cf_maker_bps c) * 10000000000)
                  (cf_protocol_bps c * eff tk (cf_taker_bps c) * 10000000000)).
Proof.
  intros [Hf Hr]%config_check_Ok. unfold divide_protocol_fees. cbv zeta.
  destruct (dec_bps (cf_protocol_bps c) =? 0) eqn:E0.
  { unfold dec_bps in E0. replace (cf_protocol_bps c) with 0 by lia. by rewrite !N.mul_0_l. }
  set (f := cf_protocol_bps c) in *. set (m := cf_maker_bps c) in *. set (t := cf_taker_bps c) in *.
  clearbody f m t. unfold eff.
  assert (forall b x, (if b && (0 <? x) then x else 0) = if b then x else 0) as Hbx.
  { intros [] x; cbn; [|done]. destruct (0 <? x) eqn:Ex; [done|]. lia. }
  rewrite <-(Hbx mk m), <-(Hbx tk t).
  assert (forall a b, b <= a -> sub128 a b = Ok (a - b)) as Hsub.
  { intros a b Hab. unfold sub128. destruct (b <=? a) eqn:E; [done|lia]. }
  assert (forall (A B : Type) (x : A) (k : A -> result B), (Ok x ≫= k) = k x) as Hbind by done.
  destruct (mk && (0 <? m)) eqn:Em; destruct (tk && (0 <? t)) eqn:Et; rewrite ?dec_mul_bps by lia;
    repeat (rewrite ?Hbind; cbv beta iota; rewrite ?Hsub by (unfold dec_bps; nia));
    f_equal; f_equal; unfold dec_bps; rewrite ?N.mul_sub_distr_l; lia.
Qed.

(** * The fee list *)
Definition due_of (price : N) (f : fee) : addr * N := (fee_recipient f, ceil_div (price * fee_share f) DEC_ONE).

Lemma filter_pos_due price fees :
  0 < price ->
  List.filter (fun x => 0 <? snd x) (due_of price <$> fees) =
  due_of price <$> List.filter (fun f => negb (fee_share f =? 0)) fees.
Proof.
  intros Hp. induction fees as [|f fees IH]; cbn; [done|].
  destruct (fee_share f =? 0) eqn:E; cbn.
  - apply N.eqb_eq in E. rewrite E, N.mul_0_r, ceil_div_0 by (unfold DEC_ONE; lia). cbn. done.
  - rewrite (proj2 (N.ltb_lt _ _)); [by rewrite IH|]. apply ceil_div_pos; [unfold DEC_ONE; lia|nia].
Qed.

Lemma fee_payments_eq sc fps fees :
  Forall2 (fun q f => pay_recipient q = fee_recipient f /\
                      mul_ceil (c_amount sc) (fee_share f) = Ok (c_amount (pay_funds q))) fps fees ->
  Forall (fun q => c_denom (pay_funds q) = c_denom sc) fps ->
  (pay_msg <$> fps) = (send_one (c_denom sc) <$> (due_of (c_amount sc) <$> fees)) /\
  sum_amounts fps = total_dues (due_of (c_amount sc) <$> fees).
Proof.
  induction 1 as [|q f fps fees [Hr Hm] _ IH]; intros Hd; cbn; [done|].
  apply Forall_cons in Hd as [Hd1 Hd2]. destruct (IH Hd2) as [-> IH2]. split.
  - f_equal. destruct q as [r [dn am]]; cbn in *. subst. unfold pay_msg, send_one, due_of. cbn.
    by rewrite (mul_ceil_eq _ _ _ Hm).
  - unfold total_dues in *. cbn. rewrite IH2. by rewrite (mul_ceil_eq _ _ _ Hm).
Qed.

Lemma total_dues_filter l : total_dues (List.filter (fun x => 0 <? snd x) l) = total_dues l.
Proof.
  induction l as [|[a n] l IH]; cbn; [done|]. destruct (0 <? n) eqn:E; cbn; unfold total_dues in *; cbn in *; lia.
Qed.
Lemma total_dues_app l1 l2 : total_dues (l1 ++ l2) = total_dues l1 + total_dues l2.
Proof. unfold total_dues. induction l1 as [|[a n] l1 IH]; cbn in *; lia. Qed.

Section Sale.
Context (p : params).

Definition fee_dues (cfg : config) (pf : protocol_fees) (price : N) mk tk roy : list (addr * N) :=
  List.filter (fun x => 0 <? snd x) (due_of price <$> sale_fees cfg pf mk tk roy).

Lemma fetch_royalty_due v cfg coll r reg :
  fetch_or_set_royalties p v (cf_registry cfg) coll (Some (p_self p)) [] = Ok (r, reg) ->
  royalty_due p v cfg coll = (fun e => (re_recipient e, re_share e)) <$> r.
Proof.
  unfold fetch_or_set_royalties, fetch_royalty_entry, royalty_due. intros H.
  apply bind_Ok in H as (x&Hx&H). apply bind_Ok in Hx as ([a b]&->&Hx).
  destruct a as [ea|]; [|destruct b as [eb|]]; injection Hx as <-.
  - by injection H as <- <-.
  - by injection H as <- <-.
  - destruct (q_info v coll) as [[cs [[pa sh]|]]|]; cbn in *.
    + apply bind_Ok in H as (y&Hy&H). injection H as <- <-. apply addr_validate_Ok in Hy as [-> _]. done.
    + by injection H as <- <-.
    + by injection H as <- <-.
Qed.

Lemma mb_det_price mb : d_price (mb_det mb) = price_of mb.
Proof. by destruct mb. Qed.
Lemma mb_det_finder mb : d_finder (mb_det mb) = finder_of mb.
Proof. by destruct mb. Qed.
Lemma mb_recipient_to mb : mb_recipient mb = nft_to mb.
Proof. by destruct mb. Qed.
Lemma sale_price_eq a mb f : sale_price a mb f = trade_price a mb f.
Proof. unfold sale_price, trade_price. by rewrite mb_det_price. Qed.
Lemma maker_eq a mb f : maker_finder a mb f = maker a mb f.
Proof. unfold maker_finder, maker. by rewrite mb_det_finder. Qed.
Lemma taker_eq a mb f : taker_finder a mb f = taker a mb f.
Proof. unfold taker_finder, taker. by rewrite mb_det_finder. Qed.

Lemma ceil_bps price k : ceil_div (price * (k * 10000000000)) DEC_ONE = ceil_div (price * k) 100000000.
Proof.
  replace (price * (k * 10000000000)) with (price * k * 10000000000) by lia.
  unfold DEC_ONE. change 1000000000000000000 with (100000000 * 10000000000). by apply ceil_div_scale.
Qed.

Lemma eff_if_some (o : option addr) n : eff (bool_decide (is_Some o)) n = if_some o n.
Proof. destruct o; done. Qed.

(** The filtered dues computed from the fee list are the specified ones. *)
Lemma fee_dues_eq v cfg a mb f pf r reg :
  config_check cfg = Ok tt ->
  divide_protocol_fees cfg (bool_decide (is_Some (maker_finder a mb f))) (bool_decide (is_Some (taker_finder a mb f))) = Ok pf ->
  fetch_or_set_royalties p v (cf_registry cfg) (a_coll a) (Some (p_self p)) [] = Ok (r, reg) ->
  0 < c_amount (trade_price a mb f) ->
  fee_dues cfg pf (c_amount (trade_price a mb f)) (maker_finder a mb f) (taker_finder a mb f) r =
  List.filter (fun x => 0 <? snd x) (sale_dues p v cfg a mb f).
Proof.
  intros Hcfg Hpf Hr Hp. rewrite divide_fees_Ok in Hpf by done.
  match type of Hpf with Ok ?x = Ok _ => assert (pf = x) as -> by congruence end.
  apply fetch_royalty_due in Hr. unfold fee_dues, sale_dues. cbv zeta. rewrite Hr.
  rewrite !maker_eq, !taker_eq, !eff_if_some.
  set (price := c_amount (trade_price a mb f)) in *. clearbody price.
  set (mk := maker a mb f). set (tk := taker a mb f). clearbody mk tk.
  unfold sale_fees. cbn [pf_protocol pf_maker pf_taker].
  rewrite !fmap_app, !List.filter_app. f_equal; [|f_equal; [|f_equal]].
  - set (k := 10000 - if_some mk (cf_maker_bps cfg) - if_some tk (cf_taker_bps cfg)). destruct (0 <? cf_protocol_bps cfg * k * 10000000000) eqn:E.
    + cbn [fmap list_fmap]. unfold due_of, protocol_part. cbn [fee_recipient fee_share]. fold k.
      rewrite ceil_bps. by rewrite N.mul_assoc.
    + unfold protocol_part. fold k.
      replace (price * cf_protocol_bps cfg * k) with 0 by nia. rewrite ceil_div_0 by lia. done.
  - destruct mk as [x|]; [|by destruct (0 <? _)]. cbn [if_some].
    destruct (0 <? cf_protocol_bps cfg * cf_maker_bps cfg * 10000000000) eqn:E.
    + cbn [fmap list_fmap]. unfold due_of, reward_part. cbn [fee_recipient fee_share if_some].
      rewrite ceil_bps. by rewrite N.mul_assoc.
    + unfold reward_part. cbn [if_some]. replace (price * cf_protocol_bps cfg * cf_maker_bps cfg) with 0 by nia.
      rewrite ceil_div_0 by lia. done.
  - destruct tk as [x|]; [|by destruct (0 <? _)]. cbn [if_some].
    destruct (0 <? cf_protocol_bps cfg * cf_taker_bps cfg * 10000000000) eqn:E.
    + cbn [fmap list_fmap]. unfold due_of, reward_part. cbn [fee_recipient fee_share if_some].
      rewrite ceil_bps. by rewrite N.mul_assoc.
    + unfold reward_part. cbn [if_some]. replace (price * cf_protocol_bps cfg * cf_taker_bps cfg) with 0 by nia.
      rewrite ceil_div_0 by lia. done.
  - destruct r as [[rr rs]|]; [|done]. done.
Qed.

Lemma sale_msgs_payments v cfg a mb f reg ps :
  config_check cfg = Ok tt -> 0 < c_amount (trade_price a mb f) ->
  sale_msgs p v cfg a mb f reg ps ->
  (pay_msg <$> ps) = (send_one (c_denom (trade_price a mb f)) <$> sale_payments p v cfg a mb f) /\
  total_dues (sale_dues p v cfg a mb f) <= c_amount (trade_price a mb f).
Proof.
  intros Hcfg Hp (pf&r&Hpf&Hr&Hb).
  pose proof (fee_dues_eq _ _ _ _ _ _ _ _ Hcfg Hpf Hr Hp) as Hdues.
  apply build_payments_Ok in Hb as (fps&rest&->&Hsum&Hden&_&Hf2).
  rewrite sale_price_eq in *. apply Forall_app in Hden as [Hden _].
  destruct (fee_payments_eq _ _ _ Hf2 Hden) as [Hmsgs Htot].
  rewrite <-filter_pos_due in Hmsgs, Htot by done.
  change (List.filter _ (due_of _ <$> _)) with
    (fee_dues cfg pf (c_amount (trade_price a mb f)) (maker_finder a mb f) (taker_finder a mb f) r) in Hmsgs, Htot.
  rewrite Hdues in Hmsgs, Htot. rewrite total_dues_filter in Htot.
  split; [|lia].
  unfold sale_payments. cbv zeta. rewrite List.filter_app, !fmap_app, Hmsgs. f_equal.
  replace (c_amount (trade_price a mb f) - total_dues (sale_dues p v cfg a mb f)) with rest by lia.
  cbn [List.filter snd]. destruct (rest =? 0) eqn:E.
  - replace (0 <? rest) with false by lia. done.
  - replace (0 <? rest) with true by lia. done.
Qed.

(** Building the payments succeeds exactly when the dues fit into the price. *)
Lemma build_fee_payments_success sc fees rem :
  rem <= c_amount sc -> c_amount sc <= U128_MAX ->
  total_dues (due_of (c_amount sc) <$> fees) <= rem ->
  exists ps fin, build_fee_payments sc fees rem = Ok (ps, fin).
Proof.
  intros Hrem Hmax. revert rem Hrem. induction fees as [|fe fees IH]; intros rem Hrem Ht; cbn.
  - eauto.
  - cbn in Ht. unfold total_dues in Ht. cbn in Ht. fold (total_dues (due_of (c_amount sc) <$> fees)) in Ht.
    destruct (fee_share fe =? 0) eqn:E.
    + apply IH; [done|]. lia.
    + rewrite mul_ceil_ok by lia. cbn. unfold checked_sub128. rewrite (proj2 (N.leb_le _ _)) by lia. cbn.
      destruct (IH (rem - ceil_div (c_amount sc * fee_share fe) DEC_ONE)) as (ps&fin&->); [lia|lia|].
      cbn. eauto.
Qed.
Lemma build_payments_success sc s fees :
  c_amount sc <= U128_MAX -> total_dues (due_of (c_amount sc) <$> fees) <= c_amount sc ->
  exists ps, build_payments sc s fees = Ok ps.
Proof.
  intros Hmax Ht. unfold build_payments.
  destruct (build_fee_payments_success sc fees (c_amount sc)) as (ps&fin&->); [done..|]. cbn.
  destruct (fin =? 0); eauto.
Qed.

Lemma finalize_sale_success v st a cfg mb f resp :
  config_check cfg = Ok tt -> 0 < c_amount (trade_price a mb f) -> c_amount (trade_price a mb f) <= U128_MAX ->
  (exists r, q_royalty v (cf_registry cfg) (a_coll a) (Some (p_self p)) = Ok r) ->
  (q_royalty v (cf_registry cfg) (a_coll a) (Some (p_self p)) = Ok (None, None) ->
   forall ci pa sh, q_info v (a_coll a) = Some ci -> ci_royalty ci = Some (pa, sh) -> p_valid p pa = true) ->
  total_dues (sale_dues p v cfg a mb f) <= c_amount (trade_price a mb f) ->
  exists st' msgs, finalize_sale p v st a cfg mb f resp = Ok (st', msgs).
Proof.
  intros Hcfg Hp Hmax [q Hq] Hval Ht.
  assert (exists r reg, fetch_or_set_royalties p v (cf_registry cfg) (a_coll a) (Some (p_self p)) [] = Ok (r, reg)) as
    (r&reg&Hr).
  { unfold fetch_or_set_royalties, fetch_royalty_entry. rewrite Hq. cbn. destruct q as [[e1|] [e2|]]; cbn; eauto.
    destruct (q_info v (a_coll a)) as [ci|] eqn:Eci; cbn; eauto.
    destruct (ci_royalty ci) as [[pa sh]|] eqn:Ecr; cbn; eauto.
    unfold addr_validate. rewrite (Hval Hq _ _ _ eq_refl Ecr). cbn. eauto. }
  assert (exists reg', fetch_or_set_royalties p v (cf_registry cfg) (a_coll a) (Some (p_self p)) resp = Ok (r, reg')) as
    (reg'&Hr').
  { unfold fetch_or_set_royalties in *. apply bind_Ok in Hr as (x&Hx&Hr). rewrite Hx. cbn.
    destruct x; [injection Hr as <- <-; eauto|].
    destruct (q_info v (a_coll a)) as [ci|]; [|injection Hr as <- <-; eauto].
    destruct (ci_royalty ci) as [[pa sh]|]; [|injection Hr as <- <-; eauto].
    apply bind_Ok in Hr as (y&Hy&Hr). rewrite Hy. cbn. injection Hr as <- <-. eauto. }
  pose proof (divide_fees_Ok cfg (bool_decide (is_Some (maker_finder a mb f)))
     (bool_decide (is_Some (taker_finder a mb f))) Hcfg) as Hpf.
  pose proof (fee_dues_eq _ _ _ _ _ _ _ _ Hcfg Hpf Hr Hp) as Hdues.
  set (pf := ProtocolFees _ _ _) in *.
  destruct (build_payments_success (sale_price a mb f) (ask_recipient a)
    (sale_fees cfg pf (maker_finder a mb f) (taker_finder a mb f) r)) as [ps Hps].
  - by rewrite sale_price_eq.
  - rewrite sale_price_eq. rewrite <-total_dues_filter.
    change (List.filter _ _) with
      (fee_dues cfg pf (c_amount (trade_price a mb f)) (maker_finder a mb f) (taker_finder a mb f) r).
    by rewrite Hdues, total_dues_filter.
  - unfold finalize_sale. unfold sale_price, maker_finder, taker_finder in *. destruct f; cbv beta iota zeta.
    all: rewrite Hpf; cbn; rewrite Hr'; cbn; rewrite Hps; cbn; eauto.
Qed.
End Sale.
