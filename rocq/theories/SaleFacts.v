(** Facts about sale payments (sg-marketplace-common sale.rs) and escrow sums. *)
From Verif Require Import Base Common Chain BaseFacts ChainFacts.

(** * Rounding *)
Lemma mul_ceil_Ok a s x : mul_ceil a s = Ok x ->
  a * s <= DEC_ONE * x /\ (x = 0 \/ DEC_ONE * (x - 1) < a * s) /\ x <= U128_MAX.
Proof.
  unfold mul_ceil. cbv zeta. intros H. inv_ok.
  set (y := a * s) in *. unfold DEC_ONE in *.
  pose proof (N.div_mod (y + (1000000000000000000 - 1)) 1000000000000000000 ltac:(lia)) as Hd.
  pose proof (N.mod_lt (y + (1000000000000000000 - 1)) 1000000000000000000 ltac:(lia)) as Hm.
  set (q := _ / _) in *. set (r := _ mod _) in *. clearbody q r y. lia.
Qed.
Lemma mul_ceil_pos a s x : mul_ceil a s = Ok x -> 0 < a -> 0 < s -> 0 < x.
Proof. intros H%mul_ceil_Ok Ha Hs. destruct H as (H&_&_). nia. Qed.

(** * The payments of a sale *)
Definition pay_msg (pm : payment) : cmsg := MSend (pay_recipient pm) [pay_funds pm].

Lemma payout_app ps resp : payout ps resp = resp ++ (pay_msg <$> ps).
Proof.
  unfold payout. revert resp. induction ps as [|q ps IH]; intros resp; cbn [fold_left fmap list_fmap].
  - by rewrite app_nil_r.
  - rewrite IH. unfold transfer_coins. by rewrite <-app_assoc.
Qed.

Lemma out_payments ps d : out (pay_msg <$> ps) d = amt (pay_funds <$> ps) d.
Proof. induction ps as [|q ps IH]; cbn; [done|]. rewrite IH. lia. Qed.

Fixpoint sum_amounts (ps : list payment) : N :=
  match ps with [] => 0 | q :: ps => c_amount (pay_funds q) + sum_amounts ps end.
Lemma sum_amounts_app ps qs : sum_amounts (ps ++ qs) = sum_amounts ps + sum_amounts qs.
Proof. induction ps; cbn; lia. Qed.

Lemma amt_payments ps dn d :
  Forall (fun q => c_denom (pay_funds q) = dn) ps ->
  amt (pay_funds <$> ps) d = if bool_decide (dn = d) then sum_amounts ps else 0.
Proof.
  induction 1 as [|q ps Hq Hps IH]; cbn; [by case_bool_decide|]. rewrite IH, Hq. case_bool_decide; lia.
Qed.

Lemma build_fee_payments_Ok sc fees rem ps fin :
  build_fee_payments sc fees rem = Ok (ps, fin) ->
  sum_amounts ps + fin = rem /\
  Forall (fun q => c_denom (pay_funds q) = c_denom sc) ps /\
  (0 < c_amount sc -> Forall (fun q => 0 < c_amount (pay_funds q)) ps) /\
  Forall2 (fun q f => pay_recipient q = fee_recipient f /\
                      mul_ceil (c_amount sc) (fee_share f) = Ok (c_amount (pay_funds q)))
          ps (List.filter (fun f => negb (fee_share f =? 0)) fees).
Proof.
  revert rem ps. induction fees as [|f fees IH]; intros rem ps; cbn [build_fee_payments List.filter]; intros H.
  - inv_ok. cbn. split_and!; [lia|constructor..|]; try constructor.
  - destruct (fee_share f =? 0) eqn:E; cbn.
    + by apply IH.
    + inv_ok. destruct x1 as [ps1 fin1]. inv_ok.
      unfold checked_sub128 in *. inv_ok.
      edestruct IH as (HA&HB&HC&HD); [eassumption|].
      split_and!.
      * cbn. lia.
      * by constructor.
      * intros Hp. constructor; [|auto]. cbn. eapply mul_ceil_pos; eauto. lia.
      * constructor; [|done]. done.
Qed.

Lemma build_payments_Ok sc seller fees ps :
  build_payments sc seller fees = Ok ps ->
  exists fps rest,
    ps = fps ++ (if rest =? 0 then [] else [Payment seller (Coin (c_denom sc) rest)]) /\
    sum_amounts fps + rest = c_amount sc /\
    Forall (fun q => c_denom (pay_funds q) = c_denom sc) ps /\
    (0 < c_amount sc -> Forall (fun q => 0 < c_amount (pay_funds q)) ps) /\
    Forall2 (fun q f => pay_recipient q = fee_recipient f /\
                        mul_ceil (c_amount sc) (fee_share f) = Ok (c_amount (pay_funds q)))
            fps (List.filter (fun f => negb (fee_share f =? 0)) fees).
Proof.
  unfold build_payments. intros H. inv_ok. destruct x as [fps rest].
  apply build_fee_payments_Ok in H0 as (H1&H2&H3&H4).
  exists fps, rest. destruct (rest =? 0) eqn:E; inv_ok.
  - rewrite app_nil_r. done.
  - split_and!; try done.
    + apply Forall_app. split; [done|]. by constructor.
    + intros Hp. apply Forall_app. split; [auto|]. constructor; [cbn; lia|done].
Qed.

Lemma build_payments_amt sc seller fees ps d :
  build_payments sc seller fees = Ok ps -> amt (pay_funds <$> ps) d = amt [sc] d.
Proof.
  intros (fps&rest&->&Hs&Hd&_)%build_payments_Ok.
  rewrite (amt_payments _ _ _ Hd), sum_amounts_app, amt_one.
  case_bool_decide; [|done]. destruct (rest =? 0) eqn:E; cbn; lia.
Qed.

(** * Escrow sums over storage maps *)
Section Escrow.
Context {K : Type} `{HK : Countable K} {A : Type} (price : A -> coin).
Definition esc (m : gmap K A) (d : denom) : N := amt ((fun x => price (snd x)) <$> map_to_list m) d.

Lemma esc_empty d : esc ∅ d = 0.
Proof. unfold esc. by rewrite map_to_list_empty. Qed.
Lemma esc_insert_new m k x d : m !! k = None -> esc (<[k:=x]> m) d = amt [price x] d + esc m d.
Proof.
  intros H. unfold esc. rewrite (amt_perm _ ((fun x => price (snd x)) <$> ((k, x) :: map_to_list m))).
  - cbn. lia.
  - apply fmap_Permutation. by apply map_to_list_insert.
Qed.
Lemma esc_delete m k x d : m !! k = Some x -> esc m d = amt [price x] d + esc (delete k m) d.
Proof.
  intros H. rewrite <-(insert_id m k x H) at 1. rewrite <-insert_delete_insert.
  apply esc_insert_new, lookup_delete.
Qed.
Lemma esc_delete_le m k d : esc (delete k m) d <= esc m d.
Proof.
  destruct (m !! k) as [x|] eqn:E.
  - rewrite (esc_delete m k x d E). lia.
  - by rewrite delete_notin.
Qed.
Lemma esc_delete_none m k d : m !! k = None -> esc (delete k m) d = esc m d.
Proof. intros H. by rewrite delete_notin. Qed.
Lemma esc_insert_some m k x y d :
  m !! k = Some y -> esc (<[k:=x]> m) d + amt [price y] d = esc m d + amt [price x] d.
Proof.
  intros H. rewrite (esc_delete m k y d H), <-insert_delete_insert.
  rewrite esc_insert_new by apply lookup_delete. lia.
Qed.
Lemma esc_elem_le m k x d : m !! k = Some x -> amt [price x] d <= esc m d.
Proof. intros H. rewrite (esc_delete m k x d H). lia. Qed.
End Escrow.
