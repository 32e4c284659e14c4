(** Facts about the base library models. *)
From Verif Require Import Base.

Lemma amt_app l1 l2 d : amt (l1 ++ l2) d = amt l1 d + amt l2 d.
Proof. induction l1 as [|c l1 IH]; cbn [app amt]; [lia|]. rewrite IH. lia. Qed.

Lemma amt_cons c l d : amt (c :: l) d = amt [c] d + amt l d.
Proof. cbn. lia. Qed.

Lemma amt_one_same c d : c_denom c = d -> amt [c] d = c_amount c.
Proof. intros <-. cbn. rewrite bool_decide_eq_true_2 by done. lia. Qed.
Lemma amt_one_other c d : c_denom c <> d -> amt [c] d = 0.
Proof. intros H. cbn. rewrite bool_decide_eq_false_2 by done. lia. Qed.
Lemma amt_one c d : amt [c] d = if bool_decide (c_denom c = d) then c_amount c else 0.
Proof. cbn. lia. Qed.

Lemma amt_perm l1 l2 d : l1 ≡ₚ l2 -> amt l1 d = amt l2 d.
Proof. induction 1; cbn; lia. Qed.

Lemma amt_notin l d : (forall c, In c l -> c_denom c <> d) -> amt l d = 0.
Proof.
  induction l as [|c l IH]; cbn; [done|]. intros H.
  rewrite bool_decide_eq_false_2 by (apply H; auto). rewrite IH; [lia|]. intros; apply H; auto.
Qed.

Lemma nb_bump_amt l c r l' d :
  nb_bump l c = Some r -> r = Ok l' -> amt l' d = amt l d + amt [c] d.
Proof.
  revert r l'. induction l as [|x l IH]; cbn [nb_bump]; intros r l' H Hr; [discriminate|].
  case_bool_decide as Hd.
  - injection H as <-. unfold add128 in Hr. inv_ok.
    rewrite !(amt_cons _ l), !amt_one; cbn. rewrite Hd. repeat case_bool_decide; lia.
  - destruct (nb_bump l c) as [r'|] eqn:E; [|discriminate]. injection H as <-. inv_ok.
    rewrite (amt_cons x x0), (amt_cons x l). specialize (IH _ _ eq_refl eq_refl). lia.
Qed.

Lemma nb_insert_perm l c : nb_insert l c ≡ₚ c :: l.
Proof.
  induction l as [|x l IH]; cbn; [done|]. destruct (str_leb _ _); [done|].
  rewrite IH. apply perm_swap.
Qed.

Lemma nb_add_amt l c l' d : nb_add l c = Ok l' -> amt l' d = amt l d + amt [c] d.
Proof.
  unfold nb_add. destruct (nb_bump l c) as [r|] eqn:E; intros H.
  - eapply nb_bump_amt; eauto.
  - injection H as <-. rewrite (amt_perm _ _ d (nb_insert_perm l c)), amt_cons. lia.
Qed.

Lemma nb_normalize_amt l l' d : nb_normalize l = Ok l' -> amt l' d = amt l d.
Proof.
  revert l'. induction l as [|c l IH]; cbn [nb_normalize]; intros l' H; inv_ok; [done| |].
  - rewrite (amt_cons c l), amt_one. erewrite IH by eassumption. case_bool_decide; lia.
  - rewrite (nb_add_amt _ _ _ d H), (amt_cons c l). erewrite IH by eassumption. lia.
Qed.

Lemma nb_sub_amt l c l' d : nb_sub l c = Ok l' -> amt l d = amt l' d + amt [c] d.
Proof.
  revert l'. induction l as [|x l IH]; cbn [nb_sub]; intros l' H; [discriminate|].
  case_bool_decide as Hd; inv_ok.
  - rewrite (amt_cons x l'), !amt_one, Hd. case_bool_decide; lia.
  - rewrite (amt_cons x l), (amt_cons _ l), !amt_one; cbn. rewrite Hd. case_bool_decide; lia.
  - rewrite (amt_cons x l), (amt_cons x x0). erewrite IH by eassumption. lia.
Qed.

Lemma nb_is_empty_amt l d : nb_is_empty l = true -> amt l d = 0.
Proof.
  induction l as [|c l IH]; cbn; [done|]. intros [H1 H2]%andb_prop. rewrite IH by done.
  apply N.eqb_eq in H1. case_bool_decide; lia.
Qed.

(** Positivity of normalised balances. *)
Definition all_pos (l : list coin) : Prop := Forall (fun c => 0 < c_amount c) l.

Lemma nb_bump_pos l c r l' : all_pos l -> nb_bump l c = Some r -> r = Ok l' -> all_pos l'.
Proof.
  intros Hl. revert r l'. induction Hl as [|x l Hx Hl IH]; cbn [nb_bump]; intros r l' E Hr; [discriminate|].
  case_bool_decide.
  - injection E as <-. unfold add128 in Hr. inv_ok. constructor; cbn; [lia|done].
  - destruct (nb_bump l c) as [r'|] eqn:E'; [|discriminate]. injection E as <-. inv_ok.
    constructor; [done|]. eapply IH; eauto.
Qed.

Lemma nb_add_pos l c l' : all_pos l -> 0 < c_amount c -> nb_add l c = Ok l' -> all_pos l'.
Proof.
  unfold nb_add. intros Hl Hc. destruct (nb_bump l c) as [r|] eqn:E; intros H.
  - eapply nb_bump_pos; eauto.
  - injection H as <-. unfold all_pos. rewrite nb_insert_perm. by constructor.
Qed.

Lemma nb_normalize_pos l l' : nb_normalize l = Ok l' -> all_pos l'.
Proof.
  revert l'. induction l as [|c l IH]; cbn [nb_normalize]; intros l' H; inv_ok.
  - constructor.
  - eauto.
  - eapply nb_add_pos; eauto. lia.
Qed.

Lemma nb_sub_pos l c l' : all_pos l -> nb_sub l c = Ok l' -> all_pos l'.
Proof.
  intros Hl. revert l'. induction Hl as [|x l Hx Hl IH]; cbn [nb_sub]; intros l' H; [discriminate|].
  case_bool_decide; inv_ok.
  - done.
  - constructor; cbn; [lia|done].
  - apply Forall_cons; split; [done|]. apply IH. done.
Qed.

Lemma nb_is_empty_pos l : all_pos l -> nb_is_empty l = true -> l = [].
Proof.
  intros Hl H. destruct Hl as [|x l Hx Hl]; [done|]. cbn in H. apply andb_prop in H as [H _]. lia.
Qed.

(** A subtraction succeeds as soon as the balance holds enough of a positive coin. *)
Definition distinct_denoms (l : list coin) : Prop := NoDup (c_denom <$> l).

Lemma nb_bump_denoms l c r l' : nb_bump l c = Some r -> r = Ok l' -> c_denom <$> l' = c_denom <$> l.
Proof.
  revert r l'. induction l as [|x l IH]; cbn [nb_bump]; intros r l' E Hr; [discriminate|].
  case_bool_decide.
  - injection E as <-. unfold add128 in Hr. inv_ok. done.
  - destruct (nb_bump l c) as [r'|] eqn:E'; [|discriminate]. injection E as <-. inv_ok.
    cbn. f_equal. eauto.
Qed.
Lemma nb_bump_none l c : nb_bump l c = None -> ~ In (c_denom c) (c_denom <$> l).
Proof.
  induction l as [|x l IH]; cbn [nb_bump]; intros E; [intros []|].
  case_bool_decide; [discriminate|].
  destruct (nb_bump l c) as [r'|] eqn:E'; [discriminate|].
  intros [H1|H1]; [congruence|]. by apply IH.
Qed.

Lemma nb_add_distinct l c l' : distinct_denoms l -> nb_add l c = Ok l' -> distinct_denoms l'.
Proof.
  unfold nb_add, distinct_denoms. intros Hl. destruct (nb_bump l c) as [r|] eqn:E; intros H.
  - by rewrite (nb_bump_denoms _ _ _ _ E H).
  - injection H as <-. rewrite nb_insert_perm. cbn. constructor; [|done].
    rewrite elem_of_list_In. by apply nb_bump_none.
Qed.

Lemma nb_normalize_distinct l l' : nb_normalize l = Ok l' -> distinct_denoms l'.
Proof.
  revert l'. induction l as [|c l IH]; cbn [nb_normalize]; intros l' H; inv_ok.
  - constructor.
  - eauto.
  - eapply nb_add_distinct; eauto.
Qed.

Lemma nb_sub_ok l c : distinct_denoms l -> 0 < c_amount c -> c_amount c <= amt l (c_denom c) ->
  exists l', nb_sub l c = Ok l'.
Proof.
  unfold distinct_denoms. induction l as [|x l IH]; cbn; intros Hd Hc H; [lia|].
  inversion_clear Hd as [|? ? Hx Hd'].
  case_bool_decide as E.
  - assert (amt l (c_denom c) = 0) as H0.
    { apply amt_notin. intros y Hy Hyd. apply Hx. rewrite E, <-Hyd. apply elem_of_list_In, in_map, Hy. }
    rewrite H0 in H. destruct (N.ltb_spec (c_amount x) (c_amount c)); [lia|].
    destruct (_ =? 0); eauto.
  - destruct IH as [l' ->]; [done|done|lia|]. cbn. eauto.
Qed.

(** * Order on strings *)
Lemma str_leb_refl a : str_leb a a = true.
Proof. induction a as [|x a IH]; cbn; [done|]. rewrite N.ltb_irrefl. done. Qed.

Lemma str_leb_total a b : str_leb a b = true \/ str_leb b a = true.
Proof.
  revert b. induction a as [|x a IH]; intros [|y b]; cbn; auto.
  destruct (N.ltb_spec (N_of_ascii x) (N_of_ascii y)); auto.
  destruct (N.ltb_spec (N_of_ascii y) (N_of_ascii x)); auto.
Qed.

Lemma N_of_ascii_inj x y : N_of_ascii x = N_of_ascii y -> x = y.
Proof. intros H. rewrite <-(ascii_N_embedding x), <-(ascii_N_embedding y). by rewrite H. Qed.

Lemma str_leb_antisym a b : str_leb a b = true -> str_leb b a = true -> a = b.
Proof.
  revert b. induction a as [|x a IH]; intros [|y b]; cbn; try done.
  destruct (N.ltb_spec (N_of_ascii x) (N_of_ascii y)), (N.ltb_spec (N_of_ascii y) (N_of_ascii x));
    try done; try lia.
  intros H1 H2. f_equal; [apply N_of_ascii_inj; lia|auto].
Qed.

Lemma str_leb_trans a b c : str_leb a b = true -> str_leb b c = true -> str_leb a c = true.
Proof.
  revert b c. induction a as [|x a IH]; intros [|y b] [|z c]; cbn; try done.
  destruct (N.ltb_spec (N_of_ascii x) (N_of_ascii y)), (N.ltb_spec (N_of_ascii y) (N_of_ascii x)),
    (N.ltb_spec (N_of_ascii y) (N_of_ascii z)), (N.ltb_spec (N_of_ascii z) (N_of_ascii y)),
    (N.ltb_spec (N_of_ascii x) (N_of_ascii z)), (N.ltb_spec (N_of_ascii z) (N_of_ascii x));
    try done; try lia. apply IH.
Qed.

Lemma str_leb_empty a : str_leb "" a = true.
Proof. done. Qed.
Lemma str_leb_to_empty a : str_leb a "" = true -> a = "".
Proof. by destruct a. Qed.

(** * Big-endian bytes *)
Lemma str_app_cons x a b : String.append (String x a) b = String x (String.append a b).
Proof. reflexivity. Qed.
Lemma str_app_nil a : String.append "" a = a.
Proof. reflexivity. Qed.
Lemma str_app_nil_r a : String.append a "" = a.
Proof. induction a as [|x a IH]; [done|]. by rewrite str_app_cons, IH. Qed.

Lemma str_length_app a b : String.length (String.append a b) = (String.length a + String.length b)%nat.
Proof. induction a as [|x a IH]; [done|]. rewrite str_app_cons. cbn. by rewrite IH. Qed.

Lemma be_bytes_length n x : String.length (be_bytes n x) = n.
Proof.
  revert x. induction n as [|n IH]; intros x; [done|].
  cbn [be_bytes]. rewrite str_length_app, IH. cbn. lia.
Qed.

Lemma str_app_assoc a b c : String.append a (String.append b c) = String.append (String.append a b) c.
Proof. induction a as [|x a IH]; [done|]. by rewrite !str_app_cons, IH. Qed.

Lemma str_app_inj_l a b c d :
  String.append a b = String.append c d -> String.length a = String.length c -> a = c /\ b = d.
Proof.
  revert c. induction a as [|x a IH]; intros [|y c]; rewrite ?str_app_cons, ?str_app_nil; intros H1 H2; try discriminate; [done|].
  injection H1 as <- H1. injection H2 as H2. destruct (IH _ H1 H2) as [-> ->]. done.
Qed.
Lemma str_app_inj_r a b c d :
  String.append a b = String.append c d -> String.length b = String.length d -> a = c /\ b = d.
Proof.
  intros H1 H2. apply str_app_inj_l; [done|].
  assert (String.length (String.append a b) = String.length (String.append c d)) as H by by rewrite H1.
  rewrite !str_length_app in H. lia.
Qed.

Lemma be_bytes_inj n x y : x < 256 ^ N.of_nat n -> y < 256 ^ N.of_nat n -> be_bytes n x = be_bytes n y -> x = y.
Proof.
  revert x y. induction n as [|n IH]; intros x y Hx Hy H.
  - cbn in Hx, Hy. lia.
  - cbn [be_bytes] in H. apply str_app_inj_r in H as [H1 H2]; [|done].
    rewrite Nat2N.inj_succ, N.pow_succ_r' in Hx, Hy.
    apply IH in H1; [|apply N.div_lt_upper_bound; lia..].
    injection H2 as H2.
    assert (forall z, N_of_ascii (ascii_of_N (z mod 256)) = z mod 256) as Hz.
    { intros z. apply N_ascii_embedding. apply N.mod_lt. lia. }
    pose proof (Hz x) as Hzx. rewrite H2, Hz in Hzx.
    rewrite (N.div_mod x 256), (N.div_mod y 256) by lia. lia.
Qed.
Lemma be8_inj x y : x <= U64_MAX -> y <= U64_MAX -> be8 x = be8 y -> x = y.
Proof.
  intros Hx Hy. apply be_bytes_inj;
  change (256 ^ N.of_nat 8) with 18446744073709551616; unfold U64_MAX in *; lia.
Qed.
Lemma be8_length x : String.length (be8 x) = 8%nat.
Proof. apply be_bytes_length. Qed.
