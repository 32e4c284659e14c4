(** Numbers and coins can be read back from their text. *)
From stdpp Require Import pretty.
From Coq Require Import Ascii.
From Verif Require Import Base Common Events.

Definition is_digit (c : ascii) : Prop := (48 <= nat_of_ascii c <= 57)%nat.
Fixpoint digits (s : string) : Prop := match s with EmptyString => True | String c s => is_digit c /\ digits s end.

Lemma char_digit x : is_digit (pretty_N_char x).
Proof. unfold is_digit, pretty_N_char. repeat case_match; split; apply Nat.leb_le; reflexivity. Qed.
Lemma go_digits x s : digits s -> digits (pretty_N_go x s).
Proof.
  revert s. induction (N.lt_wf_0 x) as [x _ IH]; intros s Hs.
  destruct (decide (x = 0)) as [->|Hx]; [by rewrite pretty_N_go_0|].
  rewrite pretty_N_go_step by lia. apply IH; [apply N.div_lt; lia|]. split; [apply char_digit|done].
Qed.
Lemma pretty_digits (n : N) : digits (pretty n).
Proof.
  unfold pretty, pretty_N. case_decide; [|by apply go_digits]. split; [|done]. split; apply Nat.leb_le; reflexivity.
Qed.

Lemma digits_prefix a b c r d s :
  digits a -> digits b -> ~ is_digit c -> ~ is_digit d ->
  a +:+ String c r = b +:+ String d s -> a = b /\ String c r = String d s.
Proof.
  revert b. induction a as [|x a IH]; intros [|y b] Ha Hb Hc Hd H.
  - done.
  - change (String c r = String y (b +:+ String d s)) in H. injection H as -> _. by destruct Hb.
  - change (String x (a +:+ String c r) = String d s) in H. injection H as -> _. by destruct Ha.
  - change (String x (a +:+ String c r) = String y (b +:+ String d s)) in H. injection H as -> H.
    destruct Ha as [_ Ha], Hb as [_ Hb]. destruct (IH b) as [-> ?]; done.
Qed.

Lemma coin_text_inj c d : lettered (c_denom c) -> lettered (c_denom d) -> coin_text c = coin_text d -> c = d.
Proof.
  destruct c as [dc n], d as [dd m]; cbn. intros (x&r&->&Hx) (y&s&->&Hy) H. unfold coin_text in H; cbn in H.
  destruct (digits_prefix _ _ _ _ _ _ (pretty_digits n) (pretty_digits m) Hx Hy H) as [H1 ->].
  apply (inj pretty) in H1. by subst.
Qed.

(** * Times and decimals *)
Lemma str_len_app a b : String.length (a +:+ b) = (String.length a + String.length b)%nat.
Proof. induction a as [|c a IH]; [done|]. change (S (String.length (a +:+ b)) = S (String.length a + String.length b)%nat). by rewrite IH. Qed.
Lemma app_eq_len a b c d : String.length b = String.length d -> a +:+ b = c +:+ d -> a = c /\ b = d.
Proof.
  revert c. induction a as [|x a IH]; intros [|y c] Hl H.
  - done.
  - exfalso. change (b = String y (c +:+ d)) in H. subst b. cbn in Hl. rewrite str_len_app in Hl. lia.
  - exfalso. change (String x (a +:+ b) = d) in H. subst d. cbn in Hl. rewrite str_len_app in Hl. lia.
  - change (String x (a +:+ b) = String y (c +:+ d)) in H. injection H as -> H. destruct (IH c Hl H) as [-> ->]. done.
Qed.
Lemma pad_len k n : String.length (pad k n) = k.
Proof. revert n. induction k as [|k IH]; intros n; cbn [pad]; [done|]. rewrite str_len_app, IH. cbn. lia. Qed.
Lemma pad_inj k n m : n < 10 ^ N.of_nat k -> m < 10 ^ N.of_nat k -> pad k n = pad k m -> n = m.
Proof.
  revert n m. induction k as [|k IH]; intros n m Hn Hm H; cbn [pad] in H.
  - cbn in Hn, Hm. lia.
  - apply app_eq_len in H as [H1 H2]; [|done]. injection H2 as H2.
    apply pretty_N_char_inj in H2; [|apply N.mod_lt; lia..].
    rewrite Nat2N.inj_succ, N.pow_succ_r' in Hn, Hm.
    apply IH in H1; [|apply N.div_lt_upper_bound; lia..].
    rewrite (N.div_mod n 10), (N.div_mod m 10) by lia. by rewrite H1, H2.
Qed.
Lemma pad_digits k n : digits (pad k n).
Proof.
  revert n. induction k as [|k IH]; intros n; cbn [pad]; [done|]. generalize (IH (n / 10)). generalize (pad k (n / 10)). intros s Hs.
  induction s as [|c s IHs]; cbn.
  - split; [apply char_digit|done].
  - destruct Hs as [? Hs]. split; [done|]. by apply IHs.
Qed.

Lemma trim0_inj s t : String.length s = String.length t -> trim0 s = trim0 t -> s = t.
Proof.
  revert t. induction s as [|c s IH]; intros [|d t] Hl H; try done. cbn in Hl, H. injection Hl as Hl.
  assert (forall u v, trim0 u = v -> v = "" -> forall w, String.length u = String.length w -> trim0 w = "" -> u = w) as Hz.
  { clear. intros u v <-. induction u as [|c u IH]; intros Hu [|d w] Hl Hw; try done. cbn in *. injection Hl as Hl.
    destruct (trim0 u) eqn:Eu; [|done]. destruct (trim0 w) eqn:Ew; [|done].
    destruct (Ascii.eqb_spec c "0"); [|done]. destruct (Ascii.eqb_spec d "0"); [|done]. subst. f_equal. by apply IH. }
  destruct (trim0 s) as [|x s'] eqn:Es, (trim0 t) as [|y t'] eqn:Et.
  - destruct (Ascii.eqb_spec c "0"), (Ascii.eqb_spec d "0"); subst; try done; f_equal; try congruence; by eapply Hz.
  - destruct (Ascii.eqb_spec c "0"); [done|]. congruence.
  - destruct (Ascii.eqb_spec d "0"); [done|]. congruence.
  - injection H as -> -> ->. f_equal. apply IH; [done|]. congruence.
Qed.

Lemma dot_not_digit : ~ is_digit "."%char.
Proof. unfold is_digit. vm_compute. lia. Qed.
Lemma dot_app a s : a +:+ "." +:+ s = a +:+ String "." s.
Proof. done. Qed.
Lemma dot_tail a b : String "." a = String "." b -> a = b.
Proof. by intros [= ->]. Qed.
Lemma nano_lt n : n mod 1000000000 < 10 ^ N.of_nat 9.
Proof. apply (N.mod_lt n 1000000000). done. Qed.
Lemma time_text_inj s t : time_text s = time_text t -> s = t.
Proof.
  unfold time_text. rewrite !dot_app. intros H.
  apply digits_prefix in H as [H1 H2]; try apply pretty_digits; try apply dot_not_digit.
  apply (inj pretty) in H1. apply dot_tail in H2.
  apply pad_inj in H2; [|apply nano_lt..].
  rewrite (N.div_mod s 1000000000), (N.div_mod t 1000000000) by lia. by rewrite H1, H2.
Qed.
Lemma digits_no_dot a b s : digits a -> digits b -> a <> b +:+ String "." s.
Proof.
  revert b. induction a as [|c a IH]; intros [|d b] Ha Hb H; try done.
  - change (String c a = String "." s) in H. injection H as -> _. destruct Ha as [Ha _]. by apply dot_not_digit in Ha.
  - change (String c a = String d (b +:+ String "." s)) in H. injection H as -> H. destruct Ha, Hb. by eapply IH.
Qed.
Lemma dec_text_inj s t : dec_text s = dec_text t -> s = t.
Proof.
  unfold dec_text. rewrite !dot_app. assert (DEC_ONE <> 0) as H0 by done. assert (DEC_ONE = 10 ^ N.of_nat 18) as Hp by done.
  pose proof (N.div_mod s _ H0) as Es. pose proof (N.div_mod t _ H0) as Et.
  pose proof (N.mod_lt s _ H0) as Ls. pose proof (N.mod_lt t _ H0) as Lt. rewrite Hp in Ls, Lt at 2.
  destruct (s mod DEC_ONE =? 0) eqn:E1, (t mod DEC_ONE =? 0) eqn:E2; intros H.
  - apply N.eqb_eq in E1, E2. apply (inj pretty) in H. rewrite Es, Et, E1, E2, H. done.
  - exfalso. by eapply digits_no_dot in H; [|apply pretty_digits..].
  - exfalso. symmetry in H. by eapply digits_no_dot in H; [|apply pretty_digits..].
  - apply digits_prefix in H as [H1 H2]; try apply pretty_digits; try apply dot_not_digit.
    apply (inj pretty) in H1. apply dot_tail in H2. apply trim0_inj in H2; [|by rewrite !pad_len].
    apply pad_inj in H2; [|done..]. rewrite Es, Et, H1, H2. done.
Qed.
