(** Auctions do not go on for ever: bids grow geometrically, and every bid moves the end by a bounded time. *)
From stdpp Require Import relations.
From Verif Require Import Base BaseFacts Common Chain ChainFacts QuerySpec RAModel RASpec RAFacts RAInv RAReach RAFinal RALedgerSpec RALedger
  RABoundsSpec.
Local Open Scope N_scope.

(** ** Powers *)
Lemma pow_Nsucc a n : a ^ (n + 1) = a * a ^ n.
Proof. by rewrite N.add_1_r, N.pow_succ_r'. Qed.
Lemma bernoulli d i m : d ^ m * (d + m * i) <= (d + i) ^ m * d.
Proof.
  induction m as [|m IH] using N.peano_ind; [lia|].
  rewrite !N.pow_succ_r'. set (A := d ^ m) in *. set (B := (d + i) ^ m) in *.
  assert (d * A * (d + N.succ m * i) <= (d + i) * (A * (d + m * i))) as H1 by lia.
  etrans; [exact H1|]. rewrite <-N.mul_assoc. by apply N.mul_le_mono_l.
Qed.
Lemma doubles d i m : 0 < d -> d <= m * i -> 2 * d ^ m <= (d + i) ^ m.
Proof.
  intros Hd Hm. pose proof (bernoulli d i m) as H.
  apply (N.mul_le_mono_pos_r _ _ d Hd). etrans; [|exact H].
  set (A := d ^ m). replace (2 * A * d) with (A * (d + d)) by lia. apply N.mul_le_mono_l. lia.
Qed.
Lemma growth_count d i m n h b : 0 < d -> 0 < m -> d <= m * i -> 0 < h -> h * (d + i) ^ n <= b * d ^ n ->
  n < m * (N.log2 b + 1).
Proof.
  intros Hd Hm Hi Hh H.
  assert (m <> 0) as Hm0 by (clear -Hm; lia). assert (d <> 0) as Hd0 by (clear -Hd; lia).
  pose proof (N.div_mod n m Hm0) as Hn. pose proof (N.mod_lt n m Hm0) as Hr.
  set (q := n / m) in *. set (r := n mod m) in *. clearbody q r.
  assert (d <= d + i) as Hdi by apply N.le_add_r.
  assert (2 ^ q * d ^ n <= (d + i) ^ n) as Hg.
  { rewrite Hn. rewrite !N.pow_add_r, !N.pow_mul_r.
    assert ((d ^ m) ^ q * 2 ^ q <= ((d + i) ^ m) ^ q) as H1.
    { rewrite <-N.pow_mul_l. apply N.pow_le_mono_l. rewrite N.mul_comm. by apply doubles. }
    assert (d ^ r <= (d + i) ^ r) as H2 by (by apply N.pow_le_mono_l).
    rewrite N.mul_assoc, (N.mul_comm (2 ^ q)). by apply N.mul_le_mono. }
  assert (0 < d ^ n) as Hp by (by apply N.neq_0_lt_0, N.pow_nonzero).
  assert (2 ^ q <= b) as Hq.
  { apply (N.mul_le_mono_pos_r _ _ (d ^ n) Hp). etrans; [exact Hg|]. etrans; [|exact H].
    rewrite <-(N.mul_1_l ((d + i) ^ n)) at 1. apply N.mul_le_mono_r. clear -Hh. lia. }
  assert (q <= N.log2 b) as Hl.
  { rewrite <-(N.log2_pow2 q) by apply N.le_0_l. by apply N.log2_le_mono. }
  apply N.lt_le_trans with (m * (q + 1)).
  - clear -Hn Hr. rewrite N.mul_add_distr_l. lia.
  - apply N.mul_le_mono_l. by apply N.add_le_mono_r.
Qed.

Section Bounds.
Context (p : params) (lb : lib) (k : akey).

Lemma path_history st l st' : ra_history p lb st -> path p lb st l st' -> ra_history p lb st'.
Proof.
  intros Hst. induction 1 as [|l st1 h st2 _ IH H]; [done|]. destruct IH as (c&mins&st0&H0&Hr).
  exists c, mins, st0. split; [done|]. eapply rtc_r; [done|]. by eapply recorded_call.
Qed.
Lemma recorded_ends st st' h : recorded p lb st st' h -> e_before h = st /\ e_after h = st'.
Proof. by intros []. Qed.
Lemma bid_count_app l l' : bid_count k (l ++ l') = bid_count k l + bid_count k l'.
Proof. induction l as [|h l IH]; cbn [app bid_count]; [done|]. rewrite IH. lia. Qed.

Lemma ceil_grows h i x : h + RASpec.ceil_div (h * i) DEC_ONE <= x -> h * (DEC_ONE + i) <= x * DEC_ONE.
Proof.
  intros H. assert (h * i <= DEC_ONE * RASpec.ceil_div (h * i) DEC_ONE) as Hc.
  { unfold RASpec.ceil_div. pose proof (N.div_mod (h * i + (DEC_ONE - 1)) DEC_ONE ltac:(done)) as Hd.
    pose proof (N.mod_lt (h * i + (DEC_ONE - 1)) DEC_ONE ltac:(done)) as Hm.
    set (q := _ / DEC_ONE) in *. set (r := _ mod DEC_ONE) in *. clearbody q r. change DEC_ONE with 1000000000000000000 in *. lia. }
  set (c := RASpec.ceil_div (h * i) DEC_ONE) in *. clearbody c. set (y := h * i) in *.
  rewrite N.mul_add_distr_l. fold y. clearbody y.
  assert ((h + c) * DEC_ONE <= x * DEC_ONE) by (by apply N.mul_le_mono_r). lia.
Qed.

(** ** One call *)
Lemma step_high st st' h a a' hb : ra_history p lb st -> recorded p lb st st' h ->
  s_auctions st !! k = Some a -> s_auctions st' !! k = Some a' -> a_high a = Some hb ->
  exists hb', a_high a' = Some hb' /\ c_denom (hb_coin hb') = c_denom (hb_coin hb) /\
    (if is_bid k h then
       c_amount (hb_coin hb) < c_amount (hb_coin hb') /\
       c_amount (hb_coin hb) + RASpec.ceil_div (c_amount (hb_coin hb) * cf_increment (s_config st)) DEC_ONE <= c_amount (hb_coin hb') /\
       (exists s f c t, h = User s f (PlaceBid c t) st st' (e_msgs h) /\ hb_coin hb' ∈ f)
     else hb' = hb).
Proof.
  intros Hst Hr Ha Ha' Hh. pose proof (history_wf _ _ _ Hst) as Hwf.
  destruct (wf_auction _ _ Hwf _ _ Ha) as [Hk Hok].
  destruct (bids_rise p lb st st' k a a' hb Hst (recorded_call _ _ _ _ _ Hr) Ha Ha' Hh) as (hb'&Hh'&Hd&_).
  exists hb'. split; [done|]. split; [done|].
  assert (forall v now o em, outcome lb v now (s_config st) (s_halt st) a o em -> o = Some a' -> hb' = hb) as Hout.
  { intros v now o em Ho Eo. destruct Ho; [|done]. injection Eo as <-. cbn in Hh'. congruence. }
  destruct Hr as [v e s f m ms Hs H|v e m ms H].
  - pose proof (execute_fate _ _ _ _ _ _ _ _ _ _ _ _ Hwf H Ha) as Hfate. rewrite Ha' in Hfate.
    destruct (is_bid k (User s f m st st' ms)) eqn:Eb.
    + cbn [is_bid] in Eb. destruct m as [| | |coll tok|]; try done. apply bool_decide_eq_true in Eb. rewrite <-Eb in Ha, Ha'.
      destruct (bid_rule p lb _ _ _ _ _ _ _ _ _ Hst H) as (a0&n&a0'&Ha0&Hf&Ha0'&Hhx&_&Hbt).
      pose proof (eq_trans (eq_sym Ha0) Ha) as [= ->]. pose proof (eq_trans (eq_sym Ha0') Ha') as [= ->].
      destruct (aok_bid _ _ Hok _ Hh) as (_&Hpos&_).
      destruct (bid_beats p lb st a n s e a' ms Hst Hbt hb Hh Hpos) as [H1 H2].
      rewrite Hh' in Hhx. injection Hhx as ->. cbn [hb_coin c_amount] in *. split; [done|]. split; [done|].
      exists s, f, coll, tok. split; [done|]. rewrite Hf. by apply elem_of_list_singleton.
    + inversion Hfate as [|r ? ? ?| |n x ms' Em Ef Hb|o em Em Ho]; subst; try (cbn in Hh'; congruence).
      * exfalso. cbn [is_bid] in Eb. rewrite bool_decide_eq_false in Eb. done.
      * by eapply Hout.
  - cbn [is_bid]. destruct (sudo_fate _ _ _ _ _ _ _ _ _ _ Hwf H Ha) as [E|(_&em&Ho)].
    + rewrite Ha' in E. injection E as ->. congruence.
    + by eapply Hout.
Qed.
Lemma step_end st st' h a a' t x : ra_history p lb st -> recorded p lb st st' h ->
  s_auctions st !! k = Some a -> s_auctions st' !! k = Some a' -> a_end a = Some t -> ~ halted (s_halt st) t ->
  cf_extend (s_config st) <= x ->
  exists t', a_end a' = Some t' /\ t <= t' /\ t' <= t + (if is_bid k h then 1 else 0) * (x * NANOS).
Proof.
  intros Hst Hr Ha Ha' Ht Hnh Hx. pose proof (history_wf _ _ _ Hst) as Hwf.
  destruct (wf_auction _ _ Hwf _ _ Ha) as [Hk Hok].
  assert (forall v now o em, outcome lb v now (s_config st) (s_halt st) a o em -> o = Some a' -> False) as Hout.
  { intros v now o em Ho Eo. destruct Ho as [t0 Ht0 _ Hh _|]; [|done]. rewrite Ht in Ht0. injection Ht0 as <-. done. }
  destruct Hr as [v e s f m ms Hs H|v e m ms H].
  - pose proof (execute_fate _ _ _ _ _ _ _ _ _ _ _ _ Hwf H Ha) as Hfate. rewrite Ha' in Hfate.
    inversion Hfate as [|r ? ? Hf| |n y ms' Em Ef Hb|o em Em Ho]; subst.
    + exists t. split; [done|]. lia.
    + exists t. split; [done|]. lia.
    + cbn [is_bid]. rewrite bool_decide_eq_true_2 by reflexivity.
      destruct (bid_end p lb _ _ _ _ _ _ _ _ _ Hst H) as (a0&a0'&t'&Ha0&Ha0'&Ht'&Hc).
      pose proof (eq_trans (eq_sym Ha0) Ha) as [= ->].
      pose proof (eq_trans (eq_sym Ha0') Ha') as [= ->].
      rewrite Ht in Hc. destruct Hc as (Hlt&Hle&_&Hsame&Hmove). exists t'. split; [done|]. split; [done|].
      destruct (decide (t_seconds (e_time e) + cf_extend (s_config st) <= t_seconds t)) as [H1|H1].
      * rewrite (Hsame H1). lia.
      * rewrite (Hmove ltac:(lia)). apply seconds_lt in Hlt.
        assert (cf_extend (s_config st) * NANOS <= x * NANOS) by (by apply N.mul_le_mono_r). lia.
    + exfalso. by eapply Hout.
  - destruct (sudo_fate _ _ _ _ _ _ _ _ _ _ Hwf H Ha) as [E|(_&em&Ho)].
    + rewrite Ha' in E. injection E as ->. exists t. split; [done|]. cbn [is_bid]. lia.
    + exfalso. by eapply Hout.
Qed.

(** ** A path *)
Lemma path_high st l st' a hb i : ra_history p lb st -> path p lb st l st' -> goes_on k l ->
  s_auctions st !! k = Some a -> a_high a = Some hb -> increments_from i l ->
  exists a' hb', s_auctions st' !! k = Some a' /\ a_high a' = Some hb' /\ c_denom (hb_coin hb') = c_denom (hb_coin hb) /\
    c_amount (hb_coin hb) + bid_count k l <= c_amount (hb_coin hb') /\
    c_amount (hb_coin hb) * (DEC_ONE + i) ^ bid_count k l <= c_amount (hb_coin hb') * DEC_ONE ^ bid_count k l /\
    (forall b, bids_to k b l -> c_amount (hb_coin hb) <= b -> c_amount (hb_coin hb') <= b).
Proof.
  intros Hst Hp Hg Ha Hh Hi. induction Hp as [|l st1 h st2 Hp IH Hr].
  - exists a, hb. cbn [bid_count]. rewrite !N.pow_0_r. split_and!; try done; lia.
  - unfold goes_on, increments_from in Hg, Hi. rewrite Forall_app, Forall_singleton in Hg, Hi. destruct Hg as [Hg [a2 Ha2]], Hi as [Hi Hih].
    destruct (recorded_ends _ _ _ Hr) as [E1 E2]. rewrite E1 in Hih. rewrite E2 in Ha2.
    destruct (IH Hg Hi) as (a1&hb1&Ha1&Hh1&Hd1&Hc1&Hg1&Hb1).
    destruct (step_high st1 st2 h a1 a2 hb1 (path_history _ _ _ Hst Hp) Hr Ha1 Ha2 Hh1) as (hb2&Hh2&Hd2&Hs).
    exists a2, hb2. split; [done|]. split; [done|]. split; [congruence|].
    rewrite bid_count_app. cbn [bid_count]. rewrite N.add_0_r.
    destruct (is_bid k h) eqn:Eb.
    + destruct Hs as (H1&H2&s&f&c&t&Eh&Hin). split; [lia|]. split.
      * rewrite !pow_Nsucc.
        assert (c_amount (hb_coin hb1) * (DEC_ONE + i) <= c_amount (hb_coin hb2) * DEC_ONE) as H3.
        { etrans; [|apply ceil_grows, H2]. apply N.mul_le_mono_l. by apply N.add_le_mono_l. }
        set (P := (DEC_ONE + i) ^ bid_count k l) in *. set (Q := DEC_ONE ^ bid_count k l) in *.
        set (D := DEC_ONE) in *. clearbody P Q D. set (A := c_amount (hb_coin hb)) in *. set (B := c_amount (hb_coin hb1)) in *.
        set (C := c_amount (hb_coin hb2)) in *. clearbody A B C.
        assert (A * ((D + i) * P) = (D + i) * (A * P)) as -> by lia.
        etrans; [apply N.mul_le_mono_l, Hg1|].
        assert ((D + i) * (B * Q) = B * (D + i) * Q) as -> by lia. assert (C * (D * Q) = C * D * Q) as -> by lia.
        by apply N.mul_le_mono_r.
      * intros b Hb _. unfold bids_to in Hb. rewrite Forall_app, Forall_singleton in Hb. destruct Hb as [_ Hb].
        rewrite Eh in Hb, Eb. cbn [is_bid] in Eb. apply bool_decide_eq_true in Eb. by apply (Hb Eb).
    + subst hb2. rewrite N.add_0_r. split; [done|]. split; [done|]. intros b Hb. apply Hb1.
      unfold bids_to in Hb. rewrite Forall_app in Hb. by destruct Hb.
Qed.
Lemma path_end st l st' a t x : ra_history p lb st -> path p lb st l st' -> goes_on k l -> no_halts k l -> extensions_to x l ->
  s_auctions st !! k = Some a -> a_end a = Some t ->
  exists a' t', s_auctions st' !! k = Some a' /\ a_end a' = Some t' /\ t <= t' /\ t' <= t + bid_count k l * (x * NANOS).
Proof.
  intros Hst Hp Hg Hn Hx Ha Ht. induction Hp as [|l st1 h st2 Hp IH Hr].
  - exists a, t. cbn [bid_count]. split_and!; try done; lia.
  - unfold goes_on, no_halts, extensions_to in Hg, Hn, Hx. rewrite Forall_app, Forall_singleton in Hg, Hn, Hx.
    destruct Hg as [Hg [a2 Ha2]], Hn as [Hn Hnh], Hx as [Hx Hxh].
    destruct (recorded_ends _ _ _ Hr) as [E1 E2]. rewrite E1 in Hnh, Hxh. rewrite E2 in Ha2.
    destruct (IH Hg Hn Hx) as (a1&t1&Ha1&Ht1&Hl1&Hu1).
    destruct (step_end st1 st2 h a1 a2 t1 x (path_history _ _ _ Hst Hp) Hr Ha1 Ha2 Ht1 (Hnh _ _ Ha1 Ht1) Hxh) as (t2&Ht2&Hl2&Hu2).
    exists a2, t2. rewrite bid_count_app. cbn [bid_count]. split; [done|]. split; [done|]. split; [lia|].
    rewrite N.add_0_r, N.mul_add_distr_r. lia.
Qed.

(** ** How many bids there can be *)
Lemma bids_few st l st' a hb i m b : ra_history p lb st -> path p lb st l st' -> goes_on k l ->
  s_auctions st !! k = Some a -> a_high a = Some hb -> increments_from i l -> 0 < m -> DEC_ONE <= m * i ->
  bids_to k b l -> c_amount (hb_coin hb) <= b -> bid_count k l < m * (N.log2 b + 1).
Proof.
  intros Hst Hp Hg Ha Hh Hi Hm Hmi Hb Hb0.
  destruct (path_high _ _ _ _ _ _ Hst Hp Hg Ha Hh Hi) as (a'&hb'&_&_&_&_&Hgr&Hto).
  pose proof (history_wf _ _ _ Hst) as Hwf. destruct (wf_auction _ _ Hwf _ _ Ha) as [_ Hok].
  destruct (aok_bid _ _ Hok _ Hh) as (_&Hpos&_).
  apply (growth_count DEC_ONE i m _ (c_amount (hb_coin hb)) b eq_refl Hm Hmi Hpos).
  etrans; [exact Hgr|]. apply N.mul_le_mono_r. by apply Hto.
Qed.
Lemma over_by st l st' a hb t i m b x : ra_history p lb st -> path p lb st l st' -> goes_on k l -> no_halts k l ->
  s_auctions st !! k = Some a -> a_high a = Some hb -> a_end a = Some t ->
  increments_from i l -> 0 < m -> DEC_ONE <= m * i -> extensions_to x l -> bids_to k b l -> c_amount (hb_coin hb) <= b ->
  exists a' t', s_auctions st' !! k = Some a' /\ a_end a' = Some t' /\ t <= t' /\ t' <= t + m * (N.log2 b + 1) * (x * NANOS).
Proof.
  intros Hst Hp Hg Hn Ha Hh Ht Hi Hm Hmi Hx Hb Hb0.
  pose proof (bids_few _ _ _ _ _ _ _ _ Hst Hp Hg Ha Hh Hi Hm Hmi Hb Hb0) as Hc.
  destruct (path_end _ _ _ _ _ _ Hst Hp Hg Hn Hx Ha Ht) as (a'&t'&Ha'&Ht'&Hl&Hu).
  exists a', t'. split; [done|]. split; [done|]. split; [done|]. etrans; [exact Hu|].
  apply N.add_le_mono_l, N.mul_le_mono_r. by apply N.lt_le_incl.
Qed.
End Bounds.
