(** Rounding in marketplace v1: every part is rounded down and one unit may be lost, so the seller gets at most one unit less and at
    most three units more than their exact share. *)
From stdpp Require Import relations pretty.
From Verif Require Import Base BaseFacts Common Chain ChainFacts V1Model V1Spec V1Facts V1Inv V1Reach V1Final RoundingSpec.
Local Open Scope N_scope.

(** The rates of a deal, in units of 10^-20: the trading fee (a percentage with 18 decimals), the finder's fee (basis points) and
    the royalty (18 decimals). *)
Definition deal_rates (st : state) (ci : collection_info) (d : deal) : N :=
  sp_trading_fee (s_params st) +
  match d_finder d, d_bps d with Some _, Some b => b * 10 ^ 16 | _, _ => 0 end +
  match ci_royalty ci with Some (_, share) => share * 100 | None => 0 end.

Section Rounding.
Context (p : params) (x : ext).

Lemma floor_bounds n k : 0 < k -> n / k * k <= n /\ n < n / k * k + k.
Proof.
  intros Hk. pose proof (N.div_mod n k ltac:(lia)) as H1. pose proof (N.mod_lt n k ltac:(lia)) as H2.
  set (q := n / k) in *. set (r := n mod k) in *. clearbody q r. lia.
Qed.
Lemma split_rounding rate price finder bps royalty :
  let sp := split_of rate price finder bps royalty in split_fits sp price ->
  near (10 ^ 20) (rate + match finder, bps with Some _, Some b => b * 10 ^ 16 | _, _ => 0 end +
    match royalty with Some (_, share) => share * 100 | None => 0 end) price (x_seller sp) 3.
Proof.
  cbv zeta. set (sp := split_of rate price finder bps royalty).
  assert (x_fee sp * 10 ^ 20 <= price * rate /\ price * rate < x_fee sp * 10 ^ 20 + 10 ^ 20) as [F1 F2].
  { replace (x_fee sp) with (price * rate / 10 ^ 20).
    - by apply floor_bounds.
    - unfold sp, split_of. destruct royalty as [[? ?]|]; [case_match|]; done. }
  set (fr := match finder, bps with Some _, Some b => b * 10 ^ 16 | _, _ => 0 end).
  assert (x_finder sp * 10 ^ 20 <= price * fr /\ price * fr < x_finder sp * 10 ^ 20 + 10 ^ 20) as [G1 G2].
  { replace (x_finder sp) with (finders_cut price finder bps).
    - unfold finders_cut, fr. destruct finder, bps as [b|]; try (rewrite N.mul_0_r; split; [done|by vm_compute]).
      pose proof (floor_bounds (price * b) 10000 eq_refl) as [H1 H2]. set (q := price * b / 10000) in *. clearbody q.
      rewrite N.mul_assoc. set (pb := price * b) in *. clearbody pb. change (10 ^ 20) with (10000 * 10 ^ 16).
      change (10 ^ 16) with 10000000000000000. lia.
    - unfold sp, split_of. destruct royalty as [[? ?]|]; [case_match|]; done. }
  set (ry := match royalty with Some (_, share) => share * 100 | None => 0 end).
  set (rm := match x_royalty sp with Some (_, n) => n | None => 0 end).
  assert (rm * 10 ^ 20 <= price * ry /\ price * ry < rm * 10 ^ 20 + 10 ^ 20) as [R1 R2].
  { unfold rm, ry, sp, split_of. destruct royalty as [[to share]|]; cbn [x_royalty]; [|rewrite N.mul_0_r; split; [done|by vm_compute]].
    destruct (share =? 0) eqn:E; cbn [x_royalty].
    - apply N.eqb_eq in E as ->. rewrite N.mul_0_l, N.mul_0_r. split; [done|by vm_compute].
    - pose proof (floor_bounds (price * share) (10 ^ 18) eq_refl) as [H1 H2]. set (q := price * share / 10 ^ 18) in *. clearbody q.
      rewrite N.mul_assoc. set (pb := price * share) in *. clearbody pb. change (10 ^ 20) with (100 * 10 ^ 18).
      change (10 ^ 18) with 1000000000000000000 in *. lia. }
  unfold split_fits. cbv zeta. fold rm. clearbody rm fr ry. generalize dependent (x_fee sp). intros fee F1 F2.
  generalize dependent (x_finder sp). intros cut G1 G2. generalize (x_seller sp). intros rest Hfit. clear sp.
  unfold near. rewrite !N.mul_add_distr_l. set (A := price * rate) in *. set (B := price * fr) in *. set (C := price * ry) in *.
  clearbody A B C. change (10 ^ 20) with 100000000000000000000 in *. destruct Hfit as [<-|<-]; lia.
Qed.

Lemma rounding v e s f st m st' msgs c t who : v1_history p x st ->
  execute p x v e s f st m = Ok (st', msgs) -> MNft c t who ∈ msgs ->
  exists d ci rest, closes v e s f st m d /\ c = d_coll d /\ t = pretty (d_tok d) /\ who = d_buyer_to d /\
    q_info v (d_coll d) = Some ci /\ pay (d_seller_to d) rest ∈ msgs /\ 0 < d_price d /\
    near (10 ^ 20) (deal_rates st ci d) (d_price d) rest 3.
Proof.
  intros Hst H Hn. destruct (sale_rule p x _ _ _ _ _ _ _ _ _ _ _ Hst H Hn) as (d&ci&Hc&->&->&->&Hi&Hf&Hpos&->&_).
  exists d, ci, (x_seller (deal_split st ci d)). do 5 (split; [done|]). split; [|split; [done|]].
  - unfold deal_msgs, split_msgs. rewrite !elem_of_app. left. right. left. right. right. right. by apply elem_of_list_singleton.
  - by apply split_rounding.
Qed.

Lemma near_mono U r price price' rest rest' : 0 < U -> r <= U -> price <= price' ->
  near U r price rest 3 -> near U r price' rest' 3 -> rest <= rest' + 3.
Proof.
  intros HU Hr Hp [_ H1] [H2 _].
  assert (price * (U - r) <= price' * (U - r)) as Hm by (by apply N.mul_le_mono_r).
  rewrite !N.mul_sub_distr_l in Hm.
  assert (price * r <= price * U) by (by apply N.mul_le_mono_l).
  assert (price' * r <= price' * U) by (by apply N.mul_le_mono_l).
  assert (rest * U < (rest' + 4) * U) as Hlt by lia.
  apply N.mul_lt_mono_pos_r in Hlt; [lia|done].
Qed.
Lemma raise v e s f st m st' msgs c t who v2 e2 s2 f2 st2 m2 st2' msgs2 c2 t2 who2 :
  v1_history p x st -> execute p x v e s f st m = Ok (st', msgs) -> MNft c t who ∈ msgs ->
  v1_history p x st2 -> execute p x v2 e2 s2 f2 st2 m2 = Ok (st2', msgs2) -> MNft c2 t2 who2 ∈ msgs2 ->
  exists d ci d2 ci2 rest rest2, closes v e s f st m d /\ closes v2 e2 s2 f2 st2 m2 d2 /\
    (c, t, who) = (d_coll d, pretty (d_tok d), d_buyer_to d) /\ (c2, t2, who2) = (d_coll d2, pretty (d_tok d2), d_buyer_to d2) /\
    q_info v (d_coll d) = Some ci /\ q_info v2 (d_coll d2) = Some ci2 /\
    pay (d_seller_to d) rest ∈ msgs /\ pay (d_seller_to d2) rest2 ∈ msgs2 /\
    (deal_rates st ci d = deal_rates st2 ci2 d2 -> deal_rates st ci d <= 10 ^ 20 -> d_price d <= d_price d2 -> rest <= rest2 + 3).
Proof.
  intros Hst H Hn Hst2 H2 Hn2.
  destruct (rounding _ _ _ _ _ _ _ _ _ _ _ Hst H Hn) as (d&ci&rest&Hc&->&->&->&Hi&Hp&_&Hr).
  destruct (rounding _ _ _ _ _ _ _ _ _ _ _ Hst2 H2 Hn2) as (d2&ci2&rest2&Hc2&->&->&->&Hi2&Hp2&_&Hr2).
  exists d, ci, d2, ci2, rest, rest2. do 8 (split; [done|]). intros E Hle Hpr. rewrite <-E in Hr2.
  exact (near_mono (10 ^ 20) _ _ _ _ _ eq_refl Hle Hpr Hr Hr2).
Qed.
End Rounding.
