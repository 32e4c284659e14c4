(** Rounding in marketplace v2: every fee is rounded up, so the seller gets less than their exact share, by less than one unit for
    each fee; a higher price may therefore pay the seller less, but never by as many units as there are fees. *)
From stdpp Require Import relations.
From Verif Require Import Base BaseFacts Common Chain ChainFacts V2Model V2Spec V2Facts V2Inv V2Reach V2Sale V2Book V2Final RoundingSpec.
Local Open Scope N_scope.

(** The rates of a sale in a collection: protocol fee and capped royalty. *)
Definition all_rates (p : params) (v : view) (cfg : config) (coll : addr) : N :=
  cf_protocol_bps cfg * 100000000000000 +
  match royalty_due p v cfg coll with
  | Some (_, s) => N.min s (cf_max_royalty_bps cfg * 100000000000000) | None => 0 end.
(** The number of fees: the protocol's, a finder's on either side, the royalty. *)
Definition fee_count (p : params) (v : view) (cfg : config) (a : ask) (mb : matching_bid) (ask_first : bool) : N :=
  let one (o : option addr) : N := match o with Some _ => 1 | None => 0 end in
  1 + one (maker a mb ask_first) + one (taker a mb ask_first) +
  match royalty_due p v cfg (a_coll a) with Some _ => 1 | None => 0 end.
Definition sellers_rest (p : params) (v : view) (cfg : config) (a : ask) (mb : matching_bid) (ask_first : bool) : N :=
  c_amount (trade_price a mb ask_first) - total_dues (sale_dues p v cfg a mb ask_first).

Section Rounding.
Context (p : params).

Lemma rounding_arith price P R c1 c2 c3 c4 b b' e2 e3 e4 U :
  U = 1000000000000000000 -> b + b' < 10000 ->
  price * P * (10000 - b - b') <= 100000000 * c1 -> 100000000 * c1 < price * P * (10000 - b - b') + 100000000 ->
  price * P * b <= 100000000 * c2 -> 100000000 * c2 <= price * P * b + e2 * 100000000 ->
  price * P * b' <= 100000000 * c3 -> 100000000 * c3 <= price * P * b' + e3 * 100000000 ->
  price * R <= U * c4 -> U * c4 <= price * R + e4 * U ->
  c1 + c2 + c3 + c4 <= price ->
  short_by_less U (P * 100000000000000 + R) price (price - (c1 + c2 + c3 + c4)) (1 + e2 + e3 + e4).
Proof.
  intros HU Hb H1 H1' H2 H2' H3 H3' H4 H4' Hle.
  assert (price * P * (10000 - b - b') + price * P * b + price * P * b' = price * P * 10000) as Hs.
  { rewrite <-!N.mul_add_distr_l. f_equal. lia. }
  set (A := price * P * (10000 - b - b')) in *. set (B := price * P * b) in *. set (C := price * P * b') in *.
  clearbody A B C. unfold short_by_less. rewrite N.mul_add_distr_l.
  assert (price * (P * 100000000000000) = price * P * 100000000000000) as -> by lia.
  set (Q := price * P) in *. set (Y := price * R) in *. clearbody Q Y.
  rewrite N.mul_sub_distr_r. subst U. lia.
Qed.

Lemma sale_rounding v cfg a mb f : config_check cfg = Ok tt ->
  total_dues (sale_dues p v cfg a mb f) <= c_amount (trade_price a mb f) ->
  short_by_less (10 ^ 18) (all_rates p v cfg (a_coll a)) (c_amount (trade_price a mb f)) (sellers_rest p v cfg a mb f)
    (fee_count p v cfg a mb f).
Proof.
  intros [Hp Hr]%config_check_Ok. unfold sellers_rest, sale_dues, fee_count, all_rates. cbv zeta.
  set (price := c_amount _). generalize (maker a mb f), (taker a mb f). intros mk tk.
  unfold protocol_part, reward_part.
  set (P := cf_protocol_bps cfg) in *. set (M := cf_maker_bps cfg) in *. set (T := cf_taker_bps cfg) in *.
  assert (forall x, x <= 100000000 * ceil_div x 100000000 /\ 100000000 * ceil_div x 100000000 < x + 100000000) as HC.
  { intros x. apply ceil_div_spec. lia. }
  assert (exists c4, total_dues (match royalty_due p v cfg (a_coll a) with
      | Some (r, s) => [(r, royalty_part cfg price s)] | None => [] end) = c4 /\
      price * match royalty_due p v cfg (a_coll a) with
          | Some (_, s) => s `min` (cf_max_royalty_bps cfg * 100000000000000) | None => 0 end <= 10 ^ 18 * c4 /\
      10 ^ 18 * c4 <= price * match royalty_due p v cfg (a_coll a) with
          | Some (_, s) => s `min` (cf_max_royalty_bps cfg * 100000000000000) | None => 0 end +
        match royalty_due p v cfg (a_coll a) with Some _ => 1 | None => 0 end * 10 ^ 18) as (c4&E1&H4&H4').
  { eexists. split; [done|]. destruct (royalty_due p v cfg (a_coll a)) as [[r s]|]; cbn [total_dues foldr snd].
    - unfold royalty_part. change 1000000000000000000 with (10 ^ 18).
      pose proof (ceil_div_spec (price * (s `min` (cf_max_royalty_bps cfg * 100000000000000))) (10 ^ 18) eq_refl) as [Ha Hb].
      set (cd := ceil_div _ _) in *. set (X := price * _) in *. clearbody cd X.
      change (10 ^ 18) with 1000000000000000000 in *. lia.
    - rewrite N.mul_0_r. lia. }
  set (R := match royalty_due p v cfg (a_coll a) with Some (_, s) => _ | None => 0 end) in *.
  set (e4 := match royalty_due p v cfg (a_coll a) with Some _ => 1 | None => 0 end) in *.
  unfold total_dues in *. rewrite !foldr_app.
  assert (forall l n, foldr (fun (x : string * N) n => snd x + n) n l = foldr (fun x n => snd x + n) 0 l + n) as Hf.
  { induction l as [|y l IH]; intros n; cbn; [lia|]. rewrite IH. lia. }
  rewrite (Hf (match royalty_due p v cfg (a_coll a) with Some _ => _ | None => _ end)), E1.
  clearbody R e4.
  pose proof (HC (price * P * (10000 - if_some mk M - if_some tk T))) as [H1 H1'].
  pose proof (HC (price * P * if_some mk M)) as [H2 H2']. pose proof (HC (price * P * if_some tk T)) as [H3 H3'].
  assert (if_some mk M + if_some tk T < 10000) as Hlt by (destruct mk, tk; cbn; lia).
  destruct mk as [mk|], tk as [tk|]; cbn [foldr snd if_some] in *; intros Hle.
  - epose proof (rounding_arith price P R _ _ _ c4 _ _ 1 1 e4 (10 ^ 18) eq_refl Hlt H1 H1' H2 ltac:(lia) H3 ltac:(lia) H4 H4') as Hx.
    match goal with |- short_by_less _ _ _ (_ - ?x) _ => match type of Hx with _ -> short_by_less _ _ _ (_ - ?y) _ => replace y with x in Hx by lia end end.
    apply Hx. lia.
  - epose proof (rounding_arith price P R _ _ 0 c4 _ _ 1 0 e4 (10 ^ 18) eq_refl Hlt H1 H1' H2 ltac:(lia) ltac:(lia) ltac:(lia) H4 H4') as Hx.
    match goal with |- short_by_less _ _ _ (_ - ?x) _ => match type of Hx with _ -> short_by_less _ _ _ (_ - ?y) _ => replace y with x in Hx by lia end end.
    apply Hx. lia.
  - epose proof (rounding_arith price P R _ 0 _ c4 _ _ 0 1 e4 (10 ^ 18) eq_refl Hlt H1 H1' ltac:(lia) ltac:(lia) H3 ltac:(lia) H4 H4') as Hx.
    match goal with |- short_by_less _ _ _ (_ - ?x) _ => match type of Hx with _ -> short_by_less _ _ _ (_ - ?y) _ => replace y with x in Hx by lia end end.
    apply Hx. lia.
  - epose proof (rounding_arith price P R _ 0 0 c4 _ _ 0 0 e4 (10 ^ 18) eq_refl Hlt H1 H1' ltac:(lia) ltac:(lia) ltac:(lia) ltac:(lia) H4 H4') as Hx.
    match goal with |- short_by_less _ _ _ (_ - ?x) _ => match type of Hx with _ -> short_by_less _ _ _ (_ - ?y) _ => replace y with x in Hx by lia end end.
    apply Hx. lia.
Qed.
Lemma fee_count_le v cfg a mb f : 1 <= fee_count p v cfg a mb f <= 4.
Proof. unfold fee_count. cbv zeta. destruct (maker a mb f), (taker a mb f), (royalty_due p v cfg (a_coll a)); lia. Qed.

(** What the seller of a sale gets. *)
Lemma rounding n v e sender funds st m st' msgs c t to :
  v2_history p n st -> execute p v e sender funds st m = Ok (st', msgs) -> sells st m st' msgs c t to ->
  exists a mb f rest, trade sender st m a mb f /\ c = a_coll a /\ t = a_tok a /\ to = nft_to mb /\
    (0 < rest -> MSend (proceeds_to a) [Coin (c_denom (trade_price a mb f)) rest] ∈ msgs) /\
    0 < c_amount (trade_price a mb f) /\ 1 <= fee_count p v (s_config st) a mb f <= 4 /\
    short_by_less (10 ^ 18) (all_rates p v (s_config st) c) (c_amount (trade_price a mb f)) rest (fee_count p v (s_config st) a mb f).
Proof.
  intros Hn He Hs. pose proof (history_wf p n st Hn) as Hw.
  destruct (sells_settles p _ _ _ _ _ _ _ _ _ _ _ Hw He Hs) as (a&mb&f&Ht&Hset&->&->&->).
  exists a, mb, f, (sellers_rest p v (s_config st) a mb f). do 4 (split; [done|]).
  destruct Hset as (pre&post&->&_&_&Hpos&Hle). split; [|split; [done|split; [apply fee_count_le|]]].
  - intros H0. apply elem_of_app. right. apply elem_of_app. left.
    apply elem_of_list_fmap. exists (proceeds_to a, sellers_rest p v (s_config st) a mb f). split; [done|].
    unfold sale_payments. apply elem_of_list_In, filter_In. split; [|by apply N.ltb_lt].
    apply in_or_app. right. by left.
  - apply sale_rounding; [|done]. by apply (wf_config _ _ Hw).
Qed.

(** Two sales under the same rates: the one at the higher price pays its seller more, or less by fewer units than it has fees. *)
Lemma short_mono U r price price' rest rest' n n' : 0 < U -> 0 < price -> price <= price' ->
  short_by_less U r price rest n -> short_by_less U r price' rest' n' -> rest < rest' + n'.
Proof.
  intros HU H0 Hp [H1 _] [_ H2].
  assert (r <= U) as Hr by (apply (N.mul_le_mono_pos_l _ _ price); [done|lia]).
  assert (price * (U - r) <= price' * (U - r)) as Hm by (by apply N.mul_le_mono_r).
  rewrite !N.mul_sub_distr_l in Hm.
  assert (price * r <= price * U) by (by apply N.mul_le_mono_l).
  assert (price' * r <= price' * U) by (by apply N.mul_le_mono_l).
  assert (rest * U < (rest' + n') * U) as Hlt by lia.
  by apply N.mul_lt_mono_pos_r in Hlt.
Qed.
Lemma raise n v e sender funds st m st' msgs c t to n2 v2 e2 sender2 funds2 st2 m2 st2' msgs2 c2 t2 to2 :
  v2_history p n st -> execute p v e sender funds st m = Ok (st', msgs) -> sells st m st' msgs c t to ->
  v2_history p n2 st2 -> execute p v2 e2 sender2 funds2 st2 m2 = Ok (st2', msgs2) -> sells st2 m2 st2' msgs2 c2 t2 to2 ->
  all_rates p v (s_config st) c = all_rates p v2 (s_config st2) c2 ->
  exists a mb f a2 mb2 f2 rest rest2, trade sender st m a mb f /\ trade sender2 st2 m2 a2 mb2 f2 /\
    (c, t, to) = (a_coll a, a_tok a, nft_to mb) /\ (c2, t2, to2) = (a_coll a2, a_tok a2, nft_to mb2) /\
    (0 < rest -> MSend (proceeds_to a) [Coin (c_denom (trade_price a mb f)) rest] ∈ msgs) /\
    (0 < rest2 -> MSend (proceeds_to a2) [Coin (c_denom (trade_price a2 mb2 f2)) rest2] ∈ msgs2) /\
    (c_amount (trade_price a mb f) <= c_amount (trade_price a2 mb2 f2) ->
     rest < rest2 + fee_count p v2 (s_config st2) a2 mb2 f2 /\ rest <= rest2 + 3).
Proof.
  intros Hn He Hs Hn2 He2 Hs2 E.
  destruct (rounding _ _ _ _ _ _ _ _ _ _ _ _ Hn He Hs) as (a&mb&f&rest&Ht&->&->&->&Hin&Hpos&_&Hr).
  destruct (rounding _ _ _ _ _ _ _ _ _ _ _ _ Hn2 He2 Hs2) as (a2&mb2&f2&rest2&Ht2&->&->&->&Hin2&_&Hc&Hr2).
  exists a, mb, f, a2, mb2, f2, rest, rest2. do 6 (split; [done|]). intros Hle. rewrite E in Hr.
  pose proof (short_mono (10 ^ 18) _ _ _ _ _ _ _ eq_refl Hpos Hle Hr Hr2). lia.
Qed.
End Rounding.
