(** Proofs for C143 (V2PriceSpec): what is traded does not depend on the limit. *)
From stdpp Require Import relations.
From Verif Require Import Base BaseFacts Common Chain ChainFacts QuerySpec V2Model V2Spec V2Facts V2ExactSpec V2Exact V2PriceSpec.

Section Price.
Context (p : params) (v : view) (e : env) (sender : addr) (funds : list coin) (st : state).

Lemma named_with n d : named_ok p (with_amount n d) <-> named_ok p d.
Proof. done. Qed.
Lemma no_nft_back s f o c back coll tok to : pays s f o c back -> ~ MNft coll tok to ∈ back.
Proof.
  intros (_&cs&_&->). destruct cs; cbn [returned]; [by intros ?%elem_of_nil|]. by intros ?%elem_of_list_singleton.
Qed.
Lemma first_ask_more coll tok price n a : c_amount price <= n -> first_ask st coll tok price a ->
  first_ask st coll tok (Coin (c_denom price) n) a.
Proof.
  intros Hn [(H1&H2&H3&H4&H5) Hb]. split.
  - split; [done|]. split; [done|]. split; [done|]. cbn [c_denom c_amount]. split; [done|lia].
  - intros a' (G1&G2&G3&G4&G5). cbn [c_denom c_amount] in *.
    destruct (N.le_gt_cases (c_amount (d_price (a_det a'))) (c_amount price)) as [Hle|Hgt]; [by apply Hb|].
    right. left. unfold ask_key. cbn [fst]. lia.
Qed.
Lemma top_bid_less coll tok price n mb : n <= c_amount price -> top_bid st coll tok price mb ->
  top_bid st coll tok (Coin (c_denom price) n) mb.
Proof.
  intros Hn [(H1&H2&H3) Hb]. split.
  - split; [done|]. split; [done|]. cbn [c_amount]. lia.
  - intros mb' (G1&G2&G3). cbn [c_denom c_amount] in *.
    destruct (N.le_gt_cases (c_amount price) (c_amount (price_of mb'))) as [Hle|Hgt]; [by apply Hb|].
    right. left. lia.
Qed.
Lemma opening_with n coll d : 0 < n -> opening p v e st coll d -> opening p v e st coll (with_amount n d).
Proof. intros Hn (H1&H2&H3&H4&H5). done. Qed.
Lemma listing_with n coll tok d : 0 < n -> listing p v e sender funds st coll tok d -> listing p v e sender funds st coll tok (with_amount n d).
Proof. intros Hn (H1&H2&H3). split; [by apply opening_with|done]. Qed.

Lemma buy_more m st' msgs c t to k n : does p v e sender funds st m st' msgs -> sells st m st' msgs c t to ->
  at_most m = Some k -> k <= n -> n < U128_MAX -> does p v e sender funds st (with_limit n m) st' msgs.
Proof.
  intros H (Hin&_&_) Hk Hn Hmax.
  destruct H as [coll tok d H1 H2 H3|m coll tok d mb a Hm H1 -> H3 H4|i d a H1 H2 H3 H4 H5 H6|i d a0 a mb H1 H2 H3 H4 H5 -> H7 H8|i a H1 H2 H3
    |i d a b back H1 H2 H3 H4 -> H6|coll tok d b back H1 H2 -> H4 H5|m coll tok d b a back Hm H1 H2 H3 -> H5|i d b back H1 H2 H3 H4 H5 H6
    |i d b0 b a back H1 H2 H3 H4 H5 H6 -> H8|i b H1 H2 H3|i d b a H1 H2 H3 H4 H5|coll d b back H1 H2 H3 -> H5 H6
    |m coll d b a back Hm H1 H2 H3 H4 -> H6|i d b back H1 H2 H3 H4 H5 H6 H7|i d b0 b a back H1 H2 H3 H4 H5 H6 H7 -> H9|i b H1 H2 H3|i tok d b a H1 H2 H3 H4 H5];
    try discriminate Hk; try (by destruct Hm; subst m); try (by eapply no_nft_back in Hin).
  - injection Hk as <-. cbn [with_limit].
    apply (DoAcceptAsk p v e sender funds st i (with_amount n d) a (Bid (bid_name_of p e st (a_coll a +:+ a_tok a)) sender (a_coll a) (a_tok a) (with_amount n d))); try done.
    destruct H3 as [H3 H3']. split; [done|]. cbn [with_amount d_price c_amount]. lia.
  - assert (k = c_amount (d_price d)) as -> by (destruct Hm; subst m; by injection Hk). assert (0 < n) as Hn0 by (destruct H1 as (_&_&_&H1&_); lia).
    apply (DoBidBuy p v e sender funds st _ coll tok (with_amount n d) (Bid (bid_name_of p e st (coll +:+ tok)) sender coll tok (with_amount n d)) a); try done.
    + destruct Hm; subst m; auto.
    + by apply opening_with.
    + by apply first_ask_more.
  - injection Hk as <-. cbn [with_limit]. assert (0 < n) as Hn0 by (destruct H4; lia).
    apply (DoUpdateBidBuy p v e sender funds st i (with_amount n d) b0 (Bid i sender (b_coll b0) (b_tok b0) (with_amount n d)) a); try done.
    + split; [done|apply H4].
    + by apply first_ask_more.
  - assert (k = c_amount (d_price d)) as -> by (destruct Hm; subst m; by injection Hk). assert (0 < n) as Hn0 by (destruct H1 as (_&_&_&H1&_); lia).
    apply (DoCBidBuy p v e sender funds st _ coll (with_amount n d) (CBid (bid_name_of p e st coll) sender coll (with_amount n d)) a); try done.
    + destruct Hm; subst m; auto.
    + by apply opening_with.
    + cbn [with_amount d_price c_amount]. unfold U128_MAX in Hmax. lia.
    + by apply first_ask_more.
  - injection Hk as <-. cbn [with_limit]. assert (0 < n) as Hn0 by (destruct H4; lia).
    apply (DoUpdateCBidBuy p v e sender funds st i (with_amount n d) b0 (CBid i sender (cb_coll b0) (with_amount n d)) a); try done.
    + split; [done|apply H4].
    + cbn [with_amount d_price c_amount]. unfold U128_MAX in Hmax. lia.
    + by apply first_ask_more.
Qed.

Lemma sell_less m st' msgs c t to k n : does p v e sender funds st m st' msgs -> sells st m st' msgs c t to ->
  at_least m = Some k -> n <= k -> 0 < n -> does p v e sender funds st (with_limit n m) st' msgs.
Proof.
  intros H (Hin&_&Hnew) Hk Hn Hn0.
  destruct H as [coll tok d H1 H2 H3|m coll tok d mb a Hm H1 -> H3 H4|i d a H1 H2 H3 H4 H5 H6|i d a0 a mb H1 H2 H3 H4 H5 -> H7 H8|i a H1 H2 H3
    |i d a b back H1 H2 H3 H4 -> H6|coll tok d b back H1 H2 -> H4 H5|m coll tok d b a back Hm H1 H2 H3 -> H5|i d b back H1 H2 H3 H4 H5 H6
    |i d b0 b a back H1 H2 H3 H4 H5 H6 -> H8|i b H1 H2 H3|i d b a H1 H2 H3 H4 H5|coll d b back H1 H2 H3 -> H5 H6
    |m coll d b a back Hm H1 H2 H3 H4 -> H6|i d b back H1 H2 H3 H4 H5 H6 H7|i d b0 b a back H1 H2 H3 H4 H5 H6 H7 -> H9|i b H1 H2 H3|i tok d b a H1 H2 H3 H4 H5];
    try discriminate Hk; try (by destruct Hm; subst m); try (by eapply no_nft_back in Hin).
  - exfalso. destruct (Hnew (ask_name p coll tok)) as [x Hx]; [|congruence]. cbn [with_asks s_asks]. rewrite lookup_insert. eauto.
  - assert (k = c_amount (d_price d)) as -> by (destruct Hm; subst m; by injection Hk).
    change (sold st (s_nonce st) (Ask (ask_name p coll tok) sender coll tok d) mb) with (sold st (s_nonce st) (Ask (ask_name p coll tok) sender coll tok (with_amount n d)) mb).
    change (sale_sends p v (s_config st) (Ask (ask_name p coll tok) sender coll tok d) mb false) with
      (sale_sends p v (s_config st) (Ask (ask_name p coll tok) sender coll tok (with_amount n d)) mb false).
    apply (DoListSell p v e sender funds st _ coll tok (with_amount n d)); try done.
    + destruct Hm; subst m; auto.
    + by apply listing_with.
    + by apply top_bid_less.
  - by apply elem_of_nil in Hin.
  - injection Hk as <-. cbn [with_limit].
    change (sold st (s_nonce st) (Ask i sender (a_coll a0) (a_tok a0) d) mb) with (sold st (s_nonce st) (Ask i sender (a_coll a0) (a_tok a0) (with_amount n d)) mb).
    change (sale_sends p v (s_config st) (Ask i sender (a_coll a0) (a_tok a0) d) mb false) with
      (sale_sends p v (s_config st) (Ask i sender (a_coll a0) (a_tok a0) (with_amount n d)) mb false).
    apply (DoUpdateAskSell p v e sender funds st i (with_amount n d) a0); try done.
    + split; [done|apply H5].
    + by apply top_bid_less.
  - injection Hk as <-. cbn [with_limit].
    assert (met_by (d_price (with_amount n d)) (d_price (b_det b))) as H3'.
    { destruct H3 as [H3 H3']. split; [done|]. cbn [with_amount d_price c_amount]. lia. }
    destruct H4 as [H4|(Hu&Hs&->)].
    + apply (DoAcceptBid p v e sender funds st i (with_amount n d) b a); try done. by left.
    + apply (DoAcceptBid p v e sender funds st i (with_amount n d) b (Ask (ask_name p (b_coll b) (b_tok b)) sender (b_coll b) (b_tok b) (with_amount n d))); try done.
      right. done.
  - injection Hk as <-. cbn [with_limit].
    assert (met_by (d_price (with_amount n d)) (d_price (cb_det b))) as H3'.
    { destruct H3 as [H3 H3']. split; [done|]. cbn [with_amount d_price c_amount]. lia. }
    destruct H4 as [H4|(Hu&Hs&->)].
    + apply (DoAcceptCBid p v e sender funds st i tok (with_amount n d) b a); try done. by left.
    + apply (DoAcceptCBid p v e sender funds st i tok (with_amount n d) b (Ask (ask_name p (cb_coll b) tok) sender (cb_coll b) tok (with_amount n d))); try done.
      right. done.
Qed.
End Price.

Section Calls.
Context (p : params) (Hcf : collision_free p) (Hpf : prefix_free p) (Hsl : slash_free p).
Lemma small_with funds m n : small_call funds m -> n <= U128_MAX -> small_call funds (with_limit n m).
Proof. intros [H1 H2] Hn. split; [done|]. intros c. destruct m; cbn [with_limit msg_coin]; try apply H2; intros [= <-]; exact Hn. Qed.
Lemma same_kind n m : admin_call (with_limit n m) = admin_call m.
Proof. by destruct m. Qed.

Theorem bidding_more v e sender funds st m st' msgs c t to k n :
  small_history p st -> small_call funds m ->
  execute p v e sender funds st m = Ok (st', msgs) -> sells st m st' msgs c t to -> at_most m = Some k -> k <= n -> n < U128_MAX ->
  execute p v e sender funds st (with_limit n m) = Ok (st', msgs).
Proof.
  intros Hh Hc He Hs Hk Hn Hmax. assert (admin_call m = false) as Ha by (by destruct m).
  apply (order_calls_exact p Hcf Hpf Hsl); [done|apply small_with; [done|lia]|by rewrite same_kind|].
  eapply buy_more; [|done..]. by apply (order_calls_exact p Hcf Hpf Hsl).
Qed.
Theorem asking_less v e sender funds st m st' msgs c t to k n :
  small_history p st -> small_call funds m ->
  execute p v e sender funds st m = Ok (st', msgs) -> sells st m st' msgs c t to -> at_least m = Some k -> n <= k -> 0 < n ->
  execute p v e sender funds st (with_limit n m) = Ok (st', msgs).
Proof.
  intros Hh Hc He Hs Hk Hn Hmax. assert (admin_call m = false) as Ha by (by destruct m).
  assert (k <= U128_MAX) as Hk'.
  { destruct Hc as [_ Hc]. destruct m; try discriminate Hk; injection Hk as <-; by apply (Hc _ eq_refl). }
  apply (order_calls_exact p Hcf Hpf Hsl); [done|apply small_with; [done|lia]|by rewrite same_kind|].
  eapply sell_less; [|done..]. by apply (order_calls_exact p Hcf Hpf Hsl).
Qed.
End Calls.

Section Immediate.
Context (p : params) (Hcf : collision_free p) (Hpf : prefix_free p) (Hsl : slash_free p).
Lemma immediate_sells v e sender funds st m st' msgs : small_history p st -> small_call funds m -> immediate m = true ->
  execute p v e sender funds st m = Ok (st', msgs) -> exists c t to, sells st m st' msgs c t to.
Proof.
  intros Hh Hc Hi He. assert (admin_call m = false) as Ha by (by destruct m). apply (order_calls_exact p Hcf Hpf Hsl) in He; [|done..].
  assert (forall n a mb i, is_Some (s_asks (sold st n a mb) !! i) -> is_Some (s_asks st !! i)) as Hs.
  { intros n a mb i [x Hx]. cbn [sold s_asks] in Hx. apply lookup_delete_Some in Hx as [_ Hx]. eauto. }
  assert (forall cfg a mb af, MNft (a_coll a) (a_tok a) (nft_to mb) ∈ sale_sends p v cfg a mb af) as Hn.
  { intros cfg a mb af. unfold sale_sends. rewrite !elem_of_app, elem_of_list_singleton. auto. }
  destruct He; try discriminate Hi;
    (eexists _, _, _; split; [|split; [by destruct m; try discriminate Hi|apply Hs]]; rewrite ?elem_of_cons, ?elem_of_app; eauto).
Qed.
Theorem one_price v e sender funds st m n r r' :
  small_history p st -> small_call funds m -> immediate m = true -> n < U128_MAX -> (forall k, at_most m = Some k -> k < U128_MAX) ->
  execute p v e sender funds st m = Ok r -> execute p v e sender funds st (with_limit n m) = Ok r' -> r = r'.
Proof.
  intros Hh Hc Hi Hn Hkm He He'. destruct r as [st1 ms1], r' as [st2 ms2].
  assert (small_call funds (with_limit n m)) as Hc' by (apply small_with; [done|lia]).
  assert (immediate (with_limit n m) = true) as Hi' by (by destruct m).
  destruct (immediate_sells _ _ _ _ _ _ _ _ Hh Hc Hi He) as (c&t&to&Hs). destruct (immediate_sells _ _ _ _ _ _ _ _ Hh Hc' Hi' He') as (c'&t'&to'&Hs').
  assert (forall k, with_limit k (with_limit n m) = with_limit k m) as Hkk by (by intros k; destruct m).
  assert (forall k, at_most m = Some k \/ at_least m = Some k -> with_limit k m = m) as Hsame.
  { intros k [Hk|Hk]; destruct m as [| | | |? ? [[] ? ?]| |? [[] ? ?]|? [[] ? ?]|? ? [[] ? ?]| |? [[] ? ?]|? [[] ? ?]|? [[] ? ?]| |? [[] ? ?]|? ? [[] ? ?]|? ? [[] ? ?]|? ? [[] ? ?]|? [[] ? ?]];
      try discriminate Hk; injection Hk as <-; done. }
  destruct (at_most m) as [k|] eqn:Hk.
  - assert (at_most (with_limit n m) = Some n) as Hk' by (by destruct m). destruct (N.le_ge_cases k n) as [Hle|Hle].
    + rewrite (bidding_more p Hcf Hpf Hsl v e sender funds st m st1 ms1 c t to k n) in He' by done. congruence.
    + pose proof (bidding_more p Hcf Hpf Hsl v e sender funds st _ st2 ms2 c' t' to' n k Hh Hc' He' Hs' Hk' Hle (Hkm k eq_refl)) as H.
      rewrite Hkk, (Hsame k (or_introl eq_refl)) in H. congruence.
  - assert (exists k, at_least m = Some k) as [k Hl] by (destruct m; try discriminate Hi; try discriminate Hk; eauto).
    assert (at_least (with_limit n m) = Some n) as Hl' by (by destruct m).
    assert (0 < n /\ 0 < k) as [Hn0 Hk0].
    { split.
      - apply (order_calls_exact p Hcf Hpf Hsl) in He'; [|done|done|by destruct m].
        destruct m; try discriminate Hi; try discriminate Hk; cbn [with_limit] in He'.
        inversion He' as [|m' ? ? ? ? ? Hm HL| | | | | |m' ? ? ? ? ? ? Hm| | | | | |m' ? ? ? ? ? Hm| | | |]; subst; [|by destruct Hm..].
        destruct Hm as [Hm|Hm]; [done|]. injection Hm as <- <- <-. destruct HL as ((_&_&_&HL&_)&_). exact HL.
      - apply (order_calls_exact p Hcf Hpf Hsl) in He; [|done|done|by destruct m].
        destruct m; try discriminate Hi; try discriminate Hk. injection Hl as <-.
        inversion He as [|m' ? ? ? ? ? Hm HL| | | | | |m' ? ? ? ? ? ? Hm| | | | | |m' ? ? ? ? ? Hm| | | |]; subst; [|by destruct Hm..].
        destruct Hm as [Hm|Hm]; [done|]. injection Hm as <- <- <-. destruct HL as ((_&_&_&HL&_)&_). exact HL. }
    destruct (N.le_ge_cases n k) as [Hle|Hle].
    + rewrite (asking_less p Hcf Hpf Hsl v e sender funds st m st1 ms1 c t to k n) in He' by done. congruence.
    + pose proof (asking_less p Hcf Hpf Hsl v e sender funds st _ st2 ms2 c' t' to' n k Hh Hc' He' Hs' Hl' Hle Hk0) as H.
      rewrite Hkk, (Hsame k (or_intror Hl)) in H. congruence.
Qed.
End Immediate.

Section Chain.
Context (p : params) (Hcf : collision_free p) (Hpf : prefix_free p) (Hsl : slash_free p).
Theorem one_price_tx w s f m n w1 w2 :
  small_history p (w_st w) -> small_call f m -> immediate m = true -> n < U128_MAX -> (forall k, at_most m = Some k -> k < U128_MAX) ->
  run_tx p (execute p) w s f m = Ok w1 -> run_tx p (execute p) w s f (with_limit n m) = Ok w2 -> w1 = w2.
Proof.
  intros Hh Hc Hi Hn Hk H1 H2. unfold run_tx in H1, H2.
  apply bind_Ok in H1 as (u1&_&H1). apply bind_Ok in H1 as (r1&He1&H1). apply bind_Ok in H2 as (u2&_&H2). apply bind_Ok in H2 as (r2&He2&H2).
  assert (r1 = r2) as <- by (eapply (one_price p Hcf Hpf Hsl); [..|exact He1|exact He2]; done). congruence.
Qed.
End Chain.
