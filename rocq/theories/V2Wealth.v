(** A group of accounts gains coins only from sales to outsiders (v2). *)
From stdpp Require Import relations.
From Verif Require Import Base Common Chain BaseFacts ChainFacts QuerySpec LedgerSpec Ledger V2Model V2Spec V2Facts V2Inv V2Sale V2Reach V2ExactSpec V2Exact
  V2LedgerSpec V2Ledger V2QuoteSpec V2Quote V2Change V2HouseSpec V2House V2WealthSpec.

Section Wealth.
Context (p : params) (Hcf : collision_free p) (Hpf : prefix_free p) (Hsl : slash_free p) (G : addr -> bool) (d : denom).
Notation got := (got G d). Notation escrowed := (escrowed G d). Notation put := (put G d).
Notation W := (fun _ b => if G (b_creator b) then of_denom d (d_price (b_det b)) else 0).
Notation CW := (fun _ b => if G (cb_creator b) then of_denom d (d_price (cb_det b)) else 0).

Lemma got_app l l' : got (l ++ l') = got l + got l'.
Proof. apply sum_over_app. Qed.
Lemma got_le l : got l <= leaving d l.
Proof.
  induction l as [|m l IH]; [done|]. unfold V2WealthSpec.got, leaving in *. cbn [sum_over]. destruct m; try lia. destruct (G to); lia.
Qed.
Lemma got_sale v cfg a mb af : sale_goes p v cfg a mb af -> got (sale_sends p v cfg a mb af) <= of_denom d (trade_price a mb af).
Proof.
  intros (_&_&H). etrans; [apply got_le|]. unfold sale_sends. rewrite !leaving_app, (sends_price p d _ _ _ _ _ H).
  assert (leaving d (registration p v cfg (a_coll a)) = 0) as -> by (unfold registration; by repeat case_match). unfold leaving. cbn [sum_over]. lia.
Qed.
Lemma in_of c : in_denom d c = of_denom d c.
Proof. unfold in_denom, of_denom. by repeat case_match. Qed.
Lemma coins_in_of cs : coins_in cs d = coins_of d cs.
Proof. by rewrite coins_amt, coins_in_amt. Qed.
Lemma got_pays s f o c back : pays s f o c back ->
  got back + (if G s then of_denom d c else 0) = (if G s then coins_of d f + match o with Some x => of_denom d x | None => 0 end else 0).
Proof.
  intros (_&cs&(H&_)&->). specialize (H d). rewrite !coins_in_of, in_of in H.
  assert (opt_in_denom d o = match o with Some x => of_denom d x | None => 0 end) as E by (destruct o; cbn; [apply in_of|done]). rewrite E in H.
  assert (got (returned s cs) = if G s then coins_of d cs else 0) as ->.
  { unfold V2WealthSpec.got, returned. destruct cs; cbn [sum_over]; [by destruct (G s)|]. destruct (G s); lia. }
  destruct (G s); lia.
Qed.
Lemma delete_le {A} (f : string -> A -> N) m k : total f (delete k m) <= total f m.
Proof. destruct (m !! k) as [x|] eqn:E; [rewrite (total_delete f m k x E); lia|]. by rewrite delete_notin. Qed.
Lemma sold_le st n a mb : escrowed (sold st n a mb) <= escrowed st.
Proof.
  unfold V2WealthSpec.escrowed, sold. cbn [s_bids s_cbids]. destruct mb as [b|b].
  - pose proof (delete_le W (s_bids st) (b_id b)). lia.
  - pose proof (delete_le CW (s_cbids st) (cb_id b)). lia.
Qed.
Lemma sold_resting st n a mb : resting st mb -> escrowed (sold st n a mb) + (if G (buyer_of mb) then of_denom d (price_of mb) else 0) = escrowed st.
Proof.
  unfold V2WealthSpec.escrowed, sold. cbn [s_bids s_cbids]. destruct mb as [b|b]; cbn [resting buyer_of price_of]; intros H.
  - rewrite (total_delete W _ _ _ H). lia.
  - rewrite (total_delete CW _ _ _ H). lia.
Qed.
Lemma if_zero (b : bool) : (if b then 0 else 0) = 0.
Proof. by destruct b. Qed.
Definition fair (n : N) (v : view) (sender : addr) (funds : list coin) (st st' : state) (ms : list cmsg) : Prop :=
  got ms + escrowed st' <= put sender funds + escrowed st + n \/
  exists buyer price, buys p v sender st st' ms buyer price /\ G buyer = false /\
    got ms + escrowed st' <= put sender funds + escrowed st + n + of_denom d price.
(** The caller sells to a resting bid. *)
Lemma fair_sell x v sender funds st n a mb pre : resting st mb -> a_creator a = sender -> sale_goes p v (s_config st) a mb false ->
  got pre <= put sender funds + x -> (forall c t to, ~ MNft c t to ∈ pre) ->
  fair x v sender funds st (sold st n a mb) (pre ++ sale_sends p v (s_config st) a mb false).
Proof.
  intros Hr Hc Hg Hp Hn. pose proof (got_sale _ _ _ _ _ Hg) as Hs. pose proof (sold_resting st n a mb Hr) as He. unfold fair. rewrite got_app.
  unfold trade_price in Hs. destruct (G (buyer_of mb)) eqn:E.
  - left. lia.
  - right. exists (buyer_of mb), (price_of mb). split; [|split; [done|lia]]. exists a, mb, false. split; [|done].
    exists n, pre, []. split; [done|]. rewrite app_nil_r. split; [done|]. by rewrite app_nil_r.
Qed.
(** The caller buys a listed NFT; [old] was in escrow for the bid that the call replaces. *)
Lemma fair_buy x v sender funds st n a mb old back : s_asks st !! a_id a = Some a -> buyer_of mb = sender -> sale_goes p v (s_config st) a mb true ->
  pays sender funds old (d_price (a_det a)) back ->
  escrowed (sold st n a mb) + (if G sender then match old with Some x => of_denom d x | None => 0 end else 0) <= escrowed st ->
  fair x v sender funds st (sold st n a mb) (sale_sends p v (s_config st) a mb true ++ back).
Proof.
  intros Ha Hc Hg Hp He. pose proof (got_sale _ _ _ _ _ Hg) as Hs. pose proof (got_pays _ _ _ _ _ Hp) as Hb. unfold fair, V2WealthSpec.put. rewrite got_app.
  unfold trade_price in Hs. destruct (G sender) eqn:E.
  - left. lia.
  - right. exists sender, (d_price (a_det a)). split; [|split; [done|lia]]. exists a, mb, true. split; [|by rewrite Hc].
    exists n, [], back. split; [done|]. split; [done|]. intros ???. by eapply no_nft_change.
Qed.
Lemma first_in st coll tok c a : first_ask st coll tok c a -> s_asks st !! a_id a = Some a.
Proof. by intros [(?&_) _]. Qed.
Lemma group_does x v e sender funds st m st' ms : wf p st ->
  (forall coll tok dt, m = SetAsk coll tok dt \/ m = SellNft coll tok dt ->
     (if G (cf_fee_manager (s_config st)) then coins_of d funds else 0) <= put sender funds + x) ->
  does p v e sender funds st m st' ms -> fair x v sender funds st st' ms.
Proof.
  intros Hwf Hfm H. destruct H.
  - specialize (Hfm _ _ _ (or_introl eq_refl)). left. unfold V2WealthSpec.got. cbn [sum_over]. unfold V2WealthSpec.escrowed. cbn [with_asks s_bids s_cbids]. lia.
  - match goal with T : top_bid _ _ _ _ _ |- _ => destruct T as [(Hr&_) _] end. subst a.
    apply (fair_sell x v sender funds st _ _ mb [_]); [done|done|done| |].
    + match goal with E : _ \/ _ |- _ => specialize (Hfm _ _ _ E) end. unfold V2WealthSpec.got. cbn [sum_over]. lia.
    + by intros ??? ?%elem_of_list_singleton.
  - left. unfold V2WealthSpec.escrowed, V2WealthSpec.got. cbn [with_asks s_bids s_cbids sum_over]. lia.
  - match goal with T : top_bid _ _ _ _ _ |- _ => destruct T as [(Hr&_) _] end. subst a.
    apply (fair_sell x v sender funds st _ _ mb []); [done|done|done|unfold V2WealthSpec.got; cbn [sum_over]; lia|]. by intros ??? ?%elem_of_nil.
  - left. unfold V2WealthSpec.escrowed, V2WealthSpec.got. cbn [with_asks s_bids s_cbids sum_over]. lia.
  - destruct (wf_ask _ _ Hwf _ _ H) as (Hid&_). subst b.
    eapply fair_buy; [by rewrite Hid|done|done|done|]. cbv iota beta. rewrite if_zero, N.add_0_r. apply sold_le.
  - left. match goal with P : pays _ _ _ _ _ |- _ => pose proof (got_pays _ _ _ _ _ P) as Hb end. unfold V2WealthSpec.escrowed, V2WealthSpec.put. cbn [with_bids s_bids s_cbids].
    match goal with E : s_bids st !! _ = None |- _ => rewrite (total_insert_new W _ _ _ E) end. subst b. cbn [b_creator b_det]. destruct (G sender); lia.
  - match goal with F : first_ask _ _ _ _ _ |- _ => pose proof (first_in _ _ _ _ _ F) as Hl end. subst b.
    eapply fair_buy; [done|done|done|done|]. cbv iota beta. rewrite if_zero, N.add_0_r. apply sold_le.
  - left. match goal with P : pays _ _ _ _ _ |- _ => pose proof (got_pays _ _ _ _ _ P) as Hb end. unfold V2WealthSpec.escrowed, V2WealthSpec.put. cbn [with_bids s_bids s_cbids].
    pose proof (total_put W _ _ _ (Bid i sender (b_coll b) (b_tok b) d0) H) as Ht. cbn [b_creator b_det] in Ht. subst sender. destruct (G (b_creator b)); lia.
  - match goal with F : first_ask _ _ _ _ _ |- _ => pose proof (first_in _ _ _ _ _ F) as Hl end. subst b.
    eapply fair_buy; [done|done|done|done|]. unfold V2WealthSpec.escrowed, sold. cbn [s_bids s_cbids b_id].
    rewrite (total_delete W _ _ _ H). subst sender. destruct (G (b_creator b0)); lia.
  - left. unfold V2WealthSpec.got. cbn [sum_over]. unfold V2WealthSpec.escrowed. cbn [with_bids s_bids s_cbids].
    match goal with L : s_bids st !! i = Some b |- _ => rewrite (total_delete W _ _ _ L) end. subst sender. unfold coins_of. cbn [sum_over]. destruct (G (b_creator b)); lia.
  - destruct (wf_bid _ _ Hwf _ _ H) as (Hid&_). apply (fair_sell x v sender funds st _ a (MBid b) []); [by cbn [resting]; rewrite Hid| |done|unfold V2WealthSpec.got; cbn [sum_over]; lia|by intros ??? ?%elem_of_nil].
    match goal with S : sellable _ _ _ _ _ _ _ _ |- _ => destruct S as [(_&_&_&?)|(_&_&->)]; done end.
  - left. match goal with P : pays _ _ _ _ _ |- _ => pose proof (got_pays _ _ _ _ _ P) as Hb end. unfold V2WealthSpec.escrowed, V2WealthSpec.put. cbn [with_cbids s_bids s_cbids].
    match goal with E : s_cbids st !! _ = None |- _ => rewrite (total_insert_new CW _ _ _ E) end. subst b. cbn [cb_creator cb_det]. destruct (G sender); lia.
  - match goal with F : first_ask _ _ _ _ _ |- _ => pose proof (first_in _ _ _ _ _ F) as Hl end. subst b.
    eapply fair_buy; [done|done|done|done|]. cbv iota beta. rewrite if_zero, N.add_0_r. apply sold_le.
  - left. match goal with P : pays _ _ _ _ _ |- _ => pose proof (got_pays _ _ _ _ _ P) as Hb end. unfold V2WealthSpec.escrowed, V2WealthSpec.put. cbn [with_cbids s_bids s_cbids].
    pose proof (total_put CW _ _ _ (CBid i sender (cb_coll b) d0) H) as Ht. cbn [cb_creator cb_det] in Ht. subst sender. destruct (G (cb_creator b)); lia.
  - match goal with F : first_ask _ _ _ _ _ |- _ => pose proof (first_in _ _ _ _ _ F) as Hl end. subst b.
    eapply fair_buy; [done|done|done|done|]. unfold V2WealthSpec.escrowed, sold. cbn [s_bids s_cbids cb_id].
    rewrite (total_delete CW _ _ _ H). subst sender. destruct (G (cb_creator b0)); lia.
  - left. unfold V2WealthSpec.got. cbn [sum_over]. unfold V2WealthSpec.escrowed. cbn [with_cbids s_bids s_cbids].
    match goal with L : s_cbids st !! i = Some b |- _ => rewrite (total_delete CW _ _ _ L) end. subst sender. unfold coins_of. cbn [sum_over]. destruct (G (cb_creator b)); lia.
  - destruct (wf_cbid _ _ Hwf _ _ H) as (Hid&_). apply (fair_sell x v sender funds st _ a (MCBid b) []); [by cbn [resting]; rewrite Hid| |done|unfold V2WealthSpec.got; cbn [sum_over]; lia|by intros ??? ?%elem_of_nil].
    match goal with S : sellable _ _ _ _ _ _ _ _ |- _ => destruct S as [(_&_&_&?)|(_&_&->)]; done end.
Qed.
Lemma gain_call x v e sender funds st m st' ms : small_history p st -> small_call funds m ->
  (forall coll tok dt, m = SetAsk coll tok dt \/ m = SellNft coll tok dt ->
     (if G (cf_fee_manager (s_config st)) then coins_of d funds else 0) <= put sender funds + x) ->
  execute p v e sender funds st m = Ok (st', ms) -> fair x v sender funds st st' ms.
Proof.
  intros Hh Hc Hfm He. destruct (admin_call m) eqn:Ha.
  - apply admin_book in He as [(_&_&B&C) ->]; [|done]. left. unfold V2WealthSpec.escrowed. rewrite B, C. cbn. lia.
  - apply (order_calls_exact p Hcf Hpf Hsl) in He; [|done..]. eapply group_does; [|exact Hfm|done]. exact (proj1 (small_history_inv p Hcf Hpf Hsl _ Hh)).
Qed.
Theorem group_gain v e sender funds st m st' ms : small_history p st -> small_call funds m -> G (cf_fee_manager (s_config st)) = false ->
  execute p v e sender funds st m = Ok (st', ms) ->
  got ms + escrowed st' <= put sender funds + escrowed st \/
  exists buyer price, buys p v sender st st' ms buyer price /\ G buyer = false /\
    got ms + escrowed st' <= put sender funds + escrowed st + of_denom d price.
Proof.
  intros Hh Hc Hfm He.
  assert (fair 0 v sender funds st st' ms) as [H|(buyer&price&Hb&Hn&H)].
  { apply (gain_call 0 _ e _ _ _ m); [done|done| |done]. intros _ _ _ _. rewrite Hfm. lia. }
  - left. lia.
  - right. exists buyer, price. split; [done|]. split; [done|lia].
Qed.
(** Nobody is left out: a group with the fee manager gains the listing fees of outsiders as well. *)
Theorem manager_gain v e sender funds st m st' ms : small_history p st -> small_call funds m ->
  execute p v e sender funds st m = Ok (st', ms) -> fair (outside_fee G d sender funds m) v sender funds st st' ms.
Proof.
  intros Hh Hc He. apply (gain_call _ _ e _ _ _ m); [done|done| |done].
  intros coll tok dt [-> | ->]; unfold outside_fee, V2WealthSpec.put; destruct (G sender), (G (cf_fee_manager _)); lia.
Qed.
Theorem group_history st l : trace p st l -> Forall (fun h => small_call (en_funds h) (en_msg h)) l ->
  Forall (fun h => G (cf_fee_manager (s_config (en_before h))) = false /\ among p G h) l ->
  small_history p st /\
  sum_over (fun h => got (en_msgs h)) l + escrowed st <= sum_over (fun h => put (en_by h) (en_funds h)) l.
Proof.
  induction 1 as [c st Hi|st l v e sender funds m st' ms Ht IH Hs He].
  - intros _ _. split; [exists c, st; split; [done|apply rtc_refl]|]. cbn [sum_over].
    assert (s_bids st = ∅ /\ s_cbids st = ∅) as [E1 E2].
    { unfold instantiate in Hi. inv_ok. done. }
    unfold V2WealthSpec.escrowed. rewrite E1, E2, !total_empty. lia.
  - intros [Hl Hc]%Forall_app [Hg Hx]%Forall_app. rewrite Forall_singleton in Hc. rewrite Forall_singleton in Hx. cbn in Hc. destruct Hx as [Hfm Ham]. cbn in Hfm.
    destruct (IH Hl Hg) as [Hh Hle]. split; [by eapply small_next|].
    rewrite !sum_over_app. cbn [sum_over en_msgs en_by en_funds].
    destruct (group_gain _ _ _ _ _ _ _ _ Hh Hc Hfm He) as [Hf|(buyer&price&Hb&Hn&_)]; [lia|].
    specialize (Ham v buyer price Hb). congruence.
Qed.
(** With the prices that outsiders pay, call by call. *)
Theorem group_history_sales st l : trace p st l -> Forall (fun h => small_call (en_funds h) (en_msg h)) l ->
  Forall (fun h => G (cf_fee_manager (s_config (en_before h))) = false) l ->
  small_history p st /\
  exists sales, Forall2 (outside_sale p G d) l sales /\
    sum_over (fun h => got (en_msgs h)) l + escrowed st <= sum_over (fun h => put (en_by h) (en_funds h)) l + sum_over id sales.
Proof.
  induction 1 as [c st Hi|st l v e sender funds m st' ms Ht IH Hs He].
  - intros _ _. split; [exists c, st; split; [done|apply rtc_refl]|]. exists []. split; [done|]. cbn [sum_over].
    assert (s_bids st = ∅ /\ s_cbids st = ∅) as [E1 E2].
    { unfold instantiate in Hi. inv_ok. done. }
    unfold V2WealthSpec.escrowed. rewrite E1, E2, !total_empty. lia.
  - intros [Hl Hc]%Forall_app [Hg Hx]%Forall_app. rewrite Forall_singleton in Hc. rewrite Forall_singleton in Hx. cbn in Hc, Hx.
    destruct (IH Hl Hg) as [Hh (sales&HF&Hle)]. split; [by eapply small_next|].
    destruct (group_gain _ _ _ _ _ _ _ _ Hh Hc Hx He) as [Hf|(buyer&price&Hb&Hn&Hf)].
    + exists (sales ++ [0]). split; [apply Forall2_app; [done|]; constructor; [by left|done]|].
      rewrite !sum_over_app. cbn [sum_over en_msgs en_by en_funds]. unfold id at 2. lia.
    + exists (sales ++ [of_denom d price]). split; [apply Forall2_app; [done|]; constructor; [right; eauto 6|done]|].
      rewrite !sum_over_app. cbn [sum_over en_msgs en_by en_funds]. unfold id at 2. lia.
Qed.
End Wealth.
