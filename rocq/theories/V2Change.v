(** Changing an order of v2 is taking it back and placing it again. *)
From stdpp Require Import relations.
From Verif Require Import Base Common Chain BaseFacts ChainFacts QuerySpec V2Model V2Spec V2Facts V2Match V2Inv V2Reach V2ExactSpec V2Exact
  V2LocalSpec V2Local V2Delay V2ChangeSpec.

Section Change.
Context (p : params) (Hcf : collision_free p) (Hpf : prefix_free p) (Hsl : slash_free p).

Lemma coins_in_cons c l d : coins_in (c :: l) d = in_denom d c + coins_in l d.
Proof. unfold coins_in, in_denom. cbn. destruct (decide _); lia. Qed.
Lemma pays_shift s c f price back : pays s f (Some c) price back <-> pays s (c :: f) None price back.
Proof.
  unfold pays. assert (forall d, coins_in (c :: f) d + opt_in_denom d None = coins_in f d + opt_in_denom d (Some c)) as E.
  { intros d. rewrite coins_in_cons. cbn [opt_in_denom]. lia. }
  split; intros (Hs&cs&(Hc&H1&H2)&->).
  - split; [intros d; by rewrite E|]. exists cs. split; [|done]. split_and!; try done. intros d. by rewrite E, Hc.
  - split; [intros d; by rewrite <-E|]. exists cs. split; [|done]. split_and!; try done. intros d. by rewrite <-E, Hc.
Qed.
Lemma small_next st v e s f m st' ms : small_history p st -> s <> p_self p -> small_call f m -> execute p v e s f st m = Ok (st', ms) ->
  small_history p st'.
Proof. intros (c&s0&Hi&H) Hs Hc He. exists c, s0. split; [done|]. eapply rtc_r; [exact H|]. by exists v, e, s, f, m, ms. Qed.
Lemma first_ask_same st st1 coll tok c a : s_asks st1 = s_asks st -> first_ask st1 coll tok c a <-> first_ask st coll tok c a.
Proof. intros E. unfold first_ask, offered. by rewrite E. Qed.

Lemma small_put c f m m' : small c -> msg_coin m' = msg_coin m -> small_call f m -> small_call (c :: f) m'.
Proof. intros Hc E [Hf Hm]. split; [by constructor|]. by rewrite E. Qed.

(** ** What a call did *)
Ltac other_call := try match goal with Hx : _ = _ \/ _ = _ |- _ => exfalso; by destruct Hx end.
Section Inv.
Context (v : view) (e : env) (s : addr) (f : list coin) (st st' : state) (ms : list cmsg).
Lemma inv_remove_bid i : does p v e s f st (RemoveBid i) st' ms -> exists b, s_bids st !! i = Some b /\ b_creator b = s /\
  st' = with_bids st (s_nonce st) (delete i (s_bids st)) /\ ms = [MSend s [d_price (b_det b)]].
Proof. intros H. inversion H; subst; other_call. by eexists. Qed.
Lemma inv_remove_cbid i : does p v e s f st (RemoveCollectionBid i) st' ms -> exists b, s_cbids st !! i = Some b /\ cb_creator b = s /\
  st' = with_cbids st (s_nonce st) (delete i (s_cbids st)) /\ ms = [MSend s [d_price (cb_det b)]].
Proof. intros H. inversion H; subst; other_call. by eexists. Qed.
Lemma inv_remove_ask i : does p v e s f st (RemoveAsk i) st' ms -> exists a, s_asks st !! i = Some a /\ a_creator a = s /\
  st' = with_asks st (delete i (s_asks st)) /\ ms = [MNft (a_coll a) (a_tok a) (proceeds_to a)].
Proof. intros H. inversion H; subst; other_call. by eexists. Qed.
Lemma inv_update_bid i d b : s_bids st !! i = Some b -> does p v e s f st (UpdateBid i d) st' ms ->
  b_creator b = s /\ named_ok p d /\ priced st (b_coll b) (d_price d) /\
  (((forall a, ~ offered st (b_coll b) (Some (b_tok b)) (d_price d) a) /\ pays s f (Some (d_price (b_det b))) (d_price d) ms /\
    st' = with_bids st (s_nonce st) (<[i := Bid i s (b_coll b) (b_tok b) d]> (s_bids st))) \/
   (exists a back, first_ask st (b_coll b) (Some (b_tok b)) (d_price d) a /\ pays s f (Some (d_price (b_det b))) (d_price (a_det a)) back /\
    sale_goes p v (s_config st) a (MBid (Bid i s (b_coll b) (b_tok b) d)) true /\
    st' = sold st (s_nonce st) a (MBid (Bid i s (b_coll b) (b_tok b) d)) /\
    ms = sale_sends p v (s_config st) a (MBid (Bid i s (b_coll b) (b_tok b) d)) true ++ back)).
Proof.
  intros Hb H. inversion H; subst; other_call; match goal with Hx : s_bids _ !! _ = Some _ |- _ => rewrite Hb in Hx; injection Hx as <- end;
    (split_and!; [done..|]); [by left|right; by do 2 eexists].
Qed.
Lemma inv_set_bid c t d : does p v e s f st (SetBid c t d) st' ms ->
  let b := Bid (bid_name_of p e st (c +:+ t)) s c t d in opening p v e st c d /\
  (((forall a, ~ offered st c (Some t) (d_price d) a) /\ pays s f None (d_price d) ms /\
    st' = with_bids st (next_count st) (<[b_id b := b]> (s_bids st))) \/
   (exists a back, first_ask st c (Some t) (d_price d) a /\ pays s f None (d_price (a_det a)) back /\
    sale_goes p v (s_config st) a (MBid b) true /\
    st' = sold st (next_count st) a (MBid b) /\ ms = sale_sends p v (s_config st) a (MBid b) true ++ back)).
Proof.
  intros H. cbv zeta. inversion H; subst; other_call.
  - split; [done|]. by left.
  - match goal with Hx : _ = _ \/ _ = _ |- _ => destruct Hx as [Hx|Hx]; [injection Hx as <- <- <-|discriminate Hx] end.
    split; [done|]. right. by do 2 eexists.
Qed.
Lemma inv_update_cbid i d b : s_cbids st !! i = Some b -> does p v e s f st (UpdateCollectionBid i d) st' ms ->
  cb_creator b = s /\ named_ok p d /\ priced st (cb_coll b) (d_price d) /\
  c_amount (d_price d) <> 340282366920938463463374607431768211455 /\
  (((forall a, ~ offered st (cb_coll b) None (d_price d) a) /\ pays s f (Some (d_price (cb_det b))) (d_price d) ms /\
    st' = with_cbids st (s_nonce st) (<[i := CBid i s (cb_coll b) d]> (s_cbids st))) \/
   (exists a back, first_ask st (cb_coll b) None (d_price d) a /\ pays s f (Some (d_price (cb_det b))) (d_price (a_det a)) back /\
    sale_goes p v (s_config st) a (MCBid (CBid i s (cb_coll b) d)) true /\
    st' = sold st (s_nonce st) a (MCBid (CBid i s (cb_coll b) d)) /\
    ms = sale_sends p v (s_config st) a (MCBid (CBid i s (cb_coll b) d)) true ++ back)).
Proof.
  intros Hb H. inversion H; subst; other_call; match goal with Hx : s_cbids _ !! _ = Some _ |- _ => rewrite Hb in Hx; injection Hx as <- end;
    (split_and!; [done..|]); [by left|right; by do 2 eexists].
Qed.
Lemma inv_set_cbid c d : does p v e s f st (SetCollectionBid c d) st' ms ->
  let b := CBid (bid_name_of p e st c) s c d in opening p v e st c d /\
  c_amount (d_price d) <> 340282366920938463463374607431768211455 /\
  (((forall a, ~ offered st c None (d_price d) a) /\ pays s f None (d_price d) ms /\
    st' = with_cbids st (next_count st) (<[cb_id b := b]> (s_cbids st))) \/
   (exists a back, first_ask st c None (d_price d) a /\ pays s f None (d_price (a_det a)) back /\
    sale_goes p v (s_config st) a (MCBid b) true /\
    st' = sold st (next_count st) a (MCBid b) /\ ms = sale_sends p v (s_config st) a (MCBid b) true ++ back)).
Proof.
  intros H. cbv zeta. inversion H; subst; other_call.
  - split; [done|]. split; [done|]. by left.
  - match goal with Hx : _ = _ \/ _ = _ |- _ => destruct Hx as [Hx|Hx]; [injection Hx as <- <-|discriminate Hx] end.
    split; [done|]. split; [done|]. right. by do 2 eexists.
Qed.
Lemma inv_update_ask i d a : s_asks st !! i = Some a -> does p v e s f st (UpdateAsk i d) st' ms ->
  a_creator a = s /\ named_ok p d /\ priced st (a_coll a) (d_price d) /\
  (((forall mb, ~ fits st (a_coll a) (a_tok a) (d_price d) mb) /\
    st' = with_asks st (<[i := Ask i s (a_coll a) (a_tok a) d]> (s_asks st)) /\ ms = []) \/
   (exists mb, top_bid st (a_coll a) (a_tok a) (d_price d) mb /\ sale_goes p v (s_config st) (Ask i s (a_coll a) (a_tok a) d) mb false /\
    st' = sold st (s_nonce st) (Ask i s (a_coll a) (a_tok a) d) mb /\
    ms = sale_sends p v (s_config st) (Ask i s (a_coll a) (a_tok a) d) mb false)).
Proof.
  intros Hb H. inversion H; subst; other_call; match goal with Hx : s_asks _ !! _ = Some _ |- _ => rewrite Hb in Hx; injection Hx as <- end;
    (split_and!; [done..|]); [by left|right; by eexists].
Qed.
Lemma inv_set_ask c t d : does p v e s f st (SetAsk c t d) st' ms ->
  let a := Ask (ask_name p c t) s c t d in listing p v e s f st c t d /\ exists rest, ms = MSend (cf_fee_manager (s_config st)) f :: rest /\
  (((forall mb, ~ fits st c t (d_price d) mb) /\
    st' = with_asks st (<[a_id a := a]> (s_asks st)) /\ rest = [MNft c t (p_self p)]) \/
   (exists mb, top_bid st c t (d_price d) mb /\ sale_goes p v (s_config st) a mb false /\
    st' = sold st (s_nonce st) a mb /\ rest = sale_sends p v (s_config st) a mb false)).
Proof.
  intros H. cbv zeta. inversion H; subst; other_call.
  - split; [done|]. eexists. split; [done|]. by left.
  - match goal with Hx : _ = _ \/ _ = _ |- _ => destruct Hx as [Hx|Hx]; [injection Hx as <- <- <-|discriminate Hx] end.
    split; [done|]. eexists. split; [done|]. right. by eexists.
Qed.
End Inv.

Lemma bid_again n v v0 e e0 sender funds st i d b st1 back1 :
  N.of_nat n < U64_MAX -> v2_history p n st -> small_history p st -> sender <> p_self p -> small_call funds (UpdateBid i d) ->
  s_bids st !! i = Some b -> ~ not_yet_tradable v e (b_coll b) ->
  execute p v0 e0 sender [] st (RemoveBid i) = Ok (st1, back1) ->
  back1 = [MSend sender [d_price (b_det b)]] /\
  (forall st2 msgs, execute p v e sender funds st (UpdateBid i d) = Ok (st2, msgs) ->
    exists st3, execute p v e sender (d_price (b_det b) :: funds) st1 (SetBid (b_coll b) (b_tok b) d) = Ok (st3, msgs) /\
      same_but_bid i (bid_name_of p e st (b_coll b +:+ b_tok b)) st2 st3) /\
  (forall st3 msgs, execute p v e sender (d_price (b_det b) :: funds) st1 (SetBid (b_coll b) (b_tok b) d) = Ok (st3, msgs) ->
    exists st2, execute p v e sender funds st (UpdateBid i d) = Ok (st2, msgs) /\
      same_but_bid i (bid_name_of p e st (b_coll b +:+ b_tok b)) st2 st3).
Proof.
  intros Hn Hh Hsh Hs Hc Hb Hopen Hrem.
  pose proof (small_history_inv p Hcf Hpf Hsl _ Hsh) as [Hwf Hss].
  assert (small_call [] (RemoveBid i)) as Hc0 by (split; [constructor|done]).
  pose proof (small_next _ _ _ _ _ _ _ _ Hsh Hs Hc0 Hrem) as Hsh1.
  assert (small_call (d_price (b_det b) :: funds) (SetBid (b_coll b) (b_tok b) d)) as Hc1.
  { eapply small_put; [by eapply ss_bid|done|exact Hc]. }
  apply (order_calls_exact p Hcf Hpf Hsl) in Hrem; [|done..]. apply inv_remove_bid in Hrem as (b'&Hb'&<-&->&->).
  rewrite Hb in Hb'. injection Hb' as <-. split; [done|].
  destruct (wf_bid _ _ Hwf _ _ Hb) as (Hid&_&Hval&_). pose proof (name_fresh p Hcf n st e (b_coll b +:+ b_tok b) Hh Hn) as [Hf _].
  set (j := bid_name_of p e st (b_coll b +:+ b_tok b)) in *.
  set (st1 := with_bids st (s_nonce st) (delete i (s_bids st))) in *.
  assert (i <> j) as Hij by (intros ->; congruence).
  assert (bid_name_of p e st1 (b_coll b +:+ b_tok b) = j) as Ej by done.
  split; intros st2 msgs H.
  - apply (order_calls_exact p Hcf Hpf Hsl) in H; [|done..].
    apply (inv_update_bid _ _ _ _ _ _ _ _ _ _ Hb) in H as (_&Hnm&Hpr&[(Hno&Hpay&->)|(a&back&Hfa&Hpay&Hgo&->&->)]); apply pays_shift in Hpay.
    + eexists. split.
      * apply (order_calls_exact p Hcf Hpf Hsl); [done..|]. eapply DoBid; [by split_and!|exact Hno|reflexivity| |exact Hpay].
        cbn [b_id st1 with_bids s_bids]. rewrite Ej. by apply lookup_delete_None; right.
      * cbn [b_id]. rewrite Ej. split_and!; [done..|]. right. cbn [with_bids s_bids st1].
        exists (b_creator b), (b_coll b), (b_tok b), d. split_and!; [by rewrite lookup_insert..|].
        rewrite delete_insert_delete, delete_insert; [done|]. by apply lookup_delete_None; right.
    + eexists. split.
      * apply (order_calls_exact p Hcf Hpf Hsl); [done..|].
        rewrite (sends_bid p v _ _ i (bid_name_of p e st1 (b_coll b +:+ b_tok b))).
        eapply (DoBidBuy _ _ _ _ _ st1 _ _ _ d _ a); [by left|by split_and!|by apply (first_ask_same st)|exact Hpay|reflexivity|exact Hgo].
      * cbn [b_id]. rewrite Ej. split_and!; [done..|]. left. cbn [with_bids s_bids st1 sold b_id].
        symmetry. apply delete_notin. by apply lookup_delete_None; right.
  - apply (order_calls_exact p Hcf Hpf Hsl) in H; [|done..].
    apply inv_set_bid in H as ((_&Hnm&_&Hpr)&[(Hno&Hpay&->)|(a&back&Hfa&Hpay&Hgo&->&->)]).
    + apply pays_shift in Hpay. eexists. split.
      * apply (order_calls_exact p Hcf Hpf Hsl); [done..|]. eapply DoUpdateBid; [exact Hb|done|done|exact Hpr|exact Hno|exact Hpay].
      * cbn [b_id]. rewrite Ej. split_and!; [done..|]. right. cbn [with_bids s_bids st1].
        exists (b_creator b), (b_coll b), (b_tok b), d. split_and!; [by rewrite lookup_insert..|].
        rewrite delete_insert_delete, delete_insert; [done|]. by apply lookup_delete_None; right.
    + apply pays_shift in Hpay. eexists. split.
      * apply (order_calls_exact p Hcf Hpf Hsl); [done..|].
        rewrite (sends_bid p v _ _ _ i).
        eapply (DoUpdateBidBuy _ _ _ _ _ st i d b _ a); [exact Hb|done|done|exact Hpr|by apply (first_ask_same st st1)|exact Hpay|reflexivity|exact Hgo].
      * cbn [b_id]. rewrite Ej. split_and!; [done..|]. left. cbn [with_bids s_bids st1 sold b_id].
        symmetry. apply delete_notin. by apply lookup_delete_None; right.
Qed.

Lemma cbid_again n v v0 e e0 sender funds st i d b st1 back1 :
  N.of_nat n < U64_MAX -> v2_history p n st -> small_history p st -> sender <> p_self p -> small_call funds (UpdateCollectionBid i d) ->
  s_cbids st !! i = Some b -> ~ not_yet_tradable v e (cb_coll b) ->
  execute p v0 e0 sender [] st (RemoveCollectionBid i) = Ok (st1, back1) ->
  back1 = [MSend sender [d_price (cb_det b)]] /\
  (forall st2 msgs, execute p v e sender funds st (UpdateCollectionBid i d) = Ok (st2, msgs) ->
    exists st3, execute p v e sender (d_price (cb_det b) :: funds) st1 (SetCollectionBid (cb_coll b) d) = Ok (st3, msgs) /\
      same_but_cbid i (bid_name_of p e st (cb_coll b)) st2 st3) /\
  (forall st3 msgs, execute p v e sender (d_price (cb_det b) :: funds) st1 (SetCollectionBid (cb_coll b) d) = Ok (st3, msgs) ->
    exists st2, execute p v e sender funds st (UpdateCollectionBid i d) = Ok (st2, msgs) /\
      same_but_cbid i (bid_name_of p e st (cb_coll b)) st2 st3).
Proof.
  intros Hn Hh Hsh Hs Hc Hb Hopen Hrem.
  pose proof (small_history_inv p Hcf Hpf Hsl _ Hsh) as [Hwf Hss].
  assert (small_call [] (RemoveCollectionBid i)) as Hc0 by (split; [constructor|done]).
  pose proof (small_next _ _ _ _ _ _ _ _ Hsh Hs Hc0 Hrem) as Hsh1.
  assert (small_call (d_price (cb_det b) :: funds) (SetCollectionBid (cb_coll b) d)) as Hc1.
  { eapply small_put; [by eapply ss_cbid|done|exact Hc]. }
  apply (order_calls_exact p Hcf Hpf Hsl) in Hrem; [|done..]. apply inv_remove_cbid in Hrem as (b'&Hb'&<-&->&->).
  rewrite Hb in Hb'. injection Hb' as <-. split; [done|].
  destruct (wf_cbid _ _ Hwf _ _ Hb) as (Hid&_&Hval&_). pose proof (name_fresh p Hcf n st e (cb_coll b) Hh Hn) as [_ Hf].
  set (j := bid_name_of p e st (cb_coll b)) in *.
  set (st1 := with_cbids st (s_nonce st) (delete i (s_cbids st))) in *.
  assert (i <> j) as Hij by (intros ->; congruence).
  assert (bid_name_of p e st1 (cb_coll b) = j) as Ej by done.
  split; intros st2 msgs H.
  - apply (order_calls_exact p Hcf Hpf Hsl) in H; [|done..].
    apply (inv_update_cbid _ _ _ _ _ _ _ _ _ _ Hb) in H as (_&Hnm&Hpr&Hmax&[(Hno&Hpay&->)|(a&back&Hfa&Hpay&Hgo&->&->)]); apply pays_shift in Hpay.
    + eexists. split.
      * apply (order_calls_exact p Hcf Hpf Hsl); [done..|]. eapply DoCBid; [by split_and!|exact Hmax|exact Hno|reflexivity| |exact Hpay].
        cbn [cb_id st1 with_cbids s_cbids]. rewrite Ej. by apply lookup_delete_None; right.
      * cbn [cb_id]. rewrite Ej. split_and!; [done..|]. right. cbn [with_cbids s_cbids st1].
        exists (cb_creator b), (cb_coll b), d. split_and!; [by rewrite lookup_insert..|].
        rewrite delete_insert_delete, delete_insert; [done|]. by apply lookup_delete_None; right.
    + eexists. split.
      * apply (order_calls_exact p Hcf Hpf Hsl); [done..|].
        rewrite (sends_cbid p v _ _ i (bid_name_of p e st1 (cb_coll b))).
        eapply (DoCBidBuy _ _ _ _ _ st1 _ _ d _ a); [by left|by split_and!|exact Hmax|by apply (first_ask_same st)|exact Hpay|reflexivity|exact Hgo].
      * cbn [cb_id]. rewrite Ej. split_and!; [done..|]. left. cbn [with_cbids s_cbids st1 sold cb_id].
        symmetry. apply delete_notin. by apply lookup_delete_None; right.
  - apply (order_calls_exact p Hcf Hpf Hsl) in H; [|done..].
    apply inv_set_cbid in H as ((_&Hnm&_&Hpr)&Hmax&[(Hno&Hpay&->)|(a&back&Hfa&Hpay&Hgo&->&->)]).
    + apply pays_shift in Hpay. eexists. split.
      * apply (order_calls_exact p Hcf Hpf Hsl); [done..|]. eapply DoUpdateCBid; [exact Hb|done|done|exact Hpr|exact Hmax|exact Hno|exact Hpay].
      * cbn [cb_id]. rewrite Ej. split_and!; [done..|]. right. cbn [with_cbids s_cbids st1].
        exists (cb_creator b), (cb_coll b), d. split_and!; [by rewrite lookup_insert..|].
        rewrite delete_insert_delete, delete_insert; [done|]. by apply lookup_delete_None; right.
    + apply pays_shift in Hpay. eexists. split.
      * apply (order_calls_exact p Hcf Hpf Hsl); [done..|].
        rewrite (sends_cbid p v _ _ _ i).
        eapply (DoUpdateCBidBuy _ _ _ _ _ st i d b _ a); [exact Hb|done|done|exact Hpr|exact Hmax|by apply (first_ask_same st st1)|exact Hpay|reflexivity|exact Hgo].
      * cbn [cb_id]. rewrite Ej. split_and!; [done..|]. left. cbn [with_cbids s_cbids st1 sold cb_id].
        symmetry. apply delete_notin. by apply lookup_delete_None; right.
Qed.

(** ** Listings *)
Lemma top_same st st1 coll tok c mb : s_bids st1 = s_bids st -> s_cbids st1 = s_cbids st -> top_bid st1 coll tok c mb <-> top_bid st coll tok c mb.
Proof.
  intros Eb Ec. assert (forall mb, fits st1 coll tok c mb <-> fits st coll tok c mb) as E.
  { intros [x|x]; unfold fits; cbn [resting]; by rewrite ?Eb, ?Ec. }
  unfold top_bid. rewrite E. split; intros [H1 H2]; (split; [done|]); intros x; [rewrite <-E|rewrite E]; apply H2.
Qed.
Lemma ask_again v v0 e e0 sender st i d a st1 ms1 dn fee :
  small_history p st -> sender <> p_self p -> small_call [] (UpdateAsk i d) -> small (Coin dn fee) ->
  s_asks st !! i = Some a -> ~ not_yet_tradable v e (a_coll a) -> s_fees st !! dn = Some fee -> 0 < fee ->
  execute p v0 e0 sender [] st (RemoveAsk i) = Ok (st1, ms1) ->
  ms1 = [MNft (a_coll a) (a_tok a) (proceeds_to a)] /\
  forall st2 msgs, execute p v e sender [] st (UpdateAsk i d) = Ok (st2, msgs) <->
    execute p (now_owned_by v (a_coll a) (a_tok a) sender) e sender [Coin dn fee] st1 (SetAsk (a_coll a) (a_tok a) d) =
      Ok (st2, MSend (cf_fee_manager (s_config st)) [Coin dn fee] :: msgs ++ custody p st2 i (a_coll a) (a_tok a)).
Proof.
  intros Hsh Hs Hc Hfee Ha Hopen Hlf Hpos Hrem.
  pose proof (small_history_inv p Hcf Hpf Hsl _ Hsh) as [Hwf Hss].
  assert (small_call [] (RemoveAsk i)) as Hc0 by (split; [constructor|done]).
  pose proof (small_next _ _ _ _ _ _ _ _ Hsh Hs Hc0 Hrem) as Hsh1.
  assert (small_call [Coin dn fee] (SetAsk (a_coll a) (a_tok a) d)) as Hc1 by (eapply small_put; [done|done|exact Hc]).
  apply (order_calls_exact p Hcf Hpf Hsl) in Hrem; [|done..]. apply inv_remove_ask in Hrem as (a'&Ha'&<-&->&->).
  rewrite Ha in Ha'. injection Ha' as <-. split; [done|].
  destruct (wf_ask _ _ Hwf _ _ Ha) as (Hid&Hg&_&Hval&_). rewrite ask_name_eq in Hg.
  set (st1 := with_asks st (delete i (s_asks st))) in *. set (v' := now_owned_by v (a_coll a) (a_tok a) (a_creator a)) in *.
  assert (may_sell v' (a_creator a) (a_coll a) (a_tok a)) as Hms by (left; cbn; by rewrite decide_True).
  intros st2 msgs. split; intros H.
  - apply (order_calls_exact p Hcf Hpf Hsl) in H; [|done..]. apply (order_calls_exact p Hcf Hpf Hsl); [done..|].
    apply (inv_update_ask _ _ _ _ _ _ _ _ _ _ Ha) in H as (_&Hnm&Hpr&[(Hno&->&->)|(mb&Ht&Hgo&->&->)]).
    + unfold custody. cbn [with_asks s_asks]. rewrite lookup_insert. cbn [app].
      replace (with_asks st (<[i := Ask i (a_creator a) (a_coll a) (a_tok a) d]> (s_asks st)))
        with (with_asks st1 (<[ask_name p (a_coll a) (a_tok a) := Ask (ask_name p (a_coll a) (a_tok a)) (a_creator a) (a_coll a) (a_tok a) d]> (s_asks st1))).
      * change (s_config st) with (s_config st1). apply DoList; [|exact Hno|]; [|rewrite <-Hg; cbn; by rewrite lookup_delete]. split_and!; try done. by exists dn, fee.
      * rewrite <-Hg. unfold with_asks. cbn. by rewrite insert_delete_insert.
    + unfold custody. cbn [sold s_asks a_id]. rewrite lookup_delete, app_nil_r.
      replace (sold st (s_nonce st) (Ask i (a_creator a) (a_coll a) (a_tok a) d) mb)
        with (sold st1 (s_nonce st1) (Ask i (a_creator a) (a_coll a) (a_tok a) d) mb).
      * change (sale_sends p v (s_config st)) with (sale_sends p v' (s_config st1)). change (s_config st) with (s_config st1).
        eapply (DoListSell _ _ _ _ _ st1 _ (a_coll a) (a_tok a) d mb); [by left| |by rewrite <-Hg|by apply (top_same st)|exact Hgo].
        split_and!; try done. by exists dn, fee.
      * unfold sold. cbn. by rewrite delete_idemp.
  - apply (order_calls_exact p Hcf Hpf Hsl) in H; [|done..]. apply (order_calls_exact p Hcf Hpf Hsl); [done..|].
    apply inv_set_ask in H as (((_&Hnm&_&Hpr)&_)&rest&E3&[(Hno&->&->)|(mb&Ht&Hgo&->&->)]); injection E3 as E3.
    + unfold custody in E3. cbn [with_asks s_asks a_id] in E3. rewrite Hg in E3. rewrite lookup_insert in E3.
      assert (msgs = []) as ->.
      { destruct msgs as [|x [|]]; [done|discriminate E3|discriminate E3]. }
      replace (with_asks st1 _) with (with_asks st (<[i := Ask i (a_creator a) (a_coll a) (a_tok a) d]> (s_asks st))).
      * by eapply DoUpdateAsk.
      * rewrite <-Hg. unfold with_asks. cbn. by rewrite insert_delete_insert.
    + rewrite <-Hg in E3, Hgo |- *. unfold custody in E3. cbn [sold s_asks a_id] in E3.
      rewrite lookup_delete, app_nil_r in E3. subst msgs.
      replace (sold st1 (s_nonce st1) (Ask i (a_creator a) (a_coll a) (a_tok a) d) mb)
        with (sold st (s_nonce st) (Ask i (a_creator a) (a_coll a) (a_tok a) d) mb).
      * match goal with |- does _ _ _ _ _ _ _ _ ?ms => change ms with (sale_sends p v (s_config st) (Ask i (a_creator a) (a_coll a) (a_tok a) d) mb false) end.
        eapply (DoUpdateAskSell _ _ _ _ _ st i d a _ mb); [done|exact Ha|done|done|exact Hpr|reflexivity|by apply (top_same st st1)|exact Hgo].
      * unfold sold. cbn. by rewrite delete_idemp.
Qed.
End Change.
