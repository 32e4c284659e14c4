(** What the coins attached to a call of v2 decide, and that no bid of v2 is used twice. *)
From stdpp Require Import relations.
From Verif Require Import Base Common Chain BaseFacts ChainFacts QuerySpec V2Model V2Spec V2Facts V2Match V2Inv V2Reach V2ExactSpec V2Exact
  V2Change V2CoinsSpec.

Section Coins.
Context (p : params).

(** ** Change *)
Lemma coins_in_app l l' d : coins_in (l ++ l') d = coins_in l d + coins_in l' d.
Proof. induction l as [|c l IH]; [cbn; lia|]. cbn [app]. rewrite !coins_in_cons, IH. lia. Qed.
Lemma coin_le c l : c ∈ l -> c_amount c <= coins_in l (c_denom c).
Proof.
  induction 1 as [c l|c x l _ IH]; rewrite coins_in_cons; [|lia].
  unfold in_denom. rewrite decide_True by done. lia.
Qed.
Lemma pays_more s f old price back : pays s f old price back ->
  exists cs, back = returned s cs /\ forall extra, Forall small extra ->
    (forall d, coins_in (f ++ extra) d + opt_in_denom d old <= U128_MAX) ->
    exists cs', (forall d, coins_in cs' d = coins_in cs d + coins_in extra d) /\ pays s (f ++ extra) old price (returned s cs').
Proof.
  intros (Hs&cs&(Hc&H1&H2)&->). exists cs. split; [done|]. intros extra He Hfit.
  assert (Forall small (cs ++ extra)) as Hsm.
  { apply Forall_app. split; [|done]. apply Forall_forall. intros c Hin. unfold small. pose proof (coin_le _ _ Hin).
    specialize (Hc (c_denom c)). specialize (Hs (c_denom c)). lia. }
  assert (forall d, coins_in (cs ++ extra) d <= U128_MAX) as Hle.
  { intros d. specialize (Hc d). specialize (Hfit d). rewrite coins_in_app in *. lia. }
  destruct (normalize_ok _ Hsm Hle) as [fs Hfs]. apply (purse_normalize _ Hsm) in Hfs as [_ (P1&P2&P3)].
  exists fs. split; [intros d; by rewrite P1, coins_in_app|]. split; [exact Hfit|]. exists fs. split; [|done]. split_and!; [|done|by apply sorted_coins].
  intros d. rewrite P1, !coins_in_app. specialize (Hc d). lia.
Qed.
Lemma pays_exact s price : small price -> 0 < c_amount price -> pays s [price] None price [].
Proof.
  intros Hs Hp. split.
  - intros d. rewrite coins_in_cons. cbn [opt_in_denom]. unfold in_denom, coins_in, small in *. cbn. case_decide; lia.
  - exists []. split; [|done]. split_and!; [|constructor|constructor].
    intros d. rewrite coins_in_cons. cbn [opt_in_denom]. unfold coins_in. cbn. lia.
Qed.

(** ** The calls *)
Ltac other_call := try match goal with Hx : _ = _ \/ _ = _ |- _ => exfalso; by destruct Hx end.
Ltac same_call := repeat match goal with
  | Hx : _ = _ \/ _ = _ |- _ => destruct Hx as [Hx|Hx]; try discriminate Hx; injection Hx; intros; subst; clear Hx
  end.
Ltac same_order := repeat match goal with
  | H1 : ?x = Some _, H2 : ?x = Some _ |- _ => rewrite H1 in H2; injection H2; intros; subst; clear H2
  | H1 : first_ask ?s ?c ?t ?d ?a, H2 : first_ask ?s ?c ?t ?d ?b |- _ =>
      assert (b = a) by (eapply first_ask_unique; [exact H2|exact H1]); subst b; clear H2
  | H1 : first_ask ?s ?c ?t ?d ?a, H2 : forall x, ~ offered ?s ?c ?t ?d x |- _ => exfalso; exact (H2 _ (proj1 H1))
  end.
Definition deal v e s st m st' price front : Prop :=
  0 < c_amount price /\ small price /\ forall f st2 ms, does p v e s f st m st2 ms <->
    exists back, pays s f (stands st m) price back /\ st2 = st' /\ ms = front ++ back.
Lemma does_deal v e s f st m st' ms : wf p st -> small_state st -> (forall c, msg_coin m = Some c -> small c) -> paying_call m = true ->
  does p v e s f st m st' ms -> exists price front, deal v e s st m st' price front.
Proof.
  intros Hwf Hss Hc Hm H. destruct m; try discriminate Hm; clear Hm; specialize (Hc _ eq_refl);
    inversion H; subst; other_call; same_call; clear H.
  all: try match goal with Hx : first_ask _ _ _ _ ?a |- _ =>
    destruct (offered_small _ _ _ _ _ _ Hwf Hss (proj1 Hx)) as [Hsa Hpa]; exists (d_price (a_det a)) end.
  all: try match goal with Hx : s_asks _ !! _ = Some ?a |- _ => exists (d_price (a_det a)) end.
  all: try match goal with |- exists _ : coin, _ => exists (d_price d) end.
  all: match goal with
    | |- exists _, deal _ _ _ _ _ (sold _ _ ?a ?mb) _ _ => exists (sale_sends p v (s_config st) a mb true)
    | |- _ => exists []
    end; split; [try done|split; [try done|]].
  all: try match goal with |- forall _ _ _, _ <-> _ => intros f2 st2 ms2; split;
    [intros H; inversion H; subst; other_call; same_call; same_order; cbn [stands];
     repeat match goal with Hx : s_bids _ !! _ = Some _ |- _ => rewrite Hx | Hx : s_cbids _ !! _ = Some _ |- _ => rewrite Hx end; by eexists
    |cbn [stands];
     repeat match goal with Hx : s_bids _ !! _ = Some _ |- context [s_bids _ !! _] => rewrite Hx
       | Hx : s_cbids _ !! _ = Some _ |- context [s_cbids _ !! _] => rewrite Hx end; intros (back2&Hp2&->&->)] end.
  all: try match goal with
    | |- does _ _ _ _ _ _ (AcceptAsk _ _) _ _ => by eapply DoAcceptAsk
    | |- does _ _ _ _ _ _ (SetBid _ _ _) (with_bids _ _ _) _ => by eapply DoBid
    | |- does _ _ _ _ _ _ (SetBid _ _ _) _ _ => eapply DoBidBuy; [left|..]; done
    | |- does _ _ _ _ _ _ (BuySpecificNft _ _ _) _ _ => eapply DoBidBuy; [right|..]; done
    | |- does _ _ _ _ _ _ (UpdateBid _ _) (with_bids _ _ _) _ => by eapply DoUpdateBid
    | |- does _ _ _ _ _ _ (UpdateBid _ _) _ _ => by eapply DoUpdateBidBuy
    | |- does _ _ _ _ _ _ (SetCollectionBid _ _) (with_cbids _ _ _) _ => by eapply DoCBid
    | |- does _ _ _ _ _ _ (SetCollectionBid _ _) _ _ => eapply DoCBidBuy; [left|..]; done
    | |- does _ _ _ _ _ _ (BuyCollectionNft _ _) _ _ => eapply DoCBidBuy; [right|..]; done
    | |- does _ _ _ _ _ _ (UpdateCollectionBid _ _) (with_cbids _ _ _) _ => by eapply DoUpdateCBid
    | |- does _ _ _ _ _ _ (UpdateCollectionBid _ _) _ _ => by eapply DoUpdateCBidBuy
    end.
  1: match goal with Hx : s_asks _ !! _ = Some _ |- _ => by destruct (wf_ask _ _ Hwf _ _ Hx) as (_&_&?&_) end.
  1: by eapply ss_ask.
  all: match goal with Hx : opening _ _ _ _ _ _ |- _ => exact (proj1 (proj2 (proj2 (proj2 Hx)))) | Hx : priced _ _ _ |- _ => exact (proj1 Hx) end.
Qed.
Lemma paying_order m : paying_call m = true -> admin_call m = false.
Proof. by destruct m. Qed.
End Coins.

Section History.
Context (p : params) (Hcf : collision_free p) (Hpf : prefix_free p) (Hsl : slash_free p).

Lemma coins_decide v e s f st m st' msgs : small_history p st -> small_call f m -> paying_call m = true ->
  execute p v e s f st m = Ok (st', msgs) ->
  exists price front, 0 < c_amount price /\ small price /\ forall f', Forall small f' -> forall st2 ms,
    execute p v e s f' st m = Ok (st2, ms) <-> exists back, pays s f' (stands st m) price back /\ st2 = st' /\ ms = front ++ back.
Proof.
  intros Hsh Hc Hm H. destruct (small_history_inv p Hcf Hpf Hsl st Hsh) as [Hwf Hss].
  apply (order_calls_exact p Hcf Hpf Hsl) in H; [|done|done|by apply paying_order].
  destruct (does_deal p _ _ _ _ _ _ _ _ Hwf Hss (proj2 Hc) Hm H) as (price&front&Hp&Hs&Hd).
  exists price, front. split_and!; [done|done|]. intros f' Hf' st2 ms. rewrite <-Hd.
  apply (order_calls_exact p Hcf Hpf Hsl); [done|split; [done|apply Hc]|by apply paying_order].
Qed.
Lemma more_coins v e s f st m st' msgs : small_history p st -> small_call f m -> paying_call m = true ->
  execute p v e s f st m = Ok (st', msgs) ->
  exists front cs, msgs = front ++ returned s cs /\ forall extra, Forall small extra ->
    (forall d, coins_in (f ++ extra) d + opt_in_denom d (stands st m) <= U128_MAX) ->
    exists cs', execute p v e s (f ++ extra) st m = Ok (st', front ++ returned s cs') /\
      forall d, coins_in cs' d = coins_in cs d + coins_in extra d.
Proof.
  intros Hsh Hc Hm H. destruct (coins_decide _ _ _ _ _ _ _ _ Hsh Hc Hm H) as (price&front&_&_&Hd).
  destruct (proj1 (Hd _ (proj1 Hc) _ _) H) as (back&Hp&_&->). destruct (pays_more _ _ _ _ _ Hp) as (cs&->&Hx).
  exists front, cs. split; [done|]. intros extra He Hfit. destruct (Hx extra He Hfit) as (cs'&Hq&Hp').
  exists cs'. split; [|done]. apply Hd; [apply Forall_app; split; [apply Hc|done]|]. by exists (returned s cs').
Qed.
Lemma exact_coins v e s f st m st' msgs : small_history p st -> small_call f m -> paying_call m = true -> stands st m = None ->
  execute p v e s f st m = Ok (st', msgs) ->
  exists price front cs, msgs = front ++ returned s cs /\ (forall d, coins_in f d = coins_in cs d + in_denom d price) /\
    execute p v e s [price] st m = Ok (st', front).
Proof.
  intros Hsh Hc Hm Hn H. destruct (coins_decide _ _ _ _ _ _ _ _ Hsh Hc Hm H) as (price&front&Hp&Hs&Hd).
  destruct (proj1 (Hd _ (proj1 Hc) _ _) H) as (back&(_&cs&(Hq&_)&->)&_&->). rewrite Hn in *. exists price, front, cs. split_and!; [done|..].
  - intros d. specialize (Hq d). cbn [opt_in_denom] in Hq. lia.
  - apply Hd; [by repeat constructor|]. exists []. split_and!; [by apply pays_exact|done|by rewrite app_nil_r].
Qed.

(** ** No bid is used twice *)
Lemma gone_stays n k st st1 st2 i :
  N.of_nat n + N.of_nat k < U64_MAX -> v2_history p n st -> nsteps (hstep p (execute p)) k st1 st2 -> hstep p (execute p) st st1 ->
  (is_Some (s_bids st !! i) -> s_bids st1 !! i = None -> s_bids st2 !! i = None) /\
  (is_Some (s_cbids st !! i) -> s_cbids st1 !! i = None -> s_cbids st2 !! i = None).
Proof.
  intros Hn (c&s0&Hi&H0) Hk H1.
  assert (forall j sj, (j <= k)%nat -> nsteps (hstep p (execute p)) j st1 sj ->
    (is_Some (s_bids st !! i) -> s_bids st1 !! i = None -> s_bids sj !! i = None) /\
    (is_Some (s_cbids st !! i) -> s_cbids st1 !! i = None -> s_cbids sj !! i = None)) as Hall; [|by apply (Hall k)].
  intros j. induction j as [|j IH]; intros sj Hj Hsteps; [by inversion Hsteps; subst|].
  apply (nsteps_inv_r j) in Hsteps as (sm&Hs1&Hs2). destruct (IH sm) as [IH1 IH2]; [lia|done|].
  assert (nsteps (hstep p (execute p)) (S j) st sm) as Hs by by econstructor.
  split; intros Hin Hg.
  - refine (proj1 (never_reissued p n (S j) s0 st sm sj i c Hcf _ Hi H0 _ Hs Hs2) (IH1 Hin Hg)); [lia|by left].
  - refine (proj2 (never_reissued p n (S j) s0 st sm sj i c Hcf _ Hi H0 _ Hs Hs2) (IH2 Hin Hg)); [lia|by right].
Qed.
Lemma absent_bid v e s f st i m r : s_bids st !! i = None -> names_bid i m -> execute p v e s f st m <> Ok r.
Proof.
  intros Hn Hm H. destruct Hm as [-> | [d [-> | ->]]]; cbn [execute] in H; [|apply bind_Ok in H as (d'&_&H)..];
    [unfold execute_remove_bid in H|unfold execute_update_bid in H|unfold execute_accept_bid in H]; rewrite Hn in H; inv_ok.
Qed.
Lemma absent_cbid v e s f st i m r : s_cbids st !! i = None -> names_cbid i m -> execute p v e s f st m <> Ok r.
Proof.
  intros Hn Hm H. destruct Hm as [-> | [d [-> | [tok ->]]]]; cbn [execute] in H; [|apply bind_Ok in H as (d'&_&H)..];
    [unfold execute_remove_collection_bid in H|unfold execute_update_collection_bid in H|unfold execute_accept_collection_bid in H];
    rewrite Hn in H; inv_ok.
Qed.
Lemma used_once n k st st1 st2 i : N.of_nat n + N.of_nat k < U64_MAX -> v2_history p n st ->
  hstep p (execute p) st st1 -> nsteps (hstep p (execute p)) k st1 st2 ->
  (is_Some (s_bids st !! i) -> s_bids st1 !! i = None ->
   forall v e s f m r, names_bid i m -> execute p v e s f st2 m <> Ok r) /\
  (is_Some (s_cbids st !! i) -> s_cbids st1 !! i = None ->
   forall v e s f m r, names_cbid i m -> execute p v e s f st2 m <> Ok r).
Proof.
  intros Hn Hh H1 Hk. destruct (gone_stays _ _ _ _ _ i Hn Hh Hk H1) as [G1 G2].
  split; intros Hin Hg v e s f m r Hm; [by eapply absent_bid; [apply G1|]|by eapply absent_cbid; [apply G2|]].
Qed.
End History.
