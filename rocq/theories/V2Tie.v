(** Proofs for C148 (V2TieSpec): how ties between orders at the same price are broken. *)
From stdpp Require Import relations.
From Verif Require Import Base BaseFacts Common Chain ChainFacts QuerySpec V2Model V2Spec V2Facts V2Inv V2Reach V2ExactSpec V2Exact V2Examples
  V2TieSpec.

Section Tie.
Context (p : params) (Hcf : collision_free p) (Hpf : prefix_free p) (Hsl : slash_free p).

Lemma ask_call_sold v e sender funds st m st' msgs coll tok price :
  small_history p st -> small_call funds m -> ask_call st m coll tok price -> execute p v e sender funds st m = Ok (st', msgs) ->
  (s_bids st' = s_bids st /\ s_cbids st' = s_cbids st) \/
  exists mb, top_bid st coll tok price mb /\
    s_bids st' = (match mb with MBid b => delete (b_id b) (s_bids st) | MCBid _ => s_bids st end) /\
    s_cbids st' = (match mb with MBid _ => s_cbids st | MCBid cb => delete (cb_id cb) (s_cbids st) end).
Proof.
  intros Hsm Hc Hm He. assert (admin_call m = false) as Ha by (by destruct Hm).
  apply (order_calls_exact p Hcf Hpf Hsl) in He; [|done..]. destruct Hm as [coll tok d|coll tok d|i d a Hi].
  - inversion He as [? ? ? H1 H2 H3|? ? ? ? mb a Hm H1 H2 H3 H4| | | | | |? ? ? ? ? ? ? Hm| | | | | |? ? ? ? ? ? Hm| | | |]; subst; try by destruct Hm.
    + left. done.
    + right. destruct Hm as [Hm|Hm]; [injection Hm as <- <- <-|done]. by exists mb.
  - inversion He as [|? ? ? ? mb a Hm H1 H2 H3 H4| | | | | |? ? ? ? ? ? ? Hm| | | | | |? ? ? ? ? ? Hm| | | |]; subst; try by destruct Hm.
    right. destruct Hm as [Hm|Hm]; [done|injection Hm as <- <- <-]. by exists mb.
  - inversion He as [|? ? ? ? ? ? Hm|? ? a1 H1 H2 H3 H4 H5 H6|? ? a1 a2 mb H1 H2 H3 H4 H5 H6 H7 H8| | | |? ? ? ? ? ? ? Hm| | | | | |? ? ? ? ? ? Hm| | | |]; subst; try by destruct Hm.
    + left. done.
    + right. assert (a1 = a) as -> by congruence. by exists mb.
Qed.

(** Of two bids on the NFT at the same price, the one with the greater id is taken. *)
Lemma bid_tie v e sender funds st m st' msgs coll tok price b1 b2 :
  small_history p st -> small_call funds m -> ask_call st m coll tok price -> execute p v e sender funds st m = Ok (st', msgs) ->
  s_bids st !! b_id b1 = Some b1 -> s_bids st !! b_id b2 = Some b2 -> b_coll b1 = b_coll b2 -> b_tok b1 = b_tok b2 ->
  d_price (b_det b1) = d_price (b_det b2) -> b1 <> b2 -> s_bids st' !! b_id b2 = None ->
  id_before (b_id b1) (b_id b2).
Proof.
  intros Hsm Hc Hm He H1 H2 Ec Et Ep Hne Hgone.
  destruct (ask_call_sold _ _ _ _ _ _ _ _ _ _ _ Hsm Hc Hm He) as [[E _]|(mb&[[(Hr&Hw&Ham) Hbest] [E _]])]; rewrite E in Hgone; [congruence|].
  destruct mb as [b|cb]; [|congruence]. cbn [resting price_of] in *.
  destruct (decide (b_id b = b_id b2)) as [Eid|Hid]; [|rewrite lookup_delete_ne in Hgone by done; congruence].
  assert (b = b2) as -> by (rewrite Eid in Hr; congruence).
  destruct (Hbest (MBid b1)) as [E1|Hout]; [|congruence|].
  - unfold fits, wants in *. cbn [resting price_of] in *. rewrite Ep, Ec, Et. done.
  - unfold outranks in Hout. cbn [price_of bid_name] in Hout. rewrite Ep in Hout. destruct Hout as [Hout|[_ Hout]]; [lia|done].
Qed.
Lemma cbid_tie v e sender funds st m st' msgs coll tok price b1 b2 :
  small_history p st -> small_call funds m -> ask_call st m coll tok price -> execute p v e sender funds st m = Ok (st', msgs) ->
  s_cbids st !! cb_id b1 = Some b1 -> s_cbids st !! cb_id b2 = Some b2 -> cb_coll b1 = cb_coll b2 ->
  d_price (cb_det b1) = d_price (cb_det b2) -> b1 <> b2 -> s_cbids st' !! cb_id b2 = None ->
  id_before (cb_id b1) (cb_id b2).
Proof.
  intros Hsm Hc Hm He H1 H2 Ec Ep Hne Hgone.
  destruct (ask_call_sold _ _ _ _ _ _ _ _ _ _ _ Hsm Hc Hm He) as [[_ E]|(mb&[[(Hr&Hw&Ham) Hbest] [_ E]])]; rewrite E in Hgone; [congruence|].
  destruct mb as [b|b]; [congruence|]. cbn [resting price_of] in *.
  destruct (decide (cb_id b = cb_id b2)) as [Eid|Hid]; [|rewrite lookup_delete_ne in Hgone by done; congruence].
  assert (b = b2) as -> by (rewrite Eid in Hr; congruence).
  destruct (Hbest (MCBid b1)) as [E1|Hout]; [|congruence|].
  - unfold fits, wants in *. cbn [resting price_of] in *. rewrite Ep, Ec. done.
  - unfold outranks in Hout. cbn [price_of bid_name] in Hout. rewrite Ep in Hout. destruct Hout as [Hout|[_ Hout]]; [lia|done].
Qed.
(** Of two listings at the same price, the one with the smaller id is taken; and the id depends on the NFT only. *)
Lemma ask_tie v e sender funds st m st' msgs coll price a1 a2 :
  small_history p st -> small_call funds m -> bid_call st m coll None price -> execute p v e sender funds st m = Ok (st', msgs) ->
  s_asks st !! a_id a1 = Some a1 -> s_asks st !! a_id a2 = Some a2 -> a_coll a1 = a_coll a2 ->
  d_price (a_det a1) = d_price (a_det a2) -> a1 <> a2 -> s_asks st' !! a_id a2 = None ->
  id_before (ask_name p (a_coll a2) (a_tok a2)) (ask_name p (a_coll a1) (a_tok a1)).
Proof.
  intros Hsm Hc Hm He H1 H2 Ec Ep Hne Hgone. assert (admin_call m = false) as Ha by (by destruct Hm).
  destruct (small_history_inv p Hcf Hpf Hsl _ Hsm) as [Hwf _].
  assert (forall a, s_asks st !! a_id a = Some a -> ask_name p (a_coll a) (a_tok a) = a_id a) as Hname.
  { intros a Ha1. destruct (wf_ask _ _ Hwf _ _ Ha1) as (_&G1&_). by rewrite <- ask_name_eq. }
  rewrite !Hname by done.
  assert (s_asks st' = s_asks st \/ exists a, first_ask st coll None price a /\ s_asks st' = delete (a_id a) (s_asks st)) as Hcase.
  { apply (order_calls_exact p Hcf Hpf Hsl) in He; [|done..]. inversion Hm; subst.
    all: inversion He as [|? ? ? ? ? ? Hm'| | | | | |? ? ? ? ? ? ? Hm'| | | | |? ? ? ? G1 G2 G3 G4 G5|? ? ? ? ? ? Hm' G1 G2 G3 G4 G5|? ? ? ? G1 G2 G3 G4 G5 G6|? ? ? ? ? ? G1 G2 G3 G4 G5 G6| |]; subst;
      try by destruct Hm'.
    all: try (left; done).
    all: right; eexists; split; [|reflexivity]; try (destruct Hm' as [Hm'|Hm']; [injection Hm' as <- <-|done]; done);
      try (destruct Hm' as [Hm'|Hm']; [done|injection Hm' as <- <-]; done); try congruence.
    all: match goal with A : s_cbids ?s !! ?i = Some ?x, B : s_cbids ?s !! ?i = Some ?y |- _ => assert (x = y) as <- by congruence end; done. }
  destruct Hcase as [E|(a&[[Ha1 (Hco&_&Hdn&Ham)] Hbest]&E)]; rewrite E in Hgone; [congruence|].
  destruct (decide (a_id a = a_id a2)) as [Eid|Hid]; [|rewrite lookup_delete_ne in Hgone by done; congruence].
  assert (a = a2) as -> by (rewrite Eid in Ha1; congruence).
  destruct (Hbest a1) as [E1|Hout]; [|congruence|].
  - unfold offered. rewrite Ep, Ec. done.
  - unfold price_before, ask_key in Hout. cbn [fst snd] in Hout. rewrite Ep in Hout. destruct Hout as [Hout|[_ Hout]]; [lia|done].
Qed.
(** The order of two listings leaves no trace. *)
Lemma list_rests v e s f st coll tok d st' ms : small_history p st -> small_call f (SetAsk coll tok d) ->
  execute p v e s f st (SetAsk coll tok d) = Ok (st', ms) -> is_Some (s_asks st' !! ask_name p coll tok) ->
  s_asks st !! ask_name p coll tok = None /\
  st' = with_asks st (<[ask_name p coll tok := Ask (ask_name p coll tok) s coll tok d]> (s_asks st)).
Proof.
  intros Hsm Hc He Hin. apply (order_calls_exact p Hcf Hpf Hsl) in He; [|done..].
  inversion He as [? ? ? H1 H2 H3|? ? ? ? mb a Hm H1 H2 H3 H4| | | | | |? ? ? ? ? ? ? Hm| | | | | |? ? ? ? ? ? Hm| | | |]; subst; try by destruct Hm.
  { done. }
  destruct Hm as [Hm|Hm]; [injection Hm as <- <- <-|done]. cbn [sold s_asks a_id] in Hin. rewrite lookup_delete in Hin. by destruct Hin.
Qed.
Lemma listing_order v1 v2 v3 v4 e1 e2 e3 e4 s1 s2 f1 f2 coll1 coll2 tok1 tok2 d1 d2 st stA stB stA' stB' ms1 ms2 ms1' ms2' :
  small_history p st -> small_history p stA -> small_history p stA' ->
  small_call f1 (SetAsk coll1 tok1 d1) -> small_call f2 (SetAsk coll2 tok2 d2) ->
  execute p v1 e1 s1 f1 st (SetAsk coll1 tok1 d1) = Ok (stA, ms1) -> execute p v2 e2 s2 f2 stA (SetAsk coll2 tok2 d2) = Ok (stB, ms2) ->
  execute p v3 e3 s2 f2 st (SetAsk coll2 tok2 d2) = Ok (stA', ms2') -> execute p v4 e4 s1 f1 stA' (SetAsk coll1 tok1 d1) = Ok (stB', ms1') ->
  is_Some (s_asks stA !! ask_name p coll1 tok1) -> is_Some (s_asks stB !! ask_name p coll2 tok2) ->
  is_Some (s_asks stA' !! ask_name p coll2 tok2) -> is_Some (s_asks stB' !! ask_name p coll1 tok1) ->
  stB = stB'.
Proof.
  intros Hs HsA HsA' Hc1 Hc2 E1 E2 E3 E4 I1 I2 I3 I4.
  destruct (list_rests _ _ _ _ _ _ _ _ _ _ Hs Hc1 E1 I1) as [N1 ->]. destruct (list_rests _ _ _ _ _ _ _ _ _ _ HsA Hc2 E2 I2) as [N2 ->].
  destruct (list_rests _ _ _ _ _ _ _ _ _ _ Hs Hc2 E3 I3) as [N3 ->]. destruct (list_rests _ _ _ _ _ _ _ _ _ _ HsA' Hc1 E4 I4) as [N4 ->].
  unfold with_asks in *. cbn [s_config s_denoms s_fees s_nonce s_asks s_bids s_cbids] in *. f_equal. apply insert_commute.
  intros E. rewrite E, lookup_insert in N2. done.
Qed.
End Tie.

(** ** Later comers are served first *)
Definition fee5 : list tx := [("admin", [], SetListingFee (us 5))].
Definition wf5 : world state := after w0 fee5.
Definition one_bid : world state := after wf5 [("bobby", [us 800], SetBid "coll1" "2" (det 800))].
Definition two_bids : world state := after one_bid [("carol", [us 800], SetBid "coll1" "2" (det 800))].
Definition bid_sold : world state := after two_bids [("alice", [us 5], SellNft "coll1" "2" (det 700))].
Definition bobbys : bid := Bid ("#coll12" +:+ be8 10 +:+ be8 1) "bobby" "coll1" "2" (det 800).
Definition carols : bid := Bid ("#coll12" +:+ be8 10 +:+ be8 2) "carol" "coll1" "2" (det 800).
Lemma after_one w s f m : is_ok (run_tx p0 (execute p0) w s f m) = true -> run_tx p0 (execute p0) w s f m = Ok (after w [(s, f, m)]).
Proof. unfold after. cbn [run_txs]. by destruct (run_tx p0 (execute p0) w s f m). Qed.
Lemma after_run w txs : is_ok (run_txs p0 (execute p0) w txs) = true -> run_txs p0 (execute p0) w txs = Ok (after w txs).
Proof. unfold after. by destruct (run_txs p0 (execute p0) w txs). Qed.
Lemma steps_reachable p w w' : reachable p w -> rtc (v2_step p) w w' -> reachable p w'.
Proof. intros (w0&H0&H) H'. exists w0. split; [done|]. by etrans. Qed.
Lemma wf5_reachable : reachable p0 wf5.
Proof. apply after_reachable. vm_compute; reflexivity. Qed.
Lemma bids_refuted : ~ bids_first_come p0.
Proof.
  intros H. assert (s_bids (w_st bid_sold) !! b_id carols = Some carols) as Hc.
  { eapply (H wf5 one_bid one_bid two_bids bid_sold "bobby" "carol" "alice" [us 800] [us 800] [us 5] "coll1" "2" (det 800) (det 800) (det 700)
      bobbys carols); [exact wf5_reachable|apply after_one; vm_compute; reflexivity|vm_compute; reflexivity|vm_compute; reflexivity|apply rtc_refl|
      apply after_one; vm_compute; reflexivity|vm_compute; reflexivity|vm_compute; reflexivity|vm_compute; reflexivity|reflexivity|
      apply after_one; vm_compute; reflexivity|vm_compute; reflexivity]. }
  assert (match s_bids (w_st bid_sold) !! b_id carols with None => true | Some _ => false end = true) as Hn by (vm_compute; reflexivity).
  by rewrite Hc in Hn.
Qed.
Definition one_ask : world state := after wf5 [("alice", [us 5], SetAsk "coll1" "2" (det 800))].
Definition two_asks : world state := after one_ask [("alice", [us 5], SetAsk "coll1" "1" (det 800))].
Definition ask_sold : world state := after two_asks [("carol", [us 800], BuyCollectionNft "coll1" (det 800))].
Definition first_listed : ask := Ask "#coll12" "alice" "coll1" "2" (det 800).
Definition then_listed : ask := Ask "#coll11" "alice" "coll1" "1" (det 800).
Lemma listings_refuted : ~ listings_first_come p0.
Proof.
  intros H. assert (s_asks (w_st ask_sold) !! a_id then_listed = Some then_listed) as Hc.
  { eapply (H wf5 one_ask one_ask two_asks ask_sold "alice" "alice" "carol" [us 5] [us 5] [us 800] "coll1" "2" "1" (det 800) (det 800) (det 800)
      first_listed then_listed); [exact wf5_reachable|apply after_one; vm_compute; reflexivity|vm_compute; reflexivity|vm_compute; reflexivity|apply rtc_refl|
      apply after_one; vm_compute; reflexivity|vm_compute; reflexivity|vm_compute; reflexivity|vm_compute; reflexivity|reflexivity|
      apply after_one; vm_compute; reflexivity|vm_compute; reflexivity]. }
  assert (match s_asks (w_st ask_sold) !! a_id then_listed with None => true | Some _ => false end = true) as Hn by (vm_compute; reflexivity).
  by rewrite Hc in Hn.
Qed.
