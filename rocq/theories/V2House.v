(** Who trades what at which price in v2 depends on the orders alone. *)
From stdpp Require Import relations.
From Verif Require Import Base Common Chain BaseFacts ChainFacts QuerySpec V2Model V2Spec V2Facts V2Match V2Inv V2Reach V2ExactSpec V2Exact
  V2HouseSpec.

Section House.
Context (p : params).

Lemma moves_app l l' : nft_moves (l ++ l') = nft_moves l ++ nft_moves l'.
Proof. apply omap_app. Qed.
Lemma moves_sale v cfg a mb af : nft_moves (sale_sends p v cfg a mb af) = [(a_coll a, a_tok a, nft_to mb)].
Proof.
  unfold sale_sends. rewrite !moves_app.
  assert (nft_moves (registration p v cfg (a_coll a)) = []) as -> by (unfold registration; by repeat case_match).
  assert (forall d l, nft_moves (send_one d <$> l) = []) as -> by (intros d l; by induction l).
  done.
Qed.
Lemma moves_pays s f o c back : pays s f o c back -> nft_moves back = [].
Proof. intros (_&cs&_&->). by destruct cs. Qed.
Lemma moves_send_cons to cs l : nft_moves (MSend to cs :: l) = nft_moves l.
Proof. done. Qed.

Section Two.
Context (st1 st2 : state) (Hb : same_book st1 st2).
Lemma book_first coll tok c a : first_ask st2 coll tok c a -> first_ask st1 coll tok c a.
Proof. destruct Hb as (H1&H2&H3&H4). unfold first_ask, offered. by rewrite H2. Qed.
Lemma book_offered coll tok c : (forall a, ~ offered st2 coll tok c a) -> forall a, ~ offered st1 coll tok c a.
Proof. destruct Hb as (H1&H2&H3&H4). unfold offered. by rewrite H2. Qed.
Lemma book_fits coll tok c mb : fits st2 coll tok c mb <-> fits st1 coll tok c mb.
Proof. destruct Hb as (H1&H2&H3&H4). unfold fits, resting. rewrite H3, H4. done. Qed.
Lemma book_top coll tok c mb : top_bid st2 coll tok c mb -> top_bid st1 coll tok c mb.
Proof. unfold top_bid. intros [H1 H2]. split; [by apply book_fits|]. intros mb' Hf. apply H2. by apply book_fits. Qed.
Lemma book_none coll tok c : (forall mb, ~ fits st2 coll tok c mb) -> forall mb, ~ fits st1 coll tok c mb.
Proof. intros H mb Hf. by apply (H mb), book_fits. Qed.
Lemma book_name e1 e2 x : e_height e1 = e_height e2 -> bid_name_of p e2 st2 x = bid_name_of p e1 st1 x.
Proof. destruct Hb as (H1&_). unfold bid_name_of, next_count. by intros ->; rewrite H1. Qed.
Lemma book_next : next_count st2 = next_count st1.
Proof. destruct Hb as (H1&_). unfold next_count. by rewrite H1. Qed.

Lemma book_sellable v1 v2 s coll tok d a1 a2 : wf p st1 -> collision_free p ->
  sellable p v1 s st1 coll tok d a1 -> sellable p v2 s st2 coll tok d a2 -> a2 = a1.
Proof.
  intros Hwf Hcf. destruct Hb as (H1&H2&H3&H4). unfold sellable, unlisted. rewrite <-H2.
  intros [(L1&C1&T1&_)|(U1&_&->)] [(L2&C2&T2&_)|(U2&_&->)]; [|exfalso; by eapply U2|exfalso; by eapply U1|done].
  - destruct (wf_ask _ _ Hwf _ _ L1) as (_&E1&_). destruct (wf_ask _ _ Hwf _ _ L2) as (_&E2&_).
    rewrite C1, T1 in E1. rewrite C2, T2 in E2. rewrite E1 in L1. rewrite E2 in L2. congruence.
Qed.
Lemma book_sold n1 n2 a mb : n1 = n2 -> same_book (sold st1 n1 a mb) (sold st2 n2 a mb).
Proof. intros ->. destruct Hb as (H1&H2&H3&H4). unfold same_book, sold. cbn. rewrite H2, H3, H4. done. Qed.
Lemma book_with_asks i a : same_book (with_asks st1 (<[i := a]> (s_asks st1))) (with_asks st2 (<[i := a]> (s_asks st2))).
Proof. destruct Hb as (H1&H2&H3&H4). unfold same_book, with_asks. cbn. rewrite H2. done. Qed.
Lemma book_del_asks i : same_book (with_asks st1 (delete i (s_asks st1))) (with_asks st2 (delete i (s_asks st2))).
Proof. destruct Hb as (H1&H2&H3&H4). unfold same_book, with_asks. cbn. rewrite H2. done. Qed.
Lemma book_with_bids n1 n2 i a : n1 = n2 -> same_book (with_bids st1 n1 (<[i := a]> (s_bids st1))) (with_bids st2 n2 (<[i := a]> (s_bids st2))).
Proof. intros ->. destruct Hb as (H1&H2&H3&H4). unfold same_book, with_bids. cbn. rewrite H3. done. Qed.
Lemma book_del_bids n1 n2 i : n1 = n2 -> same_book (with_bids st1 n1 (delete i (s_bids st1))) (with_bids st2 n2 (delete i (s_bids st2))).
Proof. intros ->. destruct Hb as (H1&H2&H3&H4). unfold same_book, with_bids. cbn. rewrite H3. done. Qed.
Lemma book_with_cbids n1 n2 i a : n1 = n2 -> same_book (with_cbids st1 n1 (<[i := a]> (s_cbids st1))) (with_cbids st2 n2 (<[i := a]> (s_cbids st2))).
Proof. intros ->. destruct Hb as (H1&H2&H3&H4). unfold same_book, with_cbids. cbn. rewrite H4. done. Qed.
Lemma book_del_cbids n1 n2 i : n1 = n2 -> same_book (with_cbids st1 n1 (delete i (s_cbids st1))) (with_cbids st2 n2 (delete i (s_cbids st2))).
Proof. intros ->. destruct Hb as (H1&H2&H3&H4). unfold same_book, with_cbids. cbn. rewrite H4. done. Qed.

Ltac other_call := try match goal with Hx : _ = _ \/ _ = _ |- _ => exfalso; by destruct Hx end.
Ltac same_call := repeat match goal with
  | Hx : _ = _ \/ _ = _ |- _ => destruct Hx as [Hx|Hx]; try discriminate Hx; injection Hx; intros; subst; clear Hx
  end.
Ltac to_first := repeat match goal with
  | H : first_ask st2 _ _ _ _ |- _ => apply book_first in H
  | H : forall a, ~ offered st2 _ _ _ a |- _ => pose proof (book_offered _ _ _ H); clear H
  | H : top_bid st2 _ _ _ _ |- _ => apply book_top in H
  | H : forall mb, ~ fits st2 _ _ _ mb |- _ => pose proof (book_none _ _ _ H); clear H
  | H : s_asks st2 !! _ = _ |- _ => rewrite <-(proj1 (proj2 Hb)) in H
  | H : s_bids st2 !! _ = _ |- _ => rewrite <-(proj1 (proj2 (proj2 Hb))) in H
  | H : s_cbids st2 !! _ = _ |- _ => rewrite <-(proj2 (proj2 (proj2 Hb))) in H
  end.
Ltac same_order := repeat match goal with
  | H1 : ?x = Some _, H2 : ?x = Some _ |- _ => rewrite H1 in H2; injection H2; intros; subst; clear H2
  | H1 : first_ask ?s ?c ?t ?d ?a, H2 : first_ask ?s ?c ?t ?d ?b |- _ =>
      assert (b = a) by (eapply first_ask_unique; [exact H2|exact H1]); subst b; clear H2
  | H1 : first_ask ?s ?c ?t ?d ?a, H2 : forall x, ~ offered ?s ?c ?t ?d x |- _ => exfalso; exact (H2 _ (proj1 H1))
  | H1 : top_bid ?s ?c ?t ?d ?a, H2 : top_bid ?s ?c ?t ?d ?b |- _ =>
      assert (b = a) by (eapply top_bid_unique; [exact H2|exact H1]); subst b; clear H2
  | H1 : top_bid ?s ?c ?t ?d ?a, H2 : forall x, ~ fits ?s ?c ?t ?d x |- _ => exfalso; exact (H2 _ (proj1 H1))
  end.
Ltac moves := repeat first [rewrite moves_app|rewrite moves_sale|rewrite moves_send_cons|
  match goal with H : pays _ _ _ _ ?b |- context [nft_moves ?b] => rewrite (moves_pays _ _ _ _ _ H) end]; done.
Lemma does_same v1 v2 e1 e2 s f m st1' st2' ms1 ms2 : wf p st1 -> collision_free p -> e_height e1 = e_height e2 ->
  does p v1 e1 s f st1 m st1' ms1 -> does p v2 e2 s f st2 m st2' ms2 ->
  same_book st1' st2' /\ nft_moves ms1 = nft_moves ms2.
Proof.
  intros Hwf Hcf He D1 D2.
  destruct m; inversion D1; subst; other_call; same_call; inversion D2; subst; other_call; same_call; to_first; cbn [a_coll a_tok] in *; same_order.
  all: rewrite ?(book_name _ _ _ He), ?book_next.
  all: try match goal with H1 : sellable _ _ _ st1 _ _ _ _, H2 : sellable _ _ _ st2 _ _ _ ?b |- _ =>
    pose proof (book_sellable _ _ _ _ _ _ _ _ Hwf Hcf H1 H2); subst b end.
  all: split; [|try moves].
  all: try first [apply book_sold|apply book_with_asks|apply book_del_asks|apply book_with_bids|apply book_del_bids|apply book_with_cbids|apply book_del_cbids];
    try done; try apply Hb.
Qed.
End Two.

Lemma admin_book v e s f st m st' ms : admin_call m = true -> execute p v e s f st m = Ok (st', ms) -> same_book st st' /\ ms = [].
Proof.
  intros Ha H. destruct m; try discriminate Ha; cbn [execute] in H; inv_ok;
    unfold execute_update_config, execute_update_collection_denom, execute_set_listing_fee, execute_remove_listing_fee in *; inv_ok; done.
Qed.
Lemma same_trade (Hcf : collision_free p) (Hpf : prefix_free p) (Hsl : slash_free p) n1 n2 st1 st2 v1 v2 e1 e2 s f m st1' st2' ms1 ms2 :
  N.of_nat n1 < U64_MAX -> N.of_nat n2 < U64_MAX -> v2_history p n1 st1 -> v2_history p n2 st2 -> small_history p st1 -> small_history p st2 ->
  small_call f m -> same_book st1 st2 -> e_height e1 = e_height e2 ->
  execute p v1 e1 s f st1 m = Ok (st1', ms1) -> execute p v2 e2 s f st2 m = Ok (st2', ms2) ->
  same_book st1' st2' /\ nft_moves ms1 = nft_moves ms2 /\ forall d, paid_out ms1 d = paid_out ms2 d.
Proof.
  intros Hn1 Hn2 Hh1 Hh2 Hs1 Hs2 Hc Hb He X1 X2.
  assert (same_book st1' st2' /\ nft_moves ms1 = nft_moves ms2) as [Hbook Hm].
  { destruct (admin_call m) eqn:Ha.
    - destruct (admin_book _ _ _ _ _ _ _ _ Ha X1) as [(A1&A2&A3&A4) ->]. destruct (admin_book _ _ _ _ _ _ _ _ Ha X2) as [(B1&B2&B3&B4) ->].
      destruct Hb as (H1&H2&H3&H4). split; [|done]. unfold same_book. rewrite <-A1, <-A2, <-A3, <-A4, <-B1, <-B2, <-B3, <-B4. done.
    - eapply (does_same st1 st2 Hb v1 v2 e1 e2 s f m); [by eapply history_wf|done|done|by apply order_calls_exact..]. }
  split_and!; [done|done|]. intros d.
  pose proof (history_conservation p _ _ _ _ _ _ _ _ _ d Hcf Hn1 Hh1 X1) as E1.
  pose proof (history_conservation p _ _ _ _ _ _ _ _ _ d Hcf Hn2 Hh2 X2) as E2.
  destruct Hb as (_&_&H3&H4). destruct Hbook as (_&_&G3&G4). unfold escrow in E1, E2. rewrite G3, G4, H3, H4 in E1. lia.
Qed.
End House.
