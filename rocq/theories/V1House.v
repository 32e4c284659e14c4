(** Who trades what at which price in v1 depends on the orders alone. *)
From stdpp Require Import relations.
From Verif Require Import Base Common Chain BaseFacts ChainFacts QuerySpec V1Model V1Spec V1Facts V1HouseSpec.

Section House.
Context (p : params) (x : ext).

Definition mv (ms : list smsg) : list (addr * token * addr) := nft_moves (map erase ms).
Lemma mv_app l l' : mv (l ++ l') = mv l ++ mv l'.
Proof. unfold mv, nft_moves. rewrite map_app. apply omap_app. Qed.
Lemma mv_prepare hs c : mv (prepare hs c) = [].
Proof. unfold mv, nft_moves, prepare. induction hs; [done|]. cbn in *. done. Qed.
Lemma mv_burn n : mv (fair_burn x n) = [].
Proof. unfold fair_burn. by case_match. Qed.
Lemma mv_send a n l : mv (send a n :: l) = mv l.
Proof. done. Qed.
Lemma mv_payout v st coll n to finder bps resp ms : payout x v st coll n to finder bps resp = Ok ms -> mv ms = mv resp.
Proof.
  unfold payout. intros H. repeat (case_match || inv_ok); subst; rewrite ?mv_app, ?mv_burn, ?app_nil_r; done.
Qed.
Lemma mv_sale v st a n buyer finder to resp ms : finalize_sale x v st a n buyer finder to resp = Ok ms ->
  mv ms = mv resp ++ [(k_coll a, tok_str (k_tok a), address_or to buyer)].
Proof.
  unfold finalize_sale. intros H. apply bind_Ok in H as (r&Hp%mv_payout&[= <-]). rewrite !mv_app, Hp.
  unfold prepare_sale_hook. match goal with |- context [mv (?y :: ?l)] => change (mv (y :: l)) with (mv ([y] ++ l)) end.
  by rewrite mv_app, (mv_prepare (s_sale_hooks st)).
Qed.

Definition agree (r1 r2 : result (state * list smsg)) : Prop :=
  forall st1 ms1 st2 ms2, r1 = Ok (st1, ms1) -> r2 = Ok (st2, ms2) -> same_book st1 st2 /\ mv ms1 = mv ms2.
Lemma agree_bind {A} (r : result A) (k1 k2 : A -> result (state * list smsg)) :
  (forall a, r = Ok a -> agree (k1 a) (k2 a)) -> agree (r ≫= k1) (r ≫= k2).
Proof. intros H st1 ms1 st2 ms2 (a&Ha&H1)%bind_Ok (b&Hb&H2)%bind_Ok. assert (b = a) as -> by congruence. by eapply H. Qed.
Lemma agree_skip (r1 r2 : result unit) (k1 k2 : unit -> result (state * list smsg)) :
  (r1 = Ok tt -> r2 = Ok tt -> agree (k1 tt) (k2 tt)) -> agree (r1 ≫= k1) (r2 ≫= k2).
Proof. intros H st1 ms1 st2 ms2 ([]&Ha&H1)%bind_Ok ([]&Hb&H2)%bind_Ok. by eapply H. Qed.
Lemma agree_ok st1 st2 ms1 ms2 : same_book st1 st2 -> mv ms1 = mv ms2 -> agree (Ok (st1, ms1)) (Ok (st2, ms2)).
Proof. intros H1 H2 ???? [= <- <-] [= <- <-]. done. Qed.
Lemma agree_sale v1 v2 s1 s2 a n buyer finder to resp1 resp2 st1 st2 : same_book st1 st2 -> mv resp1 = mv resp2 ->
  agree (res ← finalize_sale x v1 s1 a n buyer finder to resp1; Ok (st1, res)) (res ← finalize_sale x v2 s2 a n buyer finder to resp2; Ok (st2, res)).
Proof. intros Hb Hm ???? (r1&H1%mv_sale&[= <- <-])%bind_Ok (r2&H2%mv_sale&[= <- <-])%bind_Ok. by rewrite H1, H2, Hm. Qed.

Section Two.
Context (st1 st2 : state) (Hb : same_book st1 st2) (v1 v2 : view) (e1 e2 : env) (s : addr) (f : list coin).
Ltac hooks := unfold prepare_ask_hook, prepare_bid_hook, prepare_cbid_hook; rewrite ?mv_app, ?mv_prepare; done.
Ltac book := destruct Hb as (Ha&Hbi&Hcb); unfold same_book; cbn; rewrite ?Ha, ?Hbi, ?Hcb; done.
Lemma set_ask_agree ty coll tok price r res bps ex :
  agree (execute_set_ask p x v1 e1 s f st1 ty coll tok price r res bps ex) (execute_set_ask p x v2 e2 s f st2 ty coll tok price r res bps ex).
Proof.
  unfold execute_set_ask. do 6 (apply agree_skip; intros _ _). apply agree_bind. intros fee _. do 3 (apply agree_skip; intros _ _).
  apply agree_ok; [book|]. assert (mv (if 0 <? fee then fair_burn x fee else []) = []) as E by (case_match; [apply mv_burn|done]).
  unfold prepare_ask_hook. rewrite !mv_app, !E, (mv_prepare (s_ask_hooks st1)), (mv_prepare (s_ask_hooks st2)). done.
Qed.
Lemma load_same {K} `{Countable K} {A} (m1 m2 : gmap K A) k (g1 g2 : A -> result (state * list smsg)) : m1 = m2 ->
  (forall a, m1 !! k = Some a -> agree (g1 a) (g2 a)) -> agree (load (m1 !! k) ≫= g1) (load (m2 !! k) ≫= g2).
Proof. intros -> Hg. apply agree_bind. intros a Ha. apply Hg. destruct (m2 !! k); [by injection Ha as ->|done]. Qed.
Lemma book_moves1 hs1 hs2 c1 c2 ms : mv (ms ++ prepare hs1 c1) = mv (ms ++ prepare hs2 c2).
Proof. by rewrite !mv_app, (mv_prepare hs1), (mv_prepare hs2). Qed.
Lemma book_moves0 hs1 hs2 c1 c2 : mv (prepare hs1 c1) = mv (prepare hs2 c2).
Proof. by rewrite (mv_prepare hs1), (mv_prepare hs2). Qed.
Ltac skip := apply agree_skip; intros ? ?.
Ltac loads := apply load_same; [apply Hb|intros ? ?].
Ltac ends := apply agree_ok; [book|first [apply book_moves1|apply book_moves0]].

Lemma remove_ask_agree coll tok : agree (execute_remove_ask v1 s f st1 coll tok) (execute_remove_ask v2 s f st2 coll tok).
Proof. unfold execute_remove_ask. do 2 skip. loads. ends. Qed.
Lemma update_price_agree coll tok price :
  agree (execute_update_ask_price v1 e1 s f st1 coll tok price) (execute_update_ask_price v2 e2 s f st2 coll tok price).
Proof. unfold execute_update_ask_price. do 3 skip. loads. do 2 skip. ends. Qed.
Lemma remove_bid_agree coll tok : agree (execute_remove_bid s f st1 coll tok) (execute_remove_bid s f st2 coll tok).
Proof. unfold execute_remove_bid. skip. loads. ends. Qed.
Lemma reject_bid_agree coll tok b : agree (execute_reject_bid v1 s f st1 coll tok b) (execute_reject_bid v2 s f st2 coll tok b).
Proof. unfold execute_reject_bid. do 2 skip. loads. ends. Qed.
Lemma remove_cbid_agree coll : agree (execute_remove_collection_bid s f st1 coll) (execute_remove_collection_bid s f st2 coll).
Proof. unfold execute_remove_collection_bid. skip. loads. ends. Qed.
Lemma set_cbid_agree coll bps ex : agree (execute_set_collection_bid e1 s f st1 coll bps ex) (execute_set_collection_bid e2 s f st2 coll bps ex).
Proof.
  unfold execute_set_collection_bid. apply agree_bind. intros n _. do 3 skip. destruct Hb as (Ha&Hbi&Hcb). rewrite Hcb.
  destruct (s_cbids st2 !! (coll, s)) as [old|]; cbv zeta beta iota; apply agree_ok; try apply book_moves1;
    unfold same_book; cbn; rewrite ?Ha, ?Hbi, ?Hcb; done.
Qed.
Lemma accept_bid_agree coll tok b fd :
  agree (execute_accept_bid x v1 e1 s f st1 coll tok b fd) (execute_accept_bid x v2 e2 s f st2 coll tok b fd).
Proof.
  unfold execute_accept_bid. do 3 skip. loads. skip. cbv zeta. apply agree_sale; [|done].
  destruct Hb as (Ha&Hbi&Hcb). rewrite Ha. destruct (s_asks st2 !! (coll, tok)); unfold same_book; cbn; rewrite ?Ha, ?Hbi, ?Hcb; done.
Qed.
Lemma accept_cbid_agree coll tok b fd :
  agree (execute_accept_collection_bid x v1 e1 s f st1 coll tok b fd) (execute_accept_collection_bid x v2 e2 s f st2 coll tok b fd).
Proof.
  unfold execute_accept_collection_bid. do 3 skip. loads. skip. cbv zeta. apply agree_sale; [|done].
  destruct Hb as (Ha&Hbi&Hcb). cbn. rewrite Ha. destruct (s_asks st2 !! (coll, tok)); unfold same_book; cbn; rewrite ?Ha, ?Hbi, ?Hcb; done.
Qed.
Lemma sync_agree coll tok : agree (execute_sync_ask p v1 s f st1 coll tok) (execute_sync_ask p v2 s f st2 coll tok).
Proof.
  unfold execute_sync_ask. do 2 (apply agree_skip; intros _ _). apply load_same; [apply Hb|intros a _]. cbv zeta. apply agree_skip. intros H1%ensure_Ok H2%ensure_Ok.
  assert (q_approval v1 coll (tok_str tok) (p_self p) = q_approval v2 coll (tok_str tok) (p_self p)) as ->.
  { destruct (q_approval v1 _ _ _), (q_approval v2 _ _ _), (k_active a); done. }
  ends.
Qed.
Lemma stale_ask_agree coll tok : agree (execute_remove_stale_ask p v1 e1 s f st1 coll tok) (execute_remove_stale_ask p v2 e2 s f st2 coll tok).
Proof. unfold execute_remove_stale_ask. do 2 skip. loads. cbv zeta. skip. ends. Qed.
Lemma stale_bid_agree coll tok b : agree (execute_remove_stale_bid e1 s f st1 coll tok b) (execute_remove_stale_bid e2 s f st2 coll tok b).
Proof.
  unfold execute_remove_stale_bid. do 2 (apply agree_skip; intros _ _). apply load_same; [apply Hb|intros ob _]. apply agree_skip. intros _ _ ???? (r1&_&(q1&_&H1)%bind_Ok)%bind_Ok (r2&_&(q2&_&H2)%bind_Ok)%bind_Ok.
  eapply agree_ok; [..|exact H1|exact H2]; [book|]. unfold prepare_bid_hook. rewrite !mv_app, (mv_prepare (s_bid_hooks st1)), (mv_prepare (s_bid_hooks st2)). done.
Qed.
Lemma stale_cbid_agree coll b : agree (execute_remove_stale_collection_bid e1 s f st1 coll b) (execute_remove_stale_collection_bid e2 s f st2 coll b).
Proof.
  unfold execute_remove_stale_collection_bid. do 2 (apply agree_skip; intros _ _). apply load_same; [apply Hb|intros ob _]. apply agree_skip. intros _ _ ???? (r1&_&(q1&_&H1)%bind_Ok)%bind_Ok (r2&_&(q2&_&H2)%bind_Ok)%bind_Ok.
  eapply agree_ok; [..|exact H1|exact H2]; [book|]. unfold prepare_cbid_hook. rewrite !mv_app, (mv_prepare (s_cbid_hooks st1)), (mv_prepare (s_cbid_hooks st2)). done.
Qed.
End Two.

Lemma set_bid_agree st1 st2 v1 v2 e1 e2 s f coll tok bps ex fd to now : same_book st1 st2 ->
  agree (execute_set_bid x v1 e1 s f st1 coll tok bps ex fd to now) (execute_set_bid x v2 e2 s f st2 coll tok bps ex fd to now).
Proof.
  intros Hb. unfold execute_set_bid. do 2 (apply agree_skip; intros _ _). apply agree_bind. intros n _. do 3 (apply agree_skip; intros _ _).
  pose proof (proj1 (proj2 Hb)) as Hbi. rewrite Hbi.
  set (s1 := match s_bids st2 !! (coll, tok, s) with Some old => (remove_bid st1 coll tok s, [send s (b_price old)]) | None => (st1, []) end).
  set (s2 := match s_bids st2 !! (coll, tok, s) with Some old => (remove_bid st2 coll tok s, [send s (b_price old)]) | None => (st2, []) end).
  assert (same_book (fst s1) (fst s2) /\ snd s1 = snd s2 /\ mv (snd s2) = []) as (Hb'&Hm&Hm0).
  { destruct Hb as (Ha&_&Hcb). unfold s1, s2. destruct (s_bids st2 !! (coll, tok, s)); unfold same_book; cbn; rewrite ?Ha, ?Hbi, ?Hcb; done. }
  destruct s1 as [t1 r1], s2 as [t2 r2]. cbn [fst snd] in Hb', Hm, Hm0. subst r1. clear st1 st2 Hb Hbi.
  assert (agree (Ok (store_bid t1 (Bid coll tok s n bps ex), r2 ++ prepare_bid_hook t1 (Bid coll tok s n bps ex) HCreate))
                (Ok (store_bid t2 (Bid coll tok s n bps ex), r2 ++ prepare_bid_hook t2 (Bid coll tok s n bps ex) HCreate))) as Hsaved.
  { apply agree_ok; [|apply book_moves1]. destruct Hb' as (Ha&Hbi&Hcb). unfold same_book. cbn. rewrite Ha, Hbi, Hcb. done. }
  rewrite (proj1 Hb'). destruct (s_asks t2 !! (coll, tok)) as [a|]; cbv zeta; apply agree_skip; intros _ _; [|exact Hsaved].
  destruct (k_type a), (n ?= k_price a); try exact Hsaved; try (intros ????; discriminate).
  assert (same_book (remove_ask t1 coll tok) (remove_ask t2 coll tok)) as Hrem.
  { destruct Hb' as (Ha&Hbi&Hcb). unfold same_book. cbn. rewrite Ha, Hbi, Hcb. done. }
  destruct (q_owner v1 _ _), (q_owner v2 _ _); try (intros ????; discriminate).
  apply agree_skip. intros _ _. by apply agree_sale.
Qed.
Lemma execute_agree st1 st2 v1 v2 e1 e2 s f m : same_book st1 st2 -> agree (execute_sub p x v1 e1 s f st1 m) (execute_sub p x v2 e2 s f st2 m).
Proof.
  intros Hb. destruct m; cbn [execute_sub];
    repeat match goal with |- agree (mbind _ (addr_validate _ _)) _ => apply agree_bind; intros ? _ | |- agree (mbind _ (maybe_addr _ _)) _ => apply agree_bind; intros ? _ end.
  all: first [by apply set_ask_agree|by apply remove_ask_agree|by apply update_price_agree|by apply set_bid_agree|by apply remove_bid_agree
    |by apply accept_bid_agree|by apply reject_bid_agree|by apply set_cbid_agree|by apply remove_cbid_agree|by apply accept_cbid_agree
    |by apply sync_agree|by apply stale_ask_agree|by apply stale_bid_agree|by apply stale_cbid_agree].
Qed.
Lemma same_trade st1 st2 v1 v2 e1 e2 s f m st1' st2' ms1 ms2 : same_book st1 st2 ->
  execute p x v1 e1 s f st1 m = Ok (st1', ms1) -> execute p x v2 e2 s f st2 m = Ok (st2', ms2) ->
  same_book st1' st2' /\ nft_moves ms1 = nft_moves ms2.
Proof.
  intros Hb ([s1 r1]&H1&[= <- <-])%bind_Ok ([s2 r2]&H2&[= <- <-])%bind_Ok.
  exact (execute_agree _ _ _ _ _ _ _ _ _ Hb _ _ _ _ H1 H2).
Qed.
(** Governance leaves the orders alone. *)
Lemma sudo_book st m st' : sudo_state p st m = Ok st' -> same_book st st'.
Proof. intros H. destruct m; cbn [sudo_state] in H; unfold sudo_update_params in H; inv_ok; done. Qed.
End House.
