(** Locality of marketplace v2 (V2LocalSpec). *)
From stdpp Require Import relations.
From Verif Require Import Base BaseFacts Common Chain ChainFacts V2Model V2Spec V2Facts V2Inv V2Reach V2Examples V2ExactSpec V2LocalSpec
  V2Local.

(** * C128: whether an order call succeeds and what it does depends on the rules and on the orders of one collection
    only - apart from the counter, which names new bids - and no other collection's orders change. *)
Theorem C128_depends : forall p n n0 coll v e sender funds st st0 m st' msgs,
  collision_free p -> prefix_free p -> slash_free p -> ran p n st -> ran p n0 st0 -> N.of_nat n < U64_MAX -> N.of_nat n0 < U64_MAX ->
  small_call funds m -> same_market coll st st0 -> admin_call m = true \/ market st m = Some coll ->
  (numbers m = true -> s_nonce st = s_nonce st0) -> execute p v e sender funds st m = Ok (st', msgs) ->
  exists st0', execute p v e sender funds st0 m = Ok (st0', msgs) /\ same_market coll st' st0'.
Proof. intros p n n0 coll v e s f st st0 m st' ms H1 H2 H3. exact (call_local p H1 H2 H3 n n0 coll v e s f st st0 m st' ms). Qed.
Print Assumptions C128_depends.
Theorem C128_changes : forall p n coll v e sender funds st m st' msgs,
  collision_free p -> prefix_free p -> slash_free p -> ran p n st -> N.of_nat n < U64_MAX -> small_call funds m -> admin_call m = false ->
  market st m <> Some coll -> execute p v e sender funds st m = Ok (st', msgs) -> same_market coll st st'.
Proof. intros p n coll v e s f st m st' ms H1 H2 H3. exact (call_away p H1 H2 H3 n coll v e s f st m st' ms). Qed.
Print Assumptions C128_changes.
(** Calls about two collections can be exchanged, unless the counter passes from one to the other. *)
Theorem C128_exchange : forall p n c1 c2 v1 e1 s1 f1 m1 v2 e2 s2 f2 m2 st st1 ms1 st2 ms2,
  collision_free p -> prefix_free p -> slash_free p -> ran p n st -> N.of_nat n + 1 < U64_MAX ->
  s1 <> p_self p -> s2 <> p_self p -> small_call f1 m1 -> small_call f2 m2 ->
  market st m1 = Some c1 -> market st1 m2 = Some c2 -> c1 <> c2 ->
  (numbers m1 = true -> counts m2 = false) -> (numbers m2 = true -> counts m1 = false) ->
  execute p v1 e1 s1 f1 st m1 = Ok (st1, ms1) -> execute p v2 e2 s2 f2 st1 m2 = Ok (st2, ms2) ->
  exists st3, execute p v2 e2 s2 f2 st m2 = Ok (st3, ms2) /\ execute p v1 e1 s1 f1 st3 m1 = Ok (st2, ms1).
Proof.
  intros p n c1 c2 v1 e1 s1 f1 m1 v2 e2 s2 f2 m2 st st1 ms1 st2 ms2 H1 H2 H3.
  exact (market_exchange p H1 H2 H3 n c1 c2 v1 e1 s1 f1 m1 v2 e2 s2 f2 m2 st st1 ms1 st2 ms2).
Qed.
Print Assumptions C128_exchange.
(** Two runs that treat a collection alike have the same orders for it at the end, whatever happened elsewhere. *)
Theorem C128_undisturbed : forall p coll n st n0 st0,
  collision_free p -> prefix_free p -> slash_free p -> twins p coll n st n0 st0 -> N.of_nat n <= U64_MAX -> N.of_nat n0 <= U64_MAX ->
  same_market coll st st0.
Proof. intros p coll n st n0 st0 H1 H2 H3. exact (twins_same p H1 H2 H3 coll n st n0 st0). Qed.
Print Assumptions C128_undisturbed.

(** * The case: bids for two collections, a listing and a purchase *)
Definition v0 : view := view_of p0 w0.
Definition at2 (s : addr) (f : list coin) (m : msg) : play := (v0, Env 10 2000000000, s, f, m).
Definition opened : list play := [at2 "admin" [] (SetListingFee (us 5)); at2 "bobby" [us 800] (SetBid "coll1" "2" (det 800))].
Definition foreign : play := at2 "carol" [us 300] (SetBid "coll2" "7" (det 300)).
Definition lists : play := at2 "alice" [us 5] (SetAsk "coll1" "1" (det 1000)).
Definition lists2 : play := at2 "alice" [us 5] (SetAsk "coll2" "9" (det 50)).
Definition buys : msg := BuySpecificNft "coll1" "1" (det 1200).
Definition left_side : state := match played p0 st0 (opened ++ [foreign; lists; lists2]) with Ok st => st | Err _ => st0 end.
Definition right_side : state := match played p0 st0 (opened ++ [lists]) with Ok st => st | Err _ => st0 end.
Ltac small_tac := split; [repeat constructor; unfold small; cbn; lia|intros ? [= <-]; unfold small; cbn; lia].
Lemma opened_ok : exists st, played p0 st0 opened = Ok st /\ ran p0 2 st.
Proof.
  destruct (played p0 st0 opened) as [st|er] eqn:E.
  - exists st. split; [done|]. apply (played_ran p0 cfg0 st0 opened st); [by vm_compute| |done].
    repeat constructor; try done; cbn; try (intros ? [= <-]); unfold small; cbn; lia.
  - exfalso. assert (is_ok (played p0 st0 opened) = true) as H by by vm_compute. by rewrite E in H.
Qed.
Lemma one_call st v e s f m l st' : played p0 st ((v, e, s, f, m) :: l) = Ok st' ->
  exists st1 ms, execute p0 v e s f st m = Ok (st1, ms) /\ played p0 st1 l = Ok st'.
Proof. cbn [played]. intros H. apply bind_Ok in H as ([x ms]&He&H). by exists x, ms. Qed.
Example C128_case : twins p0 "coll1" 5 left_side 3 right_side /\
  s_nonce left_side = 2 /\ s_nonce right_side = 1 /\ size (s_bids left_side) = 2%nat /\ size (s_bids right_side) = 1%nat /\
  size (s_asks left_side) = 2%nat /\ small_call [us 1000] buys /\ market left_side buys = Some "coll1" /\
  is_ok (execute p0 v0 (Env 10 2000000000) "dave0" [us 1000] left_side buys) = true /\
  (match execute p0 v0 (Env 10 2000000000) "dave0" [us 1000] right_side buys with
   | Ok (_, ms) => MNft "coll1" "1" "dave0" ∈ ms | Err _ => False end).
Proof.
  split; [|split; [by vm_compute|]; split; [by vm_compute|]; split; [by vm_compute|]; split; [by vm_compute|];
            split; [by vm_compute|]; split; [small_tac|]; split; [reflexivity|]; split; [by vm_compute|]].
  - destruct opened_ok as (st&E&Hr).
    assert (is_ok (played p0 st0 (opened ++ [foreign; lists; lists2])) = true) as Hl by by vm_compute.
    assert (is_ok (played p0 st0 (opened ++ [lists])) = true) as Hr' by by vm_compute.
    unfold left_side, right_side. rewrite (played_app p0 st0 opened [foreign; lists; lists2]), (played_app p0 st0 opened [lists]) in *. rewrite !E in *.
    unfold mbind, result_bind in *.
    destruct (played p0 st [foreign; lists; lists2]) as [l|] eqn:El; [|done].
    destruct (played p0 st [lists]) as [r|] eqn:Er; [|done].
    apply one_call in El as (l1&ms1&E1&El). apply one_call in El as (l2&ms2&E2&El). apply one_call in El as (l3&ms3&E3&El).
    apply one_call in Er as (r1&ms4&E4&Er). injection El as <-. injection Er as <-.
    eapply twin_left; [..|exact E3]; [|done|small_tac|done|done].
    eapply twin_call; [..|exact E2|exact E4]; [|done|small_tac|by right|done].
    eapply twin_left; [..|exact E1]; [|done|small_tac|done|done]. by apply twin_start.
  - assert (match execute p0 v0 (Env 10 2000000000) "dave0" [us 1000] right_side buys with
       | Ok (_, ms) => bool_decide (MNft "coll1" "1" "dave0" ∈ ms) | Err _ => false end = true) as H by by vm_compute.
    destruct (execute p0 v0 (Env 10 2000000000) "dave0" [us 1000] right_side buys) as [[x ms]|]; [|done]. by apply bool_decide_eq_true in H.
Qed.
(** Bobby's new bid in collection 1 and alice's listing in collection 2 can change places. *)
Definition bids3 : msg := SetBid "coll1" "3" (det 20).
Definition sells9 : msg := SetAsk "coll2" "9" (det 50).
Example C128_exchange_case : exists st st1 ms1 st2 ms2,
  ran p0 2 st /\ numbers bids3 = true /\ counts sells9 = false /\ numbers sells9 = false /\
  market st bids3 = Some "coll1" /\ market st1 sells9 = Some "coll2" /\
  execute p0 v0 (Env 10 2000000000) "bobby" [us 20] st bids3 = Ok (st1, ms1) /\
  execute p0 v0 (Env 10 2000000000) "alice" [us 5] st1 sells9 = Ok (st2, ms2) /\
  size (s_bids st2) = 2%nat /\ size (s_asks st2) = 1%nat.
Proof.
  destruct opened_ok as (st&E&Hr).
  assert (match played p0 st0 (opened ++ [at2 "bobby" [us 20] bids3; at2 "alice" [us 5] sells9]) with
    | Ok x => bool_decide (size (s_bids x) = 2%nat /\ size (s_asks x) = 1%nat) | Err _ => false end = true) as Hl by by vm_compute.
  rewrite played_app, E in Hl. unfold mbind, result_bind in Hl.
  destruct (played p0 st [at2 "bobby" [us 20] bids3; at2 "alice" [us 5] sells9]) as [x|] eqn:El; [|done].
  apply bool_decide_eq_true in Hl as [Hb Ha]. apply one_call in El as (st1&ms1&E1&El). apply one_call in El as (st2&ms2&E2&El).
  injection El as <-. exists st, st1, ms1, st2, ms2.
  split; [exact Hr|]. split; [reflexivity|]. split; [reflexivity|]. split; [reflexivity|]. split; [reflexivity|]. split; [reflexivity|].
  split; [exact E1|]. split; [exact E2|]. by split.
Qed.

(** * The counter is shared.  Between two bids of one price the one with the greater id wins; an id is a hash of the
    counter, so that bids for other collections decide who gets the NFT. *)
Fixpoint odd_end (s : string) : bool :=
  match s with
  | "" => false
  | String c "" => N.odd (N_of_ascii c)
  | String _ r => odd_end r
  end%string.
(** A hash without collisions that, like a real one, does not respect the order of the counter. *)
Definition mix (s : string) : string := (if odd_end s then "b" else "a") +:+ s.
Definition pm : params := Params (p_self p0) mix (p_valid p0) (p_honest p0) (p_blocked p0) (p_reg_reenters p0).
Definition tied : list play := [
  at2 "admin" [] (SetListingFee (us 5));
  at2 "bobby" [us 800] (SetBid "coll1" "2" (det 800));
  at2 "dave0" [us 300] (SetBid "coll2" "7" (det 300));
  at2 "carol" [us 800] (SetBid "coll1" "2" (det 800))].
Definition elsewhere (c : play) : bool := match opens c.2 with Some coll => negb (bool_decide (coll = "coll1")) | None => false end.
Theorem C128_counter_refuted : exists p c st0 l l0 st' st0' v e sender funds m msgs msgs0,
  collision_free p /\ prefix_free p /\ slash_free p /\ instantiate p c = Ok st0 /\ Forall (sane p) l /\
  l0 = filter (fun c => elsewhere c = false) l /\ played p st0 l = Ok st' /\ played p st0 l0 = Ok st0' /\
  small_call funds m /\ market st' m = Some "coll1" /\
  snd <$> execute p v e sender funds st' m = Ok msgs /\ snd <$> execute p v e sender funds st0' m = Ok msgs0 /\
  MNft "coll1" "2" "carol" ∈ msgs /\ MNft "coll1" "2" "bobby" ∈ msgs0.
Proof.
  pose (m := SellNft "coll1" "2" (det 700)). pose (e := Env 10 2000000000). pose (l0 := filter (fun c => elsewhere c = false) tied).
  assert (forall l who, match played pm st0 l with
      | Ok st => match execute pm v0 e "alice" [us 5] st m with Ok (_, ms) => bool_decide (MNft "coll1" "2" who ∈ ms) | Err _ => false end
      | Err _ => false end = true ->
    exists st ms, played pm st0 l = Ok st /\ snd <$> execute pm v0 e "alice" [us 5] st m = Ok ms /\ MNft "coll1" "2" who ∈ ms) as Hrun.
  { intros l who. destruct (played pm st0 l) as [st|] eqn:E; [|discriminate].
    destruct (execute pm v0 e "alice" [us 5] st m) as [[x ms]|] eqn:E1; [|discriminate]. intros H%bool_decide_eq_true.
    exists st, ms. split; [reflexivity|]. by rewrite E1. }
  destruct (Hrun tied "carol") as (st'&ms&H1&H2&H3); [by vm_compute|].
  destruct (Hrun l0 "bobby") as (st0'&ms0&H4&H5&H6); [by vm_compute|]. clear Hrun.
  exists pm, cfg0, st0, tied, l0, st', st0', v0, e, "alice", [us 5], m, ms, ms0.
  split; [|split; [|split; [|split; [|split; [|split; [|split; [|split; [|split; [|split]]]]]]]]].
  - intros x y H. cbn in H. unfold mix in H. by destruct (odd_end x), (odd_end y); rewrite !str_app_cons, !str_app_nil in H; injection H.
  - exact p0_prefix_free.
  - exact p0_slash_free.
  - by vm_compute.
  - repeat constructor; try done; cbn; try (intros ? [= <-]); unfold small; cbn; lia.
  - reflexivity.
  - exact H1.
  - exact H4.
  - small_tac.
  - reflexivity.
  - by split_and!.
Qed.
Print Assumptions C128_counter_refuted.
