(** Who trades what at which price depends on the orders alone (C162 of properties.jsonl).  The theorem is closed by a lemma proved elsewhere;
    what it rests on is printed beneath it, and an example shows a concrete case meeting its hypotheses. *)
From stdpp Require Import relations pretty.
From Verif Require Import Base BaseFacts Common Chain V1Model V1Spec V1Reach V1Examples V1Properties V1HouseSpec V1House.

(** * C162 *)
(** Two storages with the same listings and bids, whatever their parameters, operators and listeners, two blocks, and two sets of answers of the
    other contracts: if a call succeeds in both, then it leaves the same listings and bids and moves the same NFTs to the same people. *)
Theorem C162_same_trade : forall p x st1 st2 v1 v2 e1 e2 sender funds m st1' st2' msgs1 msgs2,
  same_book st1 st2 ->
  execute p x v1 e1 sender funds st1 m = Ok (st1', msgs1) -> execute p x v2 e2 sender funds st2 m = Ok (st2', msgs2) ->
  same_book st1' st2' /\ nft_moves msgs1 = nft_moves msgs2.
Proof. exact same_trade. Qed.
Print Assumptions C162_same_trade.

(** Governance raises the trading fee to 10% and the listing fee to 70, somebody listens for bids, ten seconds pass, and collection 1 stops
    advertising its royalty.  Bobby buys token 1 as before and alice accepts daver's bid for the collection as before; the operator marks the
    listing of token 1 as inactive when the approval is gone, in both storages alike. *)
Definition dear1 : sudo_msg := UpdateParams (ParamsUpdate (Some 1000) None None None None None None (Some 0) (Some 70)).
Definition ok_or (st : state) (r : result state) : state := match r with Ok s => s | Err _ => st end.
Definition st162a (x : ext) : state := ok_or (w_st (vw1 x)) (sudo_state p1 (w_st (vw1 x)) dear1).
Definition st162 (x : ext) : state := ok_or (st162a x) (sudo_state p1 (st162a x) (AddBidHook "liste")).
Definition e162 (x : ext) : env := Env 11 (sec 1010).
Lemma ok_or_book st m : same_book st (ok_or st (sudo_state p1 st m)).
Proof. destruct (sudo_state p1 st m) as [s|] eqn:E; [by eapply sudo_book|done]. Qed.
Lemma ok_or_history x st m : v1_history p1 x st -> v1_history p1 x (ok_or st (sudo_state p1 st m)).
Proof.
  intros (i&s0&Hi&H). destruct (sudo_state p1 st m) as [s|] eqn:E; [|by exists i, s0]. exists i, s0. split; [done|].
  eapply rtc_r; [exact H|]. apply (call_sudo p1 x st s (view_of p1 vw0) (env_of vw0) m []). unfold sudo. by rewrite E.
Qed.
Lemma st162_book x : same_book (w_st (vw1 x)) (st162 x).
Proof.
  destruct (ok_or_book (w_st (vw1 x)) dear1) as (A&B&C). destruct (ok_or_book (st162a x) (AddBidHook "liste")) as (A'&B'&C').
  split_and!; [by rewrite A|by rewrite B|by rewrite C].
Qed.
Definition v162 (x : ext) (ok : bool) : view :=
  View (q_owner (view_of p1 (vw1 x))) (fun _ _ _ => ok) (fun _ => Some (CollectionInfo None None)) (q_royalty (view_of p1 (vw1 x))) (q_admin (view_of p1 (vw1 x))).
Definition first162 (x : ext) (who : addr) (funds : list coin) (m : msg) : result (state * list cmsg) :=
  execute p1 x (view_of p1 (vw1 x)) (env_of (vw1 x)) who funds (w_st (vw1 x)) m.
Definition other162 (x : ext) (ok : bool) (who : addr) (funds : list coin) (m : msg) : result (state * list cmsg) :=
  execute p1 x (v162 x ok) (e162 x) who funds (st162 x) m.
Definition out162 (r : result (state * list cmsg)) : option (list (string * N * ask) * list (string * N * string * bid) * list (string * string * cbid) * list (addr * token * addr) * nat) :=
  match r with Ok (st, ms) => Some (map_to_list (s_asks st), map_to_list (s_bids st), map_to_list (s_cbids st), nft_moves ms, length ms) | Err _ => None end.
Definition but_last {A} (o : option (A * nat)) : option A := match o with Some (a, _) => Some a | None => None end.
Definition accept162 : msg := AcceptCollectionBid "coll1" 1 "daver" None.
Example C162_case x : v1_history p1 x (w_st (vw1 x)) /\ v1_history p1 x (st162 x) /\ same_book (w_st (vw1 x)) (st162 x) /\
  sp_trading_fee (s_params (w_st (vw1 x))) <> sp_trading_fee (s_params (st162 x)) /\
  but_last (out162 (first162 x "bobby" [us 1000] buy1)) = but_last (out162 (other162 x true "bobby" [us 1000] buy1)) /\
  option_map snd (out162 (first162 x "bobby" [us 1000] buy1)) <> option_map snd (out162 (other162 x true "bobby" [us 1000] buy1)) /\
  match out162 (first162 x "bobby" [us 1000] buy1) with Some (_, mv, _) => mv = [("coll1", "1", "bobby")] | None => False end /\
  but_last (out162 (first162 x "alice" [] accept162)) = but_last (out162 (other162 x true "alice" [] accept162)) /\
  match out162 (first162 x "alice" [] accept162) with Some (_, mv, _) => mv = [("coll1", "1", "daver")] | None => False end /\
  (let sync := SyncAsk "coll1" 1 in
   but_last (out162 (execute p1 x (v162 x false) (env_of (vw1 x)) "opera" [] (w_st (vw1 x)) sync)) = but_last (out162 (other162 x false "opera" [] sync)) /\
   out162 (other162 x false "opera" [] sync) <> None /\ out162 (other162 x true "opera" [] sync) = None).
Proof.
  split; [apply vw1_history|]. split; [apply ok_or_history, ok_or_history, vw1_history|]. split; [apply st162_book|].
  destruct x as [[|]]; vm_compute; split_and!; (reflexivity || discriminate).
Qed.
