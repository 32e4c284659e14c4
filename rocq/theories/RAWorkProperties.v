(** What one call or block of the reserve auction can do at most (C139 of properties.jsonl).  Each theorem is closed by a lemma proved
    elsewhere; what it rests on is printed beneath it, and an example shows a concrete case meeting its hypotheses. *)
From stdpp Require Import relations.
From Verif Require Import Base BaseFacts Common Chain ChainFacts RAModel RASpec RAFacts RAInv RAReach RAExamples RAProperties WorkSpec RAWork.

(** * C139 *)
Lemma user_work p lb v e sender funds st m st' msgs : ra_history p lb st -> execute p lb v e sender funds st m = Ok (st', msgs) ->
  at_most 2 1 0 1 0 msgs /\ (length msgs <= 4)%nat /\ changes 1 (s_auctions st) (s_auctions st').
Proof. intros H%history_wf. by apply work. Qed.
(** A call of a user sends at most four messages - two payments, a burn and an NFT - and changes one auction at most. *)
Theorem C139_ra_user_work : forall p lb v e sender funds st m st' msgs,
  ra_history p lb st -> execute p lb v e sender funds st m = Ok (st', msgs) ->
  at_most 2 1 0 1 0 msgs /\ (length msgs <= 4)%nat /\ changes 1 (s_auctions st) (s_auctions st').
Proof. exact user_work. Qed.
Print Assumptions C139_ra_user_work.
(** A block, however many auctions are due, changes no more of them than configured, and sends four messages for each at most. *)
Theorem C139_ra_block_work : forall p lb v e st m st' msgs, sudo p lb v e st m = Ok (st', msgs) ->
  let n := N.to_nat (cf_max_settle (s_config st)) in
  at_most (2 * n) n 0 n 0 msgs /\ (length msgs <= 4 * n)%nat /\ changes n (s_auctions st) (s_auctions st').
Proof. exact sudo_work. Qed.
Print Assumptions C139_ra_block_work.
(** The other privileged calls send nothing and change no auction. *)
Theorem C139_ra_quiet : forall p lb v e st m st' msgs, sudo p lb v e st m = Ok (st', msgs) -> m <> EndBlock ->
  msgs = [] /\ s_auctions st' = s_auctions st.
Proof. exact sudo_quiet. Qed.
Print Assumptions C139_ra_quiet.

(** With at most one auction in a block, EndBlock settles auction 1, with all of its four messages, and leaves auction 2 in the book,
    although it is due as well. *)
Definition one_each : params_update := ParamsUpdate None None None None None None (Some 1) None None None.
Definition two_due : list act := [
  Sudo (UpdateParams one_each);
  Tx "alice" [us 10] (CreateAuction "coll1" "1" (us 100) 3600 None); Tx "carol" [us 105] (PlaceBid "coll1" "1");
  Tx "alice" [us 10] (CreateAuction "coll1" "2" (us 100) 3600 None); Tx "carol" [us 110] (PlaceBid "coll1" "2")].
Definition wdue : world state := after lib1 rw0 two_due.
Definition swept : result (state * list cmsg) := sudo p1 lib1 (view_of p1 wdue) (Env 20 (sec 9000)) (w_st wdue) EndBlock.
Example C139_case : ra_history p1 lib1 (w_st wdue) /\ is_ok swept = true /\ cf_max_settle (s_config (w_st wdue)) = 1 /\
  msgs_of swept = [MFairBurn (us 2); MSend "royal" [us 5]; MSend "alice" [us 98]; MNft "coll1" "1" "carol"] /\
  map fst (map_to_list (s_auctions (state_of swept))) = [("coll1", "2")] /\
  size (s_auctions (w_st wdue)) = 2%nat.
Proof.
  split; [apply reachable_history; apply after_reachable; [apply rw0_reachable|vm_compute; reflexivity]|].
  split; [vm_compute; reflexivity|]. split; [vm_compute; reflexivity|]. split; [vm_compute; reflexivity|].
  split; vm_compute; reflexivity.
Qed.
