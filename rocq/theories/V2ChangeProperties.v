(** Changing an order is taking it back and placing it again (C156 of properties.jsonl).  Each theorem is closed by a lemma proved elsewhere;
    what it rests on is printed beneath it, and an example shows a concrete case meeting its hypotheses. *)
From stdpp Require Import relations.
From Verif Require Import Base BaseFacts Common Chain ChainFacts QuerySpec V2Model V2Spec V2Facts V2Inv V2Reach V2Examples
  V2Properties V2ExactSpec V2Exact V2ExactProperties V2ChangeSpec V2Change.

(** * C156 *)
(** Once trading is open, a bid is changed exactly if it could be taken back and placed again with the old price on top of the coins attached.
    The messages of the change and of the new placing are the same, and so is the storage but for the counter and the name of a bid that rests. *)
Theorem C156_bid_again : forall p n v v0 e e0 sender funds st i d b st1 back,
  collision_free p -> prefix_free p -> slash_free p ->
  N.of_nat n < U64_MAX -> v2_history p n st -> small_history p st -> sender <> p_self p -> small_call funds (UpdateBid i d) ->
  s_bids st !! i = Some b -> ~ not_yet_tradable v e (b_coll b) ->
  execute p v0 e0 sender [] st (RemoveBid i) = Ok (st1, back) ->
  back = [MSend sender [d_price (b_det b)]] /\
  (forall st2 msgs, execute p v e sender funds st (UpdateBid i d) = Ok (st2, msgs) ->
    exists st3, execute p v e sender (d_price (b_det b) :: funds) st1 (SetBid (b_coll b) (b_tok b) d) = Ok (st3, msgs) /\
      same_but_bid i (bid_name_of p e st (b_coll b +:+ b_tok b)) st2 st3) /\
  (forall st3 msgs, execute p v e sender (d_price (b_det b) :: funds) st1 (SetBid (b_coll b) (b_tok b) d) = Ok (st3, msgs) ->
    exists st2, execute p v e sender funds st (UpdateBid i d) = Ok (st2, msgs) /\
      same_but_bid i (bid_name_of p e st (b_coll b +:+ b_tok b)) st2 st3).
Proof. intros p n v v0 e e0 sender funds st i d b st1 back Hcf Hpf Hsl. by apply bid_again. Qed.
Print Assumptions C156_bid_again.
(** The same of a bid for a whole collection. *)
Theorem C156_collection_bid_again : forall p n v v0 e e0 sender funds st i d b st1 back,
  collision_free p -> prefix_free p -> slash_free p ->
  N.of_nat n < U64_MAX -> v2_history p n st -> small_history p st -> sender <> p_self p -> small_call funds (UpdateCollectionBid i d) ->
  s_cbids st !! i = Some b -> ~ not_yet_tradable v e (cb_coll b) ->
  execute p v0 e0 sender [] st (RemoveCollectionBid i) = Ok (st1, back) ->
  back = [MSend sender [d_price (cb_det b)]] /\
  (forall st2 msgs, execute p v e sender funds st (UpdateCollectionBid i d) = Ok (st2, msgs) ->
    exists st3, execute p v e sender (d_price (cb_det b) :: funds) st1 (SetCollectionBid (cb_coll b) d) = Ok (st3, msgs) /\
      same_but_cbid i (bid_name_of p e st (cb_coll b)) st2 st3) /\
  (forall st3 msgs, execute p v e sender (d_price (cb_det b) :: funds) st1 (SetCollectionBid (cb_coll b) d) = Ok (st3, msgs) ->
    exists st2, execute p v e sender funds st (UpdateCollectionBid i d) = Ok (st2, msgs) /\
      same_but_cbid i (bid_name_of p e st (cb_coll b)) st2 st3).
Proof. intros p n v v0 e e0 sender funds st i d b st1 back Hcf Hpf Hsl. by apply cbid_again. Qed.
Print Assumptions C156_collection_bid_again.
(** A listing is changed exactly if its owner, who took the NFT back and has it, could list it again: the storage is the same, even the name,
    and the messages are but for the listing fee and the way of the NFT back into custody. *)
Theorem C156_listing_again : forall p v v0 e e0 sender st i d a st1 msgs1 dn fee,
  collision_free p -> prefix_free p -> slash_free p ->
  small_history p st -> sender <> p_self p -> small_call [] (UpdateAsk i d) -> small (Coin dn fee) ->
  s_asks st !! i = Some a -> ~ not_yet_tradable v e (a_coll a) -> s_fees st !! dn = Some fee -> 0 < fee ->
  execute p v0 e0 sender [] st (RemoveAsk i) = Ok (st1, msgs1) ->
  msgs1 = [MNft (a_coll a) (a_tok a) (proceeds_to a)] /\
  forall st2 msgs, execute p v e sender [] st (UpdateAsk i d) = Ok (st2, msgs) <->
    execute p (now_owned_by v (a_coll a) (a_tok a) sender) e sender [Coin dn fee] st1 (SetAsk (a_coll a) (a_tok a) d) =
      Ok (st2, MSend (cf_fee_manager (s_config st)) [Coin dn fee] :: msgs ++ custody p st2 i (a_coll a) (a_tok a)).
Proof. intros p v v0 e e0 sender st i d a st1 msgs1 dn fee Hcf Hpf Hsl. by apply ask_again. Qed.
Print Assumptions C156_listing_again.

(** Bobby raises the bid of 800 for token 2 to 850 with 100 coins and gets 50 back, in one call or in two; carol raises the bid of 900 for the
    collection to 1000 with 150 coins and buys token 1; alice reprices token 1 to 1200, where it rests, or to 900, where carol buys it. *)
Definition taken_back (who : addr) (m : msg) : state := state_of (call1 who [] m).
Definition then1 (v : view) (who : addr) (funds : list coin) (st : state) (m : msg) : result (state * list cmsg) :=
  execute p0 v (env_of w1) who funds st m.
Definition books (r : result (state * list cmsg)) : list (order_id * ask) * list (order_id * bid) * list (order_id * cbid) :=
  (map_to_list (s_asks (state_of r)), map_to_list (s_bids (state_of r)), map_to_list (s_cbids (state_of r))).
Definition new_name : order_id := "#coll12" +:+ be8 10 +:+ be8 3.
Example C156_case :
  collision_free p0 /\ prefix_free p0 /\ slash_free p0 /\ v2_history p0 4 st1 /\ small_history p0 st1 /\
  small_call [us 100] (UpdateBid bid_id (det 850)) /\ small_call [us 150] (UpdateCollectionBid cbid_id (det 1000)) /\ small (us 5) /\
  s_asks st1 !! ask1_id = Some ask1 /\ s_bids st1 !! bid_id = Some bid1 /\ s_cbids st1 !! cbid_id = Some cbid1 /\
  s_fees st1 !! "ustars" = Some 5 /\
  is_ok (call1 "bobby" [] (RemoveBid bid_id)) = true /\ is_ok (call1 "carol" [] (RemoveCollectionBid cbid_id)) = true /\
  is_ok (call1 "alice" [] (RemoveAsk ask1_id)) = true /\
  (let one := call1 "bobby" [us 100] (UpdateBid bid_id (det 850)) in
   let two := then1 (view_of p0 w1) "bobby" [us 800; us 100] (taken_back "bobby" (RemoveBid bid_id)) (SetBid "coll1" "2" (det 850)) in
   is_ok one = true /\ msgs_of one = [MSend "bobby" [us 50]] /\ msgs_of two = [MSend "bobby" [us 50]] /\
   map_to_list (s_bids (state_of one)) = [(bid_id, Bid bid_id "bobby" "coll1" "2" (det 850))] /\
   map_to_list (s_bids (state_of two)) = [(new_name, Bid new_name "bobby" "coll1" "2" (det 850))]) /\
  (let one := call1 "carol" [us 150] (UpdateCollectionBid cbid_id (det 1000)) in
   let two := then1 (view_of p0 w1) "carol" [us 900; us 150] (taken_back "carol" (RemoveCollectionBid cbid_id)) (SetCollectionBid "coll1" (det 1000)) in
   is_ok one = true /\ length (msgs_of one) = 7%nat /\ msgs_of one = msgs_of two /\ books one = books two) /\
  (let v := now_owned_by (view_of p0 w1) "coll1" "1" "alice" in
   let back := taken_back "alice" (RemoveAsk ask1_id) in
   let one n := call1 "alice" [] (UpdateAsk ask1_id (det n)) in
   let two n := then1 v "alice" [us 5] back (SetAsk "coll1" "1" (det n)) in
   is_ok (one 1200) = true /\ msgs_of (one 1200) = [] /\ msgs_of (two 1200) = [MSend "feemg" [us 5]; MNft "coll1" "1" "mrktp"] /\
   books (one 1200) = books (two 1200) /\
   is_ok (one 900) = true /\ length (msgs_of (one 900)) = 5%nat /\ msgs_of (two 900) = MSend "feemg" [us 5] :: msgs_of (one 900) /\
   books (one 900) = books (two 900)).
Proof.
  split; [exact p0_collision_free|]. split; [exact p0_prefix_free|]. split; [exact p0_slash_free|]. split; [exact st1_history|].
  split; [exact st1_small|].
  split. { split; [apply Forall_singleton|intros c [= <-]]; unfold small, us; cbn [c_amount d_price det us]; lia. }
  split. { split; [apply Forall_singleton|intros c [= <-]]; unfold small, us; cbn [c_amount d_price det us]; lia. }
  split. { unfold small, us. cbn [c_amount]. lia. }
  vm_compute. split_and!; reflexivity.
Qed.
