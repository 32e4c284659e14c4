(** Auctions do not go on for ever (C138 of properties.jsonl).  Each theorem is closed by a lemma proved elsewhere; what it rests on is
    printed beneath it, and an example shows a concrete case meeting its hypotheses. *)
From stdpp Require Import relations.
From Verif Require Import Base BaseFacts Common Chain ChainFacts RAModel RASpec RAReach RAExamples RALedgerSpec RAProperties RABoundsSpec RABounds.

(** * C138 *)
(** As long as an auction is there, every further bid on it multiplies the price by at least 1 + [i], where [i] is the least
    increment configured meanwhile, and adds at least one unit. *)
Theorem C138_growth : forall p lb k st l st' a hb i, ra_history p lb st -> path p lb st l st' -> goes_on k l ->
  s_auctions st !! k = Some a -> a_high a = Some hb -> increments_from i l ->
  exists a' hb', s_auctions st' !! k = Some a' /\ a_high a' = Some hb' /\ c_denom (hb_coin hb') = c_denom (hb_coin hb) /\
    c_amount (hb_coin hb) + bid_count k l <= c_amount (hb_coin hb') /\
    c_amount (hb_coin hb) * (DEC_ONE + i) ^ bid_count k l <= c_amount (hb_coin hb') * DEC_ONE ^ bid_count k l /\
    (forall b, bids_to k b l -> c_amount (hb_coin hb) <= b -> c_amount (hb_coin hb') <= b).
Proof. exact path_high. Qed.
Print Assumptions C138_growth.
(** So there are few bids: if [m] increments make up the whole and nobody bids more than [b], fewer than m (log2 b + 1). *)
Theorem C138_few_bids : forall p lb k st l st' a hb i m b, ra_history p lb st -> path p lb st l st' -> goes_on k l ->
  s_auctions st !! k = Some a -> a_high a = Some hb -> increments_from i l -> 0 < m -> DEC_ONE <= m * i ->
  bids_to k b l -> c_amount (hb_coin hb) <= b -> bid_count k l < m * (N.log2 b + 1).
Proof. exact bids_few. Qed.
Print Assumptions C138_few_bids.
(** And the end, unless the chain halts, moves by at most one extension for each bid, *)
Theorem C138_end : forall p lb k st l st' a t x, ra_history p lb st -> path p lb st l st' -> goes_on k l -> no_halts k l ->
  extensions_to x l -> s_auctions st !! k = Some a -> a_end a = Some t ->
  exists a' t', s_auctions st' !! k = Some a' /\ a_end a' = Some t' /\ t <= t' /\ t' <= t + bid_count k l * (x * NANOS).
Proof. exact path_end. Qed.
Print Assumptions C138_end.
(** hence never beyond a time that is known when the first bid is placed. *)
Theorem C138_over_by : forall p lb k st l st' a hb t i m b x,
  ra_history p lb st -> path p lb st l st' -> goes_on k l -> no_halts k l ->
  s_auctions st !! k = Some a -> a_high a = Some hb -> a_end a = Some t ->
  increments_from i l -> 0 < m -> DEC_ONE <= m * i -> extensions_to x l -> bids_to k b l -> c_amount (hb_coin hb) <= b ->
  exists a' t', s_auctions st' !! k = Some a' /\ a_end a' = Some t' /\ t <= t' /\ t' <= t + m * (N.log2 b + 1) * (x * NANOS).
Proof. exact over_by. Qed.
Print Assumptions C138_over_by.

(** carol's 105 is outbid by bobby's 200 one second before the end at 4600 s, and that by carol's 210 one second before 5499 s. *)
Definition bid1 : msg := PlaceBid "coll1" "1".
Definition second_bid : result (state * list cmsg) := execute p1 lib1 (view_of p1 w1) (late 4599) "bobby" [us 200] st1 bid1.
Definition third_bid : result (state * list cmsg) :=
  execute p1 lib1 (view_of p1 w1) (late 5498) "carol" [us 210] (state_of second_bid) bid1.
Definition bidding : list entry := [
  User "bobby" [us 200] bid1 st1 (state_of second_bid) (msgs_of second_bid);
  User "carol" [us 210] bid1 (state_of second_bid) (state_of third_bid) (msgs_of third_bid)].
Lemma two_entries (P : entry -> Prop) h1 h2 : P h1 -> P h2 -> Forall P [h1; h2].
Proof. intros H1 H2. constructor; [exact H1|]. constructor; [exact H2|constructor]. Qed.
Lemma result_ok (r : result (state * list cmsg)) : is_ok r = true -> r = Ok (state_of r, msgs_of r).
Proof. destruct r as [[s ms]|]; [reflexivity|discriminate]. Qed.
Lemma bidding_path : path p1 lib1 st1 bidding (state_of third_bid).
Proof.
  apply (path_next p1 lib1 st1 [User "bobby" [us 200] bid1 st1 (state_of second_bid) (msgs_of second_bid)] (state_of second_bid)).
  - apply (path_next p1 lib1 st1 [] st1); [constructor|].
    apply (rec_user p1 lib1 _ _ (view_of p1 w1) (late 4599)); [discriminate|]. apply (result_ok second_bid). vm_compute. reflexivity.
  - apply (rec_user p1 lib1 _ _ (view_of p1 w1) (late 5498)); [discriminate|]. apply (result_ok third_bid). vm_compute. reflexivity.
Qed.
Example C138_case : ra_history p1 lib1 st1 /\ path p1 lib1 st1 bidding (state_of third_bid) /\ goes_on ("coll1", "1") bidding /\
  no_halts ("coll1", "1") bidding /\ s_auctions st1 !! ("coll1", "1") = Some auction1 /\ a_high auction1 = Some high1 /\
  a_end auction1 = Some (sec 4600) /\ increments_from 50000000000000000 bidding /\ DEC_ONE <= 20 * 50000000000000000 /\
  extensions_to 900 bidding /\ bids_to ("coll1", "1") 1000000 bidding /\ bid_count ("coll1", "1") bidding = 2 /\
  (a_end <$> s_auctions (state_of third_bid) !! ("coll1", "1")) = Some (Some (sec 6398)).
Proof.
  split; [exact st1_history|]. split; [exact bidding_path|].
  assert (s_auctions (state_of second_bid) !! ("coll1", "1") =
    Some (Auction "coll1" "1" "alice" (us 100) 3600 (Some (sec 5499)) None (Some (HighBid (us 200) "bobby")) (Some (sec 1000)))) as H2
    by (vm_compute; reflexivity).
  assert (s_auctions (state_of third_bid) !! ("coll1", "1") =
    Some (Auction "coll1" "1" "alice" (us 100) 3600 (Some (sec 6398)) None (Some (HighBid (us 210) "carol")) (Some (sec 1000)))) as H3
    by (vm_compute; reflexivity).
  assert (hm_windows (s_halt st1) = []) as W1 by (vm_compute; reflexivity).
  assert (hm_windows (s_halt (state_of second_bid)) = []) as W2 by (vm_compute; reflexivity).
  split; [apply two_entries; cbn [e_after]; eexists; [exact H2|exact H3]|].
  split.
  { apply two_entries; intros a t _ _ (w&Hw&_); cbn [e_before] in Hw; [rewrite W1 in Hw|rewrite W2 in Hw]; exact (not_elem_of_nil _ Hw). }
  split; [exact st1_auction|]. split; [reflexivity|]. split; [reflexivity|].
  split; [apply two_entries; cbn [e_before]; apply N.leb_le; vm_compute; reflexivity|].
  split; [apply N.leb_le; vm_compute; reflexivity|].
  split; [apply two_entries; cbn [e_before]; apply N.leb_le; vm_compute; reflexivity|].
  split.
  { apply two_entries; intros _ c Hc%elem_of_list_singleton; subst c; apply N.leb_le; vm_compute; reflexivity. }
  split; [vm_compute; reflexivity|]. exact (f_equal (fmap a_end) H3).
Qed.
