(** The events of the reserve auction (C114 and C115 of properties.jsonl).  Each theorem is closed by a lemma proved
    elsewhere; what it rests on is printed beneath it, and an example shows a concrete case meeting its hypotheses. *)
From stdpp Require Import relations pretty.
From Verif Require Import Base BaseFacts Common Chain ChainFacts RAModel RASpec RAFacts RAInv RAReach RAExamples RARefute
  Events EventFacts RAEvents RAEventSpec RAEventFacts.

(** The first two calls of the story, at the level of the storage. *)
Definition v1 : view := view_of p1 rw0.
Definition e1 : env := env_of rw0.
Definition open_msg (duration : N) : msg := CreateAuction "coll1" "1" (us 100) duration None.
Definition fresh_auction (duration : N) : auction := Auction "coll1" "1" "alice" (us 100) duration None None None None.
Definition opened (duration : N) : state := save_auction rst0 (fresh_auction duration).
Definition rst0_log : list (N * event) := pair 0 <$> instantiate_events cfg1 [us 50].
Lemma rst0_logged lb : ra_log p1 lb rst0 rst0_log.
Proof. apply LogStart. by vm_compute. Qed.
Definition opened_event : event :=
  Event "create-auction" [("collection", "coll1"); ("token_id", "1"); ("seller", "alice"); ("reserve_price", "100ustars")].
Lemma opened_logged lb d : (60 <=? d) && (d <=? 86400) = true -> ra_log p1 lb (opened d) (rst0_log ++ [(sec 1000, opened_event)]).
Proof.
  intros Hd. apply (LogCall p1 lb rst0 rst0_log v1 e1 "alice" [us 10] (open_msg d) (opened d) [MFairBurn (us 10); MNft "coll1" "1" "aucti"]
    (rst0_logged lb)); [done|].
  cbn [execute open_msg]. unfold execute_create_auction. change (cf_min_duration (s_config rst0)) with 60.
  change (cf_max_duration (s_config rst0)) with 86400. rewrite Hd. by vm_compute.
Qed.
Lemma opened_denoms d : bank_denoms (opened d).
Proof.
  assert (lettered "ustars") as L. { eexists _, _. split; [reflexivity|]. vm_compute. lia. }
  split; [|exact L]. intros k a. cbn [opened save_auction set_auctions s_auctions]. rewrite lookup_insert_Some.
  intros [[_ <-]|[_ H]]; [exact L|]. unfold rst0 in H. cbn [s_auctions] in H. by rewrite lookup_empty in H.
Qed.
Definition cfg1' : config :=
  Config "fairb" 20000000000000000 50000000000000000 60 172800 900 (us 10) 10 1200 600 3600.

(** * C114: auctions, minimum prices and settings can be rebuilt from the events, except for durations. *)
Theorem C114_observer : forall p lb st evs, ra_log p lb st evs -> observe evs = truth st.
Proof. exact observe_log. Qed.
Print Assumptions C114_observer.
(** Storage with the same events holds the same auctions, minimum prices and settings, up to durations. *)
Theorem C114_events_decide_partial : forall p lb st evs st', ra_log p lb st evs -> ra_log p lb st' evs ->
  bank_denoms st -> bank_denoms st' -> same_house st st'.
Proof. exact log_house. Qed.
Print Assumptions C114_events_decide_partial.
(** Every reachable storage has a log. *)
Theorem C114_logged : forall p lb w, ra_reachable p lb w -> exists evs, ra_log p lb (w_st w) evs.
Proof. exact reachable_log. Qed.
Print Assumptions C114_logged.
(** The duration of an auction that waits for its first bid is told by no event. *)
Lemma duration_hidden : forall lb, exists p st st' evs k a a',
  ra_log p lb st evs /\ ra_log p lb st' evs /\ bank_denoms st /\ bank_denoms st' /\
  s_auctions st !! k = Some a /\ s_auctions st' !! k = Some a' /\ a_duration a <> a_duration a'.
Proof.
  intros lb. exists p1, (opened 3600), (opened 7200), (rst0_log ++ [(sec 1000, opened_event)]), ("coll1", "1"), (fresh_auction 3600), (fresh_auction 7200).
  split; [by apply opened_logged|]. split; [by apply opened_logged|]. split; [apply opened_denoms|]. split; [apply opened_denoms|].
  split; [by vm_compute|]. split; [by vm_compute|]. done.
Qed.
Theorem C114_duration_told_refuted : forall lb, exists p st st' evs k a a',
  ra_log p lb st evs /\ ra_log p lb st' evs /\ bank_denoms st /\ bank_denoms st' /\
  s_auctions st !! k = Some a /\ s_auctions st' !! k = Some a' /\ a_duration a <> a_duration a'.
Proof. exact duration_hidden. Qed.
Print Assumptions C114_duration_told_refuted.
(** Neither is the longest allowed duration. *)
Lemma max_duration_hidden : forall lb, exists p st st' evs,
  ra_log p lb st evs /\ ra_log p lb st' evs /\ cf_max_duration (s_config st) <> cf_max_duration (s_config st').
Proof.
  intros lb. exists p1, rst0, (State cfg1' {[ "ustars" := 50 ]} (HaltManager 0 []) ∅), rst0_log.
  split; [apply rst0_logged|]. split; [apply (LogStart p1 lb cfg1' [us 50]); by vm_compute|]. done.
Qed.
Theorem C114_max_duration_told_refuted : forall lb, exists p st st' evs,
  ra_log p lb st evs /\ ra_log p lb st' evs /\ cf_max_duration (s_config st) <> cf_max_duration (s_config st').
Proof. exact max_duration_hidden. Qed.
Print Assumptions C114_max_duration_told_refuted.
Example C114_case : forall lb,
  ra_log p1 lb (opened 3600) (rst0_log ++ [(sec 1000, opened_event)]) /\ bank_denoms (opened 3600) /\
  ix_auctions (truth (w_st (rw1 lb))) !! ("coll1", "1") =
    Some (Row "alice" "100ustars" None (Some ("carol", "105ustars")) (Some "4600.000000000") (Some "1000.000000000")) /\
  ix_config (truth (w_st (rw1 lb))) = ["fairb"; "0.02"; "0.05"; "60"; "900"; "10ustars"; "10"; "1200"; "600"; "3600"] /\
  ix_mins (truth (w_st (rw1 lb))) !! "ustars" = Some "50" /\
  exists evs, ra_log p1 lb (w_st (rw1 lb)) evs.
Proof.
  intros lb. split; [by apply opened_logged|]. split; [apply opened_denoms|]. do 3 (split; [by vm_compute|]).
  apply reachable_log, rw1_reachable.
Qed.

(** * C115: settlements, postponements and bids are reported as they happen. *)
Theorem C115_settle_told : forall p lb st v e sender funds coll tok st' msgs,
  ra_history p lb st -> execute p lb v e sender funds st (SettleAuction coll tok) = Ok (st', msgs) ->
  told st st' msgs (call_events e sender funds st (SettleAuction coll tok)).
Proof. exact settle_told. Qed.
Print Assumptions C115_settle_told.
Theorem C115_end_block_told : forall p lb st v e st' msgs,
  ra_history p lb st -> sudo p lb v e st EndBlock = Ok (st', msgs) -> told st st' msgs (sudo_events e st EndBlock).
Proof. exact end_block_told. Qed.
Print Assumptions C115_end_block_told.
Theorem C115_bid_told : forall p lb st v e sender funds coll tok st' msgs,
  ra_history p lb st -> execute p lb v e sender funds st (PlaceBid coll tok) = Ok (st', msgs) ->
  exists a a' hb t, s_auctions st !! (coll, tok) = Some a /\ s_auctions st' !! (coll, tok) = Some a' /\
    a_high a' = Some hb /\ a_end a' = Some t /\ hb_bidder hb = sender /\ funds = [hb_coin hb] /\
    call_events e sender funds st (PlaceBid coll tok) = [bid_report a hb t] /\ sends msgs = told_refund (bid_report a hb t).
Proof. exact bid_told. Qed.
Print Assumptions C115_bid_told.
(** A halt is reported exactly when a window is recorded, with its two ends. *)
Lemma halt_told p lb st v e st' msgs : sudo p lb v e st BeginBlock = Ok (st', msgs) ->
  (exists w, hm_windows (s_halt st') = hm_windows (s_halt st) ++ [w] /\
     sudo_events e st BeginBlock =
       [Event "wasm" [("start_time", pretty (hw_start w)); ("end_time", pretty (hw_end w))]; Event "halt-detected" []]) \/
  (hm_windows (s_halt st') = hm_windows (s_halt st) /\ sudo_events e st BeginBlock = []).
Proof.
  cbn [sudo sudo_events]. unfold sudo_begin_block, begin_block_events. intros H. apply bind_Ok in H as (u&_&H).
  apply bind_Ok in H as (ws&Hw&H). injection H as <- <-. cbn [set_halt s_halt hm_windows].
  destruct (_ && _); [left|right].
  - apply bind_Ok in Hw as (t&Ht&Hw). injection Hw as <-. unfold add64 in Ht. destruct (_ <=? _); [|done]. injection Ht as <-. eexists. split; [reflexivity|]. done.
  - by injection Hw as <-.
Qed.
Theorem C115_halt_told : forall p lb st v e st' msgs, sudo p lb v e st BeginBlock = Ok (st', msgs) ->
  (exists w, hm_windows (s_halt st') = hm_windows (s_halt st) ++ [w] /\
     sudo_events e st BeginBlock =
       [Event "wasm" [("start_time", pretty (hw_start w)); ("end_time", pretty (hw_end w))]; Event "halt-detected" []]) \/
  (hm_windows (s_halt st') = hm_windows (s_halt st) /\ sudo_events e st BeginBlock = []).
Proof. exact halt_told. Qed.
Print Assumptions C115_halt_told.
(** No block for an hour: the window ends ten minutes after the block that notices it. *)
Example C115_halt_case :
  let st := set_halt (w_st (rw1 lib1)) (HaltManager 1000 []) in let e := Env 11 (sec 4600) in
  is_ok (sudo p1 lib1 (view_of p1 (rw1 lib1)) e st BeginBlock) = true /\
  sudo_events e st BeginBlock = [Event "wasm" [("start_time", "1000"); ("end_time", "5200")]; Event "halt-detected" []] /\
  sudo_events (Env 11 (sec 1300)) st BeginBlock = [].
Proof. by vm_compute. Qed.
(** Times and decimals can be read back. *)
Theorem C115_texts : (forall s t, time_text s = time_text t -> s = t) /\ (forall s t, dec_text s = dec_text t -> s = t).
Proof. exact (conj time_text_inj dec_text_inj). Qed.
Print Assumptions C115_texts.
(** The story goes on: at 4600 s the end blocker sells to carol; in the other world bobby bids again instead. *)
Example C115_case :
  let st := w_st (rw1 lib1) in
  let e := Env 11 (sec 4600) in let v := view_of p1 (rw1 lib1) in
  ra_history p1 lib1 st /\
  is_ok (sudo p1 lib1 v e st EndBlock) = true /\
  sudo_events e st EndBlock =
    [Event "sudo-end-block" [("action", "settle-auctions")];
     Event "settle-auction" [("collection", "coll1"); ("token_id", "1"); ("seller", "alice"); ("bidder", "carol");
                             ("bid_amount", "105"); ("bid_denom", "ustars")]] /\
  is_ok (execute p1 lib1 v e "david" [] st (SettleAuction "coll1" "1")) = true /\
  is_ok (execute p1 lib1 v (Env 11 (sec 4000)) "bobby" [us 200] st (PlaceBid "coll1" "1")) = true /\
  call_events (Env 11 (sec 4000)) "bobby" [us 200] st (PlaceBid "coll1" "1") =
    [Event "place-bid" [("collection", "coll1"); ("token_id", "1"); ("seller", "alice"); ("bidder", "bobby");
                        ("bid_amount", "200ustars"); ("first_bid", "false"); ("auction_end_time", "4900.000000000");
                        ("previous_bidder", "carol"); ("previous_bid_amount", "105ustars")]] /\
  time_text 1060300000000 = "1060.300000000" /\ dec_text 1500000000000000000 = "1.5".
Proof.
  cbv zeta. split; [apply ra_reachable_history, rw1_reachable|]. by vm_compute.
Qed.
