(** The events of marketplace v2 (C112 and C113 of properties.jsonl).  Each theorem is closed by a lemma proved elsewhere;
    what it rests on is printed beneath it, and an example shows a concrete case meeting its hypotheses. *)
From stdpp Require Import relations pretty.
From Verif Require Import Base BaseFacts Common Chain ChainFacts V2Model V2Spec V2Facts V2Inv V2Reach V2Book V2Examples
  Events EventFacts V2Events V2EventSpec V2EventFacts V2Properties.
From Verif Require Migrate V2More.

(** The event of the call in the examples. *)
Definition sold2_event : event :=
  Event "finalize-sale"
    [("collection", "coll1"); ("token_id", "2"); ("denom", "ustars"); ("price", "900"); ("seller_recipient", "alice");
     ("nft_recipient", "carol"); ("ask", "#coll12"); ("collection_bid", cbid_id);
     ("protocol", "18"); ("royalty", "45"); ("seller", "837")].
Lemma sold2_events : call_events p0 (view_of p0 w1) (env_of w1) "alice" st1 sell2 = [sold2_event].
Proof. by vm_compute. Qed.

(** * C112: the order book and the settings can be rebuilt from the events alone. *)
Theorem C112_observer : forall p st evs, v2_log p st evs -> observe evs = truth st.
Proof. exact observe_log. Qed.
Print Assumptions C112_observer.
(** The observer knows every order in full: storage with the same events holds the same orders and settings. *)
Theorem C112_events_decide : forall p st evs st', v2_log p st evs -> v2_log p st' evs ->
  bank_denoms st -> bank_denoms st' -> same_book st st'.
Proof. exact log_book. Qed.
Print Assumptions C112_events_decide.
(** Every reachable storage has a log. *)
Theorem C112_logged : forall p w, reachable p w -> exists evs, v2_log p (w_st w) evs.
Proof. exact reachable_log. Qed.
Print Assumptions C112_logged.
Theorem C112_history_logged : forall p n st, v2_history p n st -> exists evs, v2_log p st evs.
Proof. exact history_log. Qed.
Print Assumptions C112_history_logged.
(** Instantiation tells the name and the version that it records, and the settings. *)
Theorem C112_start_told : forall p c st, instantiate p c = Ok st ->
  instantiate_events c =
    [Event "instantiate" [("contract_name", Migrate.v2_name); ("contract_version", Migrate.v2_version)];
     Event "set-config" (zip config_keys (config_texts (s_config st)))].
Proof. intros p c st H. apply V2More.instantiate_exact in H as [_ ->]. done. Qed.
Print Assumptions C112_start_told.
Example C112_start_case : instantiate p0 cfg0 = Ok st0 /\ config_texts cfg0 = ["feemg"; "regis"; "200"; "1000"; "2000"; "3000"; "ustars"].
Proof. by vm_compute. Qed.
Example C112_case :
  (exists evs, v2_log p0 st1 evs /\ v2_log p0 (state_of sold2) (evs ++ [sold2_event])) /\ bank_denoms st1 /\
  ix_cbids (truth st1) !! cbid_id = Some (Row "carol" "coll1" None "900ustars" None None) /\
  ix_cbids (see (truth st1) sold2_event) !! cbid_id = None /\
  ix_config (truth st1) = ["feemg"; "regis"; "200"; "1000"; "2000"; "3000"; "ustars"].
Proof.
  split.
  - destruct (history_log p0 4 st1 st1_history) as [evs Hl]. exists evs. split; [exact Hl|].
    rewrite <-sold2_events. apply (LogCall p0 st1 evs (view_of p0 w1) (env_of w1) "alice" [us 5] sell2 _ (msgs_of sold2) Hl).
    + done.
    + exact sold2_ok.
  - split; [|by vm_compute]. split_and!.
    + intros i a [_ ->]%asks1. eexists _, _. split; [reflexivity|]. vm_compute. lia.
    + intros i b [_ ->]%bids1. eexists _, _. split; [reflexivity|]. vm_compute. lia.
    + intros i b [_ ->]%cbids1. eexists _, _. split; [reflexivity|]. vm_compute. lia.
Qed.

(** * C113: every successful call has exactly one event, and every sale is reported in full. *)
Theorem C113_sale_reported : forall p n st v e sender funds m st' msgs,
  v2_history p n st -> execute p v e sender funds st m = Ok (st', msgs) ->
  (exists ev, call_events p v e sender st m = [ev]) /\
  forall ev, ev ∈ call_events p v e sender st m ->
    (ev_type ev = "finalize-sale" <-> exists c t to, sells st m st' msgs c t to) /\
    (ev_type ev = "finalize-sale" -> exists a mb f, trade sender st m a mb f /\
      settles p v (s_config st) sender funds m msgs a mb f /\ takes_out st st' a mb /\
      ev = sale_report p v (s_config st) a mb f /\
      sale_payments p v (s_config st) a mb f = snd <$> named_payments p v (s_config st) a mb f).
Proof. exact history_reported. Qed.
Print Assumptions C113_sale_reported.
(** The texts of amounts and coins can be read back. *)
Theorem C113_texts : (forall m n : N, pretty m = pretty n -> m = n) /\
  (forall c d, lettered (c_denom c) -> lettered (c_denom d) -> coin_text c = coin_text d -> c = d).
Proof. exact texts_inj. Qed.
Print Assumptions C113_texts.
Example C113_case :
  v2_history p0 4 st1 /\
  execute p0 (view_of p0 w1) (env_of w1) "alice" [us 5] st1 sell2 = Ok (state_of sold2, msgs_of sold2) /\
  sells st1 sell2 (state_of sold2) (msgs_of sold2) "coll1" "2" "carol" /\
  sold2_event ∈ call_events p0 (view_of p0 w1) (env_of w1) "alice" st1 sell2 /\
  call_events p0 (view_of p0 w1) (env_of w1) "david" st1 (SetBid "coll1" "7" (Details (us 77) None (Some "findb"))) =
    [Event "set-bid" [("id", "#coll17" +:+ be8 10 +:+ be8 3); ("creator", "david"); ("collection", "coll1");
                      ("token_id", "7"); ("price", "77ustars"); ("finder", "findb")]] /\
  coin_text (us 77) = "77ustars" /\ lettered "ustars".
Proof.
  split; [exact st1_history|]. split; [exact sold2_ok|]. split; [exact sold2_sells|].
  split; [rewrite sold2_events; by left|]. split; [by vm_compute|]. split; [by vm_compute|].
  eexists _, _. split; [reflexivity|]. vm_compute. lia.
Qed.
