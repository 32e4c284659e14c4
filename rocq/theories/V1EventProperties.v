(** The events of marketplace v1 (C116 and C117 of properties.jsonl).  Each theorem is closed by a lemma proved elsewhere; what
    it rests on is printed beneath it, and an example shows a concrete case meeting its hypotheses. *)
From stdpp Require Import relations pretty.
From Verif Require Import Base BaseFacts Common Chain ChainFacts IndexRange V1Model V1Spec V1Facts V1Inv V1Reach V1Exact V1Examples
  Events EventFacts V1Events V1EventSpec V1EventFacts.

(** alice lists an NFT on the fresh contract, or bobby bids for it. *)
Definition view0 : view := view_of p1 vw0.
Definition env0 : env := env_of vw0.
Definition list_msg (to : option addr) (bps : option N) : msg := SetAsk FixedPrice "coll1" 1 (us 1000) to None bps (sec 2000).
Definition listed (to : option addr) (bps : option N) : state :=
  store_ask vst0 (Ask FixedPrice "coll1" 1 "alice" 1000 to None bps (sec 2000) true).
Definition listed_event : event :=
  Event "set-ask" [("collection", "coll1"); ("token_id", "1"); ("sale_type", "fixed_price"); ("seller", "alice"); ("price", "1000ustars");
                   ("expires", "2000.000000000")].
Lemma listed_logged x to bps :
  (to, bps) ∈ [(None, None); (Some "treas", None); (None, Some 100)] -> v1_log p1 x vst0 (listed to bps) [[listed_event]].
Proof.
  intros H. apply (LogCall p1 x vst0 vst0 [] view0 env0 "alice" [us 10] (list_msg to bps) (listed to bps) [MFairBurn (us 10)] FixedPrice); [apply LogStart|done|].
  repeat (apply elem_of_cons in H as [H|H]; [injection H as -> ->; by vm_compute|]). by apply elem_of_nil in H.
Qed.
Definition bid_msg (bps : option N) : msg := SetBid "coll1" 1 (sec 2500) None bps.
Definition bidden (bps : option N) : state := store_bid vst0 (Bid "coll1" 1 "bobby" 900 bps (sec 2500)).
Definition bidden_event : event :=
  Event "set-bid" [("collection", "coll1"); ("sale_type", "auction"); ("token_id", "1"); ("bidder", "bobby"); ("bid_price", "900");
                   ("expires", "2500.000000000")].
Lemma bidden_logged x bps : bps ∈ [None; Some 50] -> v1_log p1 x vst0 (bidden bps) [[bidden_event]].
Proof.
  intros H. apply (LogCall p1 x vst0 vst0 [] view0 env0 "bobby" [us 900] (bid_msg bps) (bidden bps) [] Auction); [apply LogStart|done|].
  repeat (apply elem_of_cons in H as [H|H]; [subst bps; by vm_compute|]). by apply elem_of_nil in H.
Qed.
Lemma vst0_ok : instantiate p1 config1 = Ok vst0.
Proof. by vm_compute. Qed.
Lemma vst0_history x : v1_history p1 x vst0.
Proof. exists config1, vst0. split; [exact vst0_ok|apply rtc_refl]. Qed.

(** * C116: orders, operators and hooks can be rebuilt from the events, except for recipients, finder's fees and parameters. *)
Theorem C116_observer : forall p x st0 st log, v1_history p x st0 -> v1_log p x st0 st log -> observe (truth st0) log = truth st.
Proof. exact observe_log. Qed.
Print Assumptions C116_observer.
(** Where to start is known from the instantiation message: its operators, sorted and without repetition, and its hook. *)
Theorem C116_start : forall p m st0, instantiate p m = Ok st0 -> exists ops,
  StronglySorted bytes_before ops /\ (forall a, a ∈ ops <-> a ∈ im_operators m) /\
  truth st0 = Index ∅ ∅ ∅ ops [] [] (option_list (im_sale_hook m)).
Proof. exact truth_start. Qed.
Print Assumptions C116_start.
Theorem C116_logged : forall p x w, v1_reachable p x w -> exists m st0 log, instantiate p m = Ok st0 /\ v1_log p x st0 (w_st w) log.
Proof. exact reachable_log. Qed.
Print Assumptions C116_logged.
(** Storages with the same events since the same start hold the same orders, operators and hooks, up to the recipients of
    funds and the finder's fees. *)
Theorem C116_events_decide_partial : forall p x st0 st0' st st' log, v1_history p x st0 -> v1_history p x st0' ->
  truth st0 = truth st0' -> v1_log p x st0 st log -> v1_log p x st0' st' log -> same_book st st'.
Proof. exact log_book. Qed.
Print Assumptions C116_events_decide_partial.
(** Where the proceeds of an ask go, and what its finder gets, are told by no event. *)
Lemma ask_hidden : forall x, exists p st0 st1 st2 st3 log k a1 a2 a3, v1_history p x st0 /\
  v1_log p x st0 st1 log /\ v1_log p x st0 st2 log /\ v1_log p x st0 st3 log /\
  s_asks st1 !! k = Some a1 /\ s_asks st2 !! k = Some a2 /\ s_asks st3 !! k = Some a3 /\
  k_recipient a1 <> k_recipient a2 /\ k_finders a1 <> k_finders a3.
Proof.
  intros x. exists p1, vst0, (listed None None), (listed (Some "treas") None), (listed None (Some 100)), [[listed_event]], ("coll1", 1).
  eexists _, _, _. split; [apply vst0_history|]. split; [apply listed_logged; by left|]. split; [apply listed_logged; right; by left|].
  split; [apply listed_logged; right; right; by left|]. split; [apply lookup_insert|]. split; [apply lookup_insert|]. split; [apply lookup_insert|]. done.
Qed.
Theorem C116_ask_told_refuted : forall x, exists p st0 st1 st2 st3 log k a1 a2 a3, v1_history p x st0 /\
  v1_log p x st0 st1 log /\ v1_log p x st0 st2 log /\ v1_log p x st0 st3 log /\
  s_asks st1 !! k = Some a1 /\ s_asks st2 !! k = Some a2 /\ s_asks st3 !! k = Some a3 /\
  k_recipient a1 <> k_recipient a2 /\ k_finders a1 <> k_finders a3.
Proof. exact ask_hidden. Qed.
Print Assumptions C116_ask_told_refuted.
(** Neither is the finder's fee of a bid. *)
Lemma bid_hidden : forall x, exists p st0 st1 st2 log k b1 b2, v1_history p x st0 /\
  v1_log p x st0 st1 log /\ v1_log p x st0 st2 log /\ s_bids st1 !! k = Some b1 /\ s_bids st2 !! k = Some b2 /\ b_finders b1 <> b_finders b2.
Proof.
  intros x. exists p1, vst0, (bidden None), (bidden (Some 50)), [[bidden_event]], ("coll1", 1, "bobby"). eexists _, _.
  split; [apply vst0_history|]. split; [apply bidden_logged; by left|]. split; [apply bidden_logged; right; by left|].
  split; [apply lookup_insert|]. split; [apply lookup_insert|]. done.
Qed.
Theorem C116_bid_told_refuted : forall x, exists p st0 st1 st2 log k b1 b2, v1_history p x st0 /\
  v1_log p x st0 st1 log /\ v1_log p x st0 st2 log /\ s_bids st1 !! k = Some b1 /\ s_bids st2 !! k = Some b2 /\ b_finders b1 <> b_finders b2.
Proof. exact bid_hidden. Qed.
Print Assumptions C116_bid_told_refuted.
(** Changes of the parameters are announced but not told. *)
Definition fee_update (bps : N) : params_update := ParamsUpdate (Some bps) None None None None None None None None.
Lemma fee_hidden : forall x, exists p st0 st1 st2 log, v1_history p x st0 /\
  v1_log p x st0 st1 log /\ v1_log p x st0 st2 log /\ sp_trading_fee (s_params st1) <> sp_trading_fee (s_params st2).
Proof.
  intros x.
  assert (forall bps, bps ∈ [100; 10000] -> exists st, sudo p1 view0 env0 vst0 (UpdateParams (fee_update bps)) = Ok (st, []) /\
            sp_trading_fee (s_params st) = bps * 10 ^ 16) as H.
  { intros bps H. repeat (apply elem_of_cons in H as [->|H]; [eexists; split; [vm_compute; reflexivity|by vm_compute]|]). by apply elem_of_nil in H. }
  destruct (H 100) as (st1&H1&E1); [by left|]. destruct (H 10000) as (st2&H2&E2); [right; by left|].
  exists p1, vst0, st1, st2, ([] ++ [sudo_events (UpdateParams (fee_update 100))]). split; [apply vst0_history|].
  split; [eapply LogSudo; [apply LogStart|exact H1]|]. split; [|rewrite E1, E2; done].
  change (sudo_events (UpdateParams (fee_update 100))) with (sudo_events (UpdateParams (fee_update 10000))).
  eapply LogSudo; [apply LogStart|exact H2].
Qed.
Theorem C116_parameters_told_refuted : forall x, exists p st0 st1 st2 log, v1_history p x st0 /\
  v1_log p x st0 st1 log /\ v1_log p x st0 st2 log /\ sp_trading_fee (s_params st1) <> sp_trading_fee (s_params st2).
Proof. exact fee_hidden. Qed.
Print Assumptions C116_parameters_told_refuted.
(** A set-bid event does not mean that a bid rests: a purchase ends with one too. *)
Definition buy0 : msg := BuyNow "coll1" 1 (sec 2500) (Some "finde") None.
Definition now1 (x : ext) (s : addr) (f : list coin) (ty : sale_type) (m : msg) : list event :=
  call_events p1 (view_of p1 (vw1 x)) (env_of (vw1 x)) s f (w_st (vw1 x)) ty m.
Local Notation does1 x s f m := (execute p1 x (view_of p1 (vw1 x)) (env_of (vw1 x)) s f (w_st (vw1 x)) m).
Lemma phantom_bid : forall x, exists p v e s f st ty m st' msgs ev coll tok, v1_history p x st /\
  execute p x v e s f st m = Ok (st', msgs) /\ ev ∈ call_events p v e s f st ty m /\ ev_type ev = "set-bid" /\
  field "collection" (ev_attrs ev) = Some coll /\ field "token_id" (ev_attrs ev) = Some (pretty tok) /\ field "bidder" (ev_attrs ev) = Some s /\
  s_bids st' !! (coll, tok, s) = None.
Proof.
  intros x. assert (is_ok (does1 x "carol" [us 1000] buy0) = true) as (st'&msgs&H)%ok_pair by (by vm_compute).
  exists p1, (view_of p1 (vw1 x)), (env_of (vw1 x)), "carol", [us 1000], (w_st (vw1 x)), FixedPrice, buy0, st', msgs.
  exists (Event "set-bid" [("collection", "coll1"); ("sale_type", "fixed_price"); ("token_id", "1"); ("bidder", "carol");
                           ("bid_price", "1000"); ("expires", "2500.000000000")]), "coll1", 1.
  split; [apply vw1_history|]. split; [exact H|]. split.
  { apply elem_of_list_In. vm_compute. by right; right; left. }
  do 4 (split; [done|]).
  assert (match does1 x "carol" [us 1000] buy0 with Ok (st1, _) => s_bids st1 !! ("coll1", 1, "carol") | _ => Some bid1 end = None) as E by (by vm_compute).
  by rewrite H in E.
Qed.
Theorem C116_set_bid_rests_refuted : forall x, exists p v e s f st ty m st' msgs ev coll tok, v1_history p x st /\
  execute p x v e s f st m = Ok (st', msgs) /\ ev ∈ call_events p v e s f st ty m /\ ev_type ev = "set-bid" /\
  field "collection" (ev_attrs ev) = Some coll /\ field "token_id" (ev_attrs ev) = Some (pretty tok) /\ field "bidder" (ev_attrs ev) = Some s /\
  s_bids st' !! (coll, tok, s) = None.
Proof. exact phantom_bid. Qed.
Print Assumptions C116_set_bid_rests_refuted.
Example C116_case : forall x,
  (exists m st0 log, instantiate p1 m = Ok st0 /\ v1_log p1 x st0 (w_st (vw1 x)) log) /\
  v1_log p1 x vst0 (listed None None) [[listed_event]] /\
  ix_asks (observe (truth vst0) [[listed_event]]) !! ("coll1", "1") =
    Some (Row "fixed_price" "alice" "1000ustars" None "2000.000000000" "true") /\
  ix_bids (observe (truth vst0) [[listed_event]; [bidden_event]]) !! (("coll1", "1"), "bobby") = Some ("900", "2500.000000000") /\
  ix_operators (truth vst0) = ["admin"; "opera"] /\ ix_sale_hooks (truth vst0) = ["hook1"] /\
  ix_bid_hooks (truth (w_st (vw1 x))) = ["hook2"].
Proof. intros x. split; [apply reachable_log, vw1_reachable|]. split; [apply listed_logged; by left|]. by vm_compute. Qed.

(** * C117: sales and removals are reported as they happen. *)
(** A call that moves an NFT reports the royalty that is paid, the deal with its price and parties, and the call; any other call
    has exactly one event, which is not a sale. *)
Theorem C117_sale_told : forall p x v e s f st ty m st' msgs, v1_history p x st -> execute p x v e s f st m = Ok (st', msgs) ->
  let evs := call_events p v e s f st ty m in
  sale_told x v e s f st m msgs evs \/ (~ nft_moved msgs /\ exists ev, evs = [ev] /\ ev_type ev = call_type m).
Proof. exact events_form. Qed.
Print Assumptions C117_sale_told.
(** The refund and the reward in the events of a removal are those paid; a listing is removed for the reasons given. *)
Theorem C117_removal_told : forall p x v e s f st ty m st' msgs, v1_history p x st -> execute p x v e s f st m = Ok (st', msgs) ->
  removal_told p v e s st m msgs (call_events p v e s f st ty m).
Proof. exact removal_form. Qed.
Print Assumptions C117_removal_told.
(** The sale type in a set-bid event is whatever the caller wrote: a purchase at a fixed price can be reported as an auction. *)
Lemma sale_type_free : forall x, exists p v e s f st m st' msgs a coll tok, v1_history p x st /\
  execute p x v e s f st m = Ok (st', msgs) /\ s_asks st !! (coll, tok) = Some a /\ k_type a = FixedPrice /\ nft_moved msgs /\
  forall ty, exists ev, last (call_events p v e s f st ty m) = Some ev /\ field "token_id" (ev_attrs ev) = Some (pretty tok) /\
    field "sale_type" (ev_attrs ev) = Some (sale_type_text ty).
Proof.
  intros x. assert (is_ok (does1 x "carol" [us 1000] (SetBid "coll1" 1 (sec 2500) None None)) = true) as (st'&msgs&H)%ok_pair by (by vm_compute).
  eexists p1, (view_of p1 (vw1 x)), (env_of (vw1 x)), "carol", [us 1000], (w_st (vw1 x)), _, st', msgs, ask1, "coll1", 1.
  split; [apply vw1_history|]. split; [exact H|]. split; [apply vw1_ask1|]. split; [done|]. split.
  - assert (match does1 x "carol" [us 1000] (SetBid "coll1" 1 (sec 2500) None None) with Ok (_, ms) => existsb (fun m => match m with MNft _ _ _ => true | _ => false end) ms | _ => false end = true) as E by (by vm_compute).
    rewrite H in E. apply existsb_exists in E as (mm&Hm&E). apply elem_of_list_In in Hm. clear H. destruct mm; try discriminate E. by eexists _, _, _.
  - intros ty. eexists. split; [by vm_compute|]. clear H. by destruct ty.
Qed.
Theorem C117_sale_type_told_refuted : forall x, exists p v e s f st m st' msgs a coll tok, v1_history p x st /\
  execute p x v e s f st m = Ok (st', msgs) /\ s_asks st !! (coll, tok) = Some a /\ k_type a = FixedPrice /\ nft_moved msgs /\
  forall ty, exists ev, last (call_events p v e s f st ty m) = Some ev /\ field "token_id" (ev_attrs ev) = Some (pretty tok) /\
    field "sale_type" (ev_attrs ev) = Some (sale_type_text ty).
Proof. exact sale_type_free. Qed.
Print Assumptions C117_sale_type_told_refuted.
(** A failed hook is reported under its kind, with its error. *)
Theorem C117_failed_hook_told : forall c err,
  reply (reply_id c) true = Ok tt /\
  reply_events (reply_id c) err = [Event "wasm" [("action", hook_kind c +:+ "-hook-failed"); ("error", err)]].
Proof. intros c err. by destruct c. Qed.
Print Assumptions C117_failed_hook_told.
Example C117_hook_case : hook_kind (HSale "coll1" 1 (us 1000) "alice" "carol") +:+ "-hook-failed" = "sale-hook-failed".
Proof. by vm_compute. Qed.
Example C117_case : forall x, v1_history p1 x (w_st (vw1 x)) /\
  is_ok (does1 x "carol" [us 1000] buy0) = true /\
  now1 x "carol" [us 1000] FixedPrice buy0 =
    [Event "royalty-payout" [("collection", "coll1"); ("amount", "50ustars"); ("recipient", "royal")];
     Event "finalize-sale" [("collection", "coll1"); ("token_id", "1"); ("seller", "alice"); ("buyer", "carol"); ("price", "1000");
                            ("asset_recipient", "carol")];
     Event "set-bid" [("collection", "coll1"); ("sale_type", "fixed_price"); ("token_id", "1"); ("bidder", "carol");
                      ("bid_price", "1000"); ("expires", "2500.000000000")]] /\
  is_ok (does1 x "alice" [] (RejectBid "coll1" 1 "bobby")) = true /\
  now1 x "alice" [] FixedPrice (RejectBid "coll1" 1 "bobby") =
    [Event "reject-bid" [("collection", "coll1"); ("token_id", "1"); ("bidder", "bobby"); ("price", "950")]] /\
  is_ok (execute p1 x (view_of p1 (vw1 x)) (Env 99 (sec 3100)) "opera" [] (w_st (vw1 x)) (RemoveStaleBid "coll1" 1 "bobby")) = true /\
  call_events p1 (view_of p1 (vw1 x)) (Env 99 (sec 3100)) "opera" [] (w_st (vw1 x)) FixedPrice (RemoveStaleBid "coll1" 1 "bobby") =
    [Event "remove-stale-bid" [("collection", "coll1"); ("token_id", "1"); ("bidder", "bobby"); ("operator", "opera"); ("reward", "47")]] /\
  is_ok (execute p1 x (view_of p1 (vw1 x)) (Env 99 (sec 3100)) "opera" [] (w_st (vw1 x)) (RemoveStaleAsk "coll1" 1)) = true /\
  call_events p1 (view_of p1 (vw1 x)) (Env 99 (sec 3100)) "opera" [] (w_st (vw1 x)) FixedPrice (RemoveStaleAsk "coll1" 1) =
    [Event "remove-ask" [("collection", "coll1"); ("token_id", "1"); ("operator", "opera"); ("expired", "true"); ("has_owner", "true");
                         ("has_approval", "true")]].
Proof. intros x. split; [apply vw1_history|]. by vm_compute. Qed.
