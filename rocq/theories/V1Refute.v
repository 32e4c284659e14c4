(** Claims about marketplace v1 that are false, with their witnesses. *)
From stdpp Require Import relations pretty.
From Verif Require Import Base BaseFacts Common Chain ChainFacts IndexRange QuerySpec V1Model V1Spec V1Facts V1Inv V1Reach
  V1Hooks V1Live V1Query V1More V1Examples.

Ltac reached := match goal with |- v1_reachable _ _ (after ?x ?w ?l) =>
  refine (after_reachable x w l _ _); [first [apply vw0_reachable|apply vw1_reachable]|by vm_compute] end.

(** ** BuyNow may leave a resting bid instead of buying *)
Lemma buy_now_rests x : exists w w' coll tok ex bps b, v1_reachable p1 x w /\
  texec p1 (execute p1 x) "carol" [us 900] (BuyNow coll tok ex None bps) w w' /\
  s_bids (w_st w') !! (coll, tok, "carol") = Some b /\ w_nft w' coll (pretty tok) <> Some "carol".
Proof.
  exists (vw1 x), (after x (vw1 x) [Tx "carol" [us 900] (BuyNow "coll1" 1 (sec 2500) None None)]), "coll1", 1, (sec 2500), None,
    (Bid "coll1" 1 "carol" 900 None (sec 2500)).
  split; [apply vw1_reachable|]. split; [apply after_texec; by vm_compute|]. split; [by vm_compute|by vm_compute].
Qed.

(** ** Prices above the maximum *)
Definition dear : list act := [Tx "alice" [] (UpdateAskPrice "coll1" 1 (us 200000000000000))].
Lemma dear_ask x : exists w k a, v1_reachable p1 x w /\ s_asks (w_st w) !! k = Some a /\ 100000000000000 < k_price a.
Proof.
  exists (after x (vw1 x) dear), ("coll1", 1), (Ask FixedPrice "coll1" 1 "alice" 200000000000000 None None (Some 100) (sec 2000) true).
  split; [reached|]. split; by vm_compute.
Qed.

(** ** Token 0 is on no page of the Asks query *)
Section Zero.
Context (p : params) (st : state) (Hwf : wf p st).
Lemma asks_no_zero coll inactive start limit rows a : query_asks p st coll inactive start limit = Ok rows -> a ∈ rows -> 0 < k_tok a.
Proof.
  unfold query_asks. intros (c&Hc&H)%bind_Ok Ha. apply addr_validate_Ok in Hc as [-> _]. injection H as <-.
  apply elem_of_list_fmap in Ha as ([k y]&->&Hu). apply elem_of_take in Hu as (i&Hu&_). apply elem_of_list_lookup_2 in Hu.
  apply IndexWalk.elem_filter in Hu as [Hu _]. apply IndexFacts.index_scan_elem in Hu as [Hu Hb].
  apply (IndexWalk.in_range_bounds ask_leb fst _ (lin_before _ _ linear_ask)) in Hb. unfold in_range, asc in Hb. cbn in Hb. destruct Hb as [Hb _].
  apply entries_elem in Hu as [Hu Hs]. cbn in Hu, Hs. apply coll_is_spec in Hs. apply (ask_pk p st Hwf) in Hu. cbn in Hb. rewrite Hu in Hb. unfold lex_before in Hb. cbn in Hb.
  rewrite Hs in Hb. destruct Hb as [Hb|[_ Hb]]; [by apply coll_irrefl in Hb|]. cbn. lia.
Qed.
End Zero.
Definition list_zero : list act := [Tx "alice" [us 10] (SetAsk FixedPrice "coll1" 0 (us 300) None None None (sec 2000))].
Definition ask0 : ask := Ask FixedPrice "coll1" 0 "alice" 300 None None None (sec 2000) true.
Lemma asks_hide_zero x : exists w a, v1_reachable p1 x w /\ listed (w_st w) a /\ k_active a = true /\
  forall start limit rows, query_asks p1 (w_st w) (k_coll a) None start limit = Ok rows -> a ∉ rows.
Proof.
  exists (after x (vw1 x) list_zero), ask0. assert (v1_reachable p1 x (after x (vw1 x) list_zero)) as Hr by reached.
  split; [done|]. split; [by vm_compute|]. split; [done|]. intros start limit rows H Ha.
  pose proof (asks_no_zero p1 _ (reachable_wf _ _ _ Hr) _ _ _ _ _ _ H Ha). done.
Qed.
Lemma reverse_asks_blank x : exists w a, v1_reachable p1 x w /\ listed (w_st w) a /\ k_active a = true /\
  forall limit, query_asks p1 (w_st w) (k_coll a) None None None <> Ok [] /\ reverse_query_asks p1 (w_st w) (k_coll a) None None limit = Ok [].
Proof.
  exists (vw1 x), ask1. split; [apply vw1_reachable|]. split; [apply vw1_ask1|]. split; [done|]. intros limit. split; [by vm_compute|].
  destruct (reverse_query_asks p1 (w_st (vw1 x)) (k_coll ask1) None None limit) as [rows|er] eqn:E.
  - apply (reverse_asks_empty p1 _ (reachable_wf _ _ _ (vw1_reachable x))) in E. by subst.
  - exfalso. unfold reverse_query_asks in E. cbn [k_coll ask1] in E. rewrite (valid_ok p1 "coll1") in E by done. by rewrite bind_ok in E.
Qed.

(** ** UpdateParams ignores the operators *)
Definition new_operators : params_update := ParamsUpdate None None None (Some ["carol"]) None None None None None.
Lemma operators_ignored x : exists w st', v1_reachable p1 x w /\ sudo p1 (view_of p1 w) (env_of w) (w_st w) (UpdateParams new_operators) = Ok (st', []) /\
  ~ operator st' "carol" /\ operator st' "opera".
Proof.
  exists (vw1 x), (w_st (after x (vw1 x) [Sudo (UpdateParams new_operators)])). split; [apply vw1_reachable|].
  split; [by vm_compute|]. unfold operator.
  assert (sp_operators (s_params (w_st (after x (vw1 x) [Sudo (UpdateParams new_operators)]))) = ["admin"; "opera"]) as -> by (by vm_compute).
  rewrite !elem_of_cons, elem_of_nil. naive_solver.
Qed.

(** ** Asks survive the sale of the NFT elsewhere, and the new owner may change their price *)
(** alice approves the marketplace for all NFTs and gives NFT 1 to bobby, who changes the price of alice's ask and gives the
    NFT back. *)
Definition leave : list act := [ApproveAll "coll1" "alice" "marke"; Give "coll1" "1" "alice" "bobby"].
Definition reprice : msg := UpdateAskPrice "coll1" 1 (us 100).
Definition back : list act := [Give "coll1" "1" "bobby" "alice"].
Definition buy100 : msg := BuyNow "coll1" 1 (sec 2500) None None.
Definition ask100 : ask := Ask FixedPrice "coll1" 1 "alice" 100 None None (Some 100) (sec 2000) true.
Definition ww1 (x : ext) : world state := after x (vw1 x) leave.
Definition ww2 (x : ext) : world state := after x (ww1 x) [Tx "bobby" [] reprice].
Definition ww3 (x : ext) : world state := after x (ww2 x) back.
Lemma ww1_reachable x : v1_reachable p1 x (ww1 x).
Proof. refine (after_reachable x (vw1 x) leave (vw1_reachable x) _). by vm_compute. Qed.
Lemma ww2_reachable x : v1_reachable p1 x (ww2 x).
Proof. refine (after_reachable x (ww1 x) [Tx "bobby" [] reprice] (ww1_reachable x) _). by vm_compute. Qed.
Lemma foreign_price x : exists w w' w1 w2 a,
  v1_reachable p1 x w /\ texec p1 (execute p1 x) "bobby" [] reprice w w' /\
  listed (w_st w') a /\ k_seller a = "alice" /\ s_asks (w_st w) !! (k_coll a, k_tok a) <> Some a /\
  rtc (v1_step p1 x) w' w1 /\ w_nft w1 "coll1" "1" = Some "alice" /\
  texec p1 (execute p1 x) "carol" [us 100] buy100 w1 w2 /\ w_nft w2 "coll1" "1" = Some "carol".
Proof.
  exists (ww1 x), (ww2 x), (ww3 x), (after x (ww3 x) [Tx "carol" [us 100] buy100]), ask100.
  split; [apply ww1_reachable|]. split; [refine (after_texec x (ww1 x) _ _ _ _); by vm_compute|].
  split; [by vm_compute|]. split; [done|]. split; [by vm_compute|].
  split; [refine (run_acts_steps p1 x (ww2 x) back _ _); refine (after_ok x (ww2 x) back _); by vm_compute|].
  split; [by vm_compute|]. split; [refine (after_texec x (ww3 x) _ _ _ _); by vm_compute|by vm_compute].
Qed.
(** The same without any call to the marketplace in between: the old ask works again. *)
Lemma stale_ask_revives x : exists w w1 w2, v1_reachable p1 x w /\ listed (w_st w) ask1 /\ w_nft w "coll1" "1" = Some "bobby" /\
  rtc (env_step p1) w w1 /\ w_nft w1 "coll1" "1" = Some "alice" /\
  texec p1 (execute p1 x) "carol" [us 1000] buy100 w1 w2 /\ w_nft w2 "coll1" "1" = Some "carol".
Proof.
  exists (ww1 x), (nft_transfer (ww1 x) "coll1" "1" "alice"), (after x (nft_transfer (ww1 x) "coll1" "1" "alice") [Tx "carol" [us 1000] buy100]).
  split; [apply ww1_reachable|]. split; [by vm_compute|]. split; [by vm_compute|].
  split; [|split; [by vm_compute|split; [refine (after_texec x _ _ _ _ _); by vm_compute|by vm_compute]]].
  apply rtc_once. refine (ES_transfer p1 (ww1 x) "coll1" "1" "bobby" "alice" _ _); [done|by vm_compute].
Qed.

(** ** Stale bids that no operator can remove *)
Definition small_bid : list act := [Tx "carol" [us 19] (SetBid "coll2" 7 (sec 2000) None None); At (sec 5000)].
Lemma cannot_clean x : exists w b, v1_reachable p1 x w /\ bidding (w_st w) b /\ operator (w_st w) "opera" /\
  stale (w_st w) (w_time w) (b_expires b) /\ p_blocked p1 (b_bidder b) = false /\
  forall op f w', ~ texec p1 (execute p1 x) op f (RemoveStaleBid (b_coll b) (b_tok b) (b_bidder b)) w w'.
Proof.
  exists (after x (vw1 x) small_bid), (Bid "coll2" 7 "carol" 19 None (sec 2000)).
  assert (v1_reachable p1 x (after x (vw1 x) small_bid)) as Hr by reached.
  split; [done|]. split; [by vm_compute|]. split.
  { unfold operator. assert (sp_operators (s_params (w_st (after x (vw1 x) small_bid))) = ["admin"; "opera"]) as -> by (by vm_compute). right. by left. }
  split. { exists 600. split; by vm_compute. }
  split; [done|]. intros op f w' H. destruct (clean_world p1 x _ _ _ _ _ _ _ H Hr) as (_&_&b&w1&Hb&_&Hrw&_).
  assert (s_bids (w_st (after x (vw1 x) small_bid)) !! ("coll2", 7, "carol") = Some (Bid "coll2" 7 "carol" 19 None (sec 2000))) as E by (by vm_compute).
  cbn [b_coll b_tok b_bidder] in Hb. assert (b = Bid "coll2" 7 "carol" 19 None (sec 2000)) as -> by congruence.
  assert (sp_reward (s_params (w_st (after x (vw1 x) small_bid))) = 5000000000000000000) as Es by (by vm_compute).
  rewrite Es in Hrw. destruct Hrw as [Hrw _]. clear -Hrw. vm_compute in Hrw. discriminate Hrw.
Qed.

(** ** Listings *)
Lemma collections_repeat x : exists w rows, v1_reachable p1 x w /\ query_collections p1 (w_st w) None None = Ok rows /\ ~ NoDup rows.
Proof.
  exists (vw1 x), ["coll1"; "coll1"; "coll1"]. split; [apply vw1_reachable|]. split; [by vm_compute|].
  intros [Hn _]%NoDup_cons. apply Hn. by left.
Qed.
(** The second page of the bids on an NFT is empty. *)
Definition three_bids : list act := [
  Tx "bobby" [us 20] (SetBid "coll2" 1 (sec 2500) None None); Tx "carol" [us 30] (SetBid "coll2" 1 (sec 2500) None None);
  Tx "daver" [us 40] (SetBid "coll2" 1 (sec 2500) None None)].
Lemma bids_stop x : exists w b1 b2, v1_reachable p1 x w /\ query_bids p1 (w_st w) "coll2" 1 None (Some 1) = Ok [b1] /\
  bidding (w_st w) b2 /\ b_coll b2 = "coll2" /\ b_tok b2 = 1 /\ b2 <> b1 /\ bytes_before (b_bidder b1) (b_bidder b2) /\
  query_bids p1 (w_st w) "coll2" 1 (Some (b_bidder b1)) (Some 1) = Ok [].
Proof.
  exists (after x (vw1 x) three_bids), (Bid "coll2" 1 "bobby" 20 None (sec 2500)), (Bid "coll2" 1 "carol" 30 None (sec 2500)).
  split; [reached|]. split; [by vm_compute|]. split; [by vm_compute|]. split; [done|]. split; [done|]. split; [done|]. split; [done|by vm_compute].
Qed.
(** Reading the bids by expiry starts again when the bid of the offset is gone. *)
Definition bobby_bids : list act := [
  Tx "bobby" [us 20] (SetBid "coll2" 1 (sec 2501) None None); Tx "bobby" [us 30] (SetBid "coll2" 2 (sec 2502) None None);
  Tx "bobby" [us 40] (SetBid "coll2" 3 (sec 2503) None None)].
Lemma expiry_restarts x : exists w w' b0 b1 b2, v1_reachable p1 x w /\
  query_bids_by_bidder_sorted_by_expiry p1 (w_st w) "bobby" None (Some 2) = Ok [b0; b1] /\
  texec p1 (execute p1 x) "bobby" [] (RemoveBid (b_coll b1) (b_tok b1)) w w' /\
  query_bids_by_bidder_sorted_by_expiry p1 (w_st w') "bobby" (Some (b_coll b1, b_tok b1)) (Some 2) = Ok [b0; b2].
Proof.
  exists (after x (vw1 x) bobby_bids), (after x (after x (vw1 x) bobby_bids) [Tx "bobby" [] (RemoveBid "coll2" 1)]),
    bid1, (Bid "coll2" 1 "bobby" 20 None (sec 2501)), (Bid "coll2" 2 "bobby" 30 None (sec 2502)).
  split; [reached|]. split; [by vm_compute|]. split; [refine (after_texec x _ _ _ _ _); by vm_compute|by vm_compute].
Qed.

(** ** Sales with a network fee of zero, when the chain refuses to burn nothing *)
Definition cheap_ask : list act := [Tx "alice" [us 10] (SetAsk FixedPrice "coll2" 1 (us 40) None None None (sec 2000))].
Lemma cheap_sale_fails : exists w d, v1_reachable p1 (Ext false) w /\
  closes (view_of p1 w) (env_of w) "carol" [us 40] (w_st w) (BuyNow "coll2" 1 (sec 2500) None None) d /\
  can_transfer w "coll2" "1" "marke" = true /\
  forall w', ~ texec p1 (execute p1 (Ext false)) "carol" [us 40] (BuyNow "coll2" 1 (sec 2500) None None) w w'.
Proof.
  set (x := Ext false). exists (after x (vw1 x) cheap_ask), (Deal "coll2" 1 40 "alice" "alice" "carol" "carol" None None).
  assert (v1_reachable p1 x (after x (vw1 x) cheap_ask)) as Hr by reached.
  assert (closes (view_of p1 (after x (vw1 x) cheap_ask)) (env_of (after x (vw1 x) cheap_ask)) "carol" [us 40] (w_st (after x (vw1 x) cheap_ask))
            (BuyNow "coll2" 1 (sec 2500) None None) (Deal "coll2" 1 40 "alice" "alice" "carol" "carol" None None)) as Hc.
  { refine (closes_ask _ _ "carol" [us 40] _ (BuyNow "coll2" 1 (sec 2500) None None) (BidArgs "coll2" 1 (sec 2500) None None None true)
      (Ask FixedPrice "coll2" 1 "alice" 40 None None None (sec 2000) true) _ _ _ _ _ _ _ _ _); try done; by vm_compute. }
  split; [done|]. split; [done|]. split; [by vm_compute|]. intros w' H.
  assert (o_info (w_ora (after x (vw1 x) cheap_ask)) "coll2" = Some (CollectionInfo None None)) as Hi by (by vm_compute).
  pose proof (zero_fee_blocks p1 x _ _ _ _ _ _ _ Hr H Hc Hi eq_refl) as Hpos. clear -Hpos. vm_compute in Hpos. discriminate Hpos.
Qed.
