(** Rounding in marketplace v2 (C137 of properties.jsonl).  Each theorem is closed by a lemma proved elsewhere; what it rests on is
    printed beneath it, and an example shows a concrete case meeting its hypotheses. *)
From stdpp Require Import relations.
From Verif Require Import Base BaseFacts Common Chain ChainFacts V2Model V2Spec V2Facts V2Inv V2Reach V2Examples RoundingSpec V2Rounding.

(** * C137 *)
(** The seller of every sale gets what the rates leave of the price, short of it by less than one unit for each fee paid; there are
    one to four fees. *)
Theorem C137_v2_rounding : forall p n v e sender funds st m st' msgs c t to,
  v2_history p n st -> execute p v e sender funds st m = Ok (st', msgs) -> sells st m st' msgs c t to ->
  exists a mb f rest, trade sender st m a mb f /\ c = a_coll a /\ t = a_tok a /\ to = nft_to mb /\
    (0 < rest -> MSend (proceeds_to a) [Coin (c_denom (trade_price a mb f)) rest] ∈ msgs) /\
    0 < c_amount (trade_price a mb f) /\ 1 <= fee_count p v (s_config st) a mb f <= 4 /\
    short_by_less (10 ^ 18) (all_rates p v (s_config st) c) (c_amount (trade_price a mb f)) rest (fee_count p v (s_config st) a mb f).
Proof. exact rounding. Qed.
Print Assumptions C137_v2_rounding.
(** Of two sales under the same rates, the one at the higher price pays its seller at most three units less. *)
Theorem C137_v2_raise : forall p n v e sender funds st m st' msgs c t to n2 v2 e2 sender2 funds2 st2 m2 st2' msgs2 c2 t2 to2,
  v2_history p n st -> execute p v e sender funds st m = Ok (st', msgs) -> sells st m st' msgs c t to ->
  v2_history p n2 st2 -> execute p v2 e2 sender2 funds2 st2 m2 = Ok (st2', msgs2) -> sells st2 m2 st2' msgs2 c2 t2 to2 ->
  all_rates p v (s_config st) c = all_rates p v2 (s_config st2) c2 ->
  exists a mb f a2 mb2 f2 rest rest2, trade sender st m a mb f /\ trade sender2 st2 m2 a2 mb2 f2 /\
    (c, t, to) = (a_coll a, a_tok a, nft_to mb) /\ (c2, t2, to2) = (a_coll a2, a_tok a2, nft_to mb2) /\
    (0 < rest -> MSend (proceeds_to a) [Coin (c_denom (trade_price a mb f)) rest] ∈ msgs) /\
    (0 < rest2 -> MSend (proceeds_to a2) [Coin (c_denom (trade_price a2 mb2 f2)) rest2] ∈ msgs2) /\
    (c_amount (trade_price a mb f) <= c_amount (trade_price a2 mb2 f2) ->
     rest < rest2 + fee_count p v2 (s_config st2) a2 mb2 f2 /\ rest <= rest2 + 3).
Proof. exact raise. Qed.
Print Assumptions C137_v2_raise.

(** alice lists token 5 at [n] with the finder finda, bobby buys it with the finder findb. *)
Definition listing (n : N) : list tx := [
  ("admin", [], SetListingFee (us 5));
  ("alice", [us 5], SetAsk "coll1" "5" (Details (us n) None (Some "finda")))].
Definition buying (n : N) : msg := BuySpecificNft "coll1" "5" (Details (us n) None (Some "findb")).
Definition sale_at (n : N) : world state := after w0 (listing n ++ [("bobby", [us n], buying n)]).
Definition bought (n : N) : result (state * list cmsg) :=
  let w := after w0 (listing n) in execute p0 (view_of p0 w) (env_of w) "bobby" [us n] (w_st w) (buying n).
Lemma bought_ok n : is_ok (bought n) = true ->
  execute p0 (view_of p0 (after w0 (listing n))) (env_of (after w0 (listing n))) "bobby" [us n] (w_st (after w0 (listing n))) (buying n) =
    Ok (state_of (bought n), msgs_of (bought n)).
Proof. unfold bought. cbv zeta. destruct (execute _ _ _ _ _ _ _) as [[? ?]|]; done. Qed.
Lemma bought_sells n a : map_to_list (s_asks (w_st (after w0 (listing n)))) = [(a_id a, a)] -> map_to_list (s_asks (state_of (bought n))) = [] ->
  MNft "coll1" "5" "bobby" ∈ msgs_of (bought n) -> a_coll a = "coll1" -> a_tok a = "5" ->
  sells (w_st (after w0 (listing n))) (buying n) (state_of (bought n)) (msgs_of (bought n)) "coll1" "5" "bobby".
Proof.
  intros E E2%map_to_list_empty_iff Hin Hc Ht. split; [done|]. split; [done|]. rewrite E2. intros i [? Hi]. by rewrite lookup_empty in Hi.
Qed.
(** At 500, all four fees are whole numbers: 5, 2, 3 and 25 leave 465; at 501 they are 6, 3, 4 and 26 and leave 462. *)
Example C137_case : v2_history p0 2 (w_st (after w0 (listing 500))) /\ v2_history p0 2 (w_st (after w0 (listing 501))) /\
  sells (w_st (after w0 (listing 500))) (buying 500) (state_of (bought 500)) (msgs_of (bought 500)) "coll1" "5" "bobby" /\
  sells (w_st (after w0 (listing 501))) (buying 501) (state_of (bought 501)) (msgs_of (bought 501)) "coll1" "5" "bobby" /\
  all_rates p0 (view_of p0 (after w0 (listing 500))) cfg0 "coll1" = 70000000000000000 /\
  all_rates p0 (view_of p0 (after w0 (listing 501))) cfg0 "coll1" = 70000000000000000 /\
  msgs_of (bought 500) = [MRegInit "regis" "coll1"; MSend "feemg" [us 5]; MSend "finda" [us 2]; MSend "findb" [us 3];
    MSend "royal" [us 25]; MSend "alice" [us 465]; MNft "coll1" "5" "bobby"] /\
  msgs_of (bought 501) = [MRegInit "regis" "coll1"; MSend "feemg" [us 6]; MSend "finda" [us 3]; MSend "findb" [us 4];
    MSend "royal" [us 26]; MSend "alice" [us 462]; MNft "coll1" "5" "bobby"].
Proof.
  assert (msgs_of (bought 500) = [MRegInit "regis" "coll1"; MSend "feemg" [us 5]; MSend "finda" [us 2]; MSend "findb" [us 3];
    MSend "royal" [us 25]; MSend "alice" [us 465]; MNft "coll1" "5" "bobby"]) as M1 by (vm_compute; reflexivity).
  assert (msgs_of (bought 501) = [MRegInit "regis" "coll1"; MSend "feemg" [us 6]; MSend "finda" [us 3]; MSend "findb" [us 4];
    MSend "royal" [us 26]; MSend "alice" [us 462]; MNft "coll1" "5" "bobby"]) as M2 by (vm_compute; reflexivity).
  split; [apply (after_history (listing 500)); vm_compute; reflexivity|].
  split; [apply (after_history (listing 501)); vm_compute; reflexivity|].
  split; [apply (bought_sells 500 (Ask "#coll15" "alice" "coll1" "5" (Details (us 500) None (Some "finda"))));
    [vm_compute; reflexivity|vm_compute; reflexivity| |reflexivity|reflexivity]; rewrite M1; apply elem_of_list_In; do 6 right; left; reflexivity|].
  split; [apply (bought_sells 501 (Ask "#coll15" "alice" "coll1" "5" (Details (us 501) None (Some "finda"))));
    [vm_compute; reflexivity|vm_compute; reflexivity| |reflexivity|reflexivity]; rewrite M2; apply elem_of_list_In; do 6 right; left; reflexivity|].
  split; [vm_compute; reflexivity|]. split; [vm_compute; reflexivity|]. exact (conj M1 M2).
Qed.

Definition wfee : world state := after w0 [("admin", [], SetListingFee (us 5))].
Lemma after_all w l : is_ok (run_txs p0 (execute p0) w l) = true -> run_txs p0 (execute p0) w l = Ok (after w l).
Proof. unfold after. destruct (run_txs p0 (execute p0) w l); [reflexivity|discriminate]. Qed.
(** A higher price may pay the seller less: a sale at 501 leaves alice three units less than one at 500, all else equal. *)
Theorem C137_v2_more_pays_more_refuted : exists p w w' w'' l l' price price',
  reachable p w /\ run_txs p (execute p) w l = Ok w' /\ run_txs p (execute p) w l' = Ok w'' /\
  l = [("alice", [us 5], SetAsk "coll1" "5" (Details price None (Some "finda"))); ("bobby", [price], BuySpecificNft "coll1" "5" (Details price None (Some "findb")))] /\
  l' = [("alice", [us 5], SetAsk "coll1" "5" (Details price' None (Some "finda"))); ("bobby", [price'], BuySpecificNft "coll1" "5" (Details price' None (Some "findb")))] /\
  c_amount price < c_amount price' /\ w_bank w' "alice" "ustars" = w_bank w'' "alice" "ustars" + 3.
Proof.
  exists p0, wfee, (after wfee [("alice", [us 5], SetAsk "coll1" "5" (Details (us 500) None (Some "finda"))); ("bobby", [us 500], buying 500)]),
    (after wfee [("alice", [us 5], SetAsk "coll1" "5" (Details (us 501) None (Some "finda"))); ("bobby", [us 501], buying 501)]).
  eexists _, _, (us 500), (us 501). split; [apply (after_reachable [("admin", [], SetListingFee (us 5))]); vm_compute; reflexivity|].
  split; [|split; [|split; [reflexivity|split; [reflexivity|split; [reflexivity|vm_compute; reflexivity]]]]].
  - apply after_all. vm_compute. reflexivity.
  - apply after_all. vm_compute. reflexivity.
Qed.
Print Assumptions C137_v2_more_pays_more_refuted.
