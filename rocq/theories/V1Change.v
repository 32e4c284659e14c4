(** Replacing a bid of v1 is taking it back and placing another. *)
From stdpp Require Import relations pretty.
From Verif Require Import Base BaseFacts Common Chain V1Model V1Spec V1Facts V1Inv V1Reach V1ChangeSpec.

Section Change.
Context (p : params) (x : ext).

Lemma payout_front v st coll n to finder bps y l :
  payout x v st coll n to finder bps (y :: l) =
  match payout x v st coll n to finder bps l with Ok ms => Ok (y :: ms) | Err er => Err er end.
Proof.
  unfold payout. cbv zeta. destruct (mul_floor n _) as [fee|]; cbn; [|done]. destruct (q_info v coll) as [ci|]; [|done].
  destruct (match finder with Some _ => _ | None => _ end) as [[fm ff]|]; cbn; [|done].
  destruct (parse_royalties (ci_royalty ci)) as [[t sh]|]; repeat (first [done | match goal with |- context [(?r ≫= _)] => destruct r; cbn end]).
Qed.
Lemma payout_state v st st0 coll n to finder bps l : s_params st0 = s_params st ->
  payout x v st0 coll n to finder bps l = payout x v st coll n to finder bps l.
Proof. intros E. unfold payout. by rewrite E. Qed.

Lemma set_bid_again v e s f st coll tok old bps ex fi to now :
  s_bids st !! (coll, tok, s) = Some old ->
  execute_set_bid x v e s f st coll tok bps ex fi to now =
  preceded_by (paid_back s (b_price old)) (execute_set_bid x v e s f (remove_bid st coll tok s) coll tok bps ex fi to now).
Proof.
  intros Hb. unfold execute_set_bid.
  assert (s_bids (remove_bid st coll tok s) !! (coll, tok, s) = None) as -> by (cbn; by rewrite lookup_delete).
  rewrite Hb. cbv beta iota zeta. cbn [s_params remove_bid set_bids s_asks].
  change (finders_ok (remove_bid st coll tok s) bps) with (finders_ok st bps).
  repeat (match goal with
    | |- ((ensure ?b _) ≫= _) = _ => destruct b; cbn [ensure]
    | |- (?r ≫= _) = _ => destruct r; cbn [mbind result_bind] end; [|done]).
  destruct (s_asks st !! (coll, tok)) as [k|]; [|done]. destruct (k_type k); [|by destruct (_ ?= _)].
  destruct (_ ?= _); try done. destruct (q_owner v _ _); [|done]. destruct (ensure _ _); [|done]. cbn [mbind result_bind].
  unfold finalize_sale. unfold send at 1. fold (paid_back s (b_price old)). rewrite payout_front. by destruct (payout _ _ _ _ _ _ _ _ _).
Qed.
Lemma set_cbid_again e s f st coll old bps ex : s_cbids st !! (coll, s) = Some old -> cb_bidder old = s ->
  execute_set_collection_bid e s f st coll bps ex =
  preceded_by (paid_back s (cb_price old)) (execute_set_collection_bid e s f (remove_cbid st coll s) coll bps ex).
Proof.
  intros Hb Hs. unfold execute_set_collection_bid.
  assert (s_cbids (remove_cbid st coll s) !! (coll, s) = None) as -> by (cbn; by rewrite lookup_delete).
  rewrite Hb, Hs. cbv beta iota zeta. cbn [s_params remove_cbid set_cbids].
  change (finders_ok (remove_cbid st coll s) bps) with (finders_ok st bps).
  repeat (match goal with |- (?r ≫= _) = _ => destruct r; cbn [mbind result_bind] end; [|done]). done.
Qed.
Lemma valid_Ok c c' : addr_validate p c = Ok c' -> c' = c.
Proof. unfold addr_validate. destruct (p_valid p c); [by intros [= ->]|done]. Qed.

Lemma bid_replaced v v0 e e0 sender funds st m coll tok st1 ms1 :
  v1_history p x st -> bids_for m coll tok ->
  execute_sub p x v0 e0 sender [] st (RemoveBid coll tok) = Ok (st1, ms1) ->
  exists old, s_bids st !! (coll, tok, sender) = Some old /\
    ms1 = paid_back sender (b_price old) :: heard (s_bid_hooks st) (HBid old HDelete) /\
    execute_sub p x v e sender funds st m = preceded_by (paid_back sender (b_price old)) (execute_sub p x v e sender funds st1 m).
Proof.
  intros Hh Hm H. pose proof (history_wf _ _ _ Hh) as Hw. cbn [execute_sub] in H. apply bind_Ok in H as (c&Hc&H).
  pose proof (valid_Ok _ _ Hc) as ->. unfold execute_remove_bid in H. apply bind_Ok in H as (?&_&H). apply bind_Ok in H as (old&Hb&H).
  destruct (s_bids st !! (coll, tok, sender)) as [old'|] eqn:Eb; [|done]. injection Hb as ->. injection H as <- <-.
  destruct (wf_bid _ _ Hw _ _ Eb) as ([= _ _ Hs]&_). exists old. split; [done|]. split.
  { rewrite <-Hs. cbn. f_equal. }
  destruct Hm as [(t&fi&b&->)|[(t&fi&b&->)|(t&fi&b&to&->)]]; cbn [execute_sub]; rewrite Hc; cbn [mbind result_bind];
    (destruct (maybe_addr p fi); cbn [mbind result_bind]; [|done]); [by apply set_bid_again..|].
  destruct (addr_validate p to); cbn [mbind result_bind]; [|done]. by apply set_bid_again.
Qed.
Lemma cbid_replaced v v0 e e0 sender funds st coll t b st1 ms1 :
  v1_history p x st -> execute_sub p x v0 e0 sender [] st (RemoveCollectionBid coll) = Ok (st1, ms1) ->
  exists old, s_cbids st !! (coll, sender) = Some old /\
    ms1 = paid_back sender (cb_price old) :: heard (s_cbid_hooks st) (HCBid old HDelete) /\
    execute_sub p x v e sender funds st (SetCollectionBid coll t b) =
      preceded_by (paid_back sender (cb_price old)) (execute_sub p x v e sender funds st1 (SetCollectionBid coll t b)).
Proof.
  intros Hh H. pose proof (history_wf _ _ _ Hh) as Hw. cbn [execute_sub] in H. apply bind_Ok in H as (c&Hc&H).
  pose proof (valid_Ok _ _ Hc) as ->. unfold execute_remove_collection_bid in H. apply bind_Ok in H as (?&_&H). apply bind_Ok in H as (old&Hb&H).
  destruct (s_cbids st !! (coll, sender)) as [old'|] eqn:Eb; [|done]. injection Hb as ->. injection H as <- <-.
  destruct (wf_cbid _ _ Hw _ _ Eb) as ([= _ Hs]&_). exists old. split; [done|]. split.
  { rewrite <-Hs. cbn. f_equal. }
  cbn [execute_sub]. rewrite Hc. cbn [mbind result_bind]. by apply set_cbid_again.
Qed.
Lemma ask_replaced v v0 e e0 sender sender0 funds st ty coll tok price to reserve b t st1 ms1 :
  execute_sub p x v0 e0 sender0 [] st (RemoveAsk coll tok) = Ok (st1, ms1) ->
  execute_sub p x v e sender funds st1 (SetAsk ty coll tok price to reserve b t) =
  execute_sub p x v e sender funds st (SetAsk ty coll tok price to reserve b t).
Proof.
  intros H. cbn [execute_sub] in *. apply bind_Ok in H as (c&Hc&H). pose proof (valid_Ok _ _ Hc) as ->. rewrite Hc. cbn [mbind result_bind].
  assert (st1 = remove_ask st coll tok) as ->.
  { unfold execute_remove_ask in H. repeat (apply bind_Ok in H as (?&?&H)). by injection H as <- _. }
  destruct (maybe_addr p to); cbn [mbind result_bind]; [|done]. destruct (maybe_addr p reserve); cbn [mbind result_bind]; [|done].
  unfold execute_set_ask. cbv zeta. cbn [remove_ask set_asks s_params].
  change (price_validate (remove_ask st coll tok) price) with (price_validate st price).
  change (finders_ok (remove_ask st coll tok) b) with (finders_ok st b).
  repeat (match goal with |- (?r ≫= _) = _ => destruct r; cbn [mbind result_bind] end; [|done]).
  unfold store_ask, remove_ask, set_asks. cbn. by rewrite insert_delete_insert.
Qed.
End Change.
