(** Proofs for C151 (V1DelaySpec). *)
From stdpp Require Import relations.
From Verif Require Import Base BaseFacts Common Chain V1Model V1DelaySpec.

Section Delay.
Context (p : params) (x : ext).

Lemma later_tradable v e e' coll : e_time e <= e_time e' -> only_tradable v e coll = Ok tt -> only_tradable v e' coll = Ok tt.
Proof.
  unfold only_tradable. intros Ht H. destruct (q_info v coll) as [ci|]; [|done]. destruct (ci_start ci) as [s|]; [|done].
  destruct (N.ltb_spec (e_time e) s); [done|]. destruct (N.ltb_spec (e_time e') s); [lia|done].
Qed.
Lemma plus_ok t s : t_plus_seconds t s = if t + s * 1000000000 <=? 18446744073709551615 then Ok (t + s * 1000000000) else Err EPanic.
Proof. done. Qed.
Lemma window_ahead r e expires : expiry_is_valid r e expires = Ok tt -> expiry_ahead r (e_time e) expires.
Proof.
  unfold expiry_is_valid, expiry_ahead. rewrite !plus_ok. intros H.
  destruct (N.leb_spec (e_time e + er_min r * 1000000000) 18446744073709551615); [|done]. cbn [mbind result_bind] in H.
  apply bind_Ok in H as (?&H1%ensure_Ok%N.ltb_lt&H).
  destruct (N.leb_spec (e_time e + er_max r * 1000000000) 18446744073709551615); done.
Qed.
Lemma later_window r e e' expires : e_time e <= e_time e' -> expiry_is_valid r e expires = Ok tt ->
  expiry_ahead r (e_time e') expires -> expiry_is_valid r e' expires = Ok tt.
Proof.
  unfold expiry_is_valid, expiry_ahead. rewrite !plus_ok. intros Ht H [Ha1 Ha2].
  apply bind_Ok in H as (?&_&H). apply bind_Ok in H as (?&_&H). apply bind_Ok in H as (hi&Hhi&H%ensure_Ok%N.leb_le).
  destruct (N.leb_spec (e_time e + er_max r * 1000000000) 18446744073709551615); [|done]. injection Hhi as <-.
  destruct (N.leb_spec (e_time e' + er_min r * 1000000000) 18446744073709551615); [|lia]. cbn [mbind result_bind].
  rewrite (proj2 (N.ltb_lt _ _) Ha1). cbn [ensure mbind result_bind].
  destruct (N.leb_spec (e_time e' + er_max r * 1000000000) 18446744073709551615); [|lia]. cbn [mbind result_bind].
  apply ensure_Ok, N.leb_le. lia.
Qed.
Lemma live_ok t e : negb (is_expired t e) = true <-> e_time e < t.
Proof. unfold is_expired. destruct (N.leb_spec t (e_time e)); cbn; split; (done || lia). Qed.
Lemma stale_later st e e' t : e_time e <= e_time e' -> stale_check st e t = Ok tt -> stale_check st e' t = Ok tt.
Proof.
  unfold stale_check. destruct (sp_stale (s_params st)); [done|]. intros Ht H. apply bind_Ok in H as (u&->&H%ensure_Ok%N.leb_le).
  cbn [mbind result_bind]. apply ensure_Ok, N.leb_le. lia.
Qed.

Ltac step H := apply bind_Ok in H as (?&?&H).
Ltac valid H := let E := fresh in apply bind_Ok in H as (?&E&H); unfold addr_validate in E;
  match type of E with (if ?b then _ else _) = _ => destruct b; [injection E as <-|discriminate E] end.

Lemma bid_in_time v e sender funds st coll tok bps expires finder to now r :
  execute_set_bid x v e sender funds st coll tok bps expires finder to now = Ok r ->
  expiry_ahead (sp_bid_expiry (s_params st)) (e_time e) expires /\ ask_lives st (e_time e) coll tok.
Proof.
  unfold execute_set_bid. intros H. do 4 step H. apply bind_Ok in H as ([]&Hw%window_ahead&H). step H. split; [done|].
  intros a Ha. destruct (s_bids st !! (coll, tok, sender)); cbn [remove_bid s_asks set_bids] in H; rewrite Ha in H;
    apply bind_Ok in H as (?&H&_); apply bind_Ok in H as (?&H&_); by apply ensure_Ok, live_ok in H.
Qed.
Lemma goes_in_time v e sender funds st m r : execute_sub p x v e sender funds st m = Ok r -> in_time st (e_time e) m.
Proof.
  intros H. destruct m; try done; cbn [execute_sub in_time] in *; valid H.
  - do 2 step H. unfold execute_set_ask in H. do 5 step H. apply bind_Ok in H as ([]&Hw%window_ahead&H). done.
  - unfold execute_update_ask_price in H. do 3 step H. apply bind_Ok in H as (a&Ha&H). step H.
    apply bind_Ok in H as (?&Hlive%ensure_Ok%live_ok&_). intros a' Ha'. unfold load in Ha. rewrite Ha' in Ha. by injection Ha as <-.
  - step H. by eapply bid_in_time.
  - step H. by eapply bid_in_time.
  - do 2 step H. by eapply bid_in_time.
  - valid H. step H. unfold execute_accept_bid in H. do 3 step H. apply bind_Ok in H as (a&Ha&H).
    apply bind_Ok in H as (?&Hlive%ensure_Ok%live_ok&_). intros a' Ha'. unfold load in Ha. rewrite Ha' in Ha. by injection Ha as <-.
  - unfold execute_set_collection_bid in H. do 2 step H. by apply bind_Ok in H as ([]&Hw%window_ahead&H).
  - valid H. step H. unfold execute_accept_collection_bid in H. do 3 step H. apply bind_Ok in H as (a&Ha&H).
    apply bind_Ok in H as (?&Hlive%ensure_Ok%live_ok&_). intros a' Ha'. unfold load in Ha. rewrite Ha' in Ha. by injection Ha as <-.
Qed.

Ltac keep H := let E := fresh "K" in apply bind_Ok in H as (?&E&H); rewrite E; cbn [mbind result_bind].
Lemma bid_later v e e' sender funds st coll tok bps expires finder to now r : e_time e <= e_time e' ->
  expiry_ahead (sp_bid_expiry (s_params st)) (e_time e') expires -> ask_lives st (e_time e') coll tok ->
  execute_set_bid x v e sender funds st coll tok bps expires finder to now = Ok r ->
  execute_set_bid x v e' sender funds st coll tok bps expires finder to now = Ok r.
Proof.
  unfold execute_set_bid. intros Ht Hw Hl H. do 4 keep H. apply bind_Ok in H as ([]&Hv&H).
  rewrite (later_window _ _ _ _ Ht Hv Hw). cbn [mbind result_bind]. step H.
  assert (forall a, s_asks st !! (coll, tok) = Some a -> negb (is_expired (k_expires a) e') = true) as Hn.
  { intros a Ha. by apply live_ok, Hl. }
  destruct (s_bids st !! (coll, tok, sender)); cbn [remove_bid s_asks set_bids] in *;
    (destruct (s_asks st !! (coll, tok)) as [a|] eqn:Ea; [|exact H]);
    rewrite (Hn _ eq_refl); cbn [ensure mbind result_bind];
    apply bind_Ok in H as (?&Hc&H); apply bind_Ok in Hc as (?&_&Hc); rewrite Hc; cbn [mbind result_bind]; exact H.
Qed.
Lemma later_goes v e e' sender funds st m r : e_time e <= e_time e' -> in_time st (e_time e') m ->
  execute_sub p x v e sender funds st m = Ok r -> execute_sub p x v e' sender funds st m = Ok r.
Proof.
  intros Ht Hi H. destruct m; try exact H; cbn [execute_sub in_time] in *.
  - do 3 keep H. unfold execute_set_ask in *. do 3 keep H. apply bind_Ok in H as ([]&H1&H).
    rewrite (later_tradable _ _ _ _ Ht H1). cbn [mbind result_bind]. keep H. apply bind_Ok in H as ([]&H2&H).
    by rewrite (later_window _ _ _ _ Ht H2 Hi).
  - apply bind_Ok in H as (c&Hc&H). rewrite Hc. cbn [mbind result_bind].
    unfold addr_validate in Hc. destruct (p_valid p coll); [injection Hc as <-|discriminate Hc].
    unfold execute_update_ask_price in *. do 3 keep H. apply bind_Ok in H as (a&Ha&H). rewrite Ha. cbn [mbind result_bind]. keep H.
    apply bind_Ok in H as (?&_&H). rewrite (proj2 (live_ok _ _)); [exact H|]. apply Hi. unfold load in Ha. destruct (s_asks st !! _); congruence.
  - apply bind_Ok in H as (c&Hc&H). rewrite Hc. cbn [mbind result_bind].
    unfold addr_validate in Hc. destruct (p_valid p coll); [injection Hc as <-|discriminate Hc]. keep H. destruct Hi. by eapply bid_later.
  - apply bind_Ok in H as (c&Hc&H). rewrite Hc. cbn [mbind result_bind].
    unfold addr_validate in Hc. destruct (p_valid p coll); [injection Hc as <-|discriminate Hc]. keep H. destruct Hi. by eapply bid_later.
  - apply bind_Ok in H as (c&Hc&H). rewrite Hc. cbn [mbind result_bind].
    unfold addr_validate in Hc. destruct (p_valid p coll); [injection Hc as <-|discriminate Hc]. do 2 keep H. destruct Hi. by eapply bid_later.
  - apply bind_Ok in H as (c&Hc&H). rewrite Hc. cbn [mbind result_bind].
    unfold addr_validate in Hc. destruct (p_valid p coll); [injection Hc as <-|discriminate Hc].
    apply bind_Ok in H as (c&Hc&H). rewrite Hc. cbn [mbind result_bind].
    unfold addr_validate in Hc. destruct (p_valid p bidder); [injection Hc as <-|discriminate Hc]. keep H.
    unfold execute_accept_bid in *. do 2 keep H. apply bind_Ok in H as ([]&H1&H).
    rewrite (later_tradable _ _ _ _ Ht H1). cbn [mbind result_bind]. apply bind_Ok in H as (a&Ha&H). rewrite Ha. cbn [mbind result_bind].
    apply bind_Ok in H as (?&_&H). rewrite (proj2 (live_ok _ _)); [exact H|]. apply Hi. unfold load in Ha. destruct (s_bids st !! _); congruence.
  - keep H. unfold execute_set_collection_bid in *. do 2 keep H. apply bind_Ok in H as ([]&H2&H).
    by rewrite (later_window _ _ _ _ Ht H2 Hi).
  - apply bind_Ok in H as (c&Hc&H). rewrite Hc. cbn [mbind result_bind].
    unfold addr_validate in Hc. destruct (p_valid p coll); [injection Hc as <-|discriminate Hc].
    apply bind_Ok in H as (c&Hc&H). rewrite Hc. cbn [mbind result_bind].
    unfold addr_validate in Hc. destruct (p_valid p bidder); [injection Hc as <-|discriminate Hc]. keep H.
    unfold execute_accept_collection_bid in *. do 2 keep H. apply bind_Ok in H as ([]&H1&H).
    rewrite (later_tradable _ _ _ _ Ht H1). cbn [mbind result_bind]. apply bind_Ok in H as (a&Ha&H). rewrite Ha. cbn [mbind result_bind].
    apply bind_Ok in H as (?&_&H). rewrite (proj2 (live_ok _ _)); [exact H|]. apply Hi. unfold load in Ha. destruct (s_cbids st !! _); congruence.
  - keep H. unfold execute_remove_stale_ask in *. do 3 keep H. apply bind_Ok in H as (?&Hc%ensure_Ok&H).
    match goal with |- (ensure ?b _ ;; _) = _ => assert (b = true) as -> end; [|exact H].
    destruct (_ && q_approval _ _ _ _); [|done]. cbn [andb] in *. unfold is_expired in *.
    destruct (N.leb_spec (k_expires x3) (e_time e)); [|done]. by rewrite (proj2 (N.leb_le _ _)) by lia.
  - do 2 keep H. unfold execute_remove_stale_bid in *. do 3 keep H. apply bind_Ok in H as ([]&Hc&H). by rewrite (stale_later _ _ _ _ Ht Hc).
  - do 2 keep H. unfold execute_remove_stale_collection_bid in *. do 3 keep H. apply bind_Ok in H as ([]&Hc&H). by rewrite (stale_later _ _ _ _ Ht Hc).
Qed.
End Delay.
