(** Calls of the reserve auction look only at the auction they are about, and change only it. *)
From stdpp Require Import relations.
From Verif Require Import Base Common Chain BaseFacts RAModel RASpec RAFacts RAReach RALocalSpec.

Section Local.
Context (p : params) (lb : lib).

Definition sim (k : string * string) (st st0 : state) (r r0 : result (state * list cmsg)) : Prop :=
  match r with
  | Ok (st', ms) => exists o, st' = put st k o /\ r0 = Ok (put st0 k o, ms) /\ forall a, o = Some a -> (a_coll a, a_tok a) = k
  | Err e => r0 = Err e
  end.
Lemma sim_bind k st st0 {A} (r : result A) f f0 :
  (forall y, r = Ok y -> sim k st st0 (f y) (f0 y)) -> sim k st st0 (r ≫= f) (r ≫= f0).
Proof. destruct r as [y|e]; cbn; intros H; [by apply H|done]. Qed.
Lemma sim_err k st st0 e : sim k st st0 (Err e) (Err e).
Proof. done. Qed.
Lemma sim_save k st st0 ms a : (a_coll a, a_tok a) = k -> sim k st st0 (Ok (save_auction st a, ms)) (Ok (save_auction st0 a, ms)).
Proof. intros <-. exists (Some a). split_and!; [done|done|]. by intros ? [= <-]. Qed.
Lemma sim_remove k st st0 ms a : (a_coll a, a_tok a) = k -> sim k st st0 (Ok (remove_auction st a, ms)) (Ok (remove_auction st0 a, ms)).
Proof. intros <-. by exists None. Qed.
Lemma load_same st st0 (k : string * string) : s_auctions st !! k = s_auctions st0 !! k -> load_auction st0 k = load_auction st k.
Proof. unfold load_auction. intros H. unfold akey in *. by rewrite H. Qed.
Lemma load_keyed st (k : string * string) a : well_keyed st -> load_auction st k = Ok a -> (a_coll a, a_tok a) = k.
Proof.
  intros Hw. unfold load_auction.
  match goal with |- context [match ?o with _ => _ end] => destruct o as [a0|] eqn:E; [|done] end. intros [= <-]. exact (Hw k a0 E).
Qed.
Lemma history_keyed st : ra_history p lb st -> well_keyed st.
Proof. intros Hw%history_wf k a Ha. by destruct (wf_auction _ _ Hw k a Ha) as [Hk _]. Qed.
Ltac step := lazymatch goal with
  | |- sim _ _ _ (?r ≫= _) (?r ≫= _) => apply sim_bind; intros ? ?
  | |- sim _ _ _ (Err _) _ => apply sim_err
  | |- sim _ _ _ (Ok (save_auction _ _, _)) _ => by apply sim_save
  | |- sim _ _ _ (Ok (remove_auction _ _, _)) _ => by apply sim_remove
  | |- sim _ _ _ (match ?o with _ => _ end) _ => destruct o
  end.

Lemma local v e s f st st0 m : well_keyed st -> same_at (about m) st st0 ->
  sim (about m) st st0 (execute p lb v e s f st m) (execute p lb v e s f st0 m).
Proof.
  intros Hw [(Hc&Hm&Hh) Hk]. destruct m as [c t r d rc|c t r|c t|c t|c t]; cbn [execute about] in *;
    apply sim_bind; intros c' Hv; unfold addr_validate in Hv; inv_ok.
  - apply sim_bind. intros rc' _. unfold execute_create_auction, only_no_auction, validate_reserve_price.
    unfold akey in *. rewrite <-Hc, <-Hm, <-Hk. cbv zeta. repeat step.
  - unfold execute_update_reserve_price, validate_reserve_price. rewrite <-Hm. rewrite (load_same _ _ _ Hk).
    apply sim_bind; intros ? _. apply sim_bind; intros a Ha%load_keyed; [|done]. repeat step.
  - unfold execute_cancel_auction. rewrite (load_same _ _ _ Hk).
    apply sim_bind; intros ? _. apply sim_bind; intros a Ha%load_keyed; [|done]. repeat step.
  - unfold execute_place_bid. rewrite (load_same _ _ _ Hk), <-Hc. cbv zeta. apply sim_bind; intros a Ha%load_keyed; [|done]. repeat step.
  - unfold execute_settle_auction, settle_auction. rewrite (load_same _ _ _ Hk), <-Hc, <-Hh.
    apply sim_bind; intros ? _. apply sim_bind; intros a Ha%load_keyed; [|done]. cbv zeta. repeat step.
Qed.

Lemma put_lookup st (k k' : string * string) o : s_auctions (put st k o) !! k' = if decide (k = k') then o else s_auctions st !! k'.
Proof.
  unfold put, set_auctions, akey in *. cbn [s_auctions]. destruct (decide (k = k')) as [<-|Hn]; destruct o.
  - by rewrite lookup_insert.
  - by rewrite lookup_delete.
  - by rewrite lookup_insert_ne.
  - by rewrite lookup_delete_ne.
Qed.
Lemma put_put st (k k' : string * string) o o' : k <> k' -> put (put st k o) k' o' = put (put st k' o') k o.
Proof.
  intros Hn. unfold put, set_auctions, akey in *. cbn [s_auctions s_config s_mins s_halt]. f_equal. destruct o, o'.
  - by rewrite insert_commute.
  - by rewrite delete_insert_ne.
  - by rewrite delete_insert_ne.
  - by rewrite delete_commute.
Qed.
Lemma put_rules st k o : same_rules st (put st k o).
Proof. done. Qed.
Lemma rules_sym a b : same_rules a b -> same_rules b a.
Proof. unfold same_rules. naive_solver. Qed.
Lemma rules_trans a b c : same_rules a b -> same_rules b c -> same_rules a c.
Proof. unfold same_rules. naive_solver congruence. Qed.

Lemma depends v e s f st st0 m : well_keyed st -> same_at (about m) st st0 ->
  let r := execute p lb v e s f st m in let r0 := execute p lb v e s f st0 m in
  answer r = answer r0 /\
  forall k : string * string, s_auctions st !! k = s_auctions st0 !! k -> s_auctions (next st r) !! k = s_auctions (next st0 r0) !! k.
Proof.
  intros Hw H. cbv zeta. pose proof (local v e s f st st0 m Hw H) as L. unfold sim in L.
  destruct (execute p lb v e s f st m) as [[st' ms]|er]; [|by rewrite L].
  destruct L as (o&->&->&_). split; [done|]. cbn [next]. intros k Hk. by rewrite !put_lookup, Hk.
Qed.
Lemma changes v e s f st m : well_keyed st -> let st' := next st (execute p lb v e s f st m) in
  same_rules st st' /\ forall k : string * string, k <> about m -> s_auctions st' !! k = s_auctions st !! k.
Proof.
  intros Hw. cbv zeta. pose proof (local v e s f st st m Hw) as L. unfold sim in L.
  destruct (execute p lb v e s f st m) as [[st' ms]|er]; [|by repeat split].
  destruct L as (o&->&_&_); [by repeat split|]. cbn [next]. split; [apply put_rules|]. intros k Hk.
  rewrite put_lookup. by rewrite decide_False.
Qed.
Lemma keyed_next v e s f st m : well_keyed st -> well_keyed (next st (execute p lb v e s f st m)).
Proof.
  intros Hw. pose proof (local v e s f st st m Hw) as L. unfold sim in L.
  destruct (execute p lb v e s f st m) as [[st' ms]|er]; [|done].
  destruct L as (o&->&_&Ho); [by repeat split|]. cbn [next]. intros k a. rewrite put_lookup.
  destruct (decide _) as [<-|]; [by apply Ho|by apply Hw].
Qed.
Lemma exchange v1 e1 s1 f1 m1 v2 e2 s2 f2 m2 st st1 ms1 st2 ms2 : well_keyed st -> about m1 <> about m2 ->
  execute p lb v1 e1 s1 f1 st m1 = Ok (st1, ms1) -> execute p lb v2 e2 s2 f2 st1 m2 = Ok (st2, ms2) ->
  exists st3, execute p lb v2 e2 s2 f2 st m2 = Ok (st3, ms2) /\ execute p lb v1 e1 s1 f1 st3 m1 = Ok (st2, ms1).
Proof.
  intros Hw Hd H1 H2. pose proof (changes v1 e1 s1 f1 st m1 Hw) as [Hr Hc]. pose proof (keyed_next v1 e1 s1 f1 st m1 Hw) as Hw1.
  rewrite H1 in Hr, Hc, Hw1. cbn [next] in Hr, Hc, Hw1.
  assert (same_at (about m2) st1 st) as Hs1 by (split; [by apply rules_sym|apply Hc; congruence]).
  pose proof (local v2 e2 s2 f2 st1 st m2 Hw1 Hs1) as L2. rewrite H2 in L2. destruct L2 as (o2&->&E2&_).
  exists (put st (about m2) o2). split; [exact E2|].
  assert (same_at (about m1) st (put st (about m2) o2)) as Hs2.
  { split; [apply put_rules|]. rewrite put_lookup. by rewrite decide_False by congruence. }
  pose proof (local v1 e1 s1 f1 st _ m1 Hw Hs2) as L1. rewrite H1 in L1. destruct L1 as (o1&->&E1&_).
  rewrite E1. do 2 f_equal. by apply put_put, not_eq_sym.
Qed.

(** ** Whole sequences *)
Lemma sudo_local v e m st st0 : same_rules st st0 -> m <> EndBlock ->
  let r := sudo p lb v e st m in let r0 := sudo p lb v e st0 m in
  answer r = answer r0 /\ same_rules (next st r) (next st0 r0) /\
  s_auctions (next st r) = s_auctions st /\ s_auctions (next st0 r0) = s_auctions st0.
Proof.
  intros Hr Hne. destruct st as [c ms h A], st0 as [c0 ms0 h0 A0]. destruct Hr as (Hc&Hm&Hh). cbn in Hc, Hm, Hh. subst c0 ms0 h0.
  destruct m; cbn [sudo]; [|done| | | |].
  - unfold sudo_begin_block. cbn [s_config s_halt s_mins s_auctions]. cbv zeta. unfold mbind, result_bind.
    destruct (ensure _ _); [|by repeat split]. destruct ((0 <? hm_prev h) && (cf_halt_threshold c <=? t_seconds (e_time e) - hm_prev h)); [destruct (add64 _ _)|]; by repeat split.
  - unfold sudo_update_params. cbn [s_config s_halt s_mins s_auctions]. cbv zeta. unfold mbind, result_bind.
    destruct (u_fair_burn u) as [fb|]; [destruct (addr_validate p fb); [|by repeat split]|]; destruct (config_validate _); by repeat split.
  - unfold sudo_set_min_reserve_prices. cbn [s_config s_halt s_mins s_auctions]. unfold mbind, result_bind.
    destruct (add_mins ms cs); by repeat split.
  - unfold sudo_unset_min_reserve_prices. cbn [s_config s_halt s_mins s_auctions]. unfold mbind, result_bind.
    destruct (remove_mins ms ds); by repeat split.
  - by repeat split.
Qed.
Lemma keyed_step st c : ends_block c = false -> well_keyed st -> well_keyed (next st (result_of p lb st c)).
Proof.
  destruct c as [[v e s f m]|v e m]; intros Hc Hw; cbn [result_of u_view u_env u_sender u_funds u_msg]; [by apply keyed_next|].
  destruct (sudo_local v e m st st) as (_&_&H&_); [by repeat split|by intros ->|]. unfold well_keyed. by rewrite H.
Qed.
Lemma call_kept k c st st0 : ends_block c = false -> well_keyed st -> well_keyed st0 -> concerns k c = true -> same_at k st st0 ->
  answer (result_of p lb st c) = answer (result_of p lb st0 c) /\
  same_at k (next st (result_of p lb st c)) (next st0 (result_of p lb st0 c)).
Proof.
  destruct c as [[v e s f m]|v e m]; intros He Hw Hw0 Hc [Hr Hk].
  - cbn [concerns result_of u_view u_env u_sender u_funds u_msg] in *. apply bool_decide_eq_true in Hc as <-.
    destruct (depends v e s f st st0 m) as [Ho Ha]; [done|done|].
    split; [exact Ho|]. split; [|by apply Ha].
    eapply rules_trans; [apply rules_sym, (changes v e s f st m Hw)|]. eapply rules_trans; [exact Hr|]. by apply changes.
  - cbn [result_of]. destruct (sudo_local v e m st st0 Hr) as (Ho&Hr'&H1&H2); [by intros ->|]. split; [exact Ho|]. split; [exact Hr'|].
    by rewrite H1, H2.
Qed.
Lemma call_other k c st st0 : well_keyed st -> concerns k c = false -> same_at k st st0 ->
  same_at k (next st (result_of p lb st c)) st0.
Proof.
  destruct c as [[v e s f m]|v e m]; intros Hw Hc [Hr Hk]; [|done].
  cbn [concerns result_of u_view u_env u_sender u_funds u_msg] in *. apply bool_decide_eq_false in Hc.
  destruct (changes v e s f st m Hw) as [Hr' Hc']. split; [by eapply rules_trans; [apply rules_sym, Hr'|]|].
  rewrite Hc'; [done|congruence].
Qed.
Lemma undisturbed k l : Forall (fun c => ends_block c = false) l -> forall st st0, well_keyed st -> well_keyed st0 -> same_at k st st0 ->
  seen p lb (concerns k) st l = seen p lb (concerns k) st0 (filter (fun c => concerns k c = true) l) /\
  same_at k (run p lb st l) (run p lb st0 (filter (fun c => concerns k c = true) l)).
Proof.
  induction 1 as [|c l Hc Hl IH]; intros st st0 Hw Hw0 H; [done|]. rewrite filter_cons. cbn [run seen].
  destruct (concerns k c) eqn:Ec.
  - rewrite decide_True by done. cbn [run seen]. rewrite Ec. destruct (call_kept k c st st0 Hc Hw Hw0 Ec H) as [Ho Ha].
    destruct (IH (next st (result_of p lb st c)) (next st0 (result_of p lb st0 c))) as [H1 H2]; [by apply keyed_step..|done|].
    split; [|exact H2]. by rewrite Ho, H1.
  - rewrite decide_False by congruence. cbn [app]. apply IH; [by apply keyed_step|done|by apply call_other].
Qed.
End Local.
