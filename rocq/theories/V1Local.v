(** Calls of marketplace v1 look only at the places they are about, and change only them. *)
From stdpp Require Import relations.
From Verif Require Import Base Common Chain BaseFacts V1Model V1Spec V1Facts V1LocalSpec.

(** ** Writes *)
Inductive write : Type :=
  | WAsk (k : string * N) (o : option ask)
  | WBid (k : string * N * string) (o : option bid)
  | WCBid (k : string * string) (o : option cbid).
Definition where_ (w : write) : slot :=
  match w with WAsk (c, t) _ => AskOf c t | WBid (c, t, u) _ => BidOf c t u | WCBid (c, u) _ => CBidOf c u end.
Definition put {K} `{Countable K} {A} (k : K) (o : option A) (g : gmap K A) : gmap K A := partial_alter (fun _ => o) k g.
Definition apply1 (w : write) (st : state) : state :=
  match w with
  | WAsk k o => set_asks st (put k o (s_asks st))
  | WBid k o => set_bids st (put k o (s_bids st))
  | WCBid k o => set_cbids st (put k o (s_cbids st))
  end.
Definition apply_all (ws : list write) (st : state) : state := foldr apply1 st ws.

Lemma apply_cons w ws st : apply_all (w :: ws) st = apply1 w (apply_all ws st).
Proof. done. Qed.
Lemma put_other {K} `{Countable K} {A} (k k' : K) (o : option A) g : k <> k' -> put k o g !! k' = g !! k'.
Proof. intros Hk. unfold put. by rewrite lookup_partial_alter_ne. Qed.
Lemma put_same {K} `{Countable K} {A} (k : K) (o : option A) g : put k o g !! k = o.
Proof. unfold put. by rewrite lookup_partial_alter. Qed.
Lemma put_put {K} `{Countable K} {A} (k k' : K) (o o' : option A) g : k <> k' -> put k o (put k' o' g) = put k' o' (put k o g).
Proof. intros Hk. unfold put. by apply partial_alter_commute. Qed.

Lemma apply1_rules w st : same_rules st (apply1 w st).
Proof. by destruct w. Qed.
Lemma rules_trans a b c : same_rules a b -> same_rules b c -> same_rules a c.
Proof. unfold same_rules. naive_solver congruence. Qed.
Lemma rules_sym a b : same_rules a b -> same_rules b a.
Proof. unfold same_rules. naive_solver. Qed.
Lemma apply_rules ws st : same_rules st (apply_all ws st).
Proof. induction ws as [|w ws IH]; [by repeat split|]. cbn. eapply rules_trans; [exact IH|]. apply apply1_rules. Qed.
Lemma apply1_other w st k : where_ w <> k -> holds (apply1 w st) k = holds st k.
Proof.
  destruct w as [[c t] o|[[c t] u] o|[c u] o]; destruct k as [c' t'|c' t' u'|c' u']; cbn; intros Hk; try done; f_equal;
    rewrite put_other; congruence.
Qed.
Lemma apply_other ws st k : (forall w, w ∈ ws -> where_ w <> k) -> holds (apply_all ws st) k = holds st k.
Proof.
  induction ws as [|w ws IH]; intros Hk; [done|]. cbn. rewrite apply1_other by (apply Hk; constructor).
  apply IH. intros w' Hw'. apply Hk. by constructor.
Qed.
Lemma apply1_agree w st st0 k : holds st k = holds st0 k -> holds (apply1 w st) k = holds (apply1 w st0) k.
Proof.
  destruct w as [[c t] o|[[c t] u] o|[c u] o]; destruct k as [c' t'|c' t' u'|c' u']; cbn; intros Hk; try done.
  - destruct (decide ((c, t) = (c', t'))) as [<-|Hn]; [by rewrite !put_same|by rewrite !put_other].
  - destruct (decide ((c, t, u) = (c', t', u'))) as [<-|Hn]; [by rewrite !put_same|by rewrite !put_other].
  - destruct (decide ((c, u) = (c', u'))) as [<-|Hn]; [by rewrite !put_same|by rewrite !put_other].
Qed.
Lemma apply_agree ws st st0 k : holds st k = holds st0 k -> holds (apply_all ws st) k = holds (apply_all ws st0) k.
Proof. intros Hk. induction ws as [|w ws IH]; [done|]. cbn. by apply apply1_agree. Qed.
Lemma apply1_comm w w' st : where_ w <> where_ w' -> apply1 w (apply1 w' st) = apply1 w' (apply1 w st).
Proof.
  destruct w as [[c t] o|[[c t] u] o|[c u] o]; destruct w' as [[c' t'] o'|[[c' t'] u'] o'|[c' u'] o']; cbn; intros Hk; try done;
    unfold set_asks, set_bids, set_cbids; cbn; f_equal; apply put_put; congruence.
Qed.
Lemma apply_comm1 w ws st : (forall w', w' ∈ ws -> where_ w' <> where_ w) -> apply1 w (apply_all ws st) = apply_all ws (apply1 w st).
Proof.
  induction ws as [|w' ws IH]; intros Hk; [done|]. rewrite !apply_cons, <-IH by (intros ? ?; apply Hk; by constructor).
  apply apply1_comm. intros E. by apply (Hk w'); [constructor|].
Qed.
Lemma apply_comm ws ws' st : (forall w w', w ∈ ws -> w' ∈ ws' -> where_ w <> where_ w') ->
  apply_all ws (apply_all ws' st) = apply_all ws' (apply_all ws st).
Proof.
  induction ws as [|w ws IH]; intros Hk; [done|]. rewrite !apply_cons, IH by (intros ? ? ? ?; apply Hk; [by constructor|done]).
  apply apply_comm1. intros w' Hw' E. by apply (Hk w w'); [constructor|done|].
Qed.

(** ** Handlers *)
Section Local.
Context (p : params) (x : ext).

Definition sim (S : list slot) (st st0 : state) (r r0 : result (state * list smsg)) : Prop :=
  match r with
  | Ok (st', ms) => exists ws, Forall (fun w => where_ w ∈ S) ws /\ st' = apply_all ws st /\ r0 = Ok (apply_all ws st0, ms)
  | Err e => r0 = Err e
  end.
Lemma sim_bind S st st0 {A} (r : result A) k k0 :
  (forall y, r = Ok y -> sim S st st0 (k y) (k0 y)) -> sim S st st0 (r ≫= k) (r ≫= k0).
Proof. destruct r as [y|e]; cbn; intros H; [by apply H|done]. Qed.
Lemma sim_err S st st0 e : sim S st st0 (Err e) (Err e).
Proof. done. Qed.
Lemma sim_ok S st st0 ws ms st' st0' : Forall (fun w => where_ w ∈ S) ws -> st' = apply_all ws st -> st0' = apply_all ws st0 ->
  sim S st st0 (Ok (st', ms)) (Ok (st0', ms)).
Proof. intros H -> ->. by exists ws. Qed.
Lemma finalize_ext v st st0 a price buyer finder to resp : s_params st = s_params st0 -> s_sale_hooks st = s_sale_hooks st0 ->
  finalize_sale x v st a price buyer finder to resp = finalize_sale x v st0 a price buyer finder to resp.
Proof. intros Hp Hh. unfold finalize_sale, payout, prepare_sale_hook. by rewrite Hp, Hh. Qed.
Ltac here := repeat first [apply elem_of_list_here | apply elem_of_list_further].
Ltac look HA HB HC :=
  repeat first [rewrite HA by here | rewrite HB by here | rewrite HC by here].
Ltac writes W m :=
  lazymatch m with
  | <[?k := ?a]> ?m => let l := writes W m in constr:(W k (Some a) :: l)
  | delete ?k ?m => let l := writes W m in constr:(W k None :: l)
  | _ => constr:(@nil write)
  end.
Ltac finish := lazymatch goal with
  | |- sim _ _ _ (Ok (State _ ?A ?B ?C _ _ _ _, _)) _ =>
      let a := writes WAsk A in let b := writes WBid B in let c := writes WCBid C in
      apply (sim_ok _ _ _ (a ++ b ++ c)); [cbn; repeat (constructor; [cbn; here|]); constructor|reflexivity|reflexivity]
  end.
Ltac lower := cbv beta iota zeta delta [s_params s_asks s_bids s_cbids s_ask_hooks s_bid_hooks s_sale_hooks s_cbid_hooks set_asks set_bids set_cbids
  store_ask remove_ask store_bid remove_bid store_cbid remove_cbid
  prepare_ask_hook prepare_bid_hook prepare_cbid_hook].
Ltac walk HA HB HC := repeat (lower; look HA HB HC; lazymatch goal with
  | |- sim _ _ _ (?r ≫= _) (?r ≫= _) => apply sim_bind; intros ? ?
  | |- sim _ _ _ (finalize_sale _ _ _ _ _ _ _ _ _ ≫= _) _ =>
      erewrite finalize_ext; [apply sim_bind; intros ? ?|reflexivity|reflexivity]
  | |- sim _ _ _ (Err _) _ => apply sim_err
  | |- sim _ _ _ (Ok _) _ => finish
  | |- sim _ _ _ (match match ?o with _ => _ end with _ => _ end) _ => destruct o
  | |- sim _ _ _ (match ?o with _ => _ end) _ => destruct o
  | |- sim _ _ _ (match ?o with _ => _ end ≫= _) _ => destruct o
  end).
Lemma local v e s f st st0 m : same_at (fun k => k ∈ places s m) st st0 ->
  sim (places s m) st st0 (execute_sub p x v e s f st m) (execute_sub p x v e s f st0 m).
Proof.
  intros [Hr Hk]. destruct st as [P A B C h1 h2 h3 h4], st0 as [P0 A0 B0 C0 i1 i2 i3 i4].
  destruct Hr as (HP&H1&H2&H3&H4). cbn in HP, H1, H2, H3, H4. subst P0 i1 i2 i3 i4.
  assert (forall c t, AskOf c t ∈ places s m -> A0 !! (c, t) = A !! (c, t)) as HA by (intros c t Hin; by injection (Hk _ Hin)).
  assert (forall c t u, BidOf c t u ∈ places s m -> B0 !! (c, t, u) = B !! (c, t, u)) as HB
    by (intros c t u Hin; by injection (Hk _ Hin)).
  assert (forall c u, CBidOf c u ∈ places s m -> C0 !! (c, u) = C !! (c, u)) as HC by (intros c u Hin; by injection (Hk _ Hin)).
  clear Hk. destruct m; cbn [execute_sub places] in *;
    unfold execute_set_ask, execute_remove_ask, execute_update_ask_price, execute_set_bid, execute_remove_bid, execute_accept_bid,
      execute_reject_bid, execute_set_collection_bid, execute_remove_collection_bid, execute_accept_collection_bid,
      execute_sync_ask, execute_remove_stale_ask, execute_remove_stale_bid, execute_remove_stale_collection_bid, price_validate,
      finders_ok, only_operator, stale_check, removal_reward.
  all: repeat (apply sim_bind; intros ? []%addr_validate_Ok; subst).
  all: repeat (apply sim_bind; intros ? []%maybe_addr_Ok; subst).
  all: repeat (apply sim_bind; intros ? []%addr_validate_Ok; subst).
  all: walk HA HB HC.
  all: destruct (A !! (coll, tok)); walk HA HB HC.
Qed.

Lemma places_coll s m k : k ∈ places s m -> slot_coll k = about m.
Proof. destruct m; cbn; rewrite ?elem_of_cons, elem_of_nil; intros H; destruct_or? H; by subst. Qed.

(** What a call sees and does is fixed by the places it is about; the others it leaves alone. *)
Lemma depends_on_places v e s f st st0 m : same_at (fun k => k ∈ places s m) st st0 ->
  let r := execute_sub p x v e s f st m in let r0 := execute_sub p x v e s f st0 m in
  answer r = answer r0 /\ forall k, holds st k = holds st0 k -> holds (next st r) k = holds (next st0 r0) k.
Proof.
  intros H. cbv zeta. pose proof (local v e s f st st0 m H) as L. unfold sim in L.
  destruct (execute_sub p x v e s f st m) as [[st' ms]|er]; [|by rewrite L].
  destruct L as (ws&Hws&->&->). split; [done|]. cbn. intros k Hk. by apply apply_agree.
Qed.
Lemma changes_places v e s f st m : let st' := next st (execute_sub p x v e s f st m) in
  same_rules st st' /\ forall k, k ∉ places s m -> holds st' k = holds st k.
Proof.
  cbv zeta. pose proof (local v e s f st st m) as L. unfold sim in L.
  destruct (execute_sub p x v e s f st m) as [[st' ms]|er]; [|by repeat split].
  destruct L as (ws&Hws&->&_); [by repeat split|]. cbn. split; [apply apply_rules|]. intros k Hk. apply apply_other.
  intros w Hw <-. rewrite Forall_forall in Hws. by apply Hk, Hws.
Qed.

(** Calls about different places can be exchanged. *)
Lemma exchange v1 e1 s1 f1 m1 v2 e2 s2 f2 m2 st st1 ms1 st2 ms2 : (forall k, k ∈ places s1 m1 -> k ∉ places s2 m2) ->
  execute_sub p x v1 e1 s1 f1 st m1 = Ok (st1, ms1) -> execute_sub p x v2 e2 s2 f2 st1 m2 = Ok (st2, ms2) ->
  exists st3, execute_sub p x v2 e2 s2 f2 st m2 = Ok (st3, ms2) /\ execute_sub p x v1 e1 s1 f1 st3 m1 = Ok (st2, ms1).
Proof.
  intros Hd H1 H2.
  assert (same_at (fun k => k ∈ places s2 m2) st1 st) as Hs1.
  { pose proof (changes_places v1 e1 s1 f1 st m1) as [Hr Hc]. rewrite H1 in Hr, Hc. cbn in Hr, Hc. split; [by apply rules_sym|].
    intros k Hk. apply Hc. intros Hk1. by apply (Hd k). }
  pose proof (local v2 e2 s2 f2 st1 st m2 Hs1) as L2. rewrite H2 in L2. destruct L2 as (ws2&Hw2&->&E2).
  exists (apply_all ws2 st). split; [exact E2|].
  assert (same_at (fun k => k ∈ places s1 m1) st (apply_all ws2 st)) as Hs2.
  { split; [apply apply_rules|]. intros k Hk. symmetry. apply apply_other. intros w Hw <-. rewrite Forall_forall in Hw2. by apply (Hd _ Hk), Hw2. }
  pose proof (local v1 e1 s1 f1 st _ m1 Hs2) as L1. rewrite H1 in L1. destruct L1 as (ws1&Hw1&->&E1).
  rewrite E1. do 2 f_equal. apply apply_comm. rewrite Forall_forall in Hw1, Hw2. intros w w' Hw Hw' E. eapply (Hd (where_ w)); [by apply Hw1|].
  rewrite E. by apply Hw2.
Qed.

(** ** Whole sequences *)
Lemma sudo_local v e m st st0 : same_rules st st0 ->
  let r := result_of p x st (ByChain v e m) in let r0 := result_of p x st0 (ByChain v e m) in
  answer r = answer r0 /\ same_rules (next st r) (next st0 r0) /\
  (forall k, holds (next st r) k = holds st k) /\ (forall k, holds (next st0 r0) k = holds st0 k).
Proof.
  intros Hr. destruct st as [P A B C h1 h2 h3 h4], st0 as [P0 A0 B0 C0 i1 i2 i3 i4].
  destruct Hr as (HP&H1&H2&H3&H4). cbn in HP, H1, H2, H3, H4. subst P0 i1 i2 i3 i4. cbn [result_of]. unfold sudo.
  destruct m; cbn [sudo_state]; unfold sudo_update_params, set_operators, mbind, result_bind;
    cbn [s_params s_ask_hooks s_bid_hooks s_sale_hooks s_cbid_hooks].
  all: repeat match goal with
    | |- context [addr_validate p ?a] => destruct (addr_validate p a); [cbv beta iota|by repeat split]
    | |- context [register ?l ?a] => destruct (register l a); [cbv beta iota|by repeat split]
    | |- context [unregister ?l ?a] => destruct (unregister l a); [cbv beta iota|by repeat split]
    | |- context [bps_ok ?l] => destruct (bps_ok l); [cbv beta iota|by repeat split]
    | |- context [expiry_ok ?l] => destruct (expiry_ok l); [cbv beta iota|by repeat split]
    end.
  all: cbv zeta; split; [reflexivity|]; split; [by repeat split|]; split; intros k; destruct k; reflexivity.
Qed.
Lemma call_kept coll c st st0 : concerns coll c = true -> same_at (fun k => slot_coll k = coll) st st0 ->
  answer (result_of p x st c) = answer (result_of p x st0 c) /\
  same_at (fun k => slot_coll k = coll) (next st (result_of p x st c)) (next st0 (result_of p x st0 c)).
Proof.
  destruct c as [[v e s f m]|v e m]; intros Hc [Hr Hk].
  - cbn [concerns result_of u_view u_env u_sender u_funds u_msg] in *. apply bool_decide_eq_true in Hc as <-.
    destruct (depends_on_places v e s f st st0 m) as [Ho Ha].
    { split; [done|]. intros k Hin. apply Hk. by eapply places_coll. }
    split; [exact Ho|]. split; [|intros k H; by apply Ha, Hk].
    eapply rules_trans; [apply rules_sym, (changes_places v e s f st m)|]. eapply rules_trans; [exact Hr|]. apply changes_places.
  - destruct (sudo_local v e m st st0 Hr) as (Ho&Hr'&H1&H2). split; [exact Ho|]. split; [exact Hr'|].
    intros k H. rewrite H1, H2. by apply Hk.
Qed.
Lemma call_other coll c st st0 : concerns coll c = false -> same_at (fun k => slot_coll k = coll) st st0 ->
  same_at (fun k => slot_coll k = coll) (next st (result_of p x st c)) st0.
Proof.
  destruct c as [[v e s f m]|v e m]; intros Hc [Hr Hk]; [|done].
  cbn [concerns result_of u_view u_env u_sender u_funds u_msg] in *. apply bool_decide_eq_false in Hc.
  destruct (changes_places v e s f st m) as [Hr' Hc']. split; [by eapply rules_trans; [apply rules_sym, Hr'|]|].
  intros k H. rewrite Hc'; [by apply Hk|]. intros Hin%places_coll. congruence.
Qed.
Lemma undisturbed coll l : forall st st0, same_at (fun k => slot_coll k = coll) st st0 ->
  seen p x (concerns coll) st l = seen p x (concerns coll) st0 (filter (fun c => concerns coll c = true) l) /\
  same_at (fun k => slot_coll k = coll) (run p x st l) (run p x st0 (filter (fun c => concerns coll c = true) l)).
Proof.
  induction l as [|c l IH]; intros st st0 H; [done|]. rewrite filter_cons. cbn [run seen].
  destruct (concerns coll c) eqn:Ec.
  - rewrite decide_True by done. cbn [run seen]. rewrite Ec. destruct (call_kept coll c st st0 Ec H) as [Ho Ha].
    destruct (IH _ _ Ha) as [H1 H2]. split; [|exact H2]. by rewrite Ho, H1.
  - rewrite decide_False by congruence. cbn [app]. apply IH. by apply call_other.
Qed.
End Local.
