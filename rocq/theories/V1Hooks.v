(** Hooks of marketplace v1: they run last, they cannot fail a call, and a failing one changes nothing (C63). *)
From stdpp Require Import relations pretty.
From Verif Require Import Base Common Chain BaseFacts ChainFacts IndexRange IndexFacts SaleFacts Plain
  V1Model V1Spec V1Facts V1Inv V1Reach.

Section Hooks.
Context (p : params) (x : ext).
Implicit Types w : world state.

Lemma run_msgs_cons w m ms : run_msgs p w (m :: ms) = w1 ← run_msgs p w [m]; run_msgs p w1 ms.
Proof.
  destruct m as [to cs|c t to|r c|c|h]; cbn [run_msgs]; try done.
  - by destruct (ensure _ _).
  - destruct (ensure (negb _) _); [|done]. cbn. destruct (p_honest p c); [|done]. by destruct (ensure _ _).
  - by destruct (ensure _ _).
Qed.
Lemma run_msgs_app w ms1 ms2 : run_msgs p w (ms1 ++ ms2) = w1 ← run_msgs p w ms1; run_msgs p w1 ms2.
Proof.
  revert w. induction ms1 as [|m ms1 IH]; intros w; [done|]. cbn [app]. rewrite (run_msgs_cons w m (ms1 ++ ms2)), (run_msgs_cons w m ms1).
  destruct (run_msgs p w [m]) as [w1|]; cbn [mbind]; [|done]. cbn. apply IH.
Qed.
Lemma run_subs_plain hk w pl hs : run_subs p hk w (plain_msgs pl ++ hs) = w1 ← run_msgs p w pl; run_subs p hk w1 hs.
Proof.
  revert w. induction pl as [|m pl IH]; intros w; [done|]. rewrite run_msgs_cons. cbn [plain_msgs map app run_subs].
  destruct (run_msgs p w [m]) as [w1|]; [|done]. cbn. apply IH.
Qed.
Definition is_hook (m : smsg) : Prop := match m with SHook _ _ => True | SPlain _ => False end.
Lemma reply_failed c : reply (reply_id c) true = Ok tt.
Proof. by destruct c. Qed.
Lemma run_subs_hooks hk w hs : Forall is_hook hs -> exists w', run_subs p hk w hs = Ok w'.
Proof.
  revert w. induction hs as [|m hs IH]; intros w H; [by eexists|]. apply Forall_cons in H as [Hm H]. destruct m as [|h c]; [done|]. cbn [run_subs].
  destruct (hk h c w) as [w1|]; [by apply IH|]. rewrite reply_failed. by apply IH.
Qed.
Lemma run_subs_failing hk w hs : Forall is_hook hs -> (forall h c w, exists er, hk h c w = Err er) -> run_subs p hk w hs = Ok w.
Proof.
  intros H Hk. induction hs as [|m hs IH]; [done|]. apply Forall_cons in H as [Hm H]. destruct m as [|h c]; [done|]. cbn [run_subs].
  destruct (Hk h c w) as [er ->]. rewrite reply_failed. by apply IH.
Qed.
Lemma run_msgs_hooks w hs : run_msgs p w (hook_msgs hs) = Ok w.
Proof. induction hs as [|h hs IH]; [done|]. exact IH. Qed.

(** Response = plain messages, then hook calls. *)
Lemma response_shape v e s f st m st' ms : execute_sub p x v e s f st m = Ok (st', ms) ->
  exists pl hk hs, ms = plain_msgs pl ++ hk /\ Forall is_hook hk /\ map erase ms = pl ++ hook_msgs hs.
Proof.
  intros H%execute_effect. destruct (effect_shape _ _ _ _ _ _ _ _ _ _ H) as (pl&hs&E&_&hk&E2&Hh&_). by exists pl, hk, hs.
Qed.

Lemma execute_of_sub v e s f st m :
  execute p x v e s f st m = match execute_sub p x v e s f st m with Ok (st', ms) => Ok (st', map erase ms) | Err er => Err er end.
Proof. unfold execute. by destruct (execute_sub p x v e s f st m) as [[]|]. Qed.

Lemma hooks_cannot_block hk w s f m :
  (exists w', run_tx_hooked p hk x w s f m = Ok w') <-> (exists w', run_tx p (execute p x) w s f m = Ok w').
Proof.
  unfold run_tx_hooked, run_tx. destruct (ensure _ _); [|done]. cbn [mbind]. cbn.
  rewrite execute_of_sub. destruct (execute_sub p x _ _ _ _ _ _) as [[st' ms]|] eqn:E; [|split; intros [? ?]; done]. cbn.
  destruct (response_shape _ _ _ _ _ _ _ _ E) as (pl&hks&hs&->&Hh&->). rewrite run_subs_plain, run_msgs_app.
  destruct (run_msgs p _ pl) as [w1|]; [|split; intros [? ?]; done]. cbn. rewrite run_msgs_hooks.
  split; intros _; [by eexists|]. by apply run_subs_hooks.
Qed.
Lemma failing_hooks hk w s f m : (forall h c w, exists er, hk h c w = Err er) ->
  run_tx_hooked p hk x w s f m = run_tx p (execute p x) w s f m.
Proof.
  intros Hk. unfold run_tx_hooked, run_tx. destruct (ensure _ _); [|done]. cbn [mbind]. cbn.
  rewrite execute_of_sub. destruct (execute_sub p x _ _ _ _ _ _) as [[st' ms]|] eqn:E; [|done]. cbn.
  destruct (response_shape _ _ _ _ _ _ _ _ E) as (pl&hks&hs&->&Hh&->). rewrite run_subs_plain, run_msgs_app.
  destruct (run_msgs p _ pl) as [w1|]; [|done]. cbn. rewrite run_msgs_hooks. by apply run_subs_failing.
Qed.

(** Hooks that do what foreign contracts can do give histories of the chain semantics. *)
Lemma run_subs_sound hk w ms w' : (forall h c w w1, hk h c w = Ok w1 -> adv p (execute p x) w w1) ->
  run_subs p hk w ms = Ok w' -> dispatch p (execute p x) w (map erase ms) w'.
Proof.
  intros Hk. revert w. induction ms as [|m ms IH]; intros w H; [injection H as <-; constructor|]. destruct m as [m|h c]; cbn [run_subs map erase] in *.
  - apply bind_Ok in H as (w1&H1&H). eapply (dispatch_join p (execute p x) w [m]); [|by apply IH]. by apply run_msgs_sound.
  - destruct (hk h c w) as [w1|] eqn:E.
    + eapply DHook; [by eapply Hk|by apply IH].
    + rewrite reply_failed in H. eapply DHook; [constructor|by apply IH].
Qed.
Lemma run_tx_hooked_sound hk w s f m w' : (forall h c w w1, hk h c w = Ok w1 -> adv p (execute p x) w w1) ->
  run_tx_hooked p hk x w s f m = Ok w' -> texec p (execute p x) s f m w w'.
Proof.
  intros Hk H. unfold run_tx_hooked in H. apply bind_Ok in H as (?&H1&H). apply bind_Ok in H as ([st' ms]&H2&H).
  apply ensure_Ok in H1. apply andb_prop in H1 as [H1 H3]. cbn [fst snd] in H.
  eapply TCall; [by apply negb_true_iff, bool_decide_eq_false in H1|done| |by eapply run_subs_sound].
  by rewrite execute_of_sub, H2.
Qed.

(** * The result of a call does not depend on the registered hooks *)
Definition plain_only (ms : list smsg) : list smsg := List.filter (fun m => match m with SPlain _ => true | SHook _ _ => false end) ms.
Local Arguments plain_only : simpl never. Local Arguments prepare : simpl never.
Definition strip (r : result (state * list smsg)) : result (state * list smsg) :=
  match r with Ok (st', ms) => Ok (no_hooks st', plain_only ms) | Err er => Err er end.
Lemma strip_bind {A} (r : result A) g g' : (forall a, r = Ok a -> g' a = strip (g a)) -> (a ← r; g' a) = strip (a ← r; g a).
Proof. destruct r; cbn; auto. Qed.
Lemma plain_only_app l1 l2 : plain_only (l1 ++ l2) = plain_only l1 ++ plain_only l2.
Proof. apply List.filter_app. Qed.
Lemma plain_only_hooks hooks c : plain_only (prepare hooks c) = [].
Proof. induction hooks; done. Qed.
Lemma plain_only_cons m l : plain_only (SPlain m :: l) = SPlain m :: plain_only l.
Proof. done. Qed.
Lemma plain_only_id ms : plain_only (plain_msgs ms) = plain_msgs ms.
Proof. induction ms as [|m ms IH]; [done|]. change (SPlain m :: plain_only (plain_msgs ms) = SPlain m :: plain_msgs ms). by rewrite IH. Qed.
Lemma finalize_strip v st a price buyer finder to resp : plain_only resp = resp ->
  finalize_sale x v (no_hooks st) a price buyer finder to resp =
  match finalize_sale x v st a price buyer finder to resp with Ok ms => Ok (plain_only ms) | Err er => Err er end.
Proof.
  intros Hr. unfold finalize_sale. change (payout x v (no_hooks st)) with (payout x v st).
  destruct (payout x v st _ _ _ _ _ resp) as [ms|] eqn:E; [|done]. cbn [mbind]. cbn.
  apply payout_Ok in E as (ci&_&->&_). rewrite !plain_only_app, Hr. change (map SPlain) with plain_msgs.
  rewrite plain_only_id. unfold prepare_sale_hook. by rewrite plain_only_cons, plain_only_hooks.
Qed.
Lemma execute_strip v e s f st m : execute_sub p x v e s f (no_hooks st) m = strip (execute_sub p x v e s f st m).
Proof.
  assert (forall coll tok bps ex fi to now, execute_set_bid x v e s f (no_hooks st) coll tok bps ex fi to now =
    strip (execute_set_bid x v e s f st coll tok bps ex fi to now)) as Hbid.
  { intros. unfold execute_set_bid. repeat (apply strip_bind; intros ? _). cbn [no_hooks s_params s_bids s_asks].
    assert (forall o : option bid, match o with Some old => (remove_bid (no_hooks st) coll tok s, [send s (b_price old)]) | None => (no_hooks st, []) end
      = let r := match o with Some old => (remove_bid st coll tok s, [send s (b_price old)]) | None => (st, []) end in (no_hooks (fst r), snd r)) as E by (by intros []).
    rewrite E. clear E. cbv zeta.
    destruct (match s_bids st !! (coll, tok, s) with Some old => (remove_bid st coll tok s, [send s (b_price old)]) | None => (st, []) end) as [st1 res] eqn:Er.
    assert (plain_only res = res) as Hres by (destruct (s_bids st !! (coll, tok, s)); by injection Er as <- <-).
    cbn [fst snd]. change (s_asks (no_hooks st1)) with (s_asks st1).
    apply strip_bind. intros _ _.
    assert (forall b, Ok (store_bid (no_hooks st1) b, res ++ prepare_bid_hook (no_hooks st1) b HCreate) =
      strip (Ok (store_bid st1 b, res ++ prepare_bid_hook st1 b HCreate))) as Hs.
    { intros b. cbn. unfold prepare_bid_hook. rewrite plain_only_app, plain_only_hooks, Hres. done. }
    destruct (s_asks st1 !! (coll, tok)) as [ak|]; [|apply Hs]. destruct (k_type ak).
    - destruct (_ ?= _); [|apply Hs|done]. destruct (q_owner v _ _); [|done]. apply strip_bind. intros _ _.
      change (remove_ask (no_hooks st1) coll tok) with (no_hooks (remove_ask st1 coll tok)). rewrite finalize_strip by done.
      by destruct (finalize_sale x v _ ak _ _ _ _ _).
    - destruct (_ ?= _); [apply Hs|done|apply Hs]. }
  destruct m; cbn [execute_sub]; repeat (first [apply Hbid|match goal with |- (mbind _ _) = _ => apply strip_bind; intros ? _ end]).
  - unfold execute_set_ask. repeat (apply strip_bind; intros ? _). cbn. rewrite plain_only_app. unfold prepare_ask_hook. rewrite plain_only_hooks.
    f_equal. f_equal. destruct (0 <? _); [|done]. unfold fair_burn. by destruct (_ && _).
  - unfold execute_remove_ask. repeat (apply strip_bind; intros ? _). cbn. unfold prepare_ask_hook. unfold send; by rewrite ?plain_only_cons, plain_only_hooks.
  - unfold execute_update_ask_price. repeat (apply strip_bind; intros ? _). cbn. unfold prepare_ask_hook. unfold send; by rewrite ?plain_only_cons, plain_only_hooks.
  - unfold execute_remove_bid. repeat (apply strip_bind; intros ? _). cbn. unfold prepare_bid_hook. unfold send; by rewrite ?plain_only_cons, plain_only_hooks.
  - unfold execute_accept_bid. repeat (apply strip_bind; intros ? _). cbv zeta. cbn [no_hooks s_asks].
    replace (match s_asks st !! (a, tok) with Some _ => remove_ask (no_hooks st) a tok | None => no_hooks st end)
      with (no_hooks (match s_asks st !! (a, tok) with Some _ => remove_ask st a tok | None => st end)) by (by destruct (s_asks st !! (a, tok))).
    change (remove_bid (no_hooks ?s)) with (fun c t b => no_hooks (remove_bid s c t b)). cbn beta. rewrite finalize_strip by done.
    by destruct (finalize_sale x v _ _ _ _ _ _ _).
  - unfold execute_reject_bid. repeat (apply strip_bind; intros ? _). cbn. unfold prepare_bid_hook. unfold send; by rewrite ?plain_only_cons, plain_only_hooks.
  - unfold execute_set_collection_bid. repeat (apply strip_bind; intros ? _). cbn [no_hooks s_cbids].
    destruct (s_cbids st !! (a, s)); cbn; unfold prepare_cbid_hook; unfold send; by rewrite ?plain_only_cons, plain_only_hooks.
  - unfold execute_remove_collection_bid. repeat (apply strip_bind; intros ? _). cbn. unfold prepare_cbid_hook. unfold send; by rewrite ?plain_only_cons, plain_only_hooks.
  - unfold execute_accept_collection_bid. repeat (apply strip_bind; intros ? _). cbv zeta. cbn [no_hooks s_asks remove_cbid set_cbids].
    replace (match s_asks st !! (a, tok) with Some _ => remove_ask (remove_cbid (no_hooks st) a a0) a tok | None => remove_cbid (no_hooks st) a a0 end)
      with (no_hooks (match s_asks st !! (a, tok) with Some _ => remove_ask (remove_cbid st a a0) a tok | None => remove_cbid st a a0 end)) by (by destruct (s_asks st !! (a, tok))).
    rewrite finalize_strip by done.
    by destruct (finalize_sale x v _ _ _ _ _ _ _).
  - unfold execute_sync_ask. repeat (apply strip_bind; intros ? _). cbn. unfold prepare_ask_hook. unfold send; by rewrite ?plain_only_cons, plain_only_hooks.
  - unfold execute_remove_stale_ask. repeat (apply strip_bind; intros ? _). cbn. unfold prepare_ask_hook. unfold send; by rewrite ?plain_only_cons, plain_only_hooks.
  - unfold execute_remove_stale_bid. repeat (apply strip_bind; intros ? _). cbn. unfold prepare_bid_hook. unfold send; by rewrite ?plain_only_cons, plain_only_hooks.
  - unfold execute_remove_stale_collection_bid. repeat (apply strip_bind; intros ? _). cbn. unfold prepare_cbid_hook. unfold send; by rewrite ?plain_only_cons, plain_only_hooks.
Qed.
End Hooks.
