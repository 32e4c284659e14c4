(** Transactions of marketplace v1 on the executable chain (TxSpec). *)
From stdpp Require Import relations pretty.
From Verif Require Import Base BaseFacts Common Chain ChainFacts LedgerSpec TxSpec TxFacts V1Model V1Spec V1Facts V1Inv V1Reach
  V1Hooks V1Live V1Exact.

(** What a call does, whatever its kind. *)
Definition v1_does (p : params) (x : ext) (v : view) (e : env) (s : addr) (f : list coin) (st : state) (m : msg) (st' : state) (ms : list smsg) : Prop :=
  (is_listing m /\ listing_does p v e s f st m st' ms) \/ (is_bidding m /\ bidding_does p x v e s f st m st' ms) \/
  (is_answer m /\ answer_does p x v e s f st m st' ms) \/ (is_upkeep m /\ upkeep_does p v e s f st m st' ms).
(** The messages that have to succeed: all but the hook calls. *)
Definition must_go (ms : list smsg) : list cmsg := omap (fun m => match m with SPlain m => Some m | SHook _ _ => None end) ms.
(** The parts of a sale arrive: none is zero except a finder's, or the fee if the chain burns nothing in silence; all payees
    can receive coins. *)
Definition parts_arrive (p : params) (x : ext) (sp : split) (finder : option addr) (seller_to : addr) : Prop :=
  (0 < x_fee sp \/ x_zero_burn x = true) /\
  (forall fd, finder = Some fd -> 0 < x_finder sp -> p_blocked p fd = false) /\
  (forall to n, x_royalty sp = Some (to, n) -> 0 < n /\ p_blocked p to = false) /\
  0 < x_seller sp /\ p_blocked p seller_to = false.

Section V1Tx.
Context (p : params) (x : ext).

Lemma does_exact v e s f st m st' ms : v1_history p x st -> no_overflow e f st ->
  execute_sub p x v e s f st m = Ok (st', ms) <-> v1_does p x v e s f st m st' ms.
Proof.
  intros Hh Ho. unfold v1_does.
  assert (is_listing m \/ is_bidding m \/ is_answer m \/ is_upkeep m) as [H|[H|[H|H]]] by (destruct m; cbn; tauto).
  - rewrite (listing_exact _ x) by done. destruct m; cbn in H |- *; tauto.
  - rewrite bidding_exact by done. destruct m; cbn [is_listing is_bidding is_answer is_upkeep] in H |- *; tauto.
  - rewrite answer_exact by done. destruct m; cbn [is_listing is_bidding is_answer is_upkeep] in H |- *; tauto.
  - rewrite (upkeep_exact _ x) by done. destruct m; cbn [is_listing is_bidding is_answer is_upkeep] in H |- *; tauto.
Qed.

Lemma must_go_erase (w : world state) ms : Forall (goes_through p w) (map erase ms) <-> Forall (goes_through p w) (must_go ms).
Proof.
  induction ms as [|m ms IH]; [done|]. destruct m as [m|h c]; cbn [map erase must_go omap list_omap].
  - change (must_go (SPlain m :: ms)) with (m :: must_go ms). by rewrite !Forall_cons, IH.
  - change (must_go (SHook h c :: ms)) with (must_go ms). rewrite Forall_cons, IH. cbn. tauto.
Qed.
Lemma leaving_erase d ms : leaving d (map erase ms) = leaving d (must_go ms).
Proof. induction ms as [|m ms IH]; [done|]. destruct m as [m|h c]; cbn; unfold leaving in *; cbn; by rewrite IH. Qed.
Lemma sent_erase y d ms : sent_to y d (map erase ms) = sent_to y d (must_go ms).
Proof. induction ms as [|m ms IH]; [done|]. destruct m as [m|h c]; cbn; unfold sent_to in *; cbn; by rewrite IH. Qed.
Lemma moved_erase c t ms : moved_to c t (map erase ms) = moved_to c t (must_go ms).
Proof.
  induction ms as [|m ms IH]; [done|]. destruct m as [m|h hc]; cbn [map erase].
  - change (must_go (SPlain m :: ms)) with (m :: must_go ms). by rewrite !moved_to_cons, IH.
  - change (must_go (SHook h hc :: ms)) with (must_go ms). rewrite moved_to_cons, IH. by destruct (moved_to c t (must_go ms)).
Qed.
Lemma honest_erase ms : honest_out p (map erase ms) = honest_out p (must_go ms).
Proof.
  induction ms as [|m ms IH]; [done|]. destruct m as [m|h hc]; cbn [map erase].
  - change (must_go (SPlain m :: ms)) with (m :: must_go ms). unfold honest_out in *. cbn. by rewrite IH.
  - exact IH.
Qed.
Lemma must_go_app ms ns : must_go (ms ++ ns) = must_go ms ++ must_go ns.
Proof. apply omap_app. Qed.
Lemma must_go_plainly ms : must_go (plainly ms) = ms.
Proof. induction ms as [|m ms IH]; [done|]. cbn. f_equal. exact IH. Qed.
Lemma must_go_told hs c : must_go (told hs c) = [].
Proof. induction hs as [|h hs IH]; [done|]. exact IH. Qed.

(** ** At most one NFT *)
Lemma split_no_nft sp finder to : honest_out p (split_msgs x sp finder to) = [].
Proof.
  unfold split_msgs. rewrite !honest_out_app. destruct (_ && _), finder, (x_royalty sp) as [[]|]; cbn; try done; by destruct (x_finder sp =? 0).
Qed.
Lemma one_honest c t to : NoDup (honest_out p [MNft c t to]).
Proof. unfold honest_out. cbn. destruct (p_honest p c); repeat constructor. apply not_elem_of_nil. Qed.
Lemma sale_nodup v st coll tok price s sto b bto fd bps ms : sale_does x v st coll tok price s sto b bto fd bps ms -> NoDup (honest_out p (must_go ms)).
Proof.
  intros (ci&_&_&->). rewrite must_go_app, must_go_plainly, must_go_told, app_nil_r, honest_out_app, split_no_nft. apply one_honest.
Qed.
Lemma does_nodup v e s f st m st' ms : v1_does p x v e s f st m st' ms -> NoDup (honest_out p (must_go ms)).
Proof.
  intros [[_ H]|[[_ H]|[[_ H]|[_ H]]]].
  - destruct m; try done; cbn in H.
    + destruct H as (_&_&_&_&_&_&_&_&->). rewrite must_go_app, must_go_plainly, must_go_told. destruct (_ =? 0); constructor.
    + destruct H as (a&_&_&_&_&->). rewrite must_go_told. constructor.
    + destruct H as (a&_&_&_&_&_&_&_&->). rewrite must_go_told. constructor.
  - destruct H as (ba&price&_&_&_&_&_&_&H). cbv zeta in H.
    assert (honest_out p (refund_of st (ba_coll ba) (ba_tok ba) s) = []) as Hr by (unfold refund_of; by destruct (s_bids st !! _)).
    assert (forall b, NoDup (honest_out p (must_go (plainly (refund_of st (ba_coll ba) (ba_tok ba) s) ++ told (s_bid_hooks st) b)))) as Hrest.
    { intros b. rewrite must_go_app, must_go_plainly, must_go_told, app_nil_r, Hr. constructor. }
    destruct (s_asks st !! _) as [a|].
    + destruct H as (_&_&_&H). destruct (k_type a).
      * destruct H as [(_&_&->)|(_&_&_&sale&->&Hs)]; [apply Hrest|].
        rewrite must_go_app, must_go_plainly, honest_out_app, Hr. by eapply sale_nodup.
      * destruct H as (_&_&->). apply Hrest.
    + destruct H as (_&_&->). apply Hrest.
  - destruct m; try done; cbn [answer_does] in H.
    + destruct H as (b&_&_&_&->). rewrite must_go_app, must_go_plainly, must_go_told. constructor.
    + destruct H as (b&_&_&_&_&_&_&_&_&H). by eapply sale_nodup.
    + destruct H as (b&_&_&_&_&_&->). rewrite must_go_app, must_go_plainly, must_go_told. constructor.
    + destruct H as (price&_&_&_&_&_&->). rewrite must_go_app, must_go_plainly, must_go_told. unfold crefund_of. destruct (s_cbids st !! _); constructor.
    + destruct H as (b&_&_&_&->). rewrite must_go_app, must_go_plainly, must_go_told. constructor.
    + destruct H as (b&_&_&_&_&_&_&_&_&H). by eapply sale_nodup.
  - destruct H as (_&_&H). destruct m; try done.
    + destruct H as (a&_&_&_&->). rewrite must_go_told. constructor.
    + destruct H as (a&_&_&_&->). rewrite must_go_told. constructor.
    + destruct H as (b&_&_&_&_&->). rewrite must_go_app, must_go_plainly, must_go_told. constructor.
    + destruct H as (b&_&_&_&_&->). rewrite must_go_app, must_go_plainly, must_go_told. constructor.
Qed.

Lemma tx_goes w s f m : v1_reachable p x w -> no_overflow (env_of w) f (w_st w) ->
  (exists w', run_tx p (execute p x) w s f m = Ok w') <->
  affords p w s f /\ exists st' ms, v1_does p x (view_of p w) (env_of w) s f (w_st w) m st' ms /\ Forall (goes_through p w) (must_go ms).
Proof.
  intros Hr Ho. pose proof (reachable_wf _ _ _ Hr) as Hw. pose proof (reachable_history _ _ _ Hr) as Hh. rewrite run_tx_ok.
  - split; intros (Hp&st'&ms&He&Hg); (split; [done|]).
    + rewrite execute_of_sub in He. destruct (execute_sub _ _ _ _ _ _ _ _) as [[st1 ms1]|] eqn:E; [|done]. injection He as <- <-.
      exists st1, ms1. split; [by apply does_exact|by apply must_go_erase].
    + exists st', (map erase ms). apply does_exact in He; [|done..]. split; [by rewrite execute_of_sub, He|by apply must_go_erase].
  - intros st' ms Hp He. split.
    + rewrite execute_of_sub in He. destruct (execute_sub _ _ _ _ _ _ _ _) as [[st1 ms1]|] eqn:E; [|done]. injection He as <- <-.
      rewrite honest_erase. apply does_exact in E; [|done..]. by eapply does_nodup.
    + intros d. pose proof (execute_liab _ _ _ _ _ _ _ _ _ _ d Hw He) as Hl. destruct (reachable_solvent _ _ _ Hr) as [_ Hb]. specialize (Hb d).
      rewrite leaving_out, coins_of_amt. lia.
Qed.
Lemma settled_must_go (w : world state) s f st' ms w' : settled_as p w s f st' (map erase ms) w' -> settled_as p w s f st' (must_go ms) w'.
Proof.
  intros [H1 H2 H3 H4 H5 H6 H7 H8]. constructor; try done.
  - intros y d. rewrite <-leaving_erase, <-sent_erase. apply H2.
  - intros c t. rewrite <-moved_erase. apply H3.
  - intros c t y. rewrite <-moved_erase. apply H4.
Qed.
Lemma tx_settled w s f m w' : v1_reachable p x w -> no_overflow (env_of w) f (w_st w) -> run_tx p (execute p x) w s f m = Ok w' ->
  exists st' ms, v1_does p x (view_of p w) (env_of w) s f (w_st w) m st' ms /\ settled_as p w s f st' (must_go ms) w'.
Proof.
  intros Hr Ho H. pose proof (reachable_history _ _ _ Hr) as Hh. apply run_tx_settled in H as (_&st'&ms&He&H).
  rewrite execute_of_sub in He. destruct (execute_sub _ _ _ _ _ _ _ _) as [[st1 ms1]|] eqn:E; [|done]. injection He as <- <-.
  exists st1, ms1. split; [by apply does_exact|by apply settled_must_go].
Qed.

(** ** Single calls *)
Lemma affords_nil (w : world state) s : affords p w s [] <-> s <> p_self p.
Proof. unfold affords. split; [tauto|]. intros H. split; [done|]. intros d. rewrite coins_of_nil. lia. Qed.
Lemma pay_goes (w : world state) to n : goes_through p w (pay to n) <-> 0 < n /\ p_blocked p to = false.
Proof. cbn. rewrite Forall_singleton. cbn. split; [tauto|]. intros []. done. Qed.
Lemma sale_arrives (w : world state) sp finder sto coll t bto :
  Forall (goes_through p w) (split_msgs x sp finder sto ++ [MNft coll t bto]) <->
  parts_arrive p x sp finder sto /\ coll <> p_self p /\ (p_honest p coll = true -> may_move w coll t (p_self p)).
Proof.
  unfold split_msgs, parts_arrive. rewrite !Forall_app, !Forall_singleton, pay_goes. cbn [goes_through].
  assert (Forall (goes_through p w) (if (x_fee sp =? 0) && x_zero_burn x then [] else [MFairBurn (native (x_fee sp))]) <->
    (0 < x_fee sp \/ x_zero_burn x = true)) as ->.
  { destruct (x_fee sp =? 0) eqn:E; [apply N.eqb_eq in E|apply N.eqb_neq in E]; cbn [andb].
    - destruct (x_zero_burn x); [split; [by right|constructor]|]. rewrite Forall_singleton. cbn. split; [lia|]. intros [?|?]; [lia|done].
    - rewrite Forall_singleton. cbn. split; [intros; by left|lia]. }
  assert (Forall (goes_through p w) (match finder with Some f => if x_finder sp =? 0 then [] else [pay f (x_finder sp)] | None => [] end) <->
    (forall fd, finder = Some fd -> 0 < x_finder sp -> p_blocked p fd = false)) as ->.
  { destruct finder as [fd|]; [|split; [done|constructor]]. destruct (x_finder sp =? 0) eqn:E; [apply N.eqb_eq in E|apply N.eqb_neq in E].
    - split; [intros _ fd' _ ?; lia|constructor].
    - rewrite Forall_singleton, pay_goes. split; [intros [_ ?] fd' [= <-] _; done|]. intros H. split; [lia|]. apply H; [done|lia]. }
  assert (Forall (goes_through p w) (match x_royalty sp with Some (to, n) => [pay to n] | None => [] end) <->
    (forall to n, x_royalty sp = Some (to, n) -> 0 < n /\ p_blocked p to = false)) as ->.
  { destruct (x_royalty sp) as [[to n]|]; [|split; [done|constructor]]. rewrite Forall_singleton, pay_goes.
    split; [intros H ? ? [= <- <-]; done|]. intros H. by apply H. }
  tauto.
Qed.
Lemma plain_goes (w : world state) pl hs c : Forall (goes_through p w) (must_go (plainly pl ++ told hs c)) <-> Forall (goes_through p w) pl.
Proof. by rewrite must_go_app, must_go_plainly, must_go_told, app_nil_r. Qed.

Lemma clean_tx w s f coll tok who b : v1_reachable p x w -> no_overflow (env_of w) f (w_st w) -> s_bids (w_st w) !! (coll, tok, who) = Some b ->
  let reward := b_price b * sp_reward (s_params (w_st w)) / 10 ^ 20 in
  (exists w', run_tx p (execute p x) w s f (RemoveStaleBid coll tok who) = Ok w') <->
  s <> p_self p /\ f = [] /\ operator (w_st w) s /\ p_valid p who = true /\ stale (w_st w) (w_time w) (b_expires b) /\
  0 < reward < b_price b /\ p_blocked p who = false /\ p_blocked p s = false.
Proof.
  intros Hr Ho Hb reward. rewrite tx_goes by done. unfold v1_does. cbn [is_listing is_bidding is_answer is_upkeep]. split.
  - intros (Ha&st'&ms&[[[] _]|[[[] _]|[[[] _]|[_ H]]]]&Hg). destruct H as (->&Hop&b'&Hv&Hb'&Hst&_&->). assert (b' = b) as -> by congruence.
    apply affords_nil in Ha. apply plain_goes in Hg. rewrite !Forall_cons, !pay_goes in Hg. destruct Hg as ((H1&H2)&(H3&H4)&_).
    fold reward in H1, H3. split_and!; try done. lia.
  - intros (Ha&->&Hop&Hv&Hst&[H1 H2]&H3&H4). split; [by apply affords_nil|]. do 2 eexists. split.
    + right; right; right. split; [done|]. split; [done|]. split; [done|]. exists b. split_and!; done.
    + apply plain_goes. fold reward. rewrite !Forall_cons, !pay_goes. split_and!; try done; lia.
Qed.
Lemma cclean_tx w s f coll who b : v1_reachable p x w -> no_overflow (env_of w) f (w_st w) -> s_cbids (w_st w) !! (coll, who) = Some b ->
  let reward := cb_price b * sp_reward (s_params (w_st w)) / 10 ^ 20 in
  (exists w', run_tx p (execute p x) w s f (RemoveStaleCollectionBid coll who) = Ok w') <->
  s <> p_self p /\ f = [] /\ operator (w_st w) s /\ p_valid p who = true /\ stale (w_st w) (w_time w) (cb_expires b) /\
  0 < reward < cb_price b /\ p_blocked p who = false /\ p_blocked p s = false.
Proof.
  intros Hr Ho Hb reward. rewrite tx_goes by done. unfold v1_does. cbn [is_listing is_bidding is_answer is_upkeep]. split.
  - intros (Ha&st'&ms&[[[] _]|[[[] _]|[[[] _]|[_ H]]]]&Hg). destruct H as (->&Hop&b'&Hv&Hb'&Hst&_&->). assert (b' = b) as -> by congruence.
    apply affords_nil in Ha. apply plain_goes in Hg. rewrite !Forall_cons, !pay_goes in Hg. destruct Hg as ((H1&H2)&(H3&H4)&_).
    fold reward in H1, H3. split_and!; try done. lia.
  - intros (Ha&->&Hop&Hv&Hst&[H1 H2]&H3&H4). split; [by apply affords_nil|]. do 2 eexists. split.
    + right; right; right. split; [done|]. split; [done|]. split; [done|]. exists b. split_and!; done.
    + apply plain_goes. fold reward. rewrite !Forall_cons, !pay_goes. split_and!; try done; lia.
Qed.
Lemma withdraw_tx w s f coll tok b : v1_reachable p x w -> no_overflow (env_of w) f (w_st w) -> s_bids (w_st w) !! (coll, tok, s) = Some b ->
  (exists w', run_tx p (execute p x) w s f (RemoveBid coll tok) = Ok w') <-> s <> p_self p /\ f = [] /\ p_blocked p s = false.
Proof.
  intros Hr Ho Hb. rewrite tx_goes by done. unfold v1_does. cbn [is_listing is_bidding is_answer is_upkeep]. split.
  - intros (Ha&st'&ms&[[[] _]|[[[] _]|[[_ H]|[[] _]]]]&Hg). destruct H as (b'&->&_&_&->). apply affords_nil in Ha.
    apply plain_goes in Hg. rewrite Forall_singleton, pay_goes in Hg. tauto.
  - intros (Ha&->&Hbl). split; [by apply affords_nil|]. do 2 eexists. split.
    + right; right; left. split; [done|]. exists b. split_and!; done.
    + apply plain_goes. rewrite Forall_singleton, pay_goes. split; [|done].
      by destruct (wf_bid _ _ (reachable_wf _ _ _ Hr) _ _ Hb) as (_&?&_).
Qed.
Lemma cwithdraw_tx w s f coll b : v1_reachable p x w -> no_overflow (env_of w) f (w_st w) -> s_cbids (w_st w) !! (coll, s) = Some b ->
  (exists w', run_tx p (execute p x) w s f (RemoveCollectionBid coll) = Ok w') <-> s <> p_self p /\ f = [] /\ p_blocked p s = false.
Proof.
  intros Hr Ho Hb. rewrite tx_goes by done. unfold v1_does. cbn [is_listing is_bidding is_answer is_upkeep]. split.
  - intros (Ha&st'&ms&[[[] _]|[[[] _]|[[_ H]|[[] _]]]]&Hg). destruct H as (b'&->&_&_&->). apply affords_nil in Ha.
    apply plain_goes in Hg. rewrite Forall_singleton, pay_goes in Hg. tauto.
  - intros (Ha&->&Hbl). split; [by apply affords_nil|]. do 2 eexists. split.
    + right; right; left. split; [done|]. exists b. split_and!; done.
    + apply plain_goes. rewrite Forall_singleton, pay_goes. split; [|done].
      by destruct (wf_cbid _ _ (reachable_wf _ _ _ Hr) _ _ Hb) as (_&?&_).
Qed.
Lemma reject_tx w s f coll tok who b : v1_reachable p x w -> no_overflow (env_of w) f (w_st w) -> s_bids (w_st w) !! (coll, tok, who) = Some b ->
  (exists w', run_tx p (execute p x) w s f (RejectBid coll tok who) = Ok w') <->
  s <> p_self p /\ f = [] /\ p_valid p who = true /\ owns (view_of p w) s coll tok /\ p_blocked p who = false.
Proof.
  intros Hr Ho Hb. rewrite tx_goes by done. unfold v1_does. cbn [is_listing is_bidding is_answer is_upkeep]. split.
  - intros (Ha&st'&ms&[[[] _]|[[[] _]|[[_ H]|[[] _]]]]&Hg). destruct H as (b'&Hv&->&Hown&_&_&->). apply affords_nil in Ha.
    apply plain_goes in Hg. rewrite Forall_singleton, pay_goes in Hg. tauto.
  - intros (Ha&->&Hv&Hown&Hbl). split; [by apply affords_nil|]. do 2 eexists. split.
    + right; right; left. split; [done|]. exists b. split_and!; done.
    + apply plain_goes. rewrite Forall_singleton, pay_goes. split; [|done].
      by destruct (wf_bid _ _ (reachable_wf _ _ _ Hr) _ _ Hb) as (_&?&_).
Qed.
(** Selling into a bid. *)
Lemma accept_tx w s f coll tok who finder b : v1_reachable p x w -> no_overflow (env_of w) f (w_st w) -> s_bids (w_st w) !! (coll, tok, who) = Some b ->
  let rate := sp_trading_fee (s_params (w_st w)) in
  (exists w', run_tx p (execute p x) w s f (AcceptBid coll tok who finder) = Ok w') <->
  s <> p_self p /\ f = [] /\ p_valid p who = true /\ known p finder /\ owns (view_of p w) s coll tok /\
  tradable (view_of p w) (env_of w) coll /\ live (env_of w) (b_expires b) /\
  (exists ci, q_info (view_of p w) coll = Some ci /\ pays_off rate (b_price b) finder (b_finders b) (ci_royalty ci) /\
    parts_arrive p x (split_of rate (b_price b) finder (b_finders b) (ci_royalty ci)) finder s) /\
  coll <> p_self p /\ (p_honest p coll = true -> may_move w coll (pretty tok) (p_self p)).
Proof.
  intros Hr Ho Hb rate. rewrite tx_goes by done. unfold v1_does. cbn [is_listing is_bidding is_answer is_upkeep]. split.
  - intros (Ha&st'&ms&[[[] _]|[[[] _]|[[_ H]|[[] _]]]]&Hg).
    destruct H as (b'&Hv&Hk&->&Hown&Htr&Hb'&Hl&_&ci&Hci&Hpo&->). assert (b' = b) as -> by congruence.
    apply affords_nil in Ha. apply plain_goes in Hg. apply sale_arrives in Hg as (Hg1&Hg2&Hg3). split_and!; try done. eauto.
  - intros (Ha&->&Hv&Hk&Hown&Htr&Hl&(ci&Hci&Hpo&Hg1)&Hg2&Hg3). split; [by apply affords_nil|]. do 2 eexists. split.
    + right; right; left. split; [done|]. exists b. split_and!; try done. exists ci. split_and!; done.
    + apply plain_goes, sale_arrives. done.
Qed.
(** Buying at the price of a fixed-price listing. *)
Lemma buy_tx w s f m ba a : v1_reachable p x w -> no_overflow (env_of w) f (w_st w) -> bid_call m = Some ba ->
  s_asks (w_st w) !! (ba_coll ba, ba_tok ba) = Some a -> k_type a = FixedPrice -> f = [native (k_price a)] ->
  let rate := sp_trading_fee (s_params (w_st w)) in
  (exists w', run_tx p (execute p x) w s f m = Ok w') <->
  affords p w s f /\ (p_valid p (ba_coll ba) = true /\ known p (ba_finder ba) /\ known p (ba_to ba)) /\
  (0 < k_price a /\ sp_min_price (s_params (w_st w)) <= k_price a) /\ ba_finder ba <> Some s /\ finder_allowed (w_st w) (ba_bps ba) /\
  in_window (sp_bid_expiry (s_params (w_st w))) (w_time w) (ba_expires ba) /\
  live (env_of w) (k_expires a) /\ k_active a = true /\ (forall r, k_reserve a = Some r -> r = s) /\
  owns (view_of p w) (k_seller a) (ba_coll ba) (ba_tok ba) /\
  (forall b, s_bids (w_st w) !! (ba_coll ba, ba_tok ba, s) = Some b -> p_blocked p s = false) /\
  (exists ci, q_info (view_of p w) (ba_coll ba) = Some ci /\ pays_off rate (k_price a) (ba_finder ba) (k_finders a) (ci_royalty ci) /\
    parts_arrive p x (split_of rate (k_price a) (ba_finder ba) (k_finders a) (ci_royalty ci)) (ba_finder ba) (default (k_seller a) (k_recipient a))) /\
  ba_coll ba <> p_self p /\ (p_honest p (ba_coll ba) = true -> may_move w (ba_coll ba) (pretty (ba_tok ba)) (p_self p)).
Proof.
  intros Hr Ho Hba Ha Hty Hf rate. rewrite tx_goes by done.
  assert (is_bidding m) as Hm by (destruct m; try discriminate; exact I).
  assert (forall st' ms, v1_does p x (view_of p w) (env_of w) s f (w_st w) m st' ms <-> bidding_does p x (view_of p w) (env_of w) s f (w_st w) m st' ms) as Hd.
  { intros st' ms. unfold v1_does. destruct m; try done; cbn [is_listing is_bidding is_answer is_upkeep]; tauto. }
  assert (Forall (goes_through p w) (refund_of (w_st w) (ba_coll ba) (ba_tok ba) s) <->
    (forall b, s_bids (w_st w) !! (ba_coll ba, ba_tok ba, s) = Some b -> p_blocked p s = false)) as Hre.
  { unfold refund_of. destruct (s_bids (w_st w) !! _) as [b|] eqn:E; [|split; [done|constructor]]. rewrite Forall_singleton, pay_goes.
    split; [intros [_ ?] ? _; done|]. intros H. split; [|by eapply H]. by destruct (wf_bid _ _ (reachable_wf _ _ _ Hr) _ _ E) as (_&?&_). }
  split.
  - intros (Haf&st'&ms&H%Hd&Hg). destruct H as (ba'&price&Hba'&Hv&(Hf'&Hpos&Hmin)&Hfi&Hfa&Hw&H). assert (ba' = ba) as -> by congruence.
    assert (price = k_price a) as -> by (rewrite Hf in Hf'; injection Hf'; done). cbv zeta in H. rewrite Ha in H.
    destruct H as (Hl&Hac&Hres&H). rewrite Hty in H. destruct H as [(?&_)|(_&Hown&_&sale&->&ci&Hci&Hpo&->)]; [lia|].
    rewrite must_go_app, Forall_app, must_go_plainly in Hg. destruct Hg as [Hg1 Hg]. apply plain_goes, sale_arrives in Hg as (Hg2&Hg3&Hg4).
    pose proof (proj1 Hre Hg1). destruct Hv as (Hv1&Hv2&Hv3). split_and!; try done. exists ci. split_and!; done.
  - intros (Haf&Hv&(Hpos&Hmin)&Hfi&Hfa&Hw&Hl&Hac&Hres&Hown&Hbl&(ci&Hci&Hpo&Hg1)&Hg2&Hg3). split; [done|]. do 2 eexists. split.
    + apply Hd. exists ba, (k_price a). destruct Hv as (Hv1&Hv2&Hv3). split_and!; try done. cbv zeta. rewrite Ha. split_and!; try done. rewrite Hty. right.
      split_and!; try done. eexists. split; [done|]. exists ci. split_and!; done.
    + rewrite must_go_app, Forall_app, must_go_plainly. split; [by apply Hre|]. apply plain_goes, sale_arrives. done.
Qed.
End V1Tx.
