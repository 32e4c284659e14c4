(** C140 for marketplace v2: proofs. *)
From Verif Require Import Base Common IndexRange IndexFacts V2Model AlikeSpec Alike V2AlikeSpec.

Section Alike.
Context (p : params) (r : addr -> addr) (Hr : renaming p r).
Context (v v' : view) (Hv : view_renamed r v v').
Notation st_r := (state_renamed r).
Notation m_r := (msg_renamed r).
Notation ms_r := (@fmap list list_fmap cmsg cmsg m_r).
Notation d_r := (details_renamed r).
Notation Out := (answer_renamed st_r m_r).
Definition mb_r (mb : matching_bid) : matching_bid := match mb with MBid b => MBid (bid_renamed r b) | MCBid cb => MCBid (cbid_renamed r cb) end.

Lemma admin_renamed s : only_contract_admin v' (r s) = only_contract_admin v s.
Proof. unfold only_contract_admin. rewrite (vr_admin _ _ _ Hv). destruct (q_admin v) as [[x|]|]; [|done..]. by rewrite (same_account p). Qed.
Lemma owner_renamed s coll tok : only_owner v' (r s) coll tok = only_owner v s coll tok.
Proof. unfold only_owner. rewrite (vr_owner _ _ _ Hv). destruct (q_owner v coll tok); [|done]. by rewrite (same_account p). Qed.
Lemma tradable_renamed e coll : only_tradable v' e coll = only_tradable v e coll.
Proof. unfold only_tradable. rewrite (vr_info _ _ _ Hv). by destruct (q_info v coll). Qed.
Lemma details_addr_renamed d : details_str_to_addr p (d_r d) = d_r <$> details_str_to_addr p d.
Proof.
  unfold details_str_to_addr. destruct d as [pr rc fi]. cbn [details_renamed d_price d_recipient d_finder].
  change (opt_renamed r rc) with (r <$> rc). change (opt_renamed r fi) with (r <$> fi). rewrite !(maybe_renamed p r Hr).
  destruct (maybe_addr p rc); [|done]. cbn. by destruct (maybe_addr p fi).
Qed.
Lemma royalties_renamed reg coll pr (resp : list cmsg) :
  fetch_or_set_royalties p v' reg coll pr (ms_r resp) =
  (fun x => (match fst x with Some y => Some (entry_renamed r y) | None => None end, ms_r (snd x))) <$> fetch_or_set_royalties p v reg coll pr resp.
Proof.
  unfold fetch_or_set_royalties, fetch_royalty_entry. rewrite (vr_royalty _ _ _ Hv). destruct (q_royalty v reg coll pr) as [[a b]|]; [|done].
  destruct a as [a|]; [done|]. destruct b as [b|]; [done|]. cbn [mbind result_bind]. rewrite (vr_info _ _ _ Hv).
  destruct (q_info v coll) as [[st ro]|]; [|done]. cbn [info_renamed ci_royalty]. destruct ro as [[to n]|]; [|done].
  rewrite (validate_renamed p r Hr). destruct (addr_validate p to); [|done]. cbn. by rewrite fmap_app.
Qed.
Definition fee_r (f : fee) : fee := Fee (fee_share f) (r (fee_recipient f)).
Definition pay_r (x : payment) : payment := Payment (r (pay_recipient x)) (pay_funds x).
Lemma fees_renamed cfg pf mk tk ro :
  sale_fees (config_renamed r cfg) pf (opt_renamed r mk) (opt_renamed r tk) (match ro with Some y => Some (entry_renamed r y) | None => None end) =
  fee_r <$> sale_fees cfg pf mk tk ro.
Proof.
  unfold sale_fees. rewrite !fmap_app. f_equal; [by destruct (0 <? pf_protocol pf)|]. f_equal; [by destruct (0 <? pf_maker pf), mk|].
  f_equal; [by destruct (0 <? pf_taker pf), tk|]. by destruct ro.
Qed.
Lemma fee_payments_renamed sale (fees : list fee) : forall n,
  build_fee_payments sale (fee_r <$> fees) n = (fun x : list payment * N => (pay_r <$> fst x, snd x)) <$> build_fee_payments sale fees n.
Proof.
  induction fees as [|f fees IH]; intros n; [done|]. cbn [fmap list_fmap build_fee_payments fee_r fee_share].
  destruct (fee_share f =? 0); [apply IH|]. destruct (mul_ceil _ _) as [k|]; [|done]. cbn [mbind result_bind].
  destruct (checked_sub128 n k) as [rest|]; [|done]. cbn [mbind result_bind]. rewrite IH. by destruct (build_fee_payments sale fees rest) as [[ps m]|].
Qed.
Lemma payments_renamed sale to (fees : list fee) :
  build_payments sale (r to) (fee_r <$> fees) = (fun l : list payment => pay_r <$> l) <$> build_payments sale to fees.
Proof.
  unfold build_payments. rewrite fee_payments_renamed. destruct (build_fee_payments sale fees (c_amount sale)) as [[ps m]|]; [|done].
  cbn [fmap result_map mbind result_bind fst snd]. destruct (m =? 0); [done|]. cbn. by rewrite fmap_app.
Qed.
Lemma payout_renamed (ps : list payment) : forall (resp : list cmsg), payout (pay_r <$> ps) (ms_r resp) = ms_r (payout ps resp).
Proof.
  unfold payout. induction ps as [|x ps IH]; intros resp; [done|]. cbn [fmap list_fmap fold_left]. rewrite <-IH. f_equal. unfold transfer_coins. by rewrite fmap_app.
Qed.
Lemma finalize_renamed st a cfg mb before (resp : list cmsg) :
  finalize_sale p v' (st_r st) (ask_renamed r a) (config_renamed r cfg) (mb_r mb) before (ms_r resp) =
  Out (finalize_sale p v st a cfg mb before resp).
Proof.
  unfold finalize_sale. cbv zeta.
  assert (mb_det (mb_r mb) = d_r (mb_det mb)) as -> by (by destruct mb).
  assert (mb_recipient (mb_r mb) = r (mb_recipient mb)) as ->.
  { destruct mb as [b|b]; [destruct b as [? ? ? ? [? [?|] ?]]|destruct b as [? ? ? [? [?|] ?]]]; done. }
  assert (ask_recipient (ask_renamed r a) = r (ask_recipient a)) as -> by (by destruct a as [? ? ? ? [? [?|] ?]]).
  set (x := if before then (d_price (a_det a), d_finder (a_det a), d_finder (mb_det mb)) else (d_price (mb_det mb), d_finder (mb_det mb), d_finder (a_det a))).
  assert ((if before then (d_price (a_det (ask_renamed r a)), d_finder (a_det (ask_renamed r a)), d_finder (d_r (mb_det mb)))
           else (d_price (d_r (mb_det mb)), d_finder (d_r (mb_det mb)), d_finder (a_det (ask_renamed r a)))) =
          (fst (fst x), opt_renamed r (snd (fst x)), opt_renamed r (snd x))) as -> by (by destruct before).
  destruct x as [[sale mk] tk]. cbn [fst snd].
  assert (forall o : option addr, bool_decide (is_Some (opt_renamed r o)) = bool_decide (is_Some o)) as Ho by (by intros [o|]).
  rewrite !Ho. change (divide_protocol_fees (config_renamed r cfg)) with (divide_protocol_fees cfg).
  destruct (divide_protocol_fees cfg _ _) as [pf|]; [|done]. cbn [mbind result_bind config_renamed cf_registry ask_renamed a_coll].
  rewrite royalties_renamed. destruct (fetch_or_set_royalties p v (cf_registry cfg) (a_coll a) (Some (p_self p)) resp) as [[ro resp']|]; [|done].
  cbn [fmap result_map mbind result_bind fst snd]. rewrite fees_renamed, payments_renamed.
  destruct (build_payments sale (ask_recipient a) (sale_fees cfg pf mk tk ro)) as [ps|]; [|done].
  cbn [fmap result_map mbind result_bind]. unfold answer_renamed. f_equal. f_equal.
  - destruct mb; unfold set_bids, set_cbids, set_asks, state_renamed; cbn [mb_r ask_renamed a_id bid_renamed b_id cbid_renamed cb_id s_config s_denoms s_fees s_nonce s_asks s_bids s_cbids]; by rewrite !fmap_delete.
  - rewrite payout_renamed. unfold transfer_nft. by rewrite fmap_app.
Qed.

(** Indexes *)
Lemma pkey_rules {V} (f : string * V -> N) (x y : string * V) : (f x, fst x) = (f y, fst y) -> fst x = fst y.
Proof. congruence. Qed.
Lemma asks_renamed st coll dn o :
  query_asks_by_collection_denom (st_r st) coll dn o = ask_renamed r <$> query_asks_by_collection_denom st coll dn o.
Proof.
  unfold query_asks_by_collection_denom. apply range_commutes; auto using pkey_leb_total, pkey_leb_antisym; [apply pkey_leb_trans|].
  intros x y. apply pkey_rules.
Qed.
Lemma bids_renamed st coll tok dn o :
  query_bids_by_token_price (st_r st) coll tok dn o = bid_renamed r <$> query_bids_by_token_price st coll tok dn o.
Proof.
  unfold query_bids_by_token_price. apply range_commutes; auto using pkey_leb_total, pkey_leb_antisym; [apply pkey_leb_trans|].
  intros x y. apply pkey_rules.
Qed.
Lemma cbids_renamed st coll dn o :
  query_collection_bids_by_price (st_r st) coll dn o = cbid_renamed r <$> query_collection_bids_by_price st coll dn o.
Proof.
  unfold query_collection_bids_by_price. apply range_commutes; auto using pkey_leb_total, pkey_leb_antisym; [apply pkey_leb_trans|].
  intros x y. apply pkey_rules.
Qed.
Lemma pop_renamed {A B} (f : A -> B) l : vec_pop (f <$> l) = f <$> vec_pop l.
Proof. unfold vec_pop. apply fmap_last. Qed.
Lemma match_renamed st a : match_with_bid (st_r st) (ask_renamed r a) = mb_r <$> match_with_bid st a.
Proof.
  unfold match_with_bid. cbv zeta. cbn [ask_renamed a_det details_renamed d_price a_coll a_tok]. rewrite bids_renamed, cbids_renamed, !pop_renamed.
  destruct (vec_pop (query_bids_by_token_price _ _ _ _ _)) as [b|], (vec_pop (query_collection_bids_by_price _ _ _ _)) as [cb|]; try done.
  cbn. by destruct (_ <=? _).
Qed.
Lemma bid_match_renamed st b : bid_match_with_ask p (st_r st) (bid_renamed r b) = ask_renamed r <$> bid_match_with_ask p st b.
Proof.
  unfold bid_match_with_ask. cbn [state_renamed s_asks bid_renamed b_coll b_tok b_det details_renamed d_price]. rewrite lookup_fmap.
  destruct (s_asks st !! _) as [a|]; [|done]. cbn [fmap option_fmap option_map ask_renamed a_det details_renamed d_price]. by destruct (has_coins _ _).
Qed.
Lemma cbid_match_renamed st cb :
  cbid_match_with_ask (st_r st) (cbid_renamed r cb) = (fun o : option ask => ask_renamed r <$> o) <$> cbid_match_with_ask st cb.
Proof.
  unfold cbid_match_with_ask. cbv zeta. cbn [cbid_renamed cb_det details_renamed d_price cb_coll].
  destruct (add128 _ 1) as [b|]; [|done]. cbn [mbind result_bind]. by rewrite asks_renamed, pop_renamed.
Qed.

(** Storage *)
Lemma ask_saved st a : set_asks (st_r st) (<[a_id a := ask_renamed r a]> (s_asks (st_r st))) = st_r (set_asks st (<[a_id a := a]> (s_asks st))).
Proof. unfold set_asks, state_renamed. cbn [s_config s_denoms s_fees s_nonce s_asks s_bids s_cbids]. by rewrite fmap_insert. Qed.
Lemma ask_removed st i : set_asks (st_r st) (delete i (s_asks (st_r st))) = st_r (set_asks st (delete i (s_asks st))).
Proof. unfold set_asks, state_renamed. cbn [s_config s_denoms s_fees s_nonce s_asks s_bids s_cbids]. by rewrite fmap_delete. Qed.
Lemma bid_saved st a : set_bids (st_r st) (<[b_id a := bid_renamed r a]> (s_bids (st_r st))) = st_r (set_bids st (<[b_id a := a]> (s_bids st))).
Proof. unfold set_bids, state_renamed. cbn [s_config s_denoms s_fees s_nonce s_asks s_bids s_cbids]. by rewrite fmap_insert. Qed.
Lemma bid_removed st i : set_bids (st_r st) (delete i (s_bids (st_r st))) = st_r (set_bids st (delete i (s_bids st))).
Proof. unfold set_bids, state_renamed. cbn [s_config s_denoms s_fees s_nonce s_asks s_bids s_cbids]. by rewrite fmap_delete. Qed.
Lemma cbid_saved st a : set_cbids (st_r st) (<[cb_id a := cbid_renamed r a]> (s_cbids (st_r st))) = st_r (set_cbids st (<[cb_id a := a]> (s_cbids st))).
Proof. unfold set_cbids, state_renamed. cbn [s_config s_denoms s_fees s_nonce s_asks s_bids s_cbids]. by rewrite fmap_insert. Qed.
Lemma cbid_removed st i : set_cbids (st_r st) (delete i (s_cbids (st_r st))) = st_r (set_cbids st (delete i (s_cbids st))).
Proof. unfold set_cbids, state_renamed. cbn [s_config s_denoms s_fees s_nonce s_asks s_bids s_cbids]. by rewrite fmap_delete. Qed.
Lemma ask_loaded st i : s_asks (st_r st) !! i = ask_renamed r <$> s_asks st !! i.
Proof. cbn [state_renamed s_asks]. apply lookup_fmap. Qed.
Lemma bid_loaded st i : s_bids (st_r st) !! i = bid_renamed r <$> s_bids st !! i.
Proof. cbn [state_renamed s_bids]. apply lookup_fmap. Qed.
Lemma cbid_loaded st i : s_cbids (st_r st) !! i = cbid_renamed r <$> s_cbids st !! i.
Proof. cbn [state_renamed s_cbids]. apply lookup_fmap. Qed.
Lemma rest_renamed s fs (resp : list cmsg) : refund_rest (r s) fs (ms_r resp) = ms_r (refund_rest s fs resp).
Proof. unfold refund_rest. destruct (nb_is_empty fs); [done|]. unfold transfer_coins. by rewrite fmap_app. Qed.
Lemma price_renamed st coll d : only_valid_price (st_r st) (s_config (st_r st)) coll (d_price (d_r d)) = only_valid_price st (s_config st) coll (d_price d).
Proof. done. Qed.

(** A sale followed by the return of what is left over. *)
Lemma sold_renamed st a mb fs s :
  (x ← finalize_sale p v' (st_r st) (ask_renamed r a) (s_config (st_r st)) (mb_r mb) true [];
   let '(st, resp) := x in Ok (st, refund_rest (r s) fs resp)) =
  Out (x ← finalize_sale p v st a (s_config st) mb true []; let '(st, resp) := x in Ok (st, refund_rest s fs resp)).
Proof.
  change (s_config (st_r st)) with (config_renamed r (s_config st)).
  pose proof (finalize_renamed st a (s_config st) mb true []) as E. change (ms_r []) with (@nil cmsg) in E. rewrite E. clear E. destruct (finalize_sale p v st a (s_config st) mb true []) as [[st' ms]|]; [|done].
  cbn [answer_renamed mbind result_bind]. by rewrite rest_renamed.
Qed.

Ltac next := cbn [mbind result_bind].
Lemma set_ask_alike e s f st coll tok d now :
  execute_set_ask p v' e (r s) f (st_r st) coll tok (d_r d) now = Out (execute_set_ask p v e s f st coll tok d now).
Proof.
  unfold execute_set_ask. cbv zeta. rewrite owner_renamed. destruct (only_owner v s coll tok) as [[]|]; [|done]. next.
  rewrite tradable_renamed. destruct (only_tradable v e coll) as [[]|]; [|done]. next.
  rewrite price_renamed. destruct (only_valid_price st (s_config st) coll (d_price d)) as [[]|]; [|done]. next.
  destruct (one_coin f) as [c|]; [|done]. next. change (s_fees (st_r st)) with (s_fees st).
  destruct (match s_fees st !! c_denom c with Some _ => _ | None => _ end) as [[]|]; [|done]. next.
  change (ask_new p (r s) coll tok (d_r d)) with (ask_renamed r (ask_new p s coll tok d)).
  rewrite match_renamed. destruct (match_with_bid st (ask_new p s coll tok d)) as [mb|]; cbn [fmap option_fmap option_map].
  - exact (finalize_renamed st _ (s_config st) mb false (transfer_coin c (cf_fee_manager (s_config st)) [])).
  - destruct now; [done|]. rewrite ask_loaded. cbn [ask_renamed a_id]. destruct (s_asks st !! a_id _); [done|].
    cbn [fmap option_fmap option_map answer_renamed]. f_equal. f_equal; [exact (ask_saved st (ask_new p s coll tok d))|].
    cbn. by rewrite (rn_self _ _ Hr).
Qed.
Lemma update_ask_alike s f st i d : execute_update_ask p v' (r s) f (st_r st) i (d_r d) = Out (execute_update_ask p v s f st i d).
Proof.
  unfold execute_update_ask. cbv zeta. destruct (nonpayable f) as [[]|]; [|done]. next. rewrite ask_loaded.
  destruct (s_asks st !! i) as [a|]; [|done]. cbn [fmap option_fmap option_map mbind result_bind ask_renamed a_creator].
  rewrite (same_account p r Hr). destruct (ensure _ EUnauthorized) as [[]|]; [|done]. next. cbn [ask_renamed a_coll a_id a_tok a_creator].
  rewrite price_renamed. destruct (only_valid_price st (s_config st) (a_coll a) (d_price d)) as [[]|]; [|done]. next.
  set (b := Ask (a_id a) (a_creator a) (a_coll a) (a_tok a) d).
  change (Ask (a_id a) (r (a_creator a)) (a_coll a) (a_tok a) (d_r d)) with (ask_renamed r b).
  rewrite match_renamed. destruct (match_with_bid st b) as [mb|]; cbn [fmap option_fmap option_map].
  - exact (finalize_renamed st b (s_config st) mb false []).
  - cbn [answer_renamed]. f_equal. f_equal. exact (ask_saved st b).
Qed.
Lemma remove_ask_alike s f st i : execute_remove_ask (r s) f (st_r st) i = Out (execute_remove_ask s f st i).
Proof.
  unfold execute_remove_ask. cbv zeta. destruct (nonpayable f) as [[]|]; [|done]. next. rewrite ask_loaded.
  destruct (s_asks st !! i) as [a|]; [|done]. cbn [fmap option_fmap option_map mbind result_bind ask_renamed a_creator].
  rewrite (same_account p r Hr). destruct (ensure _ EUnauthorized) as [[]|]; [|done]. next. cbn [ask_renamed a_coll a_id a_tok answer_renamed].
  f_equal. f_equal; [apply ask_removed|]. destruct a as [? ? ? ? [? [?|] ?]]; done.
Qed.
Lemma accept_ask_alike e s f st i d : execute_accept_ask p v' e (r s) f (st_r st) i (d_r d) = Out (execute_accept_ask p v e s f st i d).
Proof.
  unfold execute_accept_ask. cbv zeta. destruct (nb_normalize f) as [fs|]; [|done]. next. rewrite ask_loaded.
  destruct (s_asks st !! i) as [a|]; [|done]. cbn [fmap option_fmap option_map mbind result_bind ask_renamed a_det details_renamed d_price].
  destruct (ensure _ EInvalidInput) as [[]|]; [|done]. next. destruct (funds_sub fs (d_price (a_det a))) as [fs'|]; [|done]. next.
  exact (sold_renamed (set_nonce st (next_nonce st)) a (MBid (bid_new p s (a_coll a) (a_tok a) d (e_height e) (next_nonce st))) fs' s).
Qed.
Lemma set_bid_alike e s f st coll tok d now :
  execute_set_bid p v' e (r s) f (st_r st) coll tok (d_r d) now = Out (execute_set_bid p v e s f st coll tok d now).
Proof.
  unfold execute_set_bid. cbv zeta. rewrite tradable_renamed. destruct (only_tradable v e coll) as [[]|]; [|done]. next.
  rewrite price_renamed. destruct (only_valid_price st (s_config st) coll (d_price d)) as [[]|]; [|done]. next.
  destruct (nb_normalize f) as [fs|]; [|done]. next.
  change (next_nonce (st_r st)) with (next_nonce st). change (set_nonce (st_r st) (next_nonce st)) with (st_r (set_nonce st (next_nonce st))).
  set (s1 := set_nonce st (next_nonce st)). set (b := bid_new p s coll tok d (e_height e) (next_nonce st)).
  change (bid_new p (r s) coll tok (d_r d) (e_height e) (next_nonce st)) with (bid_renamed r b).
  rewrite bid_match_renamed. destruct (bid_match_with_ask p s1 b) as [a|]; cbn [fmap option_fmap option_map].
  - cbn [ask_renamed a_det details_renamed d_price]. destruct (funds_sub fs (d_price (a_det a))) as [fs'|]; [|done]. next.
    exact (sold_renamed s1 a (MBid b) fs' s).
  - destruct now; [done|]. cbn [bid_renamed b_det details_renamed d_price b_id]. destruct (funds_sub fs (d_price (b_det b))) as [fs'|]; [|done]. next.
    rewrite bid_loaded. destruct (s_bids s1 !! b_id b); [done|]. cbn [fmap option_fmap option_map answer_renamed]. f_equal. f_equal.
    + exact (bid_saved s1 b).
    + exact (rest_renamed s fs' []).
Qed.
Lemma update_bid_alike s f st i d : execute_update_bid p v' (r s) f (st_r st) i (d_r d) = Out (execute_update_bid p v s f st i d).
Proof.
  unfold execute_update_bid. rewrite bid_loaded.
  destruct (s_bids st !! i) as [b0|]; [|done]. cbn [fmap option_fmap option_map mbind result_bind bid_renamed b_creator].
  rewrite (same_account p r Hr). destruct (ensure _ EUnauthorized) as [[]|]; [|done]. next. cbn [bid_renamed b_coll b_id b_tok b_det b_creator].
  rewrite price_renamed. destruct (only_valid_price st (s_config st) (b_coll b0) (d_price d)) as [[]|]; [|done]. next.
  destruct (nb_normalize f) as [fs|]; [|done]. next. cbn [details_renamed d_price].
  destruct (nb_add fs (d_price (b_det b0))) as [fs'|]; [|done]. next. cbv zeta.
  set (b := Bid (b_id b0) (b_creator b0) (b_coll b0) (b_tok b0) d).
  change (Bid (b_id b0) (r (b_creator b0)) (b_coll b0) (b_tok b0) (d_r d)) with (bid_renamed r b).
  rewrite bid_match_renamed. destruct (bid_match_with_ask p st b) as [a|]; cbn [fmap option_fmap option_map].
  - cbn [ask_renamed a_det details_renamed d_price]. destruct (funds_sub fs' (d_price (a_det a))) as [fs''|]; [|done]. next.
    exact (sold_renamed st a (MBid b) fs'' s).
  - cbn [bid_renamed b_det details_renamed d_price b_id].
    destruct (funds_sub fs' (d_price d)) as [fs''|]; [|done]. next.
    cbn [answer_renamed]. f_equal. f_equal.
    + exact (bid_saved st b).
    + exact (rest_renamed s fs'' []).
Qed.
Lemma remove_bid_alike s f st i : execute_remove_bid (r s) f (st_r st) i = Out (execute_remove_bid s f st i).
Proof.
  unfold execute_remove_bid. cbv zeta. destruct (nonpayable f) as [[]|]; [|done]. next. rewrite bid_loaded.
  destruct (s_bids st !! i) as [a|]; [|done]. cbn [fmap option_fmap option_map mbind result_bind bid_renamed b_creator].
  rewrite (same_account p r Hr). destruct (ensure _ EUnauthorized) as [[]|]; [|done]. next. cbn [bid_renamed b_id b_det answer_renamed].
  f_equal. f_equal. apply bid_removed.
Qed.
Lemma accepted_renamed s st coll tok d :
  accept_bid_ask p v' (r s) (st_r st) coll tok (d_r d) = ask_renamed r <$> accept_bid_ask p v s st coll tok d.
Proof.
  unfold accept_bid_ask. rewrite ask_loaded. destruct (s_asks st !! _) as [a|]; cbn [fmap option_fmap option_map].
  - cbn [ask_renamed a_creator]. rewrite (same_account p r Hr). by destruct (ensure _ EUnauthorized).
  - rewrite owner_renamed. by destruct (only_owner v s coll tok).
Qed.
Lemma accept_bid_alike s st i d : execute_accept_bid p v' (r s) (st_r st) i (d_r d) = Out (execute_accept_bid p v s st i d).
Proof.
  unfold execute_accept_bid. rewrite bid_loaded. destruct (s_bids st !! i) as [b|]; [|done].
  cbn [fmap option_fmap option_map mbind result_bind bid_renamed b_coll b_tok b_det details_renamed d_price].
  destruct (ensure _ EInvalidInput) as [[]|]; [|done]. next. rewrite accepted_renamed.
  destruct (accept_bid_ask p v s st (b_coll b) (b_tok b) d) as [a|]; [|done]. cbn [fmap result_map]. next.
  exact (finalize_renamed st a (s_config st) (MBid b) false []).
Qed.
Lemma set_cbid_alike e s f st coll d now :
  execute_set_collection_bid p v' e (r s) f (st_r st) coll (d_r d) now = Out (execute_set_collection_bid p v e s f st coll d now).
Proof.
  unfold execute_set_collection_bid. cbv zeta. rewrite tradable_renamed. destruct (only_tradable v e coll) as [[]|]; [|done]. next.
  rewrite price_renamed. destruct (only_valid_price st (s_config st) coll (d_price d)) as [[]|]; [|done]. next.
  destruct (nb_normalize f) as [fs|]; [|done]. next.
  change (next_nonce (st_r st)) with (next_nonce st). change (set_nonce (st_r st) (next_nonce st)) with (st_r (set_nonce st (next_nonce st))).
  set (s1 := set_nonce st (next_nonce st)). set (b := cbid_new p s coll d (e_height e) (next_nonce st)).
  change (cbid_new p (r s) coll (d_r d) (e_height e) (next_nonce st)) with (cbid_renamed r b).
  rewrite cbid_match_renamed. destruct (cbid_match_with_ask s1 b) as [[a|]|]; cbn [fmap result_map mbind result_bind option_fmap option_map]; [| |done].
  - cbn [ask_renamed a_det details_renamed d_price]. destruct (funds_sub fs (d_price (a_det a))) as [fs'|]; [|done]. next.
    exact (sold_renamed s1 a (MCBid b) fs' s).
  - destruct now; [done|]. cbn [cbid_renamed cb_det details_renamed d_price cb_id]. destruct (funds_sub fs (d_price (cb_det b))) as [fs'|]; [|done]. next.
    rewrite cbid_loaded. destruct (s_cbids s1 !! cb_id b); [done|]. cbn [fmap option_fmap option_map answer_renamed]. f_equal. f_equal.
    + exact (cbid_saved s1 b).
    + exact (rest_renamed s fs' []).
Qed.
Lemma update_cbid_alike s f st i d :
  execute_update_collection_bid p v' (r s) f (st_r st) i (d_r d) = Out (execute_update_collection_bid p v s f st i d).
Proof.
  unfold execute_update_collection_bid. rewrite cbid_loaded.
  destruct (s_cbids st !! i) as [b0|]; [|done]. cbn [fmap option_fmap option_map mbind result_bind cbid_renamed cb_creator].
  rewrite (same_account p r Hr). destruct (ensure _ EUnauthorized) as [[]|]; [|done]. next. cbn [cbid_renamed cb_coll cb_id cb_det cb_creator].
  rewrite price_renamed. destruct (only_valid_price st (s_config st) (cb_coll b0) (d_price d)) as [[]|]; [|done]. next.
  destruct (nb_normalize f) as [fs|]; [|done]. next. cbn [details_renamed d_price].
  destruct (nb_add fs (d_price (cb_det b0))) as [fs'|]; [|done]. next. cbv zeta.
  set (b := CBid (cb_id b0) (cb_creator b0) (cb_coll b0) d).
  change (CBid (cb_id b0) (r (cb_creator b0)) (cb_coll b0) (d_r d)) with (cbid_renamed r b).
  rewrite cbid_match_renamed. destruct (cbid_match_with_ask st b) as [[a|]|]; cbn [fmap result_map mbind result_bind option_fmap option_map]; [| |done].
  - cbn [ask_renamed a_det details_renamed d_price]. destruct (funds_sub fs' (d_price (a_det a))) as [fs''|]; [|done]. next.
    exact (sold_renamed st a (MCBid b) fs'' s).
  - cbn [cbid_renamed cb_det details_renamed d_price cb_id]. destruct (funds_sub fs' (d_price d)) as [fs''|]; [|done]. next.
    cbn [answer_renamed]. f_equal. f_equal.
    + exact (cbid_saved st b).
    + exact (rest_renamed s fs'' []).
Qed.
Lemma remove_cbid_alike s f st i : execute_remove_collection_bid (r s) f (st_r st) i = Out (execute_remove_collection_bid s f st i).
Proof.
  unfold execute_remove_collection_bid. cbv zeta. destruct (nonpayable f) as [[]|]; [|done]. next. rewrite cbid_loaded.
  destruct (s_cbids st !! i) as [a|]; [|done]. cbn [fmap option_fmap option_map mbind result_bind cbid_renamed cb_creator].
  rewrite (same_account p r Hr). destruct (ensure _ EUnauthorized) as [[]|]; [|done]. next. cbn [cbid_renamed cb_id cb_det answer_renamed].
  f_equal. f_equal. apply cbid_removed.
Qed.
Lemma accept_cbid_alike s st i tok d :
  execute_accept_collection_bid p v' (r s) (st_r st) i tok (d_r d) = Out (execute_accept_collection_bid p v s st i tok d).
Proof.
  unfold execute_accept_collection_bid. rewrite cbid_loaded. destruct (s_cbids st !! i) as [b|]; [|done].
  cbn [fmap option_fmap option_map mbind result_bind cbid_renamed cb_coll cb_det details_renamed d_price].
  destruct (ensure _ EInvalidInput) as [[]|]; [|done]. next. rewrite accepted_renamed.
  destruct (accept_bid_ask p v s st (cb_coll b) tok d) as [a|]; [|done]. cbn [fmap result_map]. next.
  exact (finalize_renamed st a (s_config st) (MCBid b) false []).
Qed.

Theorem execute_alike e s f st m : execute p v' e (r s) f (st_r st) (call_renamed r m) = Out (execute p v e s f st m).
Proof.
  destruct m; cbn [call_renamed execute];
    try (match goal with |- context [addr_validate p ?c] => destruct (addr_validate p c) as [c'|]; [|done] end; next);
    try (rewrite details_addr_renamed; match goal with |- context [details_str_to_addr p ?c] => destruct (details_str_to_addr p c) as [d'|]; [|done] end;
         cbn [fmap result_map]; next).
  - unfold config_str_to_addr. cbn [config_renamed cf_fee_manager cf_registry cf_protocol_bps cf_max_royalty_bps cf_maker_bps cf_taker_bps cf_default_denom].
    rewrite (validate_renamed p r Hr). destruct (addr_validate p (cf_fee_manager c)) as [fm|]; [|done]. cbn [fmap result_map]. next.
    destruct (addr_validate p (cf_registry c)) as [rg|]; [|done]. next. unfold execute_update_config. rewrite admin_renamed.
    destruct (only_contract_admin v s); [|done]. next. unfold config_check. cbn [cf_protocol_bps cf_maker_bps cf_taker_bps].
    destruct (ensure _ _); [|done]. next. destruct (add64 _ _); [|done]. next. by destruct (ensure _ _).
  - unfold execute_update_collection_denom. rewrite admin_renamed. by destruct (only_contract_admin v s).
  - unfold execute_set_listing_fee. rewrite admin_renamed. by destruct (only_contract_admin v s).
  - unfold execute_remove_listing_fee. rewrite admin_renamed. by destruct (only_contract_admin v s).
  - apply set_ask_alike.
  - apply remove_ask_alike.
  - apply update_ask_alike.
  - apply accept_ask_alike.
  - apply set_bid_alike.
  - apply remove_bid_alike.
  - apply update_bid_alike.
  - apply accept_bid_alike.
  - apply set_cbid_alike.
  - apply remove_cbid_alike.
  - apply update_cbid_alike.
  - apply accept_cbid_alike.
  - apply set_ask_alike.
  - apply set_bid_alike.
  - apply set_cbid_alike.
Qed.
End Alike.
