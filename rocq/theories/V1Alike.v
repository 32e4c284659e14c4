(** C140 for marketplace v1: proofs. *)
From Verif Require Import Base Common V1Model AlikeSpec Alike V1AlikeSpec.

Section Alike.
Context (p : params) (x : ext) (r : addr -> addr) (Hr : renaming p r).
Context (v v' : view) (Hv : view_renamed r v v').
Notation st_r := (state_renamed r).
Notation ms_r := (@fmap list list_fmap smsg smsg (smsg_renamed r)).
Notation o_r := (opt_renamed r).
Notation Out := (answer_renamed st_r (smsg_renamed r)).
Notation bkey := (fun k : string * N * string => (fst k, r (snd k))).
Notation ckey := (fun k : string * string => (fst k, r (snd k))).

Local Instance bkey_inj : Inj (=) (=) bkey.
Proof. intros [a b] [c d]. cbn. intros [= -> E]. f_equal. by apply (rn_inj _ _ Hr). Qed.
Local Instance ckey_inj : Inj (=) (=) ckey.
Proof. intros [a b] [c d]. cbn. intros [= -> E]. f_equal. by apply (rn_inj _ _ Hr). Qed.

Lemma ask_loaded st k : s_asks (st_r st) !! k = ask_renamed r <$> s_asks st !! k.
Proof. cbn [state_renamed s_asks]. apply lookup_fmap. Qed.
Lemma bid_loaded st c t b : s_bids (st_r st) !! (c, t, r b) = bid_renamed r <$> s_bids st !! (c, t, b).
Proof. cbn [state_renamed s_bids]. etransitivity; [exact (lookup_kmap bkey (bid_renamed r <$> s_bids st) (c, t, b))|apply lookup_fmap]. Qed.
Lemma cbid_loaded st c b : s_cbids (st_r st) !! (c, r b) = cbid_renamed r <$> s_cbids st !! (c, b).
Proof. cbn [state_renamed s_cbids]. etransitivity; [exact (lookup_kmap ckey (cbid_renamed r <$> s_cbids st) (c, b))|apply lookup_fmap]. Qed.
Lemma ask_put st k a : set_asks (st_r st) (<[k := ask_renamed r a]> (s_asks (st_r st))) = st_r (set_asks st (<[k := a]> (s_asks st))).
Proof. unfold set_asks, state_renamed. cbn [s_params s_asks s_bids s_cbids s_ask_hooks s_bid_hooks s_sale_hooks s_cbid_hooks]. by rewrite fmap_insert. Qed.
Lemma ask_removed st c t : remove_ask (st_r st) c t = st_r (remove_ask st c t).
Proof. unfold remove_ask, set_asks, state_renamed. cbn [s_params s_asks s_bids s_cbids s_ask_hooks s_bid_hooks s_sale_hooks s_cbid_hooks]. by rewrite fmap_delete. Qed.
Lemma bid_stored st b : store_bid (st_r st) (bid_renamed r b) = st_r (store_bid st b).
Proof.
  unfold store_bid, set_bids, state_renamed. cbn [s_params s_asks s_bids s_cbids s_ask_hooks s_bid_hooks s_sale_hooks s_cbid_hooks].
  rewrite fmap_insert, (kmap_insert bkey). done.
Qed.
Lemma bid_removed st c t b : remove_bid (st_r st) c t (r b) = st_r (remove_bid st c t b).
Proof.
  unfold remove_bid, set_bids, state_renamed. cbn [s_params s_asks s_bids s_cbids s_ask_hooks s_bid_hooks s_sale_hooks s_cbid_hooks].
  rewrite fmap_delete, (kmap_delete bkey). done.
Qed.
Lemma cbid_stored st b : store_cbid (st_r st) (cbid_renamed r b) = st_r (store_cbid st b).
Proof.
  unfold store_cbid, set_cbids, state_renamed. cbn [s_params s_asks s_bids s_cbids s_ask_hooks s_bid_hooks s_sale_hooks s_cbid_hooks].
  rewrite fmap_insert, (kmap_insert ckey). done.
Qed.
Lemma cbid_removed st c b : remove_cbid (st_r st) c (r b) = st_r (remove_cbid st c b).
Proof.
  unfold remove_cbid, set_cbids, state_renamed. cbn [s_params s_asks s_bids s_cbids s_ask_hooks s_bid_hooks s_sale_hooks s_cbid_hooks].
  rewrite fmap_delete, (kmap_delete ckey). done.
Qed.

Lemma prepare_renamed l c : prepare (r <$> l) (told_renamed r c) = ms_r (prepare l c).
Proof. induction l as [|h l IH]; [done|]. cbn. f_equal. exact IH. Qed.
Lemma owner_renamed s coll tok : only_owner v' (r s) coll tok = only_owner v s coll tok.
Proof. unfold only_owner. rewrite (vr_owner _ _ _ Hv). destruct (q_owner v coll (tok_str tok)); [|done]. by rewrite (same_account p). Qed.
Lemma tradable_renamed e coll : only_tradable v' e coll = only_tradable v e coll.
Proof. unfold only_tradable. rewrite (vr_info _ _ _ Hv). by destruct (q_info v coll). Qed.
Lemma approval_renamed coll tok : q_approval v' coll tok (p_self p) = q_approval v coll tok (p_self p).
Proof. by rewrite <-(vr_approval _ _ _ Hv), (rn_self _ _ Hr). Qed.
Lemma listed_renamed (l : list addr) s : existsb (fun o => bool_decide (o = r s)) (r <$> l) = existsb (fun o => bool_decide (o = s)) l.
Proof. induction l as [|o l IH]; [done|]. cbn. by rewrite IH, (same_account p). Qed.
Lemma operator_renamed st s : only_operator (st_r st) (r s) = only_operator st s.
Proof. unfold only_operator. cbn [state_renamed s_params params_renamed sp_operators]. by rewrite listed_renamed. Qed.
Lemma burn_renamed n : ms_r (fair_burn x n) = fair_burn x n.
Proof. unfold fair_burn. by destruct (_ && _). Qed.

Lemma app_r (l l' : list smsg) : list_fmap smsg smsg (smsg_renamed r) (l ++ l') =
  list_fmap smsg smsg (smsg_renamed r) l ++ list_fmap smsg smsg (smsg_renamed r) l'.
Proof. apply (fmap_app (smsg_renamed r)). Qed.
Lemma burn_r n : list_fmap smsg smsg (smsg_renamed r) (fair_burn x n) = fair_burn x n.
Proof. apply burn_renamed. Qed.
Ltac fin := cbn [fmap result_map]; f_equal; rewrite !app_r, burn_r; reflexivity.

Lemma payout_renamed st coll n to finder bps (resp : list smsg) :
  payout x v' (st_r st) coll n (r to) (o_r finder) bps (ms_r resp) = (fun l : list smsg => ms_r l) <$> payout x v st coll n to finder bps resp.
Proof.
  unfold payout. cbv zeta. cbn [state_renamed s_params params_renamed sp_trading_fee].
  destruct (mul_floor n (sp_trading_fee (s_params st))) as [fee|]; [|done]. cbn [mbind result_bind].
  rewrite (vr_info _ _ _ Hv). destruct (q_info v coll) as [[s0 ro]|]; [|done]. cbn [info_renamed ci_royalty].
  assert (match o_r finder with
          | Some f => k ← match bps with Some b => n ← mul_floor n (dec_percent b); Ok (n / 100) | None => Ok 0 end;
                      Ok (if 0 <? k then [send f k] else [], k)
          | None => Ok ([], 0) end =
          (fun y : list smsg * N => (ms_r (fst y), snd y)) <$>
          match finder with
          | Some f => k ← match bps with Some b => n ← mul_floor n (dec_percent b); Ok (n / 100) | None => Ok 0 end;
                      Ok (if 0 <? k then [send f k] else [], k)
          | None => Ok ([], 0) end) as ->.
  { destruct finder as [f|]; [|done]. cbn [opt_renamed]. destruct (match bps with Some _ => _ | None => _ end) as [k|]; [|done]. cbn. by destruct (0 <? k). }
  destruct (match finder with Some _ => _ | None => _ end) as [[fm ff]|]; [|done]. cbn [fmap result_map mbind result_bind fst snd].
  destruct ro as [[rto share]|]; cbn [parse_royalties].
  - destruct (share =? 0).
    + destruct (add128 _ _) as [s1|]; [|done]. cbn [mbind result_bind]. destruct (ensure _ _) as [[]|]; [|done]. cbn [mbind result_bind].
      destruct (sub128 n _) as [n2|]; [|done]. cbn [mbind result_bind]. destruct (sub128 n2 ff) as [n3|]; [|done]. cbn [mbind result_bind result_map].
      fin.
    + destruct (mul_floor n share) as [am|]; [|done]. cbn [mbind result_bind]. destruct (add128 (fee / 100) ff) as [s1|]; [|done]. cbn [mbind result_bind].
      destruct (add128 s1 am) as [s2|]; [|done]. cbn [mbind result_bind].
      destruct (ensure _ _) as [[]|]; [|done]. cbn [mbind result_bind].
      destruct (sub128 DEC_ONE share) as [k|]; [|done]. cbn [mbind result_bind]. destruct (mul_floor n k) as [n1|]; [|done]. cbn [mbind result_bind].
      destruct (sub128 n1 _) as [n2|]; [|done]. cbn [mbind result_bind]. destruct (sub128 n2 ff) as [n3|]; [|done]. cbn [mbind result_bind result_map].
      fin.
  - destruct (add128 _ _) as [s1|]; [|done]. cbn [mbind result_bind]. destruct (ensure _ _) as [[]|]; [|done]. cbn [mbind result_bind].
    destruct (sub128 n _) as [n2|]; [|done]. cbn [mbind result_bind]. destruct (sub128 n2 ff) as [n3|]; [|done]. cbn [mbind result_bind result_map].
    fin.
Qed.
Lemma finalize_renamed st a n buyer finder to (resp : list smsg) :
  finalize_sale x v' (st_r st) (ask_renamed r a) n (r buyer) (o_r finder) (o_r to) (ms_r resp) =
  (fun l : list smsg => ms_r l) <$> finalize_sale x v st a n buyer finder to resp.
Proof.
  unfold finalize_sale. cbn [ask_renamed k_coll k_recipient k_seller k_finders k_tok].
  change (o_r (k_recipient a)) with (r <$> k_recipient a). change (o_r to) with (r <$> to). rewrite !address_or_renamed, payout_renamed.
  destruct (payout x v st (k_coll a) n _ finder (k_finders a) resp) as [l|]; [|done]. cbn [fmap result_map mbind result_bind].
  f_equal. rewrite !fmap_app. f_equal. f_equal. exact (prepare_renamed (s_sale_hooks st) (HSale (k_coll a) (k_tok a) (Coin NATIVE_DENOM (k_price a)) (k_seller a) buyer)).
Qed.

Ltac next := cbn [mbind result_bind].
Lemma ask_told st a act : prepare_ask_hook (st_r st) (ask_renamed r a) act = ms_r (prepare_ask_hook st a act).
Proof. exact (prepare_renamed (s_ask_hooks st) (HAsk a act)). Qed.
Lemma bid_told st a act : prepare_bid_hook (st_r st) (bid_renamed r a) act = ms_r (prepare_bid_hook st a act).
Proof. exact (prepare_renamed (s_bid_hooks st) (HBid a act)). Qed.
Lemma cbid_told st a act : prepare_cbid_hook (st_r st) (cbid_renamed r a) act = ms_r (prepare_cbid_hook st a act).
Proof. exact (prepare_renamed (s_cbid_hooks st) (HCBid a act)). Qed.
Lemma price_renamed st c : price_validate (st_r st) c = price_validate st c. Proof. done. Qed.
Lemma finders_renamed st c : finders_ok (st_r st) c = finders_ok st c. Proof. done. Qed.

Lemma set_ask_alike e s f st ty coll tok price rc rs bps ex :
  execute_set_ask p x v' e (r s) f (st_r st) ty coll tok price (o_r rc) (o_r rs) bps ex =
  Out (execute_set_ask p x v e s f st ty coll tok price rc rs bps ex).
Proof.
  unfold execute_set_ask. rewrite price_renamed. destruct (price_validate st price) as [[]|]; [|done]. next.
  destruct (ensure (c_amount price <=? _) _) as [[]|]; [|done]. next. rewrite owner_renamed.
  destruct (only_owner v s coll tok) as [[]|]; [|done]. next. rewrite tradable_renamed.
  destruct (only_tradable v e coll) as [[]|]; [|done]. next. rewrite approval_renamed.
  destruct (ensure (q_approval v _ _ _) _) as [[]|]; [|done]. next.
  change (sp_ask_expiry (s_params (st_r st))) with (sp_ask_expiry (s_params st)). destruct (expiry_is_valid _ e ex) as [[]|]; [|done]. next.
  destruct (may_pay f NATIVE_DENOM) as [fee|]; [|done]. next.
  change (sp_listing_fee (s_params (st_r st))) with (sp_listing_fee (s_params st)). destruct (ensure (fee =? _) _) as [[]|]; [|done]. next.
  rewrite finders_renamed. destruct (finders_ok st bps) as [[]|]; [|done]. next.
  assert (match o_r rs with Some q => ensure (bool_decide (q <> r s)) EInvalidInput ;; ensure (bool_decide (ty = FixedPrice)) EInvalidInput | None => Ok tt end =
          match rs with Some q => ensure (bool_decide (q <> s)) EInvalidInput ;; ensure (bool_decide (ty = FixedPrice)) EInvalidInput | None => Ok tt end) as ->.
  { destruct rs as [q|]; [|done]. cbn [opt_renamed]. by rewrite (other_account p r Hr). }
  destruct (match rs with Some _ => _ | None => _ end) as [[]|]; [|done]. next. cbv zeta. cbn [answer_renamed]. f_equal. f_equal.
  - unfold store_ask. exact (ask_put st (coll, tok) (Ask ty coll tok s (c_amount price) rc rs bps ex true)).
  - rewrite fmap_app. f_equal; [destruct (0 <? fee); [by rewrite burn_renamed|done]|].
    exact (ask_told st (Ask ty coll tok s (c_amount price) rc rs bps ex true) HCreate).
Qed.
Lemma remove_ask_alike s f st coll tok : execute_remove_ask v' (r s) f (st_r st) coll tok = Out (execute_remove_ask v s f st coll tok).
Proof.
  unfold execute_remove_ask. destruct (nonpayable f) as [[]|]; [|done]. next. rewrite owner_renamed.
  destruct (only_owner v s coll tok) as [[]|]; [|done]. next. rewrite ask_loaded. destruct (s_asks st !! _) as [a|]; [|done].
  cbn [fmap option_fmap option_map load answer_renamed]. next. by rewrite ask_removed, ask_told.
Qed.
Lemma update_ask_alike e s f st coll tok price :
  execute_update_ask_price v' e (r s) f (st_r st) coll tok price = Out (execute_update_ask_price v e s f st coll tok price).
Proof.
  unfold execute_update_ask_price. destruct (nonpayable f) as [[]|]; [|done]. next. rewrite owner_renamed.
  destruct (only_owner v s coll tok) as [[]|]; [|done]. next. rewrite price_renamed. destruct (price_validate st price) as [[]|]; [|done]. next.
  rewrite ask_loaded. destruct (s_asks st !! _) as [a|]; [|done]. cbn [fmap option_fmap option_map load answer_renamed]. next.
  cbn [ask_renamed k_active k_expires]. destruct (ensure (k_active a) _) as [[]|]; [|done]. next. destruct (ensure _ EExpired) as [[]|]; [|done]. next.
  set (a' := Ask (k_type a) (k_coll a) (k_tok a) (k_seller a) (c_amount price) (k_recipient a) (k_reserve a) (k_finders a) (k_expires a) (k_active a)).
  cbn [answer_renamed]. f_equal. f_equal; [exact (ask_put st (coll, tok) a')|exact (ask_told st a' HUpdate)].
Qed.
Lemma set_bid_alike e s f st coll tok bps ex finder to now :
  execute_set_bid x v' e (r s) f (st_r st) coll tok bps ex (o_r finder) (o_r to) now = Out (execute_set_bid x v e s f st coll tok bps ex finder to now).
Proof.
  unfold execute_set_bid. assert (bool_decide (o_r finder <> Some (r s)) = bool_decide (finder <> Some s)) as ->.
  { apply bool_decide_ext. destruct finder as [q|]; cbn; split; intros H E; apply H; [by simplify_eq|injection E as E; f_equal; by apply (rn_inj _ _ Hr)|done|done]. }
  destruct (ensure (bool_decide (finder <> Some s)) EInvalidInput) as [[]|]; [|done]. next. rewrite !finders_renamed. destruct (finders_ok st bps) as [[]|]; [|done]. next.
  destruct (must_pay f NATIVE_DENOM) as [n|]; [|done]. next.
  change (sp_min_price (s_params (st_r st))) with (sp_min_price (s_params st)). destruct (ensure (_ <=? n) _) as [[]|]; [|done]. next.
  change (sp_bid_expiry (s_params (st_r st))) with (sp_bid_expiry (s_params st)). destruct (expiry_is_valid _ e ex) as [[]|]; [|done]. next.
  rewrite bid_loaded.
  set (y := match s_bids st !! (coll, tok, s) with Some old => (remove_bid st coll tok s, [send s (b_price old)]) | None => (st, []) end).
  assert (match bid_renamed r <$> s_bids st !! (coll, tok, s) with Some old => (remove_bid (st_r st) coll tok (r s), [send (r s) (b_price old)]) | None => (st_r st, []) end =
          (st_r (fst y), ms_r (snd y))) as ->.
  { subst y. destruct (s_bids st !! (coll, tok, s)) as [old|]; [|done]. cbn [fmap option_fmap option_map fst snd]. by rewrite bid_removed. }
  destruct y as [st1 res]. cbn [fst snd]. cbv zeta. rewrite ask_loaded. destruct (s_asks st1 !! (coll, tok)) as [a|]; cbn [fmap option_fmap option_map].
  - cbn [ask_renamed k_expires k_active k_reserve k_type k_price]. destruct (ensure _ EExpired) as [[]|]; [|done]. next.
    destruct (ensure (k_active a) _) as [[]|]; [|done]. next.
    assert (match o_r (k_reserve a) with Some q => ensure (bool_decide (q = r s)) EUnauthorized | None => Ok tt end =
            match k_reserve a with Some q => ensure (bool_decide (q = s)) EUnauthorized | None => Ok tt end) as ->.
    { destruct (k_reserve a) as [q|]; [|done]. cbn [opt_renamed]. by rewrite (same_account p r Hr). }
    destruct (match k_reserve a with Some _ => _ | None => _ end) as [[]|]; [|done]. next.
    assert (Ok (store_bid (st_r st1) (Bid coll tok (r s) n bps ex), ms_r res ++ prepare_bid_hook (st_r st1) (Bid coll tok (r s) n bps ex) HCreate) =
            Out (Ok (store_bid st1 (Bid coll tok s n bps ex), res ++ prepare_bid_hook st1 (Bid coll tok s n bps ex) HCreate))) as Hsaved.
    { change (Bid coll tok (r s) n bps ex) with (bid_renamed r (Bid coll tok s n bps ex)). cbn [answer_renamed]. by rewrite bid_stored, bid_told, fmap_app. }
    destruct (k_type a).
    + destruct (n ?= k_price a); [|exact Hsaved|done]. rewrite (vr_owner _ _ _ Hv).
      change (k_coll (ask_renamed r a)) with (k_coll a). change (k_tok (ask_renamed r a)) with (k_tok a). change (k_seller (ask_renamed r a)) with (r (k_seller a)).
      destruct (q_owner v (k_coll a) (tok_str (k_tok a))) as [o|]; [|done]. rewrite (same_account p r Hr).
      destruct (ensure _ EInvalidInput) as [[]|]; [|done]. next. rewrite ask_removed.
      pose proof (finalize_renamed (remove_ask st1 coll tok) a n s finder to res) as E. rewrite E. clear E.
      by destruct (finalize_sale x v (remove_ask st1 coll tok) a n s finder to res).
    + destruct (n ?= k_price a); [exact Hsaved|done|exact Hsaved].
  - destruct (ensure (negb now) _) as [[]|]; [|done]. next.
    change (Bid coll tok (r s) n bps ex) with (bid_renamed r (Bid coll tok s n bps ex)). cbn [answer_renamed]. by rewrite bid_stored, bid_told, fmap_app.
Qed.
Lemma remove_bid_alike s f st coll tok : execute_remove_bid (r s) f (st_r st) coll tok = Out (execute_remove_bid s f st coll tok).
Proof.
  unfold execute_remove_bid. destruct (nonpayable f) as [[]|]; [|done]. next. rewrite bid_loaded. destruct (s_bids st !! _) as [b|]; [|done].
  cbn [fmap option_fmap option_map load answer_renamed]. next. rewrite bid_removed, bid_told. cbn [answer_renamed]. by rewrite fmap_app.
Qed.
Lemma accept_bid_alike e s f st coll tok b finder :
  execute_accept_bid x v' e (r s) f (st_r st) coll tok (r b) (o_r finder) = Out (execute_accept_bid x v e s f st coll tok b finder).
Proof.
  unfold execute_accept_bid. destruct (nonpayable f) as [[]|]; [|done]. next. rewrite owner_renamed.
  destruct (only_owner v s coll tok) as [[]|]; [|done]. next. rewrite tradable_renamed. destruct (only_tradable v e coll) as [[]|]; [|done]. next.
  rewrite bid_loaded. destruct (s_bids st !! _) as [y|]; [|done]. cbn [fmap option_fmap option_map load]. next.
  cbn [bid_renamed b_expires b_price b_finders]. destruct (ensure _ EExpired) as [[]|]; [|done]. next. cbv zeta.
  set (st1 := match s_asks st !! (coll, tok) with Some _ => remove_ask st coll tok | None => st end).
  assert (match s_asks (st_r st) !! (coll, tok) with Some _ => remove_ask (st_r st) coll tok | None => st_r st end = st_r st1) as ->.
  { subst st1. rewrite ask_loaded. destruct (s_asks st !! (coll, tok)); [|done]. cbn [fmap option_fmap option_map]. apply ask_removed. }
  rewrite bid_removed. pose proof (finalize_renamed (remove_bid st1 coll tok b)
    (Ask Auction coll tok s (b_price y) (Some s) None (b_finders y) (b_expires y) true) (b_price y) b finder None []) as E.
  unfold ask_renamed in E. cbn [k_type k_coll k_tok k_seller k_price k_recipient k_reserve k_finders k_expires k_active opt_renamed] in E.
  change (ms_r []) with (@nil smsg) in E. rewrite E. clear E. by destruct (finalize_sale _ _ _ _ _ _ _ _ _).
Qed.
Lemma reject_bid_alike s f st coll tok b :
  execute_reject_bid v' (r s) f (st_r st) coll tok (r b) = Out (execute_reject_bid v s f st coll tok b).
Proof.
  unfold execute_reject_bid. destruct (nonpayable f) as [[]|]; [|done]. next. rewrite owner_renamed.
  destruct (only_owner v s coll tok) as [[]|]; [|done]. next. rewrite bid_loaded. destruct (s_bids st !! _) as [y|]; [|done].
  cbn [fmap option_fmap option_map load]. next. rewrite bid_removed, bid_told. cbn [answer_renamed]. by rewrite fmap_app.
Qed.
Lemma set_cbid_alike e s f st coll bps ex :
  execute_set_collection_bid e (r s) f (st_r st) coll bps ex = Out (execute_set_collection_bid e s f st coll bps ex).
Proof.
  unfold execute_set_collection_bid. destruct (must_pay f NATIVE_DENOM) as [n|]; [|done]. next.
  change (sp_min_price (s_params (st_r st))) with (sp_min_price (s_params st)). destruct (ensure (_ <=? n) _) as [[]|]; [|done]. next.
  change (sp_bid_expiry (s_params (st_r st))) with (sp_bid_expiry (s_params st)). destruct (expiry_is_valid _ e ex) as [[]|]; [|done]. next.
  rewrite finders_renamed. destruct (finders_ok st bps) as [[]|]; [|done]. next.
  rewrite cbid_loaded.
  set (y := match s_cbids st !! (coll, s) with Some old => (remove_cbid st coll s, [send (cb_bidder old) (cb_price old)]) | None => (st, []) end).
  assert (match cbid_renamed r <$> s_cbids st !! (coll, s) with Some old => (remove_cbid (st_r st) coll (r s), [send (cb_bidder old) (cb_price old)]) | None => (st_r st, []) end =
          (st_r (fst y), ms_r (snd y))) as ->.
  { subst y. destruct (s_cbids st !! (coll, s)) as [old|]; [|done]. cbn [fmap option_fmap option_map fst snd]. by rewrite cbid_removed. }
  destruct y as [st1 res]. cbn [fst snd]. cbv zeta.
  change (CBid coll (r s) n bps ex) with (cbid_renamed r (CBid coll s n bps ex)). cbn [answer_renamed]. by rewrite cbid_stored, cbid_told, fmap_app.
Qed.
Lemma remove_cbid_alike s f st coll : execute_remove_collection_bid (r s) f (st_r st) coll = Out (execute_remove_collection_bid s f st coll).
Proof.
  unfold execute_remove_collection_bid. destruct (nonpayable f) as [[]|]; [|done]. next. rewrite cbid_loaded. destruct (s_cbids st !! _) as [b|]; [|done].
  cbn [fmap option_fmap option_map load answer_renamed]. next. rewrite cbid_removed, cbid_told. cbn [answer_renamed]. by rewrite fmap_app.
Qed.
Lemma accept_cbid_alike e s f st coll tok b finder :
  execute_accept_collection_bid x v' e (r s) f (st_r st) coll tok (r b) (o_r finder) = Out (execute_accept_collection_bid x v e s f st coll tok b finder).
Proof.
  unfold execute_accept_collection_bid. destruct (nonpayable f) as [[]|]; [|done]. next. rewrite owner_renamed.
  destruct (only_owner v s coll tok) as [[]|]; [|done]. next. rewrite tradable_renamed. destruct (only_tradable v e coll) as [[]|]; [|done]. next.
  rewrite cbid_loaded. destruct (s_cbids st !! _) as [y|]; [|done]. cbn [fmap option_fmap option_map load]. next.
  cbn [cbid_renamed cb_expires cb_price cb_finders]. destruct (ensure _ EExpired) as [[]|]; [|done]. next. cbv zeta.
  rewrite cbid_removed. set (st0 := remove_cbid st coll b).
  set (st1 := match s_asks st0 !! (coll, tok) with Some _ => remove_ask st0 coll tok | None => st0 end).
  assert (match s_asks (st_r st0) !! (coll, tok) with Some _ => remove_ask (st_r st0) coll tok | None => st_r st0 end = st_r st1) as ->.
  { subst st1. rewrite ask_loaded. destruct (s_asks st0 !! (coll, tok)); [|done]. cbn [fmap option_fmap option_map]. apply ask_removed. }
  pose proof (finalize_renamed st1
    (Ask Auction coll tok s (cb_price y) (Some s) None (cb_finders y) (cb_expires y) true) (cb_price y) b finder None []) as E.
  unfold ask_renamed in E. cbn [k_type k_coll k_tok k_seller k_price k_recipient k_reserve k_finders k_expires k_active opt_renamed] in E.
  change (ms_r []) with (@nil smsg) in E. rewrite E. clear E. by destruct (finalize_sale _ _ _ _ _ _ _ _ _).
Qed.
Lemma sync_alike s f st coll tok : execute_sync_ask p v' (r s) f (st_r st) coll tok = Out (execute_sync_ask p v s f st coll tok).
Proof.
  unfold execute_sync_ask. destruct (nonpayable f) as [[]|]; [|done]. next. rewrite operator_renamed.
  destruct (only_operator st s) as [[]|]; [|done]. next. rewrite ask_loaded. destruct (s_asks st !! _) as [a|]; [|done].
  cbn [fmap option_fmap option_map load]. next. rewrite approval_renamed. cbv zeta. cbn [ask_renamed k_active].
  destruct (ensure _ _) as [[]|]; [|done]. next.
  set (a' := Ask (k_type a) (k_coll a) (k_tok a) (k_seller a) (k_price a) (k_recipient a) (k_reserve a) (k_finders a) (k_expires a) (q_approval v coll (tok_str tok) (p_self p))).
  cbn [answer_renamed]. f_equal. f_equal; [exact (ask_put st (coll, tok) a')|exact (ask_told st a' HUpdate)].
Qed.
Lemma stale_ask_alike e s f st coll tok :
  execute_remove_stale_ask p v' e (r s) f (st_r st) coll tok = Out (execute_remove_stale_ask p v e s f st coll tok).
Proof.
  unfold execute_remove_stale_ask. destruct (nonpayable f) as [[]|]; [|done]. next. rewrite operator_renamed.
  destruct (only_operator st s) as [[]|]; [|done]. next. rewrite ask_loaded. destruct (s_asks st !! _) as [a|]; [|done].
  cbn [fmap option_fmap option_map load]. next. rewrite approval_renamed. cbv zeta. cbn [ask_renamed k_expires].
  assert (bool_decide (q_owner v' coll (tok_str tok) <> None) = bool_decide (q_owner v coll (tok_str tok) <> None)) as ->.
  { apply bool_decide_ext. rewrite (vr_owner _ _ _ Hv). by destruct (q_owner v coll (tok_str tok)). }
  destruct (ensure _ _) as [[]|]; [|done]. next. cbn [answer_renamed]. by rewrite ask_removed, <-ask_told.
Qed.
Lemma stale_bid_alike e s f st coll tok b :
  execute_remove_stale_bid e (r s) f (st_r st) coll tok (r b) = Out (execute_remove_stale_bid e s f st coll tok b).
Proof.
  unfold execute_remove_stale_bid. destruct (nonpayable f) as [[]|]; [|done]. next. rewrite operator_renamed.
  destruct (only_operator st s) as [[]|]; [|done]. next. rewrite bid_loaded. destruct (s_bids st !! _) as [y|]; [|done].
  cbn [fmap option_fmap option_map load]. next. cbn [bid_renamed b_expires b_price]. change (stale_check (st_r st)) with (stale_check st).
  destruct (stale_check st e (b_expires y)) as [[]|]; [|done]. next. change (removal_reward (st_r st)) with (removal_reward st).
  destruct (removal_reward st (b_price y)) as [n|]; [|done]. next. destruct (sub128 (b_price y) n) as [m|]; [|done]. next.
  cbn [answer_renamed]. by rewrite bid_removed, fmap_app, <-bid_told.
Qed.
Lemma stale_cbid_alike e s f st coll b :
  execute_remove_stale_collection_bid e (r s) f (st_r st) coll (r b) = Out (execute_remove_stale_collection_bid e s f st coll b).
Proof.
  unfold execute_remove_stale_collection_bid. destruct (nonpayable f) as [[]|]; [|done]. next. rewrite operator_renamed.
  destruct (only_operator st s) as [[]|]; [|done]. next. rewrite cbid_loaded. destruct (s_cbids st !! _) as [y|]; [|done].
  cbn [fmap option_fmap option_map load]. next. cbn [cbid_renamed cb_expires cb_price]. change (stale_check (st_r st)) with (stale_check st).
  destruct (stale_check st e (cb_expires y)) as [[]|]; [|done]. next. change (removal_reward (st_r st)) with (removal_reward st).
  destruct (removal_reward st (cb_price y)) as [n|]; [|done]. next. destruct (sub128 (cb_price y) n) as [m|]; [|done]. next.
  cbn [answer_renamed]. by rewrite cbid_removed, fmap_app, <-cbid_told.
Qed.

Theorem execute_alike e s f st m :
  execute_sub p x v' e (r s) f (st_r st) (call_renamed r m) = Out (execute_sub p x v e s f st m).
Proof.
  assert (forall o : option string, maybe_addr p (o_r o) = o_r <$> maybe_addr p o) as Hm.
  { intros o. exact (maybe_renamed p r Hr o). }
  destruct m; cbn [call_renamed execute_sub]; (destruct (addr_validate p coll) as [c|]; [|done]); next.
  - rewrite !Hm. destruct (maybe_addr p recipient) as [rc|]; [|done]. cbn [fmap result_map]. next.
    destruct (maybe_addr p reserve) as [rs|]; [|done]. cbn [fmap result_map]. next. apply set_ask_alike.
  - apply remove_ask_alike.
  - apply update_ask_alike.
  - rewrite !Hm. destruct (maybe_addr p finder) as [fi|]; [|done]. cbn [fmap result_map]. next. exact (set_bid_alike e s f st c tok bps expires fi None false).
  - rewrite !Hm. destruct (maybe_addr p finder) as [fi|]; [|done]. cbn [fmap result_map]. next. exact (set_bid_alike e s f st c tok bps expires fi None true).
  - rewrite !Hm. destruct (maybe_addr p finder) as [fi|]; [|done]. cbn [fmap result_map]. next. rewrite (validate_renamed p r Hr).
    destruct (addr_validate p asset_recipient) as [to|]; [|done]. cbn [fmap result_map]. next. exact (set_bid_alike e s f st c tok bps expires fi (Some to) true).
  - apply remove_bid_alike.
  - rewrite !Hm, (validate_renamed p r Hr). destruct (addr_validate p bidder) as [b|]; [|done]. cbn [fmap result_map]. next.
    destruct (maybe_addr p finder) as [fi|]; [|done]. cbn [fmap result_map]. next. apply accept_bid_alike.
  - rewrite (validate_renamed p r Hr). destruct (addr_validate p bidder) as [b|]; [|done]. cbn [fmap result_map]. next. apply reject_bid_alike.
  - apply set_cbid_alike.
  - apply remove_cbid_alike.
  - rewrite !Hm, (validate_renamed p r Hr). destruct (addr_validate p bidder) as [b|]; [|done]. cbn [fmap result_map]. next.
    destruct (maybe_addr p finder) as [fi|]; [|done]. cbn [fmap result_map]. next. apply accept_cbid_alike.
  - apply sync_alike.
  - apply stale_ask_alike.
  - rewrite (validate_renamed p r Hr). destruct (addr_validate p bidder) as [b|]; [|done]. cbn [fmap result_map]. next. apply stale_bid_alike.
  - rewrite (validate_renamed p r Hr). destruct (addr_validate p bidder) as [b|]; [|done]. cbn [fmap result_map]. next. apply stale_cbid_alike.
Qed.
Lemma register_renamed (l : list addr) a : register (r <$> l) (r a) = (fun l : list addr => r <$> l) <$> register l a.
Proof. unfold register. rewrite listed_renamed. destruct (existsb _ l); [done|]. cbn. by rewrite fmap_app. Qed.
Lemma unregister_renamed (l : list addr) a : unregister (r <$> l) (r a) = (fun l : list addr => r <$> l) <$> unregister l a.
Proof.
  induction l as [|o l IH]; [done|]. cbn [fmap list_fmap unregister]. rewrite (same_account p r Hr). destruct (bool_decide (o = a)); [done|].
  change (list_fmap addr addr r l) with (r <$> l). rewrite IH. by destruct (unregister l a).
Qed.
Theorem sudo_alike st m : sudo_state p (st_r st) (sudo_renamed r m) = st_r <$> sudo_state p st m.
Proof.
  destruct m; cbn [sudo_renamed sudo_state]; [| | | | | | | | |done];
    try (rewrite (validate_renamed p r Hr); match goal with |- context [addr_validate p ?y] => destruct (addr_validate p y) as [z|]; [|done] end;
         cbn [fmap result_map]; next; cbn [state_renamed s_params params_renamed sp_operators s_sale_hooks s_ask_hooks s_bid_hooks];
         first [rewrite register_renamed; match goal with |- context [register ?l ?y] => by destruct (register l y) end
               |rewrite unregister_renamed; match goal with |- context [unregister ?l ?y] => by destruct (unregister l y) end]).
  unfold sudo_update_params. cbn [u_max_finders_fee_bps u_trading_fee_bps u_reward_bps u_ask_expiry u_bid_expiry].
  destruct (bps_ok (u_max_finders_fee_bps u)) as [[]|]; [|done]. next. destruct (bps_ok (u_trading_fee_bps u)) as [[]|]; [|done]. next.
  destruct (bps_ok (u_reward_bps u)) as [[]|]; [|done]. next. destruct (expiry_ok (u_ask_expiry u)) as [[]|]; [|done]. next.
  by destruct (expiry_ok (u_bid_expiry u)) as [[]|].
Qed.
End Alike.
