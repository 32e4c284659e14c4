(** C140 for the reserve auction: proofs. *)
From Verif Require Import Base Common IndexRange IndexFacts RAModel RAIndex AlikeSpec Alike RAAlikeSpec.

Section Alike.
Context (p : params) (lb : lib) (r : addr -> addr) (Hr : renaming p r).
Context (v v' : view) (Hv : view_renamed r v v').
Notation A := (auction_renamed r).
Notation S := (state_renamed r).
Notation M := (msg_renamed r).
Notation Out := (answer_renamed S M).

Lemma auction_key a : a_key (A a) = a_key a. Proof. done. Qed.
Lemma save_renamed st a : save_auction (S st) (A a) = S (save_auction st a).
Proof. unfold save_auction, set_auctions, state_renamed; cbn [s_config s_mins s_halt s_auctions]. f_equal. by rewrite fmap_insert. Qed.
Lemma remove_renamed st a : remove_auction (S st) (A a) = S (remove_auction st a).
Proof. unfold remove_auction, set_auctions, state_renamed; cbn [s_config s_mins s_halt s_auctions]. f_equal. by rewrite fmap_delete. Qed.
Lemma load_renamed st k : load_auction (S st) k = A <$> load_auction st k.
Proof. unfold load_auction, state_renamed; cbn [s_config s_mins s_halt s_auctions]. rewrite lookup_fmap. by destruct (s_auctions st !! k). Qed.
Lemma msgs_app (l l' : list cmsg) : M <$> (l ++ l') = (M <$> l) ++ (M <$> l').
Proof. apply fmap_app. Qed.

Lemma owner_renamed s coll tok : only_owner lb v' (r s) coll tok = only_owner lb v s coll tok.
Proof. unfold only_owner. rewrite (vr_owner _ _ _ Hv). destruct (q_owner v coll tok); [|done]. by rewrite (same_account p). Qed.
Lemma approval_renamed coll tok : has_approval v' (p_self p) coll tok = has_approval v (p_self p) coll tok.
Proof. unfold has_approval. by rewrite <-(vr_approval _ _ _ Hv), (rn_self _ _ Hr). Qed.
Lemma tradable_renamed e coll : only_tradable lb v' e coll = only_tradable lb v e coll.
Proof. unfold only_tradable. rewrite (vr_info _ _ _ Hv). by destruct (q_info v coll). Qed.
Lemma royalties_renamed coll : load_collection_royalties p lb v' coll =
  (fun o => match o with Some (to, n) => Some (r to, n) | None => None end) <$> load_collection_royalties p lb v coll.
Proof.
  unfold load_collection_royalties. rewrite (vr_info _ _ _ Hv). destruct (q_info v coll) as [[st ro]|]; cbn; [|by destruct (l_royalty_open lb)].
  destruct ro as [[to n]|]; [|done]. rewrite (validate_renamed p r Hr). by destruct (addr_validate p to).
Qed.
Lemma part_renamed to d n : send_part (r to) d n = M <$> send_part to d n.
Proof. unfold send_part. by destruct (n =? 0). Qed.
Lemma payout_renamed sale seller fee roy (resp : list cmsg) :
  payout_nft_sale_fees lb sale (r seller) fee (match roy with Some (to, n) => Some (r to, n) | None => None end) (M <$> resp) =
  (fun l : list cmsg => M <$> l) <$> payout_nft_sale_fees lb sale seller fee roy resp.
Proof.
  unfold payout_nft_sale_fees. destruct (l_fee lb (c_amount sale) fee) as [f|]; [|done]. cbn.
  destruct (checked_sub128 (c_amount sale) f) as [rest|]; [|done]. cbn.
  destruct roy as [[to share]|].
  - destruct (l_royalty lb (c_amount sale) share) as [n|]; [|done]. cbn. destruct (checked_sub128 rest n) as [m|]; [|done]. cbn.
    rewrite !fmap_app, !part_renamed. by destruct (f =? 0).
  - cbn. destruct (checked_sub128 rest 0) as [m|]; [|done]. cbn. rewrite !fmap_app, !part_renamed. by destruct (f =? 0).
Qed.
Lemma transfer_renamed coll tok to (resp : list cmsg) : transfer_nft coll tok (r to) (M <$> resp) = M <$> transfer_nft coll tok to resp.
Proof. unfold transfer_nft. by rewrite fmap_app. Qed.

Lemma settle_renamed st now a h (resp : list cmsg) :
  settle_auction p lb v' (S st) now (A a) (config_renamed r (s_config st)) h (M <$> resp) =
  Out (settle_auction p lb v st now a (s_config st) h resp).
Proof.
  unfold settle_auction. cbn [auction_renamed a_end a_high]. destruct (a_end a) as [t|]; [|done].
  destruct (ensure (t <=? now) ENotEnded); [|done]. cbn [mbind result_bind].
  destruct (within_halt_window h (t_seconds t)).
  - cbn [config_renamed cf_halt_postpone]. destruct (t_plus_seconds now (cf_halt_postpone (s_config st))) as [n|]; [|done].
    cbn [mbind result_bind answer_renamed]. by rewrite <-save_renamed.
  - destruct (a_high a) as [hb|]; [|done]. cbn [auction_renamed a_coll]. rewrite royalties_renamed.
    destruct (load_collection_royalties p lb v (a_coll a)) as [roy|]; [|done]. cbn [fmap result_map mbind result_bind hb_coin].
    assert (funds_recipient (A a) = r (funds_recipient a)) as -> by (unfold funds_recipient; cbn; by destruct (a_recipient a)).
    cbn [config_renamed cf_trading_fee]. rewrite payout_renamed.
    destruct (payout_nft_sale_fees lb (hb_coin hb) (funds_recipient a) (cf_trading_fee (s_config st)) roy resp) as [l|]; [|done].
    cbn [fmap result_map mbind result_bind answer_renamed hb_bidder]. rewrite remove_renamed. cbn [auction_renamed a_coll a_tok]. by rewrite transfer_renamed.
Qed.
Lemma settle_config st now a cfg h resp st' ms : settle_auction p lb v st now a cfg h resp = Ok (st', ms) -> s_config st' = s_config st.
Proof.
  unfold settle_auction. destruct (a_end a) as [t|]; [|done]. destruct (ensure (t <=? now) ENotEnded); [|done]. cbn [mbind result_bind].
  destruct (within_halt_window h (t_seconds t)).
  - destruct (t_plus_seconds now (cf_halt_postpone cfg)); [|done]. cbn. by intros [= <- <-].
  - destruct (a_high a) as [hb|]; [|done]. destruct (load_collection_royalties p lb v (a_coll a)); [|done]. cbn.
    destruct (payout_nft_sale_fees lb (hb_coin hb) (funds_recipient a) (cf_trading_fee cfg) _ resp); [|done]. cbn. by intros [= <- <-].
Qed.

Lemma create_renamed e s f st coll tok d res rc :
  execute_create_auction p lb v' e (r s) f (S st) coll tok d res (opt_renamed r rc) =
  Out (execute_create_auction p lb v e s f st coll tok d res rc).
Proof.
  unfold execute_create_auction. cbv zeta. rewrite owner_renamed. destruct (only_owner lb v s coll tok); [|done]. cbn [mbind result_bind].
  rewrite approval_renamed. destruct (has_approval v (p_self p) coll tok); [|done]. cbn [mbind result_bind].
  assert (only_no_auction (S st) coll tok = only_no_auction st coll tok) as ->.
  { unfold only_no_auction, state_renamed; cbn [s_auctions]. rewrite lookup_fmap. by destruct (s_auctions st !! _). }
  destruct (only_no_auction st coll tok); [|done]. cbn [mbind result_bind].
  rewrite tradable_renamed. destruct (only_tradable lb v e coll); [|done]. cbn [mbind result_bind].
  change (validate_reserve_price (S st) res) with (validate_reserve_price st res).
  destruct (validate_reserve_price st res); [|done]. cbn [mbind result_bind].
  cbn [state_renamed s_config config_renamed cf_min_duration cf_max_duration cf_create_fee].
  destruct (ensure _ EInvalidInput); [|done]. cbn [mbind result_bind].
  destruct (if c_amount (cf_create_fee (s_config st)) =? 0 then _ else _) as [resp|] eqn:E; [|done].
  cbn [mbind result_bind answer_renamed]. f_equal. f_equal; [by rewrite <-save_renamed|].
  assert (M <$> resp = resp) as Hq.
  { revert E. destruct (c_amount (cf_create_fee (s_config st)) =? 0); destruct (_ : result unit); cbn; [intros [= <-]|..]; try done; intros [= <-]; done. }
  unfold transfer_nft. rewrite fmap_app, Hq. cbn. by rewrite (rn_self _ _ Hr).
Qed.
Lemma bid_renamed e s f st coll tok :
  execute_place_bid e (r s) f (S st) coll tok = Out (execute_place_bid e s f st coll tok).
Proof.
  unfold execute_place_bid. cbv zeta. rewrite load_renamed. destruct (load_auction st (coll, tok)) as [a|]; [|done]. cbn [fmap result_map mbind result_bind].
  change (a_denom (A a)) with (a_denom a). destruct (must_pay f (a_denom a)) as [n|]; [|done]. cbn [mbind result_bind].
  cbn [auction_renamed a_seller]. rewrite (other_account p r Hr). destruct (ensure _ EUnauthorized); [|done]. cbn [mbind result_bind].
  assert (min_bid_coin (A a) (cf_increment (s_config (S st))) = min_bid_coin a (cf_increment (s_config st))) as ->.
  { unfold min_bid_coin. cbn. by destruct (a_high a). }
  destruct (min_bid_coin a (cf_increment (s_config st))) as [mb|]; [|done]. cbn [mbind result_bind].
  destruct (ensure (has_coins f mb) _); [|done]. cbn [mbind result_bind auction_renamed a_end].
  destruct (ensure _ EEnded); [|done]. cbn [mbind result_bind auction_renamed a_coll a_tok a_reserve a_recipient a_first a_high a_duration].
  destruct (a_first a) as [first|]; cbn [state_renamed s_config config_renamed cf_extend].
  - destruct (a_high a) as [hb|]; [|done]. cbn [hb_coin hb_bidder]. unfold checked_transfer_coin.
    destruct (c_amount (hb_coin hb) =? 0); [done|]. cbn [mbind result_bind].
    destruct (a_end a) as [t|]; [|done]. destruct (_ <? cf_extend (s_config st)).
    + destruct (t_plus_seconds (e_time e) (cf_extend (s_config st))); [|done]. cbn [mbind result_bind answer_renamed].
      by rewrite <-save_renamed.
    + cbn [mbind result_bind answer_renamed]. by rewrite <-save_renamed.
  - destruct (t_plus_seconds (e_time e) (a_duration a)); [|done]. cbn [mbind result_bind answer_renamed]. by rewrite <-save_renamed.
Qed.
Lemma price_renamed s f st coll tok res :
  execute_update_reserve_price (r s) f (S st) coll tok res = Out (execute_update_reserve_price s f st coll tok res).
Proof.
  unfold execute_update_reserve_price. destruct (nonpayable f) as [[]|]; [|done]. cbn [mbind result_bind]. rewrite load_renamed.
  destruct (load_auction st (coll, tok)) as [a|]; [|done]. cbn [fmap result_map mbind result_bind auction_renamed a_seller a_first].
  rewrite (same_account p r Hr). destruct (ensure _ EUnauthorized); [|done]. cbn [mbind result_bind].
  destruct (ensure _ EOther); [|done]. cbn [mbind result_bind].
  change (validate_reserve_price (S st) res) with (validate_reserve_price st res).
  destruct (validate_reserve_price st res); [|done]. cbn [mbind result_bind answer_renamed]. by rewrite <-save_renamed.
Qed.
Lemma cancel_renamed s f st coll tok :
  execute_cancel_auction (r s) f (S st) coll tok = Out (execute_cancel_auction s f st coll tok).
Proof.
  unfold execute_cancel_auction. destruct (nonpayable f) as [[]|]; [|done]. cbn [mbind result_bind]. rewrite load_renamed.
  destruct (load_auction st (coll, tok)) as [a|]; [|done]. cbn [fmap result_map mbind result_bind auction_renamed a_seller a_first].
  rewrite (same_account p r Hr). destruct (ensure _ EUnauthorized); [|done]. cbn [mbind result_bind].
  destruct (ensure _ EOther); [|done]. cbn [mbind result_bind answer_renamed]. by rewrite remove_renamed.
Qed.

Theorem execute_alike e s f st m :
  execute p lb v' e (r s) f (S st) (call_renamed r m) = Out (execute p lb v e s f st m).
Proof.
  destruct m as [coll tok res d rc|coll tok res|coll tok|coll tok|coll tok]; cbn [call_renamed execute];
    (destruct (addr_validate p coll) as [c|]; [|done]); cbn [mbind result_bind].
  - change (opt_renamed r rc) with (r <$> rc). rewrite (maybe_renamed p r Hr). destruct (maybe_addr p rc) as [o|]; [|done].
    cbn [fmap result_map mbind result_bind]. apply create_renamed.
  - apply price_renamed.
  - apply cancel_renamed.
  - apply bid_renamed.
  - unfold execute_settle_auction. destruct (nonpayable f) as [[]|]; [|done]. cbn [mbind result_bind]. rewrite load_renamed.
    destruct (load_auction st (c, tok)) as [a|]; [|done]. cbn [fmap result_map mbind result_bind]. apply (settle_renamed st _ a _ []).
Qed.

Lemma due_renamed st b l : due_auctions (S st) b l = A <$> due_auctions st b l.
Proof.
  unfold due_auctions. rewrite fmap_take. f_equal. rewrite <-list_fmap_compose. cbn [state_renamed s_auctions].
  rewrite (scan_any_order ekey_leb entry_ekey _ (prod_map id A <$> map_to_list (s_auctions st))).
  - rewrite (scan_commutes ekey_leb entry_ekey entry_ekey (prod_map id A)) by done. by rewrite <-!list_fmap_compose.
  - apply ekey_leb_total.
  - apply ekey_leb_trans.
  - apply ekey_leb_antisym.
  - apply (NoDup_fmap_1 snd). rewrite <-list_fmap_compose. apply NoDup_fst_map_to_list.
  - apply map_to_list_fmap.
Qed.
Lemma settle_all_renamed now h (l : list auction) : forall st (resp : list cmsg) cfg, s_config st = cfg ->
  settle_all p lb v' now (config_renamed r cfg) h (S st) (A <$> l) (M <$> resp) = Out (settle_all p lb v now cfg h st l resp).
Proof.
  induction l as [|a l IH]; intros st resp cfg <-; [done|]. cbn [fmap list_fmap settle_all]. rewrite settle_renamed.
  destruct (settle_auction p lb v st now a (s_config st) h resp) as [[st' ms]|] eqn:E; [|done]. cbn [answer_renamed mbind result_bind].
  apply IH. by eapply settle_config.
Qed.
Theorem sudo_alike e st m : sudo p lb v' e (S st) (sudo_renamed r m) = Out (sudo p lb v e st m).
Proof.
  destruct m as [| |u|cs|ds|]; cbn [sudo_renamed sudo]; [..|done].
  - unfold sudo_begin_block. cbv zeta. cbn [state_renamed s_halt s_config config_renamed cf_halt_threshold cf_halt_buffer].
    destruct (ensure _ _); [|done]. cbn [mbind result_bind]. destruct (if _ : bool then _ else _); done.
  - unfold sudo_end_block. cbv zeta. destruct (add64 _ 1) as [b|]; [|done]. cbn [mbind result_bind].
    change (cf_max_settle (s_config (S st))) with (cf_max_settle (s_config st)). rewrite due_renamed.
    set (due := due_auctions st b _).
    assert (match A <$> due with [] => Ok None | a :: _ => match a_end a with None => Err EPanic | Some t => Ok (Some t) end end =
            match due with [] => Ok None | a :: _ => match a_end a with None => Err EPanic | Some t => Ok (Some t) end end) as -> by (by destruct due).
    destruct (match due with [] => Ok None | _ => _ end) as [o|]; [|done]. cbn [mbind result_bind].
    change (s_config (S st)) with (config_renamed r (s_config st)). change (s_halt (S st)) with (s_halt st).
    rewrite (settle_all_renamed _ _ due st [] (s_config st)) by done.
    destruct (settle_all p lb v _ (s_config st) (s_halt st) st due []) as [[st' ms]|]; [|done]. cbn [answer_renamed mbind result_bind].
    by destruct (find_stale_halt_info (s_halt st) o).
  - unfold sudo_update_params. cbv zeta. cbn [u_fair_burn S s_config config_renamed cf_fair_burn].
    assert (match opt_renamed r (u_fair_burn u) with None => Ok (r (cf_fair_burn (s_config st))) | Some s => addr_validate p s end =
            r <$> match u_fair_burn u with None => Ok (cf_fair_burn (s_config st)) | Some s => addr_validate p s end) as ->.
    { destruct (u_fair_burn u) as [s|]; [|done]. cbn. apply (validate_renamed p r Hr). }
    destruct (match u_fair_burn u with None => _ | Some _ => _ end) as [fb|]; [|done]. cbn [fmap result_map mbind result_bind].
    destruct (config_validate (Config fb _ _ _ _ _ _ _ _ _ _)) as [[]|] eqn:E; unfold config_validate in *; cbn in *; rewrite E; done.
  - unfold sudo_set_min_reserve_prices. cbn [state_renamed s_mins]. by destruct (add_mins (s_mins st) cs).
  - unfold sudo_unset_min_reserve_prices. cbn [state_renamed s_mins]. by destruct (remove_mins (s_mins st) ds).
Qed.
End Alike.
