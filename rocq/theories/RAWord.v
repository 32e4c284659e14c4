(** Proofs for C149: a 32-bit machine runs the contract as if the limit were its last 32 bits. *)
From stdpp Require Import relations.
From Verif Require Import Base BaseFacts Common RAModel RASpec RAFacts RAIndex RAInv RAReach RAFinal RAExactSpec RAExact RAWordModel RAWordSpec.

Lemma low_usize n : as_usize n = low_bits n.
Proof. unfold as_usize, low_bits. rewrite N.mod_eq by done. lia. Qed.
Lemma low_small n : n < 4294967296 -> low_bits n = n.
Proof. intros H. rewrite <-low_usize. by apply N.mod_small. Qed.

Section Word.
Context (p : params) (lb : lib).

Lemma settle_low v st now a cfg h resp :
  settle_auction p lb v (low_state st) now a (low_config cfg) h resp = low_answer (settle_auction p lb v st now a cfg h resp).
Proof.
  unfold settle_auction. destruct (a_end a) as [t|]; [|done]. destruct (ensure (t <=? now) ENotEnded); [|done]. cbn [mbind result_bind].
  destruct (within_halt_window h (t_seconds t)).
  - cbn [low_config cf_halt_postpone]. by destruct (t_plus_seconds now (cf_halt_postpone cfg)).
  - destruct (a_high a) as [hb|]; [|done]. destruct (load_collection_royalties p lb v (a_coll a)) as [roy|]; [|done]. cbn [mbind result_bind low_config cf_trading_fee].
    by destruct (payout_nft_sale_fees lb (hb_coin hb) (funds_recipient a) (cf_trading_fee cfg) roy resp).
Qed.
Lemma settle_all_low v now cfg h l : forall st resp,
  settle_all p lb v now (low_config cfg) h (low_state st) l resp = low_answer (settle_all p lb v now cfg h st l resp).
Proof.
  induction l as [|a l IH]; intros st resp; [done|]. cbn [settle_all]. rewrite settle_low.
  destruct (settle_auction p lb v st now a cfg h resp) as [[st' ms]|]; [|done]. cbn [low_answer mbind result_bind]. apply IH.
Qed.

Theorem execute_low v e s f st m : execute p lb v e s f (low_state st) m = low_answer (execute p lb v e s f st m).
Proof.
  destruct m as [coll tok res d rc|coll tok res|coll tok|coll tok|coll tok]; cbn [execute];
    (destruct (addr_validate p coll) as [c|]; [|done]); cbn [mbind result_bind].
  - destruct (maybe_addr p rc) as [o|]; [|done]. cbn [mbind result_bind]. unfold execute_create_auction. cbv zeta.
    destruct (only_owner lb v s c tok) as [[]|]; [|done]. cbn [mbind result_bind]. destruct (has_approval v (p_self p) c tok); [|done]. cbn [mbind result_bind].
    change (only_no_auction (low_state st) c tok) with (only_no_auction st c tok). destruct (only_no_auction st c tok); [|done]. cbn [mbind result_bind].
    destruct (only_tradable lb v e c); [|done]. cbn [mbind result_bind].
    change (validate_reserve_price (low_state st) res) with (validate_reserve_price st res).
    destruct (validate_reserve_price st res); [|done]. cbn [mbind result_bind low_state s_config low_config cf_min_duration cf_max_duration cf_create_fee].
    destruct (ensure _ EInvalidInput); [|done]. cbn [mbind result_bind].
    by destruct (if c_amount (cf_create_fee (s_config st)) =? 0 then _ else _).
  - unfold execute_update_reserve_price. destruct (nonpayable f) as [[]|]; [|done]. cbn [mbind result_bind].
    change (load_auction (low_state st) (c, tok)) with (load_auction st (c, tok)). destruct (load_auction st (c, tok)) as [a|]; [|done]. cbn [mbind result_bind].
    destruct (ensure _ EUnauthorized); [|done]. cbn [mbind result_bind]. destruct (ensure _ EOther); [|done]. cbn [mbind result_bind].
    change (validate_reserve_price (low_state st) res) with (validate_reserve_price st res). by destruct (validate_reserve_price st res).
  - unfold execute_cancel_auction. destruct (nonpayable f) as [[]|]; [|done]. cbn [mbind result_bind].
    change (load_auction (low_state st) (c, tok)) with (load_auction st (c, tok)). destruct (load_auction st (c, tok)) as [a|]; [|done]. cbn [mbind result_bind].
    destruct (ensure _ EUnauthorized); [|done]. cbn [mbind result_bind]. by destruct (ensure _ EOther).
  - unfold execute_place_bid. cbv zeta. change (load_auction (low_state st) (c, tok)) with (load_auction st (c, tok)).
    destruct (load_auction st (c, tok)) as [a|]; [|done]. cbn [mbind result_bind]. destruct (must_pay f (a_denom a)) as [n|]; [|done]. cbn [mbind result_bind].
    destruct (ensure _ EUnauthorized); [|done]. cbn [mbind result_bind low_state s_config low_config cf_increment cf_extend].
    destruct (min_bid_coin a (cf_increment (s_config st))) as [mb|]; [|done]. cbn [mbind result_bind].
    destruct (ensure (has_coins f mb) _); [|done]. cbn [mbind result_bind]. destruct (ensure _ EEnded); [|done]. cbn [mbind result_bind].
    destruct (match a_first a with Some _ => _ | None => _ end) as [[[x y] z]|]; done.
  - unfold execute_settle_auction. destruct (nonpayable f) as [[]|]; [|done]. cbn [mbind result_bind].
    change (load_auction (low_state st) (c, tok)) with (load_auction st (c, tok)). destruct (load_auction st (c, tok)) as [a|]; [|done]. cbn [mbind result_bind].
    apply settle_low.
Qed.

(** No check looks at the limit. *)
Lemma limit_unchecked a b c d e f g k h i j k' : config_validate (Config a b c d e f g k h i j) = config_validate (Config a b c d e f g k' h i j).
Proof. done. Qed.
Theorem sudo_low v e st m : sudo p lb v e (low_state st) (low_msg m) = low_answer (sudo_32 p lb v e st m).
Proof.
  destruct m as [| |u|cs|ds|]; cbn [low_msg sudo sudo_32]; [..|done].
  - unfold sudo_begin_block. cbv zeta. cbn [low_state s_halt s_config low_config cf_halt_threshold cf_halt_buffer].
    destruct (ensure _ _); [|done]. cbn [mbind result_bind]. destruct (if _ : bool then _ else _); done.
  - unfold sudo_end_block, sudo_end_block_32. cbv zeta. destruct (add64 _ 1) as [b|]; [|done]. cbn [mbind result_bind].
    change (cf_max_settle (s_config (low_state st))) with (low_bits (cf_max_settle (s_config st))). rewrite low_usize.
    change (due_auctions (low_state st) b (low_bits (cf_max_settle (s_config st)))) with (due_auctions st b (low_bits (cf_max_settle (s_config st)))).
    set (due := due_auctions st b _). destruct (match due with [] => Ok None | _ => _ end) as [o|]; [|done]. cbn [mbind result_bind].
    change (s_config (low_state st)) with (low_config (s_config st)). change (s_halt (low_state st)) with (s_halt st). rewrite settle_all_low.
    destruct (settle_all p lb v _ (s_config st) (s_halt st) st due []) as [[st' ms]|]; [|done]. cbn [low_answer mbind result_bind].
    by destruct (find_stale_halt_info (s_halt st) o).
  - unfold sudo_update_params. cbv zeta. cbn [u_fair_burn u_trading_fee u_increment u_min_duration u_extend u_create_fee u_max_settle u_halt_threshold
      u_halt_buffer u_halt_postpone low_state s_config low_config cf_fair_burn cf_trading_fee cf_increment cf_min_duration cf_max_duration cf_extend
      cf_create_fee cf_max_settle cf_halt_threshold cf_halt_buffer cf_halt_postpone].
    destruct (match u_fair_burn u with None => _ | Some _ => _ end) as [fb|]; [|done]. cbn [mbind result_bind].
    rewrite (limit_unchecked _ _ _ _ _ _ _ (default (low_bits (cf_max_settle (s_config st))) (low_bits <$> u_max_settle u)) _ _ _
      (default (cf_max_settle (s_config st)) (u_max_settle u))).
    destruct (config_validate _); [|done]. cbn [mbind result_bind low_answer].
    unfold low_state, low_config. cbn. by destruct (u_max_settle u).
  - unfold sudo_set_min_reserve_prices. cbn [low_state s_mins]. by destruct (add_mins (s_mins st) cs).
  - unfold sudo_unset_min_reserve_prices. cbn [low_state s_mins]. by destruct (remove_mins (s_mins st) ds).
Qed.

(** Below 2^32 nothing changes. *)
Theorem sudo_same v e st m : cf_max_settle (s_config st) < 4294967296 -> sudo_32 p lb v e st m = sudo p lb v e st m.
Proof.
  intros H. destruct m; cbn [sudo_32 sudo]; try done. unfold sudo_end_block_32, sudo_end_block. cbv zeta.
  by rewrite low_usize, low_small.
Qed.

Theorem history_low st : ra_history_32 p lb st -> ra_history p lb (low_state st).
Proof.
  intros (c&mins&st0&Hi&Hs). exists (low_config c), mins, (low_state st0). split.
  - clear Hs. revert Hi. unfold instantiate. cbn [low_config cf_fair_burn]. destruct (addr_validate p (cf_fair_burn c)) as [fb|]; [|done]. cbn [mbind result_bind].
    change (config_validate (low_config c)) with (config_validate c). destruct (config_validate c); [|done]. cbn [mbind result_bind].
    destruct (add_mins ∅ mins); [|done]. cbn [mbind result_bind]. by intros [= <-].
  - clear Hi. induction Hs as [|x y z Hxy _ IH]; [apply rtc_refl|]. eapply rtc_l; [|exact IH].
    destruct Hxy as [v e sender funds m msgs Hne H|v e m msgs H].
    + apply (call_execute p lb _ _ v e sender funds m msgs); [done|]. by rewrite execute_low, H.
    + apply (call_sudo p lb _ _ v e (low_msg m) msgs). by rewrite sudo_low, H.
Qed.

Lemma outcome_low v now cfg h a o ms : outcome lb v now (low_config cfg) h a o ms <-> outcome lb v now cfg h a o ms.
Proof.
  split; (intros [t H1 H2 H3 H4|t hb sp H1 H2 H3 H4 H5 H6]).
  - exact (postponed lb v now cfg h a t H1 H2 H3 H4).
  - exact (sold lb v now cfg h a t hb sp H1 H2 H3 H4 H5 H6).
  - exact (postponed lb v now (low_config cfg) h a t H1 H2 H3 H4).
  - exact (sold lb v now (low_config cfg) h a t hb sp H1 H2 H3 H4 H5 H6).
Qed.

Theorem end_block_32 st v e st' msgs :
  ra_history_32 p lb st -> sudo_32 p lb v e st EndBlock = Ok (st', msgs) ->
  exists l os, first_due st (e_time e) (low_bits (cf_max_settle (s_config st))) l /\
    Forall2 (fun a o => outcome lb v (e_time e) (s_config st) (s_halt st) a (fst o) (snd o)) l os /\
    s_mins st' = s_mins st /\
    (forall i a o, l !! i = Some a -> os !! i = Some o -> s_auctions st' !! (a_coll a, a_tok a) = fst o) /\
    (forall k, (forall a, a ∈ l -> (a_coll a, a_tok a) <> k) -> s_auctions st' !! k = s_auctions st !! k) /\
    msgs = concat (snd <$> os).
Proof.
  intros Hh H. pose proof (sudo_low v e st EndBlock) as E. rewrite H in E. cbn [low_answer low_msg] in E.
  destruct (end_block_rule p lb _ _ _ _ _ (history_low _ Hh) E) as (l&os&Hl&Ho&[_ Hm Hd Hr]&->).
  exists l, os. split; [|split; [|done]].
  - destruct Hl as [A B C D]. split; [exact A|exact B|exact C|exact D].
  - eapply Forall2_impl; [exact Ho|]. intros a o Hao. by apply outcome_low.
Qed.

Theorem keeps_settling_low limit : low_bits limit <> 0 -> keeps_settling p lb limit.
Proof.
  intros Hn st v e st' ms a t Hh <- H Ha Hdue Ht Hnh Hfirst.
  destruct (end_block_32 _ _ _ _ _ Hh H) as (l&os&[F1 F2 F3 F4]&Ho&_&Hd&_&_).
  assert (a ∈ l) as Hin.
  { destruct (F4 a Ha Hdue) as [Hin|[Hlen Hb]]; [done|]. destruct l as [|b l']; [cbn in Hlen; lia|].
    assert (b ∈ b :: l') as Hbl by apply elem_of_list_here. destruct (F1 b Hbl) as [Hbs Hbd].
    destruct (Hfirst b Hbs Hbd) as [->|Hab]; [done|]. exfalso. specialize (Hb b Hbl). apply (end_before_irrefl (a_ekey a)). by eapply end_before_trans. }
  apply elem_of_list_lookup in Hin as (i&Hi). destruct (Forall2_lookup_l _ _ _ _ _ Ho Hi) as (o&Hoi&Hout).
  rewrite (Hd i a o Hi Hoi). inversion Hout as [t' E1 E2 E3|]; subst; [|done].
  assert (t' = t) as -> by congruence. done.
Qed.
End Word.
