(** The chain around a contract: bank balances, cw721 ledgers, oracle data, atomic transactions, ordered
    message dispatch and re-entrancy.  Generic in the contract's state and message types and handler. *)
From Verif Require Import Base Common.

(** * Query data outside the model's control.  It may change at every environment step. *)
Record oracle : Type := Oracle {
  o_owner : addr -> token -> option addr;           (* OwnerOf of non-standard collections *)
  o_approval : addr -> token -> addr -> bool;       (* Approval of non-standard collections *)
  o_info : addr -> option collection_info;
  o_royalty : addr -> addr -> option addr -> result (option royalty_entry * option royalty_entry);
  o_admin : option (option addr);
}.

Record world (S : Type) : Type := World {
  w_bank : addr -> denom -> N;
  w_nft : addr -> token -> option addr;             (* owners, for standards-compliant collections *)
  w_appr : addr -> token -> addr -> bool;           (* token-level approvals *)
  w_oper : addr -> addr -> addr -> bool;            (* collection, owner, operator (approve_all) *)
  w_ora : oracle;
  w_height : N;
  w_time : N;                                       (* block time, nanoseconds *)
  w_st : S;                                         (* storage of the contract under study *)
}.
Global Arguments World {S}.
Global Arguments w_bank {S}. Global Arguments w_nft {S}. Global Arguments w_appr {S}.
Global Arguments w_oper {S}. Global Arguments w_ora {S}. Global Arguments w_height {S}.
Global Arguments w_time {S}. Global Arguments w_st {S}.

Section World.
Context {S : Type}.
Implicit Types w : world S.

Definition set_bank w b := World b (w_nft w) (w_appr w) (w_oper w) (w_ora w) (w_height w) (w_time w) (w_st w).
Definition set_st w (st : S) := World (w_bank w) (w_nft w) (w_appr w) (w_oper w) (w_ora w) (w_height w) (w_time w) st.
Definition set_nft w n a := World (w_bank w) n a (w_oper w) (w_ora w) (w_height w) (w_time w) (w_st w).

Definition bank := addr -> denom -> N.
Definition bank_sub (b : bank) (a : addr) (cs : list coin) : bank :=
  fun x d => if bool_decide (x = a) then b x d - amt cs d else b x d.
Definition bank_add (b : bank) (a : addr) (cs : list coin) : bank :=
  fun x d => if bool_decide (x = a) then b x d + amt cs d else b x d.
Definition bank_move (b : bank) (from to : addr) (cs : list coin) : bank :=
  bank_add (bank_sub b from cs) to cs.
(** Does account [a] hold all of [cs]?  Only denoms in [cs] matter. *)
Definition covers (b : bank) (a : addr) (cs : list coin) : bool :=
  forallb (fun c => amt cs (c_denom c) <=? b a (c_denom c)) cs.

(** A bank send is valid: a non-empty list of positive coins, the recipient may receive coins. *)
Definition send_ok (p : params) (to : addr) (cs : list coin) : bool :=
  negb (bool_decide (cs = [])) && forallb (fun c => 0 <? c_amount c) cs && negb (p_blocked p to).

(** cw721: [who] may transfer (c, t): the owner, a token-level spender, or an operator of the owner. *)
Definition can_transfer w (c : addr) (t : token) (who : addr) : bool :=
  match w_nft w c t with
  | None => false
  | Some o => bool_decide (o = who) || w_appr w c t who || w_oper w c o who
  end.
(** cw721 transfer: sets the owner and clears the token's approvals. *)
Definition nft_transfer w (c : addr) (t : token) (to : addr) : world S :=
  set_nft w
    (fun c' t' => if bool_decide (c' = c /\ t' = t) then Some to else w_nft w c' t')
    (fun c' t' x => if bool_decide (c' = c /\ t' = t) then false else w_appr w c' t' x).

(** What the contract sees when it queries. *)
Definition view_of (p : params) w : view := View
  (fun c t => if p_honest p c then w_nft w c t else o_owner (w_ora w) c t)
  (fun c t x => if p_honest p c
                then match w_nft w c t with
                     | None => false
                     | Some o => bool_decide (o = x) || w_appr w c t x   (* cw721-base: owner always has approval *)
                     end
                else o_approval (w_ora w) c t x)
  (o_info (w_ora w)) (o_royalty (w_ora w)) (o_admin (w_ora w)).
Definition env_of w : env := Env (w_height w) (w_time w).

(** * Everything that can happen on the chain without calling the contract (within one block) *)
Inductive env_step (p : params) : world S -> world S -> Prop :=
  | ES_bank w b :
      (* other accounts trade freely; the contract's own coins are never taken *)
      (forall d, w_bank w (p_self p) d <= b (p_self p) d) ->
      env_step p w (set_bank w b)
  | ES_oracle w ora :
      env_step p w (World (w_bank w) (w_nft w) (w_appr w) (w_oper w) ora (w_height w) (w_time w) (w_st w))
  | ES_transfer w c t who to :
      who <> p_self p -> can_transfer w c t who = true ->
      env_step p w (nft_transfer w c t to)
  | ES_mint w c t to :
      w_nft w c t = None ->
      env_step p w (nft_transfer w c t to)
  | ES_burn w c t who :
      who <> p_self p -> can_transfer w c t who = true ->
      env_step p w (set_nft w
        (fun c' t' => if bool_decide (c' = c /\ t' = t) then None else w_nft w c' t')
        (fun c' t' x => if bool_decide (c' = c /\ t' = t) then false else w_appr w c' t' x))
  | ES_approve w c t who o spender (b : bool) :
      (* approve / revoke by the owner or an operator of the owner *)
      w_nft w c t = Some o -> who <> p_self p -> (who = o \/ w_oper w c o who = true) ->
      env_step p w (set_nft w (w_nft w)
        (fun c' t' x => if bool_decide (c' = c /\ t' = t /\ x = spender) then b else w_appr w c' t' x))
  | ES_approve_all w c who op (b : bool) :
      who <> p_self p ->
      env_step p w (World (w_bank w) (w_nft w) (w_appr w)
        (fun c' o x => if bool_decide (c' = c /\ o = who /\ x = op) then b else w_oper w c' o x)
        (w_ora w) (w_height w) (w_time w) (w_st w)).
End World.

(** * Transactions *)
Section Exec.
Context {S M : Type} (p : params).
Context (handler : view -> env -> addr -> list coin -> S -> M -> result (S * list cmsg)).

(** The world in which the handler runs: the attached funds have already moved. *)
Definition pay_in (w : world S) (sender : addr) (funds : list coin) : world S :=
  set_bank w (bank_move (w_bank w) sender (p_self p) funds).

(** [texec sender funds m w w']: a complete successful call.  [dispatch w ms w']: the messages [ms] of a
    response are executed in order.  [adv w w']: foreign code runs (a non-standard collection or a hook). *)
Inductive texec : addr -> list coin -> M -> world S -> world S -> Prop :=
  | TCall sender funds m w st' msgs w' :
      sender <> p_self p ->
      covers (w_bank w) sender funds = true ->
      handler (view_of p (pay_in w sender funds)) (env_of w) sender funds (w_st w) m = Ok (st', msgs) ->
      dispatch (set_st (pay_in w sender funds) st') msgs w' ->
      texec sender funds m w w'
with dispatch : world S -> list cmsg -> world S -> Prop :=
  | DNil w : dispatch w [] w
  | DSend w to cs ms w' :
      send_ok p to cs = true -> covers (w_bank w) (p_self p) cs = true ->
      dispatch (set_bank w (bank_move (w_bank w) (p_self p) to cs)) ms w' ->
      dispatch w (MSend to cs :: ms) w'
  | DNft w c t to ms w' :
      c <> p_self p -> p_honest p c = true -> can_transfer w c t (p_self p) = true ->
      dispatch (nft_transfer w c t to) ms w' ->
      dispatch w (MNft c t to :: ms) w'
  | DNftRogue w c t to ms w1 w' :
      c <> p_self p -> p_honest p c = false -> adv w w1 ->
      dispatch w1 ms w' ->
      dispatch w (MNft c t to :: ms) w'
  | DReg w r c ms w1 w' :
      p_reg_reenters p = false -> rtc (env_step p) w w1 ->
      dispatch w1 ms w' ->
      dispatch w (MRegInit r c :: ms) w'
  | DRegRe w r c ms w1 w' :
      p_reg_reenters p = true -> adv w w1 ->
      dispatch w1 ms w' ->
      dispatch w (MRegInit r c :: ms) w'
  | DBurn w c ms w' :
      0 < c_amount c -> covers (w_bank w) (p_self p) [c] = true ->
      dispatch (set_bank w (bank_sub (w_bank w) (p_self p) [c])) ms w' ->
      dispatch w (MFairBurn c :: ms) w'
  | DHook w h ms w1 w' :
      (* reply_on_error: a failing hook leaves the world unchanged ([adv_nil]) *)
      adv w w1 -> dispatch w1 ms w' ->
      dispatch w (MHook h :: ms) w'
with adv : world S -> world S -> Prop :=
  | adv_nil w : adv w w
  | adv_env w w1 w' : env_step p w w1 -> adv w1 w' -> adv w w'
  | adv_call sender funds m w w1 w' : texec sender funds m w w1 -> adv w1 w' -> adv w w'.

Scheme texec_mut := Induction for texec Sort Prop
  with dispatch_mut := Induction for dispatch Sort Prop
  with adv_mut := Induction for adv Sort Prop.
Combined Scheme exec_mutind from texec_mut, dispatch_mut, adv_mut.

(** * Executable semantics: external contracts answer calls but do nothing else *)
Fixpoint run_msgs (w : world S) (ms : list cmsg) : result (world S) :=
  match ms with
  | [] => Ok w
  | MSend to cs :: ms =>
      ensure (send_ok p to cs && covers (w_bank w) (p_self p) cs) ETransfer ;;
      run_msgs (set_bank w (bank_move (w_bank w) (p_self p) to cs)) ms
  | MNft c t to :: ms =>
      ensure (negb (bool_decide (c = p_self p))) ETransfer ;;
      if p_honest p c then
        ensure (can_transfer w c t (p_self p)) ETransfer ;;
        run_msgs (nft_transfer w c t to) ms
      else run_msgs w ms
  | MFairBurn c :: ms =>
      ensure ((0 <? c_amount c) && covers (w_bank w) (p_self p) [c]) ETransfer ;;
      run_msgs (set_bank w (bank_sub (w_bank w) (p_self p) [c])) ms
  | MRegInit _ _ :: ms | MHook _ :: ms => run_msgs w ms
  end.
Definition run_tx (w : world S) (sender : addr) (funds : list coin) (m : M) : result (world S) :=
  ensure (negb (bool_decide (sender = p_self p)) && covers (w_bank w) sender funds) ETransfer ;;
  r ← handler (view_of p (pay_in w sender funds)) (env_of w) sender funds (w_st w) m;
  run_msgs (set_st (pay_in w sender funds) (fst r)) (snd r).
Fixpoint run_txs (w : world S) (txs : list (addr * list coin * M)) : result (world S) :=
  match txs with
  | [] => Ok w
  | (sender, funds, m) :: txs => w' ← run_tx w sender funds m; run_txs w' txs
  end.

End Exec.
