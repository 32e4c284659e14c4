(** Several contracts on one chain.  Bank, cw721 ledgers and block are shared; every contract has its own storage and its own
    query answers.  Any of them may be called at top level, or by foreign code (a non-standard collection, a hook, the royalty
    registry) while another one's response is being carried out.  Generic in the contracts. *)
From stdpp Require Import relations.
From Verif Require Import Base Common Chain ChainFacts.

Section Joint.
Context {I : Type} {St Msg SMsg : I -> Type} (P : I -> params).
Context (handler : forall i, view -> env -> addr -> list coin -> St i -> Msg i -> result (St i * list cmsg)).
Context (sudo : forall i, view -> env -> St i -> SMsg i -> result (St i * list cmsg)).

Record joint : Type := Joint {
  j_bank : addr -> denom -> N;
  j_nft : addr -> token -> option addr;
  j_appr : addr -> token -> addr -> bool;
  j_oper : addr -> addr -> addr -> bool;
  j_ora : I -> oracle;
  j_height : N;
  j_time : N;
  j_st : forall i, St i;
}.
(** The chain as contract [i] sees it. *)
Definition seen (i : I) (W : joint) : world (St i) :=
  World (j_bank W) (j_nft W) (j_appr W) (j_oper W) (j_ora W i) (j_height W) (j_time W) (j_st W i).

Definition j_set_bank (W : joint) b : joint :=
  Joint b (j_nft W) (j_appr W) (j_oper W) (j_ora W) (j_height W) (j_time W) (j_st W).
Definition j_transfer (W : joint) (c : addr) (t : token) (to : addr) : joint :=
  Joint (j_bank W)
    (fun c' t' => if bool_decide (c' = c /\ t' = t) then Some to else j_nft W c' t')
    (fun c' t' x => if bool_decide (c' = c /\ t' = t) then false else j_appr W c' t' x)
    (j_oper W) (j_ora W) (j_height W) (j_time W) (j_st W).
(** Only the storage of [i] differs, and is [st]. *)
Definition stores (i : I) (st : St i) (W W' : joint) : Prop :=
  seen i W' = set_st (seen i W) st /\ forall j, j <> i -> seen j W' = seen j W.
(** None of the contracts. *)
Definition outsider (a : addr) : Prop := forall i, a <> p_self (P i).

(** Something happens without a call to any of the contracts: each of them sees a step of its surroundings. *)
Definition j_env (W W' : joint) : Prop := forall i, env_step (P i) (seen i W) (seen i W').

Inductive j_exec : forall i, addr -> list coin -> Msg i -> joint -> joint -> Prop :=
  | JCall i sender funds m W st' msgs W1 W' :
      outsider sender -> covers (j_bank W) sender funds = true ->
      let paid := j_set_bank W (bank_move (j_bank W) sender (p_self (P i)) funds) in
      handler i (view_of (P i) (seen i paid)) (Env (j_height W) (j_time W)) sender funds (j_st W i) m = Ok (st', msgs) ->
      stores i st' paid W1 -> j_dispatch i W1 msgs W' ->
      j_exec i sender funds m W W'
with j_dispatch : forall (i : I), joint -> list cmsg -> joint -> Prop :=
  | JNil i W : j_dispatch i W [] W
  | JSend i W to cs ms W' :
      send_ok (P i) to cs = true -> covers (j_bank W) (p_self (P i)) cs = true ->
      j_dispatch i (j_set_bank W (bank_move (j_bank W) (p_self (P i)) to cs)) ms W' ->
      j_dispatch i W (MSend to cs :: ms) W'
  | JNft i W c t to ms W' :
      outsider c -> p_honest (P i) c = true -> can_transfer (seen i W) c t (p_self (P i)) = true ->
      j_dispatch i (j_transfer W c t to) ms W' ->
      j_dispatch i W (MNft c t to :: ms) W'
  | JNftRogue i W c t to ms W1 W' :
      outsider c -> p_honest (P i) c = false -> j_adv W W1 -> j_dispatch i W1 ms W' ->
      j_dispatch i W (MNft c t to :: ms) W'
  | JReg i W r c ms W1 W' :
      p_reg_reenters (P i) = false -> rtc j_env W W1 -> j_dispatch i W1 ms W' ->
      j_dispatch i W (MRegInit r c :: ms) W'
  | JRegRe i W r c ms W1 W' :
      p_reg_reenters (P i) = true -> j_adv W W1 -> j_dispatch i W1 ms W' ->
      j_dispatch i W (MRegInit r c :: ms) W'
  | JBurn i W c ms W' :
      0 < c_amount c -> covers (j_bank W) (p_self (P i)) [c] = true ->
      j_dispatch i (j_set_bank W (bank_sub (j_bank W) (p_self (P i)) [c])) ms W' ->
      j_dispatch i W (MFairBurn c :: ms) W'
  | JHook i W h ms W1 W' :
      j_adv W W1 -> j_dispatch i W1 ms W' ->
      j_dispatch i W (MHook h :: ms) W'
with j_adv : joint -> joint -> Prop :=
  | j_nothing W : j_adv W W
  | j_then_env W W1 W' : j_env W W1 -> j_adv W1 W' -> j_adv W W'
  | j_then_call i sender funds m W W1 W' : j_exec i sender funds m W W1 -> j_adv W1 W' -> j_adv W W'.

Scheme j_exec_mut := Induction for j_exec Sort Prop
  with j_dispatch_mut := Induction for j_dispatch Sort Prop
  with j_adv_mut := Induction for j_adv Sort Prop.
Combined Scheme j_mutind from j_exec_mut, j_dispatch_mut, j_adv_mut.

Inductive j_step : joint -> joint -> Prop :=
  | j_tx i sender funds m W W' : j_exec i sender funds m W W' -> j_step W W'
  | j_around W W' : j_env W W' -> j_step W W'
  | j_block W h t : j_height W <= h -> j_time W <= t ->
      j_step W (Joint (j_bank W) (j_nft W) (j_appr W) (j_oper W) (j_ora W) h t (j_st W))
  | j_sudo i m W st' msgs W1 W' :
      sudo i (view_of (P i) (seen i W)) (Env (j_height W) (j_time W)) (j_st W i) m = Ok (st', msgs) ->
      stores i st' W W1 -> j_dispatch i W1 msgs W' -> j_step W W'.

(** * The same by execution, external contracts answering but doing nothing else *)
Context `{EqDecision I}.
Definition put (i : I) (st : St i) (f : forall j, St j) (j : I) : St j :=
  match decide (i = j) with left e => eq_rect i St st j e | right _ => f j end.
Definition j_merge (i : I) (W : joint) (w : world (St i)) : joint :=
  Joint (w_bank w) (w_nft w) (w_appr w) (w_oper w) (j_ora W) (w_height w) (w_time w) (put i (w_st w) (j_st W)).
Definition j_run_tx (W : joint) (i : I) (sender : addr) (funds : list coin) (m : Msg i) : result joint :=
  w ← run_tx (P i) (handler i) (seen i W) sender funds m; Ok (j_merge i W w).
Definition j_run_sudo (W : joint) (i : I) (m : SMsg i) : result joint :=
  r ← sudo i (view_of (P i) (seen i W)) (Env (j_height W) (j_time W)) (j_st W i) m;
  w ← run_msgs (P i) (set_st (seen i W) (fst r)) (snd r); Ok (j_merge i W w).
End Joint.
Arguments joint {I} St.
Arguments Joint {I St}.
Arguments j_bank {I St}. Arguments j_nft {I St}. Arguments j_appr {I St}. Arguments j_oper {I St}. Arguments j_ora {I St}.
Arguments j_height {I St}. Arguments j_time {I St}. Arguments j_st {I St}.
