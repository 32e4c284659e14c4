(** Shared base of the contract models: the error monad, coins, the payment checks of cw-utils, the fixed
    point [Decimal] of cosmwasm-std, and the byte order on strings.  Nothing here is code of /repo itself
    except where cited; it models the library functions the contracts call (trusted base, see DESIGN.md). *)
From Coq Require Export NArith ZArith Lia ZifyN ZifyBool ZifyNat Ascii String.
From stdpp Require Export base option list gmap strings sorting.
Global Open Scope N_scope.

Notation addr := string (only parsing).
Notation denom := string (only parsing).
Notation token := string (only parsing).
Notation order_id := string (only parsing).

(** * Results.  A Rust [Result]; a Rust panic (arithmetic overflow under [overflow-checks = true] in the
    release profile, or [unwrap] on [None]) aborts the transaction and is the error [EPanic]. *)
Inductive error : Type :=
  | EPanic              (* Rust panic *)
  | EUnauthorized       (* MarketplaceStdError::Unauthorized / UnauthorizedOwner / UnauthorizedOperator *)
  | EInvalidInput       (* ContractError::InvalidInput and the other input errors *)
  | EInsufficient       (* ContractError::InsufficientFunds *)
  | ENoMatch            (* ContractError::NoMatchFound *)
  | ECollision          (* ContractError::InternalError, id collision *)
  | ENotTradable        (* MarketplaceStdError::CollectionNotTradable *)
  | EPayment            (* cw_utils::PaymentError *)
  | EAddress            (* api.addr_validate failed *)
  | ENotFound           (* StdError::NotFound *)
  | EStd                (* other StdError (overflow, query error, ...) *)
  | EExpired            (* an expired order *)
  | ENotEnded           (* ContractError::AuctionNotEnded *)
  | EEnded              (* ContractError::AuctionEnded *)
  | EZeroSend           (* MarketplaceStdError::ZeroAmountBankSend *)
  | ETransfer           (* the chain refused a dispatched message *)
  | EOther.

Global Instance error_eq_dec : EqDecision error.
Proof. solve_decision. Defined.

Inductive result (A : Type) : Type :=
  | Ok (a : A)
  | Err (e : error).
Global Arguments Ok {A} a.
Global Arguments Err {A} e.

Global Instance result_ret : MRet result := @Ok.
Global Instance result_bind : MBind result := fun A B k r =>
  match r with Ok a => k a | Err e => Err e end.
Global Instance result_map : FMap result := fun A B f r =>
  match r with Ok a => Ok (f a) | Err e => Err e end.

Definition is_ok {A} (r : result A) : bool := match r with Ok _ => true | Err _ => false end.

(** [ensure!(b, e)] of cosmwasm-std. *)
Definition ensure (b : bool) (e : error) : result unit := if b then Ok tt else Err e.

Lemma bind_Ok {A B} (r : result A) (k : A -> result B) (v : B) :
  (r ≫= k) = Ok v <-> exists a, r = Ok a /\ k a = Ok v.
Proof.
  destruct r as [x|x]; cbn; split.
  - intros H; exists x; split; [reflexivity | exact H].
  - intros (y&Hy&H). inversion Hy; subst. exact H.
  - intros H; discriminate H.
  - intros (y&Hy&H). discriminate Hy.
Qed.

Lemma ensure_Ok b e u : ensure b e = Ok u <-> b = true.
Proof. destruct b, u; cbn; split; congruence. Qed.

(** * Machine integers *)
Definition U128_MAX : N := 340282366920938463463374607431768211455.
Definition U64_MAX : N := 18446744073709551615.

(** [Uint128 + Uint128], panicking on overflow. *)
Definition add128 (a b : N) : result N := if a + b <=? U128_MAX then Ok (a + b) else Err EPanic.
(** [u64 + u64], panicking on overflow. *)
Definition add64 (a b : N) : result N := if a + b <=? U64_MAX then Ok (a + b) else Err EPanic.
(** [Uint128::checked_sub]. *)
Definition checked_sub128 (a b : N) : result N := if b <=? a then Ok (a - b) else Err EStd.
(** [Uint128 - Uint128], panicking. *)
Definition sub128 (a b : N) : result N := if b <=? a then Ok (a - b) else Err EPanic.
(** [u64::wrapping_add(1)]. *)
Definition wrapping_succ64 (a : N) : N := (a + 1) mod (U64_MAX + 1).

(** * Coins *)
Record coin : Type := Coin { c_denom : denom; c_amount : N }.

Global Instance coin_eq_dec : EqDecision coin.
Proof. solve_decision. Defined.

(** [cosmwasm_std::has_coins]: the first coin of the required denom must be large enough. *)
Fixpoint has_coins (cs : list coin) (req : coin) : bool :=
  match cs with
  | [] => false
  | c :: cs => if bool_decide (c_denom c = c_denom req) then c_amount req <=? c_amount c else has_coins cs req
  end.

(** cw_utils payment checks. *)
Definition nonpayable (funds : list coin) : result unit :=
  match funds with [] => Ok tt | _ => Err EPayment end.
Definition one_coin (funds : list coin) : result coin :=
  match funds with
  | [c] => if c_amount c =? 0 then Err EPayment else Ok c
  | _ => Err EPayment
  end.
Definition must_pay (funds : list coin) (d : denom) : result N :=
  c ← one_coin funds; if bool_decide (c_denom c = d) then Ok (c_amount c) else Err EPayment.
Definition may_pay (funds : list coin) (d : denom) : result N :=
  match funds with
  | [] => Ok 0
  | [c] => if bool_decide (c_denom c = d) then Ok (c_amount c) else Err EPayment
  | _ => Err EPayment
  end.

(** * Byte order of strings *)
Fixpoint str_leb (a b : string) : bool :=
  match a, b with
  | EmptyString, _ => true
  | String _ _, EmptyString => false
  | String x a, String y b =>
      if N_of_ascii x <? N_of_ascii y then true
      else if N_of_ascii y <? N_of_ascii x then false
      else str_leb a b
  end.
Definition str_ltb (a b : string) : bool := negb (str_leb b a).

(** * cw_utils::NativeBalance (a vector of coins sorted by denom after [normalize]) *)

(** [find] + in-place update. *)
Fixpoint nb_bump (l : list coin) (c : coin) : option (result (list coin)) :=
  match l with
  | [] => None
  | x :: l =>
      if bool_decide (c_denom x = c_denom c)
      then Some (a ← add128 (c_amount x) (c_amount c); Ok (Coin (c_denom x) a :: l))
      else match nb_bump l c with
           | None => None
           | Some r => Some (l' ← r; Ok (x :: l'))
           end
  end.
(** insertion before the first coin whose denom is not smaller ([insert_pos]), at the end otherwise. *)
Fixpoint nb_insert (l : list coin) (c : coin) : list coin :=
  match l with
  | [] => [c]
  | x :: l' => if str_leb (c_denom c) (c_denom x) then c :: x :: l' else x :: nb_insert l' c
  end.
Definition nb_add (l : list coin) (c : coin) : result (list coin) :=
  match nb_bump l c with
  | Some r => r
  | None => Ok (nb_insert l c)
  end.
(** [NativeBalance::normalize]: drop zero coins, sort by denom, merge duplicates.  Modelled as repeated
    [nb_add] into an empty balance, which yields the same sorted merged vector. *)
Fixpoint nb_normalize (l : list coin) : result (list coin) :=
  match l with
  | [] => Ok []
  | c :: l =>
      acc ← nb_normalize l;
      if c_amount c =? 0 then Ok acc else nb_add acc c
  end.
(** [NativeBalance - Coin]. *)
Fixpoint nb_sub (l : list coin) (c : coin) : result (list coin) :=
  match l with
  | [] => Err EStd
  | x :: l =>
      if bool_decide (c_denom x = c_denom c)
      then if c_amount x <? c_amount c then Err EStd
           else if c_amount x - c_amount c =? 0 then Ok l
           else Ok (Coin (c_denom x) (c_amount x - c_amount c) :: l)
      else l' ← nb_sub l c; Ok (x :: l')
  end.
Definition nb_is_empty (l : list coin) : bool := forallb (fun c => c_amount c =? 0) l.

(** Total amount of denom [d] in a list of coins. *)
Fixpoint amt (l : list coin) (d : denom) : N :=
  match l with
  | [] => 0
  | c :: l => (if bool_decide (c_denom c = d) then c_amount c else 0) + amt l d
  end.

(** * cosmwasm_std::Decimal, as its raw value (18 decimal places) *)
Definition DEC_ONE : N := 1000000000000000000.
Definition dec_bps (x : N) : N := x * 100000000000000.
Definition dec_percent (x : N) : N := x * 10000000000000000.
(** [Decimal::checked_mul]: floors; error when the result does not fit. *)
Definition dec_checked_mul (a b : N) : result N :=
  let r := a * b / DEC_ONE in if r <=? U128_MAX then Ok r else Err EStd.
(** [Uint128 * Decimal]: floors; panics when the result does not fit. *)
Definition mul_floor (a s : N) : result N :=
  let r := a * s / DEC_ONE in if r <=? U128_MAX then Ok r else Err EPanic.
(** [Uint128::mul_ceil(Decimal)]: rounds up; panics when the result does not fit. *)
Definition mul_ceil (a s : N) : result N :=
  let r := (a * s + (DEC_ONE - 1)) / DEC_ONE in if r <=? U128_MAX then Ok r else Err EPanic.

(** * Big-endian bytes of a u64 ([u64::to_be_bytes]) *)
Fixpoint be_bytes (n : nat) (x : N) : string :=
  match n with
  | O => EmptyString
  | S n => String.append (be_bytes n (x / 256)) (String (ascii_of_N (x mod 256)) EmptyString)
  end.
Definition be8 (x : N) : string := be_bytes 8 x.

(** * Time.  [Timestamp] is a u64 number of nanoseconds. *)
Definition NANOS : N := 1000000000.
Definition t_seconds (t : N) : N := t / NANOS.
(** [Timestamp::plus_seconds]: panics on u64 overflow. *)
Definition t_plus_seconds (t s : N) : result N :=
  if t + s * NANOS <=? U64_MAX then Ok (t + s * NANOS) else Err EPanic.

(** * Inversion tactics for the monad *)
Ltac inv_ok_step :=
  match goal with
  | H : (_ ≫= _) = Ok _ |- _ => apply bind_Ok in H; destruct H as (?&?&H)
  | H : ensure _ _ = Ok _ |- _ => apply ensure_Ok in H
  | H : Ok _ = Ok _ |- _ => inversion H; subst; clear H
  | H : Err _ = Ok _ |- _ => discriminate H
  | H : mret _ = Ok _ |- _ => unfold mret, result_ret in H
  | H : match ?x with Ok _ => _ | Err _ => _ end = Ok _ |- _ => destruct x eqn:?; try discriminate H
  | H : (if ?x then _ else _) = Ok _ |- _ => destruct x eqn:?; try discriminate H
  | H : match ?x with Some _ => _ | None => _ end = Ok _ |- _ => destruct x eqn:?; try discriminate H
  | H : match ?x with [] => _ | _ :: _ => _ end = Ok _ |- _ => destruct x eqn:?; try discriminate H
  | x : unit |- _ => destruct x
  end.
Ltac inv_ok := repeat (inv_ok_step; cbn beta in *).
