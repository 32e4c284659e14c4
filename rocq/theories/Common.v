(** Model of packages/sg-marketplace-common (the local crate used by marketplace v2), together with the
    vocabulary shared by all contract models: chain messages, query answers, block environment.
    File references are relative to /repo/packages/sg-marketplace-common/src. *)
From Verif Require Import Base.

(** * Chain-level parameters *)
Record params : Type := Params {
  p_self : addr;                  (* the contract's own address, [env.contract.address] *)
  p_hash : string -> string;      (* hex(Blake2s256(bytes)), helpers.rs:23-29 of marketplace v2 *)
  p_valid : string -> bool;       (* [api.addr_validate] succeeds *)
  p_honest : addr -> bool;        (* the address is a cw721 contract that follows the standard *)
  p_blocked : addr -> bool;       (* the bank module refuses sends to the address (module accounts) *)
  p_reg_reenters : bool;          (* may the royalty registry call back into the contract? *)
}.

(** Block and contract environment ([Env], [BlockInfo]). *)
Record env : Type := Env { e_height : N; e_time : N (* nanoseconds *) }.

(** types.rs:13-22, the fields used by the contracts. *)
Record collection_info : Type := CollectionInfo {
  ci_start : option N;                  (* start_trading_time, nanoseconds *)
  ci_royalty : option (string * N);     (* royalty_info: payment_address, share (raw Decimal) *)
}.

(** types.rs:25-32 (the [updated] field is never read). *)
Record royalty_entry : Type := RoyaltyEntry { re_recipient : addr; re_share : N }.

(** Answers to the queries a contract makes while it executes.  [None]/[Err] is a failed query. *)
Record view : Type := View {
  q_owner : addr -> token -> option addr;                 (* cw721 OwnerOf *)
  q_approval : addr -> token -> addr -> bool;             (* cw721 Approval succeeded *)
  q_info : addr -> option collection_info;                (* sg721 CollectionInfo *)
  q_royalty : addr -> addr -> option addr -> result (option royalty_entry * option royalty_entry);
      (* RoyaltyPayment query of the registry: (royalty_protocol, royalty_default) *)
  q_admin : option (option addr);                         (* query_wasm_contract_info(self).admin *)
}.

(** Messages in a [Response], in dispatch order. *)
Inductive cmsg : Type :=
  | MSend (to : addr) (coins : list coin)         (* BankMsg::Send *)
  | MNft (coll : addr) (tok : token) (to : addr)  (* WasmMsg::Execute(coll, TransferNft) *)
  | MRegInit (registry coll : addr)               (* InitializeCollectionRoyalty *)
  | MFairBurn (c : coin)                          (* fair burn of a fee: the coin leaves the contract *)
  | MHook (h : addr).                             (* hook call, reply_on_error *)

Global Instance cmsg_eq_dec : EqDecision cmsg.
Proof. solve_decision. Defined.

(** address.rs:15-17 *)
Definition address_or (a : option addr) (default : addr) : addr :=
  match a with Some x => x | None => default end.

(** [api.addr_validate] *)
Definition addr_validate (p : params) (s : string) : result addr :=
  if p_valid p s then Ok s else Err EAddress.
(** [cw_utils::maybe_addr] *)
Definition maybe_addr (p : params) (s : option string) : result (option addr) :=
  match s with
  | None => Ok None
  | Some s => a ← addr_validate p s; Ok (Some a)
  end.

(** coin.rs:6-8 *)
Definition transfer_coin (c : coin) (to : addr) (resp : list cmsg) : list cmsg := resp ++ [MSend to [c]].
(** coin.rs:11-16 *)
Definition transfer_coins (cs : list coin) (to : addr) (resp : list cmsg) : list cmsg := resp ++ [MSend to cs].
(** coin.rs:20-41 *)
Definition checked_transfer_coin (c : coin) (to : addr) (resp : list cmsg) : result (list cmsg) :=
  if c_amount c =? 0 then Err EZeroSend else Ok (transfer_coin c to resp).

(** nft.rs:13-28 *)
Definition transfer_nft (coll : addr) (tok : token) (to : addr) (resp : list cmsg) : list cmsg :=
  resp ++ [MNft coll tok to].

(** nft.rs:31-56: note that a failed query counts as success. *)
Definition only_owner (v : view) (sender : addr) (coll : addr) (tok : token) : result unit :=
  match q_owner v coll tok with
  | Some o => ensure (bool_decide (o = sender)) EUnauthorized
  | None => Ok tt
  end.

(** nft.rs:59-82: a failed query counts as tradable. *)
Definition only_tradable (v : view) (e : env) (coll : addr) : result unit :=
  match q_info v coll with
  | Some ci =>
      match ci_start ci with
      | Some start => if e_time e <? start then Err ENotTradable else Ok tt
      | None => Ok tt
      end
  | None => Ok tt
  end.

(** royalties.rs:12-35 *)
Definition fetch_royalty_entry (v : view) (registry coll : addr) (protocol : option addr)
  : result (option royalty_entry) :=
  resp ← q_royalty v registry coll protocol;
  match resp with
  | (Some e, _) => Ok (Some e)
  | (None, Some e) => Ok (Some e)
  | (None, None) => Ok None
  end.

(** royalties.rs:37-81.  [Decimal::from_str(share.to_string())] is the identity on the raw value. *)
Definition fetch_or_set_royalties (p : params) (v : view) (registry coll : addr) (protocol : option addr)
    (resp : list cmsg) : result (option royalty_entry * list cmsg) :=
  entry ← fetch_royalty_entry v registry coll protocol;
  match entry with
  | Some e => Ok (Some e, resp)
  | None =>
      match q_info v coll with
      | Some ci =>
          match ci_royalty ci with
          | None => Ok (None, resp)
          | Some (payment_address, share) =>
              recipient ← addr_validate p payment_address;
              Ok (Some (RoyaltyEntry recipient share), resp ++ [MRegInit registry coll])
          end
      | None => Ok (None, resp)
      end
  end.

(** sale.rs:6-10 (labels only name event attributes and are dropped) *)
Record fee : Type := Fee { fee_share : N; fee_recipient : addr }.
(** sale.rs:12-17 *)
Record payment : Type := Payment { pay_recipient : addr; pay_funds : coin }.

(** sale.rs:44-73, the loop over the fees.  Returns the payments so far and the remaining seller amount. *)
Fixpoint build_fee_payments (sale_coin : coin) (fees : list fee) (seller_amount : N)
  : result (list payment * N) :=
  match fees with
  | [] => Ok ([], seller_amount)
  | f :: fees =>
      if fee_share f =? 0 then build_fee_payments sale_coin fees seller_amount
      else
        fee_amount ← mul_ceil (c_amount sale_coin) (fee_share f);
        rest ← checked_sub128 seller_amount fee_amount;
        r ← build_fee_payments sale_coin fees rest;
        let '(ps, final) := r in
        Ok (Payment (fee_recipient f) (Coin (c_denom sale_coin) fee_amount) :: ps, final)
  end.
(** sale.rs:44-73 *)
Definition build_payments (sale_coin : coin) (seller_recipient : addr) (fees : list fee)
  : result (list payment) :=
  r ← build_fee_payments sale_coin fees (c_amount sale_coin);
  let '(ps, seller_amount) := r in
  if seller_amount =? 0 then Ok ps
  else Ok (ps ++ [Payment seller_recipient (Coin (c_denom sale_coin) seller_amount)]).

(** sale.rs:79-85 *)
Definition payout (ps : list payment) (resp : list cmsg) : list cmsg :=
  fold_left (fun resp pm => transfer_coins [pay_funds pm] (pay_recipient pm) resp) ps resp.
