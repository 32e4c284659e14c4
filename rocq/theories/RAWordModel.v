(** The reserve auction on the machine it is compiled for.  File references are relative to /repo/contracts/reserve-auction/src.
    RAModel takes the limit of auctions per block as it is stored, a u64.  The code casts it to [usize] (sudo.rs:86), which has 32 bits on
    wasm32, the target of CosmWasm contracts; [as] drops the higher bits.  Here the privileged calls are modelled with that cast. *)
From stdpp Require Import relations.
From Verif Require Import Base Common IndexRange RAModel.

(** sudo.rs:86: [x as usize] on wasm32 *)
Definition as_usize (n : N) : N := n mod 4294967296.

Section Model.
Context (p : params) (lb : lib).

(** sudo.rs:79-124, as [RAModel.sudo_end_block] but with the cast of line 86 *)
Definition sudo_end_block_32 (v : view) (e : env) (st : state) : result (state * list cmsg) :=
  let cfg := s_config st in
  let h := s_halt st in
  bound ← add64 (t_seconds (e_time e)) 1;
  let due := due_auctions st bound (as_usize (cf_max_settle cfg)) in
  earliest ← match due with
             | [] => Ok None
             | a :: _ => match a_end a with None => Err EPanic | Some t => Ok (Some t) end
             end;
  r ← settle_all p lb v (e_time e) cfg h st due [];
  let '(st, resp) := r in
  Ok (match find_stale_halt_info h earliest with Some h' => set_halt st h' | None => st end, resp).

(** sudo.rs:14-48 *)
Definition sudo_32 (v : view) (e : env) (st : state) (m : sudo_msg) : result (state * list cmsg) :=
  match m with
  | EndBlock => sudo_end_block_32 v e st
  | _ => sudo p lb v e st m
  end.
End Model.
