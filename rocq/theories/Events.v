(** Events of a response, and how values are written in them. *)
From stdpp Require Import pretty.
From Verif Require Import Base Common.

(** cosmwasm_std::Event: a type and attributes. *)
Record event : Type := Event { ev_type : string; ev_attrs : list (string * string) }.
(** [Coin::to_string]: the amount directly followed by the denom. *)
Definition coin_text (c : coin) : string := pretty (c_amount c) +:+ c_denom c.
(** An attribute that is only added when there is a value. *)
Definition opt_attr (k : string) (o : option string) : list (string * string) :=
  match o with Some x => [(k, x)] | None => [] end.
(** [bool::to_string] *)
Definition bool_text (b : bool) : string := if b then "true" else "false".
(** The last [k] decimal digits, with leading zeros. *)
Fixpoint pad (k : nat) (n : N) : string :=
  match k with O => "" | S k => pad k (n / 10) +:+ String (pretty_N_char (n mod 10)) "" end.
(** [str::trim_end_matches('0')] *)
Fixpoint trim0 (s : string) : string :=
  match s with
  | EmptyString => ""
  | String c s =>
      match trim0 s with
      | EmptyString => if Ascii.eqb c "0" then "" else String c ""
      | t => String c t
      end
  end.
(** [Timestamp::to_string]: seconds, and the nanoseconds with nine digits. *)
Definition time_text (t : N) : string := pretty (t / 1000000000) +:+ "." +:+ pad 9 (t mod 1000000000).
(** [Decimal::to_string] of the raw value: the fraction has 18 digits, of which trailing zeros are dropped. *)
Definition dec_text (d : N) : string :=
  if d mod DEC_ONE =? 0 then pretty (d / DEC_ONE)
  else pretty (d / DEC_ONE) +:+ "." +:+ trim0 (pad 18 (d mod DEC_ONE)).
(** Attributes of the response itself arrive as an event of type "wasm", ahead of the other events. *)
Definition response_event (attrs : list (string * string)) : list event :=
  match attrs with [] => [] | _ => [Event "wasm" attrs] end.
(** A denom as the bank has them begins with a letter. *)
Definition lettered (dn : denom) : Prop :=
  exists c r, dn = String c r /\ ~ (48 <= Ascii.nat_of_ascii c <= 57)%nat.
(** The first attribute with the given key. *)
Fixpoint field (k : string) (l : list (string * string)) : option string :=
  match l with [] => None | (k', x) :: l => if (k' =? k)%string then Some x else field k l end.
Definition text (k : string) (ev : event) : string := default "" (field k (ev_attrs ev)).
