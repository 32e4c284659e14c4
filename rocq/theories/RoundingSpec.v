(** What rounding may cost: the share of the price that the rates of a sale leave to the seller, and how far the amount paid may be
    from it.  Rates are counted in units of 10^-18 of the price for marketplace v2 (contracts/stargaze-marketplace-v2/src/helpers.rs:84-225
    pays every fee rounded up and the rest to the seller) and of 10^-20 for marketplace v1
    (contracts/marketplace/src/execute.rs:1185-1263 rounds every part down). *)
From Verif Require Import Base.
Local Open Scope N_scope.

(** [rest] is what the rates leave of [price], short of it by less than [n] units. *)
Definition short_by_less (unit rates price rest n : N) : Prop :=
  rest * unit + price * rates <= price * unit /\ price * unit < rest * unit + price * rates + n * unit.
(** [rest] is what the rates leave of [price], at most one unit below it and less than [n] units above it. *)
Definition near (unit rates price rest n : N) : Prop :=
  price * unit <= rest * unit + price * rates + unit /\ rest * unit + price * rates < price * unit + n * unit.
