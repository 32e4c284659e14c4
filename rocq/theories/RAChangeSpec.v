(** A new reserve price against cancelling an auction and creating it again (C158). *)
From Verif Require Import Base Common Chain RAModel RASpec.

(** The NFT is with [who], who lets the contract move it; trading has started; the duration is still allowed. *)
Definition could_reopen (p : params) (lb : lib) (v : view) (now : N) (who : addr) (st : state) (a : auction) : Prop :=
  (match q_owner v (a_coll a) (a_tok a) with Some o => o = who | None => l_owner_open lb = true end) /\
  q_approval v (a_coll a) (a_tok a) (p_self p) = true /\
  (match q_info v (a_coll a) with Some ci => forall t, ci_start ci = Some t -> t <= now | None => l_info_open lb = true end) /\
  cf_min_duration (s_config st) <= a_duration a <= cf_max_duration (s_config st).
