(** What a whole transaction does on the chain: when the messages of a response can be delivered, and every balance, owner
    and approval afterwards. *)
From Verif Require Import Base Common Chain LedgerSpec.

Section Tx.
Context {S : Type} (p : params).
Implicit Types w : world S.

(** The owner, a spender approved for the token, or an operator of the owner. *)
Definition may_move w (c : addr) (t : token) (who : addr) : Prop :=
  exists o, w_nft w c t = Some o /\ (o = who \/ w_appr w c t who = true \/ w_oper w c o who = true).
(** A message goes through: coins are sent to an account that takes them, no empty amounts; a standard collection lets the
    contract move the NFT.  Other contracts do not object. *)
Definition goes_through w (m : cmsg) : Prop :=
  match m with
  | MSend to cs => cs <> [] /\ Forall (fun c => 0 < c_amount c) cs /\ p_blocked p to = false
  | MFairBurn c => 0 < c_amount c
  | MNft c t _ => c <> p_self p /\ (p_honest p c = true -> may_move w c t (p_self p))
  | MRegInit _ _ | MHook _ => True
  end.
(** The last transfer of an NFT. *)
Definition moved_to (c : addr) (t : token) (ms : list cmsg) : option addr :=
  last (omap (fun m => match m with MNft c' t' to => if decide (c' = c /\ t' = t) then Some to else None | _ => None end) ms).
(** The chain afterwards: the attached coins went to the contract and the coins of the messages from it; NFTs of standard
    collections are where the messages put them, without their approvals; nothing else changed. *)
Record settled_as w (sender : addr) (funds : list coin) (st' : S) (ms : list cmsg) w' : Prop := SettledAs {
  sa_storage : w_st w' = st';
  sa_bank : forall x d,
    w_bank w' x d + (if decide (x = sender) then coins_of d funds else 0) + (if decide (x = p_self p) then leaving d ms else 0) =
    w_bank w x d + (if decide (x = p_self p) then coins_of d funds else 0) + sent_to x d ms;
  sa_nft : forall c t, w_nft w' c t = match moved_to c t ms with
    | Some to => if p_honest p c then Some to else w_nft w c t
    | None => w_nft w c t end;
  sa_appr : forall c t x, w_appr w' c t x = match moved_to c t ms with
    | Some _ => if p_honest p c then false else w_appr w c t x
    | None => w_appr w c t x end;
  sa_oper : w_oper w' = w_oper w;
  sa_ora : w_ora w' = w_ora w;
  sa_height : w_height w' = w_height w;
  sa_time : w_time w' = w_time w }.
(** The sender is somebody else and has the coins. *)
Definition affords w (sender : addr) (funds : list coin) : Prop :=
  sender <> p_self p /\ forall d, coins_of d funds <= w_bank w sender d.
End Tx.
