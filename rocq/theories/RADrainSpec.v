(** The auction house is emptied (C141): sellers cancel the auctions without bids, anybody settles the ended ones, in any order. *)
From Verif Require Import Base Common Chain LedgerSpec RAModel RASpec RAExactSpec.

Inductive closing := Cancel (a : auction) | Settle (a : auction) (who : addr) (hb : high_bid) (sp : sale_split).
Definition auction_of (c : closing) : auction := match c with Cancel a | Settle a _ _ _ => a end.
Definition closing_call (c : closing) : addr * list coin * msg :=
  match c with
  | Cancel a => (a_seller a, [], CancelAuction (a_coll a) (a_tok a))
  | Settle a who _ _ => (who, [], SettleAuction (a_coll a) (a_tok a))
  end.
(** The auction exists, and has no bid, or has ended outside a halt with a bid whose parts reach their payees. *)
Definition closable (p : params) (lb : lib) (w : world state) (c : closing) : Prop :=
  let a := auction_of c in
  s_auctions (w_st w) !! (a_coll a, a_tok a) = Some a /\ a_coll a <> p_self p /\
  match c with
  | Cancel a => a_high a = None
  | Settle a who hb sp => who <> p_self p /\ a_high a = Some hb /\ (exists t, a_end a = Some t /\ t <= w_time w /\ ~ halted (s_halt (w_st w)) t) /\
      royalty_known p lb (view_of p w) (a_coll a) /\ splits hb sp /\ rates lb (view_of p w) (s_config (w_st w)) a hb sp /\
      (0 < sp_royalty sp -> p_blocked p (sp_royalty_to sp) = false) /\ (0 < sp_seller sp -> p_blocked p (proceeds_to a) = false)
  end.
(** Coins an account gets out of it, the coins of the winning bid, and the account that gets the NFT. *)
Definition gets (x : addr) (d : denom) (c : closing) : N :=
  match c with
  | Cancel _ => 0
  | Settle a _ hb sp => if decide (c_denom (hb_coin hb) = d) then
      (if decide (sp_royalty_to sp = x) then sp_royalty sp else 0) + (if decide (proceeds_to a = x) then sp_seller sp else 0) else 0
  end.
Definition won_with (d : denom) (c : closing) : N :=
  match c with Cancel _ => 0 | Settle _ _ hb _ => of_denom d (hb_coin hb) end.
Definition nft_goes_to (c : closing) : addr := match c with Cancel a => a_seller a | Settle _ _ hb _ => hb_bidder hb end.

(** The chain after the auctions are closed: they are gone and the others stay; royalties and proceeds are paid out of the winning
    bids, which leave the contract; the NFTs are with the sellers and winners; nothing else has changed. *)
Record closed (p : params) (w : world state) (cs : list closing) (w' : world state) : Prop := {
  cl_book : forall k a, s_auctions (w_st w') !! k = Some a <-> s_auctions (w_st w) !! k = Some a /\ a ∉ map auction_of cs;
  cl_paid : forall x d, x <> p_self p -> w_bank w' x d = w_bank w x d + sum_over (gets x d) cs;
  cl_kept : forall d, w_bank w' (p_self p) d + sum_over (won_with d) cs = w_bank w (p_self p) d + sum_over (gets (p_self p) d) cs;
  cl_nft : forall c, c ∈ cs -> p_honest p (a_coll (auction_of c)) = true ->
    w_nft w' (a_coll (auction_of c)) (a_tok (auction_of c)) = Some (nft_goes_to c);
  cl_other : forall c t, (forall a, a ∈ map auction_of cs -> a_coll a = c -> a_tok a = t -> False) -> w_nft w' c t = w_nft w c t;
  cl_rest : s_config (w_st w') = s_config (w_st w) /\ s_mins (w_st w') = s_mins (w_st w) /\ s_halt (w_st w') = s_halt (w_st w) /\
    w_ora w' = w_ora w /\ w_time w' = w_time w /\ w_height w' = w_height w;
}.
