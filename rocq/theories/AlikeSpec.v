(** C140.  What it means that a contract treats all accounts alike: renaming the accounts before a call or after it makes
    no difference.  Nothing here mentions a function of the contracts; only the shape of the data is used. *)
From Verif Require Import Base Common.

(** A renaming of accounts: no two become one, the contract keeps its name, and validity of addresses is kept. *)
Record renaming (p : params) (r : addr -> addr) : Prop := Renaming {
  rn_inj : forall x y, r x = r y -> x = y;
  rn_self : r (p_self p) = p_self p;
  rn_valid : forall x, p_valid p (r x) = p_valid p x;
}.

(** The simplest renaming: two accounts change places. *)
Definition swap (a b x : addr) : addr := if bool_decide (x = a) then b else if bool_decide (x = b) then a else x.

Section Renamed.
Context (r : addr -> addr).
(** Messages with the accounts that receive something renamed; collections and the registry keep their names. *)
Definition msg_renamed (m : cmsg) : cmsg :=
  match m with
  | MSend to cs => MSend (r to) cs
  | MNft coll tok to => MNft coll tok (r to)
  | MRegInit reg coll => MRegInit reg coll
  | MFairBurn c => MFairBurn c
  | MHook h => MHook (r h)
  end.
(** What a collection says of itself, with the account that takes the royalty renamed. *)
Definition info_renamed (i : collection_info) : collection_info :=
  CollectionInfo (ci_start i) (match ci_royalty i with Some (to, share) => Some (r to, share) | None => None end).
Definition entry_renamed (x : royalty_entry) : royalty_entry := RoyaltyEntry (r (re_recipient x)) (re_share x).
(** A second chain, on which every account plays the part its original plays on the first. *)
Record view_renamed (v v' : view) : Prop := ViewRenamed {
  vr_owner : forall c t, q_owner v' c t = match q_owner v c t with Some o => Some (r o) | None => None end;
  vr_approval : forall c t x, q_approval v' c t (r x) = q_approval v c t x;
  vr_info : forall c, q_info v' c = match q_info v c with Some i => Some (info_renamed i) | None => None end;
  vr_royalty : forall reg c pr, q_royalty v' reg c pr =
    match q_royalty v reg c pr with
    | Ok (a, b) => Ok (match a with Some x => Some (entry_renamed x) | None => None end,
                       match b with Some x => Some (entry_renamed x) | None => None end)
    | Err e => Err e
    end;
  vr_admin : q_admin v' = match q_admin v with
                          | Some a => Some (match a with Some x => Some (r x) | None => None end)
                          | None => None
                          end;
}.
(** The answer to a call with everything in it renamed; a refusal stays the same refusal. *)
Definition answer_renamed {A M} (f : A -> A) (g : M -> M) (x : result (A * list M)) : result (A * list M) :=
  match x with Ok (a, ms) => Ok (f a, g <$> ms) | Err e => Err e end.
End Renamed.

(** The second chain for two accounts that change places. *)
Definition mirror (a b : addr) (v : view) : view :=
  let r := swap a b in
  View (fun c t => option_map r (q_owner v c t)) (fun c t x => q_approval v c t (r x)) (fun c => option_map (info_renamed r) (q_info v c))
       (fun reg c pr => match q_royalty v reg c pr with
                        | Ok (a, b) => Ok (option_map (entry_renamed r) a, option_map (entry_renamed r) b)
                        | Err e => Err e
                        end)
       (option_map (option_map r) (q_admin v)).
