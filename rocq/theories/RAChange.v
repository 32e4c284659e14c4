(** A new reserve price for an auction is the same as cancelling it and creating it again. *)
From stdpp Require Import relations.
From Verif Require Import Base BaseFacts Common Chain RAModel RASpec RAFacts RAInv RAReach RAFinal RAExactSpec RAExact RAProperties RAChangeSpec.

Section Change.
Context (p : params) (lb : lib).

Lemma recipient_valid st k a r : ra_history p lb st -> s_auctions st !! k = Some a -> a_recipient a = Some r -> p_valid p r = true.
Proof.
  intros (c&mins&st0&Hi&H). revert k a r.
  revert st H. apply (rtc_ind_r (R := ra_call p lb) (fun s => forall k a r, s_auctions s !! k = Some a -> a_recipient a = Some r -> p_valid p r = true) st0).
  - intros k a r Ha _. exfalso. unfold instantiate in Hi. repeat (apply bind_Ok in Hi as (?&?&Hi)). injection Hi as <-. cbn in Ha. done.
  - intros st st' H Hc IH k a r Ha Hr.
    assert (ra_history p lb st) as Hh by (by exists c, mins, st0). destruct (s_auctions st !! k) as [b|] eqn:Eb.
    + destruct (terms_fixed p lb st st' k b a Hh Hc Eb Ha) as (_&_&_&_&E&_). apply (IH k b r Eb). by rewrite <-E.
    + destruct (appear_form p lb st st' k a Hh Hc Eb Ha) as (v&e&s&f&co&to&re&du&rc&ms&->&He&_&->). cbn in Hr. subst rc.
      apply (calls_sound p lb st Hh) in He. inversion He; subst. by eapply mo_recipient.
Qed.

Lemma reopen_same v v0 e e0 sender funds st coll tok a reserve st1 msgs1 :
  ra_history p lb st -> sender <> p_self p -> (forall c, c ∈ funds -> c_amount c <= U128_MAX) ->
  execute p lb v0 e0 sender [] st (CancelAuction coll tok) = Ok (st1, msgs1) -> s_auctions st !! (coll, tok) = Some a ->
  could_reopen p lb v (e_time e) sender st a -> pays_fee (cf_create_fee (s_config st)) funds ->
  msgs1 = [MNft coll tok sender] /\
  forall st2, execute p lb v e sender [] st (UpdateReservePrice coll tok reserve) = Ok (st2, []) <->
    execute p lb v e sender funds st1 (CreateAuction coll tok reserve (a_duration a) (a_recipient a)) =
      Ok (st2, fee_burnt (cf_create_fee (s_config st)) ++ [MNft coll tok (p_self p)]).
Proof.
  intros Hh Hs Hsm Hcan Ha (Hown&Hap&Hst&Hdu) Hfee.
  assert (ra_history p lb st1) as Hh1.
  { destruct Hh as (c&mins&st0&Hi&H). exists c, mins, st0. split; [done|]. eapply rtc_r; [exact H|]. by eapply call_execute. }
  assert (forall c : coin, c ∈ [] -> c_amount c <= U128_MAX) as Hnil by (intros ? []%elem_of_nil).
  pose proof (history_wf p lb _ Hh) as Hwf. destruct (wf_auction _ _ Hwf _ _ Ha) as [Hk Hok]. injection Hk as Hk1 Hk2.
  apply (calls_exact p lb st Hh) in Hcan; [|done]. inversion Hcan as [| |? ? a' _ Ha' Hse Hhi| |]; subst msgs1 st1 coll0 tok0.
  rewrite Ha in Ha'. injection Ha' as <-. split; [done|].
  set (st1 := put_auction st (coll, tok) None) in *. intros st2. rewrite (calls_exact p lb st Hh) by done. rewrite (calls_exact p lb st1 Hh1) by done.
  assert (forall c, put_auction st1 (coll, tok) (Some (Auction coll tok sender c (a_duration a) None (a_recipient a) None None))
    = put_auction st (coll, tok) (Some (with_reserve a c))) as Eput.
  { intros c. unfold put_auction, with_reserve. cbn. rewrite insert_delete_insert. destruct (aok_phase _ _ Hok) as [E1 E2 E3|]; [|congruence].
    by rewrite E1, E2, E3, Hk1, Hk2, Hse. }
  split; intros H.
  - inversion H as [|? ? ? a' m _ Ha' _ _ Hm Hle| | |]; subst. rewrite Ha in Ha'. injection Ha' as <-. rewrite <-Eput.
    apply (opens p lb v (e_time e) (a_seller a) funds st1); [|exact Hfee].
    split; cbn; try done.
    + apply (aok_valid _ _ Hok).
    + intros r. by apply (recipient_valid st _ a r Hh Ha).
    + apply lookup_delete.
    + by exists m.
  - inversion H as [? ? ? ? ? Hmo _| | | |]; subst. destruct (mo_price _ _ _ _ _ _ _ _ _ _ _ Hmo) as (m&Hm&Hle).
    match goal with Hx : put_auction _ _ _ = _ |- _ => rewrite <-Hx | |- _ => idtac end.
    rewrite Eput. eapply (reprices p lb v (e_time e) (a_seller a) [] st); done.
Qed.
End Change.
