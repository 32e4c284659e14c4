(** Proofs for C155 (RAViewSpec). *)
From stdpp Require Import relations.
From Verif Require Import Base BaseFacts Common Chain ChainFacts QuerySpec RAModel RASpec RAFacts RAInv RAReach ViewSpec RAViewSpec.

Section Views.
Context (p : params) (lb : lib).

Lemma bind_same {X Y} (r : result X) (f g : X -> result Y) : (forall y, r = Ok y -> f y = g y) -> r ≫= f = r ≫= g.
Proof. intros H. destruct r as [y|]; [by apply H|done]. Qed.
Lemma valid_same s y : addr_validate p s = Ok y -> y = s.
Proof. unfold addr_validate. destruct (p_valid p s); congruence. Qed.
Lemma view_settle v v' st now a cfg h resp : q_info v' (a_coll a) = q_info v (a_coll a) ->
  settle_auction p lb v' st now a cfg h resp = settle_auction p lb v st now a cfg h resp.
Proof. intros H. unfold settle_auction, load_collection_royalties. by rewrite H. Qed.
Lemma view_execute v v' e sender funds st m : wf p st -> answer_alike v v' (questions p m) ->
  execute p lb v' e sender funds st m = execute p lb v e sender funds st m.
Proof.
  intros Hw H. destruct m; cbn [execute questions] in *; try done; apply bind_same; intros ? ->%valid_same.
  - apply bind_same; intros ? _. unfold execute_create_auction, only_owner, has_approval, only_tradable.
    rewrite (H (WhoOwns coll tok)) by left. rewrite (H (MayMove coll tok (p_self p))) by (right; left).
    rewrite (H (AboutCollection coll)) by (do 2 right; left). done.
  - unfold execute_settle_auction. apply bind_same; intros ? _. apply bind_same; intros a Ha. apply view_settle.
    apply load_auction_Ok in Ha as E.
    destruct (wf_auction _ _ Hw _ _ E) as [Hk _]. injection Hk as Hk _. rewrite Hk. apply (H (AboutCollection coll)). left.
Qed.
Lemma view_all v v' now cfg h l : forall st resp, (forall a, a ∈ l -> q_info v' (a_coll a) = q_info v (a_coll a)) ->
  settle_all p lb v' now cfg h st l resp = settle_all p lb v now cfg h st l resp.
Proof.
  induction l as [|a l IH]; intros st resp H; [done|]. cbn [settle_all]. rewrite (view_settle v v') by (apply H; left).
  apply bind_same; intros [st' r'] _. apply IH. intros b Hb. apply H. by right.
Qed.
Lemma view_sudo v v' e st m : wf p st -> answer_alike v v' (sudo_questions (e_time e) st m) ->
  sudo p lb v' e st m = sudo p lb v e st m.
Proof.
  intros Hw H. destruct m; try done. cbn [sudo sudo_questions] in *. unfold sudo_end_block.
  apply bind_same; intros b Hb. cbv zeta. apply bind_same; intros ea _.
  erewrite view_all; [done|]. intros a Ha. apply (due_elem p) in Ha as [Hl Hlt]; [|done].
  apply (H (AboutCollection _)). apply elem_of_list_fmap. exists (a_key a, a). split; [done|].
  apply elem_of_list_In, filter_In. split; [by apply elem_of_list_In, elem_of_map_to_list|]. cbn [snd].
  unfold add64 in Hb. destruct (_ <=? U64_MAX) eqn:El in Hb; [|done]. injection Hb as <-.
  unfold end_index in Hlt. destruct (a_end a) as [t|]; [|apply N.leb_le in El; lia]. apply N.leb_le. unfold t_seconds, NANOS in *. lia.
Qed.
Lemma history_view v v' e sender funds st m : ra_history p lb st -> answer_alike v v' (questions p m) ->
  execute p lb v' e sender funds st m = execute p lb v e sender funds st m.
Proof. intros Hh. apply view_execute. by eapply history_wf. Qed.
Lemma history_view_sudo v v' e st m : ra_history p lb st -> answer_alike v v' (sudo_questions (e_time e) st m) ->
  sudo p lb v' e st m = sudo p lb v e st m.
Proof. intros Hh. apply view_sudo. by eapply history_wf. Qed.
End Views.
