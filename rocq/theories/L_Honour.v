(** Live tokens are honoured: proofs. *)
From Verif Require Import M_Base M_Types M_Codec M_Grant M_Env M_Session M_Claims M_Handler
  M_Authz M_TokenEP M_PKCE M_AuthzEP M_Info M_Logout M_History S_Codec S_Grant S_Claims S_History S_PKCE S_Answer
  L_Base L_Codec L_Monad L_Grant L_Claims L_Store L_Hist1 L_Hist2 L_Hist3 L_Hist4 L_Hist5 L_Hist6
  L_Hist7 L_Hist8 L_Emit L_Hist9 L_Hist10 L_Hist11 L_PKCE L_Info L_Answer.

Section Honour.
  Variables (e : env) (W : laws e).

  (** The look-up of a token of a grant. *)
  Lemma looked_up ops evs h now gid g u c t tok : history e ops evs h ->
    grant_of h gid g -> belongs e g u c -> In t (g_tokens g) -> t_value t = tok -> leads_to e now h tok gid ->
    exists i s1, get_session_info_by_token e now tok (h_st h) = (Ok i, s1)
      /\ grant_at (ss_grant i) s1 = (Ok g, s1) /\ get_token g tok = Some t
      /\ ss_user i = u /\ ss_client i = c.
  Proof.
    intros Hi G Bg It Vt (i & s1 & El & Eg). pose proof (history_hi e W _ _ _ Hi) as Hh.
    destruct (token_lookup e _ _ _ _ _ Hh El) as (Q & _ & g' & Hg & G' & B).
    rewrite Eg in G'. assert (g' = g) as -> by (eapply grant_of_unique; eauto).
    exists i, s1. split; [exact El|]. split.
    { unfold grant_at, deref, bind. unfold hp in Hg. rewrite Q, Hg. reflexivity. }
    split. { rewrite <- Vt. apply get_token_forest; auto. eapply (history_forest e W); eauto. }
    destruct B as (ar1 & ae1 & B1 & B2 & B3 & B4 & _), Bg as (ar2 & ae2 & C1 & C2 & C3 & C4 & _).
    split; congruence.
  Qed.

  Lemma userinfo_answers ops evs h now gid g u c t tok ae users : history e ops evs h ->
    grant_of h gid g -> belongs e g u c -> In t (g_tokens g) -> t_value t = tok -> leads_to e now h tok gid ->
    t_class t = "access_token" -> token_live t now ->
    g_aevent g = Some ae -> (now <= ae_valid_until ae)%Z ->
    e_users e = Some users -> legible (g_claims g) ->
    exists info h', step e h (OUserinfo now tok) = (EvUserinfo (Ok (Good (info, c))), h').
  Proof.
    intros Hi G Bg It Vt Le Cl Li Ae Va Us Lg.
    destruct (looked_up _ _ _ _ _ _ _ _ _ _ Hi G Bg It Vt Le) as (i & s1 & E1 & E2 & E3 & <- & <-).
    cbn [step]. unfold on_st, userinfo.
    assert (catch (i <- get_session_info_by_token e now tok ;; ret (Some i))
          (fun x => if is_lookup_error x then Some (ret None) else None) (h_st h) = (Ok (Some i), s1)) as Ex.
    { unfold catch. rewrite (bind_run _ _ _ _ _ E1). reflexivity. }
    rewrite (bind_run _ _ _ _ _ Ex), (bind_run _ _ _ _ _ E2), E3, Cl.
    change (String.eqb "access_token" ACCESS) with true. rewrite (proj2 (tok_active_live now t) Li), Ae. cbn [negb].
    assert ((ae_valid_until ae <? now)%Z = false) as -> by lia.
    assert (exists d, get_user_claims e (ss_user i) (dget (g_claims g) "userinfo") = Ok d) as (d & ->).
    { destruct (dget (g_claims g) "userinfo") as [restr|] eqn:D.
      - destruct (user_claims_total e (ss_user i) restr users Us) as (d & Ed & _); [|eauto].
        intros k sp I. eapply Lg; [eapply dget_In; exact D|exact I].
      - unfold get_user_claims. rewrite Us. eauto. }
    destruct (acr_total g "userinfo" ae Lg Ae) as (b & ->).
    unfold bind, lift, ret. eexists _, _. reflexivity.
  Qed.

  Lemma introspection_answers ops evs h now release gid g u c t tok : history e ops evs h ->
    grant_of h gid g -> belongs e g u c -> In t (g_tokens g) -> t_value t = tok -> leads_to e now h tok gid ->
    (t_class t = "access_token" \/ t_class t = "refresh_token") -> token_live t now ->
    (exists users, e_users e = Some users) -> legible (g_claims g) ->
    List.length (g_tokens g) < e_limit e ->
    exists r h', step e h (OIntrospect now release tok) = (EvIntrospect (Ok (Some r)), h').
  Proof.
    intros Hi G Bg It Vt Le Cl Li (users & Us) Lg Ll.
    destruct (looked_up _ _ _ _ _ _ _ _ _ _ Hi G Bg It Vt Le) as (i & s1 & E1 & E2 & E3 & <- & <-).
    cbn [step]. unfold on_st, introspect.
    match goal with |- context [bind ?m _ (h_st h)] => assert (m (h_st h) = (Ok (Some i), s1)) as Ex end.
    { unfold catch. rewrite (bind_run _ _ _ _ _ E1). reflexivity. }
    rewrite (bind_run _ _ _ _ _ Ex), (bind_run _ _ _ _ _ E2), E3.
    assert (exists r, introspect_token e now t (ss_client i) g = Ok (Some r)) as (r & ->).
    { unfold introspect_token.
      assert (smem (t_class t) [ACCESS; REFRESH] = true) as -> by (destruct Cl as [-> | ->]; reflexivity).
      rewrite (proj2 (tok_active_live now t) Li). cbn [negb].
      destruct (list_true (t_scope t)); [cbn [rbind]; eauto|]. destruct (ostr_true (t_based t)); [|cbn [rbind]; eauto].
      destruct (In_nth_error _ _ It) as (pos & Np).
      destruct (parent_scope_total e g t pos Np (history_forest e W _ _ _ _ _ Hi G) Ll) as (psc & -> & _). cbn [rbind]. eauto. }
    unfold bind at 1, lift at 1.
    destruct (dget (g_claims g) "introspection") as [[|x restr]|] eqn:D; try (eexists _, _; reflexivity).
    destruct (user_claims_total e (ss_user i) (x :: restr) users Us) as (d & Ed & _).
    { intros k sp I. eapply Lg; [eapply dget_In; exact D|exact I]. }
    match goal with |- context [lift ?y] => replace y with (@Ok (dict jval) d) by (symmetry; exact Ed) end.
    eexists _, _. reflexivity.
  Qed.
End Honour.
