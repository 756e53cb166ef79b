(** What the signed tokens of a history say. *)
From Verif Require Import M_Base M_Types M_Codec M_Grant M_Env M_Session M_Claims M_Handler
  M_Authz M_TokenEP M_PKCE M_AuthzEP M_Info M_Logout M_History S_Codec S_Grant S_Store S_Claims S_History S_AuthzResp S_TokenResp
  S_Release S_IdToken
  L_Base L_Codec L_Monad L_Grant L_Claims L_Store L_Hist1 L_Hist2 L_Hist3 L_Hist4 L_Hist5 L_Hist6 L_Hist8 L_Pass L_Spec2
  L_IdToken L_AuthzResp L_TokenResp.

Section Steps.
  Variable e : env.
  Hypothesis W : laws e.
  Variable a0 : dict (dict (list string)).

  Let any_grant (g : grant) : Prop := True.
  Lemma ids_authz now u ar sid s r s' : Inv e s -> ready e now u ar sid s -> J (kept_ids a0) any_grant s ->
    authz e now sid ar s = (r, s') ->
    J (kept_ids a0) any_grant s' /\ up any_grant s s' /\ forall l, r = Ok l -> isq any_grant l s'.
  Proof.
    intros Iv R (Ja & _) E. destruct (authz_spec e now u ar sid s r s' Iv R E) as (_ & L & F).
    split; [split; [|intros; exact Logic.I]|split].
    - exact (holds_authz e now (kept_ids a0) (ids_always a0) u ar sid (ready e now u ar sid) (fun s p => p) s r s' Iv Ja R E).
    - intros l (g & H & _). destruct (st_later_grant _ _ _ _ _ L H) as (g' & H' & _). exists g'. split; [exact H'|exact Logic.I].
    - intros l Er. destruct (F l Er) as ((g & H & _) & _). exists g. split; [exact H|exact Logic.I].
  Qed.
  Lemma step_ids h o ev h' : Inv e (h_st h) -> proper e o -> step e h o = (ev, h') ->
    J (kept_ids a0) any_grant (h_st h) -> J (kept_ids a0) any_grant (h_st h').
  Proof.
    intros Is P E Jh.
    refine (step_pass e (op_time o) (kept_ids a0) any_grant any_grant (ids_always a0) _ _ _ _ W _ (ids_authz _) h o ev h' Is P eq_refl E Jh);
      intros; try split; exact Logic.I.
  Qed.
  Lemma exec_ids ops evs h : Forall (proper e) ops -> exec e (h_init a0) ops = (evs, h) -> kept_ids a0 (s_always (h_st h)).
  Proof.
    intros Po E. enough (J (kept_ids a0) any_grant (h_st h)) as (X & _) by exact X.
    eapply (exec_keeps e W (fun h => J (kept_ids a0) any_grant (h_st h)) ops); [|apply hi_init|exact Po|exact E|].
    - intros h1 o ev h2 Io Hh1 Es _ J1. rewrite Forall_forall in Po. eapply step_ids; eauto. apply Hh1.
    - split; [apply kept_ids_refl|]. intros; exact Logic.I.
  Qed.

  Lemma login_signed ops evs h now iframe ar uid acr exp_in uri o h' a :
    Forall (proper e) ops -> exec e (h_init a0) ops = (evs, h) -> good_id (ar_client_id ar) -> good_id uid ->
    step e h (OLogin now iframe ar uid acr exp_in uri) = (EvLogin (Ok o), h') -> ao_args o = Good a ->
    due e a0 now h' uid ar a.
  Proof.
    intros Po E. apply login_due; auto; [eapply (history_hi e W); split; eauto|eapply exec_ids; eauto].
  Qed.
  Lemma authorize_signed ops evs h now deny iframe ar ru acr exp_in ans uri o h' a :
    Forall (proper e) ops -> exec e (h_init a0) ops = (evs, h) ->
    proper e (OAuthorize now deny iframe ar ru acr exp_in ans uri) ->
    step e h (OAuthorize now deny iframe ar ru acr exp_in ans uri) = (EvAuthorize (Ok (ROut o)), h') -> ao_args o = Good a ->
    exists u sid, ans = AUser u sid /\ due e a0 now h' u ar a.
  Proof.
    intros Po E. apply authorize_due; auto; [eapply (history_hi e W); split; eauto|eapply exec_ids; eauto].
  Qed.
  Lemma token_signed ops evs h now k issue q a h' :
    Forall (proper e) ops -> exec e (h_init a0) ops = (evs, h) ->
    step e h (OProcess now k issue) = (EvToken q (Ok (Good a)), h') ->
    exists gid g u ar p ae, grant_of h' gid g /\ token_answer e now q g u ar p a /\ g_aevent g = Some ae
      /\ signed_as_due e a0 now u ar ae "" (rs_id a) (rs_access a).
  Proof.
    intros Po E Es.
    destruct (token_says e W a0 ops evs h now k issue q a h') as (gid & g & u & ar & p & ae & A & B & C & D & _);
      [split; eauto|eapply exec_ids; eauto|exact Es|].
    exists gid, g, u, ar, p, ae. auto.
  Qed.
End Steps.
