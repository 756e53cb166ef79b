(** Access tokens are honoured until they are ended: proofs. *)
From Verif Require Import M_Base M_Types M_Codec M_Grant M_Env M_Session M_Claims M_Handler
  M_Authz M_TokenEP M_PKCE M_AuthzEP M_Info M_Logout M_History S_Codec S_Grant S_Claims S_History S_PKCE S_Answer
  S_Revoke S_Cause L_Base L_Cause2 L_Honour.

Lemma honoured_until_ended e : laws e -> forall ops evs h now release gid g u c t tok ae users,
  (forall c ci, dget (e_clients e) c = Some ci -> good_id c) ->
  history e ops evs h -> Forall (sensible e) ops ->
  grant_of h gid g -> belongs e g u c -> In t (g_tokens g) -> t_value t = tok -> t_class t = "access_token" ->
  leads_to e now h tok gid ->
  (forall m, r_max (t_rules t) = Some m -> (0 < m)%Z) ->
  (t_exp t <> 0 -> now <= t_exp t)%Z -> (g_exp g <> 0 -> now <= g_exp g)%Z ->
  (forall j o, nth_error ops j = Some o -> ~ meant_to_end e o u c gid) ->
  (forall j, ~ meant_to_end_token e ops evs j g t) ->
  g_aevent g = Some ae -> (now <= ae_valid_until ae)%Z ->
  e_users e = Some users -> legible (g_claims g) -> List.length (g_tokens g) < e_limit e ->
  (exists info h', step e h (OUserinfo now tok) = (EvUserinfo (Ok (Good (info, c))), h'))
  /\ exists r h', step e h (OIntrospect now release tok) = (EvIntrospect (Ok (Some r)), h').
Proof.
  intros W ops evs h now release gid g u c t tok ae users Gc Hi Se Go Bg It Vt Ct Le Mx Te Ge Ne Nt Ae Av Us Lc Ll.
  destruct (stays_live e W Gc ops evs h gid g u c t now) as [Lt _]; auto. split.
  - eapply (userinfo_answers e W); eauto.
  - eapply (introspection_answers e W); eauto.
Qed.
