(** Property theorems: live tokens are honoured (C67). *)
From Verif Require Import M_Base M_Types M_Codec M_Grant M_Env M_Session M_Claims M_Handler
  M_Authz M_TokenEP M_PKCE M_AuthzEP M_Info M_Logout M_History S_Codec S_Grant S_Toy S_Claims S_History
  S_PKCE S_Hex S_Handler S_Answer S_Revoke S_Cause L_Base L_Codec L_Hex L_Cause2 L_Honour L_Honour2 P_History P_Logout P_Cause P_Answer.

(** ** C67: a live token is honoured *)

(** Whatever happened before, the userinfo endpoint answers a request with a
    live access token, as long as the log-in behind it is valid. (What it
    answers: C29, C53.) *)
Theorem C67_userinfo_answers : forall e ops evs h now gid g u c t tok ae users,
  laws e -> history e ops evs h ->
  grant_of h gid g -> belongs e g u c -> In t (g_tokens g) -> t_value t = tok -> leads_to e now h tok gid ->
  t_class t = "access_token" -> token_live t now ->
  g_aevent g = Some ae -> (now <= ae_valid_until ae)%Z ->
  e_users e = Some users -> legible (g_claims g) ->
  exists info h', step e h (OUserinfo now tok) = (EvUserinfo (Ok (Good (info, c))), h').
Proof. exact (fun e ops evs h now gid g u c t tok ae users W => userinfo_answers e W ops evs h now gid g u c t tok ae users). Qed.
Print Assumptions C67_userinfo_answers.

(** And introspection calls live access and refresh tokens active: it does not
    fail. (What it says about them: C28, C53.) *)
Theorem C67_introspection_answers : forall e ops evs h now release gid g u c t tok,
  laws e -> history e ops evs h ->
  grant_of h gid g -> belongs e g u c -> In t (g_tokens g) -> t_value t = tok -> leads_to e now h tok gid ->
  (t_class t = "access_token" \/ t_class t = "refresh_token") -> token_live t now ->
  (exists users, e_users e = Some users) -> legible (g_claims g) ->
  List.length (g_tokens g) < e_limit e ->
  exists r h', step e h (OIntrospect now release tok) = (EvIntrospect (Ok (Some r)), h').
Proof. exact (fun e ops evs h now release gid g u c t tok W => introspection_answers e W ops evs h now release gid g u c t tok). Qed.
Print Assumptions C67_introspection_answers.

(** So an access token is honoured until it expires or somebody ends it: with
    C65, a token that no call was meant to end is answered by both endpoints as
    long as its own and its grant's life time and the log-in last. *)
Theorem C67_honoured_until_ended : forall e ops evs h now release gid g u c t tok ae users,
  laws e -> (forall c ci, dget (e_clients e) c = Some ci -> good_id c) ->
  history e ops evs h -> Forall (sensible e) ops ->
  grant_of h gid g -> belongs e g u c -> In t (g_tokens g) -> t_value t = tok -> t_class t = "access_token" ->
  leads_to e now h tok gid ->
  (forall m, r_max (t_rules t) = Some m -> (0 < m)%Z) ->
  (t_exp t <> 0 -> now <= t_exp t)%Z -> (g_exp g <> 0 -> now <= g_exp g)%Z ->
  (forall j o, nth_error ops j = Some o -> ~ meant_to_end e o u c gid) ->
  (forall j, ~ meant_to_end_token e ops evs j g t) ->
  g_aevent g = Some ae -> (now <= ae_valid_until ae)%Z ->
  e_users e = Some users -> legible (g_claims g) -> List.length (g_tokens g) < e_limit e ->
  (exists info h', step e h (OUserinfo now tok) = (EvUserinfo (Ok (Good (info, c))), h'))
  /\ exists r h', step e h (OIntrospect now release tok) = (EvIntrospect (Ok (Some r)), h').
Proof. exact (fun e ops evs h now release gid g u c t tok ae users W => honoured_until_ended e W ops evs h now release gid g u c t tok ae users). Qed.
Print Assumptions C67_honoured_until_ended.

(** The access token of the run of C66, 500 seconds later. *)
Definition ho_access : token := nth 1 (g_tokens (the_grant rf_end)) ex_no_token.
Example C67_example :
  history demo_env (run_ops demo_env rf_run) (run_evs demo_env rf_run) rf_end
  /\ grant_of rf_end "u0" (the_grant rf_end) /\ belongs demo_env (the_grant rf_end) "diana" "c1"
  /\ In ho_access (g_tokens (the_grant rf_end)) /\ t_class ho_access = "access_token"
  /\ leads_to demo_env 1502 rf_end (t_value ho_access) "u0" /\ token_live ho_access 1502
  /\ (exists ae, g_aevent (the_grant rf_end) = Some ae /\ (1502 <= ae_valid_until ae)%Z)
  /\ e_users demo_env = Some toy_users /\ legible (g_claims (the_grant rf_end))
  /\ List.length (g_tokens (the_grant rf_end)) < e_limit demo_env
  /\ dget (g_claims (the_grant rf_end)) "userinfo" <> None.
Proof.
  split; [apply run_history; vm_compute; reflexivity|].
  split; [exists 4; split; vm_compute; reflexivity|].
  split; [eexists _, _; vm_compute; repeat split; reflexivity|].
  split; [vm_compute; auto|]. split; [vm_compute; reflexivity|].
  split; [eexists _, _; split; vm_compute; reflexivity|].
  split; [apply L_Grant.tok_active_live; vm_compute; reflexivity|].
  split; [eexists; split; [vm_compute; reflexivity|vm_compute; discriminate]|].
  split; [reflexivity|]. split; [apply C66_refresh_example|].
  split; [vm_compute; repeat constructor|vm_compute; discriminate].
Qed.

(** The access token of the run of C65 in which a code is redeemed once. (That
    nobody ends it: [C65_live_example].) *)
Definition pl_access : token := nth 1 (g_tokens (the_grant plain_end)) ex_no_token.
Example C67_until_ended_example :
  In pl_access (g_tokens (the_grant plain_end)) /\ t_class pl_access = "access_token"
  /\ leads_to demo_env 1100 plain_end (t_value pl_access) "u0"
  /\ (forall m, r_max (t_rules pl_access) = Some m -> (0 < m)%Z) /\ (1100 <= t_exp pl_access)%Z
  /\ (exists ae, g_aevent (the_grant plain_end) = Some ae /\ (1100 <= ae_valid_until ae)%Z)
  /\ legible (g_claims (the_grant plain_end)) /\ List.length (g_tokens (the_grant plain_end)) < e_limit demo_env.
Proof.
  split; [vm_compute; auto|]. split; [vm_compute; reflexivity|].
  split; [eexists _, _; split; vm_compute; reflexivity|].
  split; [intros m X; vm_compute in X; discriminate X|]. split; [vm_compute; discriminate|].
  split; [eexists; split; [vm_compute; reflexivity|vm_compute; discriminate]|].
  split. { assert (exists m, g_claims (the_grant plain_end) = m /\ forallb (fun x => forallb (fun y => match snd y with None => true | Some _ => false end) (snd x)) m = true) as (m & Em & Fm)
      by (eexists; split; [reflexivity|vm_compute; reflexivity]). rewrite Em. clear Em.
    intros point d k sp I J. rewrite forallb_forall in Fm. apply Fm in I. cbn [snd] in I. rewrite forallb_forall in I.
    apply I in J. cbn [snd] in J. destruct sp; [discriminate J|]. intros d' v X. discriminate X. }
  vm_compute. repeat constructor.
Qed.
