(** Property theorems about what a token response says about its tokens (C47), and
    about the scopes a client can get (C48). *)
From Verif Require Import M_Base M_Types M_Codec M_Grant M_Env M_Session M_Claims M_Handler
  M_Authz M_TokenEP M_PKCE M_AuthzEP M_Info M_Logout M_History S_Codec S_Grant S_Store S_Toy S_Claims S_History S_Hex
  S_AuthzResp S_Jws S_TokenResp L_Base L_Claims L_Hex L_TokenResp P_History P_Logout P_AuthzResp.

(** Whatever happened before: a token response is about one grant, given by one
    user to the client that sends the request. It names an access token of that
    grant, made just now from the token presented, and gives the life time, the type
    and the scope of that access token. An ID token in it was made from the
    token presented too. It is for that client, about that user, and carries the
    nonce of the authorization request. Just before the call the grant was live, and
    no grant had any of the tokens of the response. *)
Theorem C47_token_response : forall e ops evs h now i issue q a h',
  laws e -> history e ops evs h ->
  step e h (OProcess now i issue) = (EvToken q (Ok (Good a)), h') ->
  exists gid g u ar p, grant_of h' gid g /\ token_answer e now q g u ar p a
    /\ (exists g0, grant_of h gid g0 /\ grant_live g0 now)
    /\ (forall v, rs_access a = Some v \/ rs_refresh a = Some v \/ rs_id a = Some v -> ~ known h v).
Proof.
  exact (fun e ops evs h now i issue q a h' W => token_response e W ops evs h now i issue q a h').
Qed.
Print Assumptions C47_token_response.

(** ** Examples *)
Definition redeem_run : list (list event -> op) := [
  demo_login;
  fun evs => OParse 1001 "c1" (hex_code_req (last_code evs)) ].
Definition redeem_end : hst := run_end demo_env redeem_run.
Lemma redeem_history : history demo_env (run_ops demo_env redeem_run) (run_evs demo_env redeem_run) redeem_end.
Proof. apply run_history. vm_compute. reflexivity. Qed.

(** A code is redeemed for all three tokens. *)
Example C47_example : exists q a h' gid g u ar p,
  step demo_env redeem_end (OProcess 1002 0 None) = (EvToken q (Ok (Good a)), h')
  /\ (exists v, rs_access a = Some v) /\ (exists v, rs_refresh a = Some v) /\ (exists v, rs_id a = Some v)
  /\ (exists x, rs_expires a = Some x) /\ rs_type a = Some "Bearer"
  /\ (exists lt, dget (e_handlers demo_env) "id_token" = Some (HId lt))
  /\ grant_of h' gid g /\ token_answer demo_env 1002 q g u ar p a.
Proof.
  assert (exists q a h', step demo_env redeem_end (OProcess 1002 0 None) = (EvToken q (Ok (Good a)), h')
    /\ (exists v, rs_access a = Some v) /\ (exists v, rs_refresh a = Some v) /\ (exists v, rs_id a = Some v)
    /\ (exists x, rs_expires a = Some x) /\ rs_type a = Some "Bearer") as (q & a & h' & E & X1 & X2 & X3 & X4 & X5).
  { eexists _, _, _. split; [vm_compute; reflexivity|].
    do 4 (split; [eexists; vm_compute; reflexivity|]). vm_compute. reflexivity. }
  destruct (C47_token_response demo_env _ _ _ _ _ _ _ _ _ demo_laws redeem_history E) as (gid & g & u & ar & p & G & T & _).
  exists q, a, h', gid, g, u, ar, p. do 6 (split; [assumption|]). split; [eexists; vm_compute; reflexivity|].
  split; assumption.
Qed.

(** A refresh token is used for a smaller scope. *)
Definition refresh_run : list (list event -> op) := [
  demo_login;
  fun evs => OParse 1001 "c1" (hex_code_req (last_code evs));
  fun _ => OProcess 1002 0 None;
  fun evs => OParse 1003 "c1" (hex_refresh_req (answered_refresh evs) (Some ["openid"])) ].
Definition refresh_end : hst := run_end demo_env refresh_run.
Lemma refresh_history : history demo_env (run_ops demo_env refresh_run) (run_evs demo_env refresh_run) refresh_end.
Proof. apply run_history. vm_compute. reflexivity. Qed.
Example C47_refresh_example : exists q a h' gid g u ar p t,
  step demo_env refresh_end (OProcess 1004 1 None) = (EvToken q (Ok (Good a)), h')
  /\ tr_grant_type q = "refresh_token" /\ rs_scope a = ["openid"]
  /\ grant_of h' gid g /\ token_answer demo_env 1004 q g u ar p a
  /\ In t (g_tokens g) /\ rs_access a = Some (t_value t) /\ t_scope t = ["openid"].
Proof.
  assert (exists q a h', step demo_env refresh_end (OProcess 1004 1 None) = (EvToken q (Ok (Good a)), h')
    /\ tr_grant_type q = "refresh_token" /\ rs_scope a = ["openid"]) as (q & a & h' & E & X1 & X2).
  { eexists _, _, _. split; [vm_compute; reflexivity|]. split; vm_compute; reflexivity. }
  destruct (C47_token_response demo_env _ _ _ _ _ _ _ _ _ demo_laws refresh_history E) as (gid & g & u & ar & p & G & T & _).
  pose proof T as (_ & _ & _ & _ & (t & It & (D & _ & _ & _ & _ & _ & S)) & _).
  exists q, a, h', gid, g, u, ar, p, t. do 7 (split; [assumption|]). congruence.
Qed.

(** With the toy signature scheme one can look into the ID token of the
    response. *)
Definition signed_answer : option tresp :=
  match run_evs jws_demo (redeem_run ++ [fun _ => OProcess 1002 0 None]) with
  | [_; _; EvToken _ (Ok (Good a))] => Some a
  | _ => None
  end.
Definition id_claim (o : option tresp) (claim : string) : option jval :=
  match o with
  | Some a => match rs_id a with
              | Some v => match toy_open v with Some (_, p) => dget p claim | None => None end
              | None => None end
  | None => None
  end.
Example C47_id_token_example :
  id_claim signed_answer "aud" = Some (JList [JStr "c1"]) /\ id_claim signed_answer "iat" = Some (JInt 1002)
  /\ id_claim signed_answer "nonce" = Some (JStr "nonce") /\ id_claim signed_answer "iss" = Some (JStr (e_issuer jws_demo))
  /\ (exists s, id_claim signed_answer "sub" = Some (JStr s)).
Proof. do 4 (split; [vm_compute; reflexivity|]). eexists. vm_compute. reflexivity. Qed.

(** ** C48: the scopes a client can get *)

(** A provider denies unknown scopes, and its own policy gives no others. Then,
    whatever happens, no code, access token or refresh token of a client has a
    scope that the client may not have. *)
Theorem C48_allowed_scopes : forall e ops evs h gid g u c t x,
  laws e -> history e ops evs h -> Forall (screened e) ops -> modest e ->
  grant_of h gid g -> belongs e g u c ->
  In t (g_tokens g) -> t_class t <> "id_token" -> In x (t_scope t) ->
  scope_allowed e c x.
Proof.
  exact (fun e ops evs h gid g u c t x W => allowed_scopes e W ops evs h gid g u c t x).
Qed.
Print Assumptions C48_allowed_scopes.

(** Nor does a token response name such a scope. *)
Theorem C48_allowed_response : forall e ops evs h now i issue q a h' c x,
  laws e -> history e ops evs h -> Forall (screened e) ops -> modest e ->
  step e h (OProcess now i issue) = (EvToken q (Ok (Good a)), h') ->
  tr_client q = Some c -> In x (rs_scope a) -> scope_allowed e c x.
Proof.
  exact (fun e ops evs h now i issue q a h' c x W => allowed_response e W ops evs h now i issue q a h' c x).
Qed.
Print Assumptions C48_allowed_response.

(** Nor does introspection. *)
Theorem C48_allowed_report : forall e ops evs h now release tok r h' x,
  laws e -> history e ops evs h -> Forall (screened e) ops -> modest e ->
  step e h (OIntrospect now release tok) = (EvIntrospect (Ok (Some r)), h') ->
  In x (ir_scope r) -> scope_allowed e (ir_client r) x.
Proof.
  exact (fun e ops evs h now release tok r h' x W => allowed_report e W ops evs h now release tok r h' x).
Qed.
Print Assumptions C48_allowed_report.

(** The demonstration denies "admin" and then serves a request without it. *)
Definition areq_scopes (sc : list string) : areq :=
  mk_areq "c1" (Some "https://rp.example.com/cb") ["code"] (Some sc)
    (Some "state") (Some "nonce") None None None "" None None None [].
Definition visit_with (deny : bool) (sc : list string) : list event -> op := fun _ =>
  OAuthorize 1000 deny true (areq_scopes sc) None "password" (Some 3600%Z) (AUser "diana" None)
    (Some "https://rp.example.com/cb").
Definition direct_response (evs : list event) : option aresp :=
  fold_left (fun x ev => match ev with
    | EvAuthorize (Ok (ROut o)) => match ao_args o with Good r => Some r | _ => x end
    | _ => x end) evs None.
Definition direct_code (evs : list event) : string :=
  match direct_response evs with
  | Some r => match ap_code r with Some v => v | None => "" end
  | None => ""
  end.
Definition scoped_run (deny : bool) (sc : list string) : list (list event -> op) := [
  visit_with deny ["openid"; "admin"];
  visit_with true sc;
  fun evs => OParse 1001 "c1" (hex_code_req (direct_code evs)) ].
Lemma demo_allowed x : In x ["openid"; "profile"; "email"; "offline_access"] -> scope_allowed demo_env "c1" x.
Proof.
  intros I. apply (proj1 (allowed_spec demo_env "c1" x)). vm_compute. exact I.
Qed.
Lemma demo_denied : ~ scope_allowed demo_env "c1" "admin".
Proof.
  intros A. apply (proj2 (allowed_spec demo_env "c1" "admin")) in A. vm_compute in A. intuition discriminate.
Qed.
Example C48_example : exists ops evs h q a h',
  history demo_env ops evs h /\ Forall (screened demo_env) ops /\ modest demo_env
  /\ (exists ev, nth_error evs 0 = Some (EvAuthorize (Raise ev)))
  /\ step demo_env h (OProcess 1002 0 None) = (EvToken q (Ok (Good a)), h')
  /\ tr_client q = Some "c1" /\ rs_scope a = ["openid"; "email"].
Proof.
  exists (run_ops demo_env (scoped_run true ["openid"; "email"])), (run_evs demo_env (scoped_run true ["openid"; "email"])),
    (run_end demo_env (scoped_run true ["openid"; "email"])).
  eexists _, _, _. split; [apply run_history; vm_compute; reflexivity|].
  split.
  { assert (exists q, run_ops demo_env (scoped_run true ["openid"; "email"])
      = [visit_with true ["openid"; "admin"] []; visit_with true ["openid"; "email"] []; OParse 1001 "c1" q])
      as (q & ->) by (eexists; vm_compute; reflexivity).
    constructor; [left; reflexivity|]. constructor; [left; reflexivity|]. constructor; [exact Logic.I|constructor]. }
  split. { intros sc x c E. vm_compute in E. discriminate. }
  split; [eexists; vm_compute; reflexivity|].
  split; [vm_compute; reflexivity|]. split; vm_compute; reflexivity.
Qed.

(** ** Where a client gets a scope it may not have *)

(** Unknown scopes are not denied. The authorization response then names only
    the scopes the client may have. But the code, and the access token got with
    it, have the scope that was left out. *)
Definition odd_run : list (list event -> op) := [
  visit_with false ["openid"; "admin"];
  fun evs => OParse 1001 "c1" (hex_code_req (direct_code evs)) ].
Theorem C48_filtered_refuted : exists e ops evs h r now i issue q a h',
  laws e /\ history e ops evs h /\ modest e
  /\ direct_response evs = Some r /\ ap_scope r = Some ["openid"]
  /\ step e h (OProcess now i issue) = (EvToken q (Ok (Good a)), h')
  /\ tr_client q = Some "c1" /\ In "admin" (rs_scope a) /\ ~ scope_allowed e "c1" "admin".
Proof.
  eexists demo_env, (run_ops demo_env odd_run), (run_evs demo_env odd_run), (run_end demo_env odd_run),
    _, 1002%Z, 0, None, _, _, _.
  split; [exact demo_laws|]. split; [apply run_history; vm_compute; reflexivity|].
  split. { intros sc x c E. vm_compute in E. discriminate. }
  split; [vm_compute; reflexivity|]. split; [vm_compute; reflexivity|].
  split; [vm_compute; reflexivity|]. split; [vm_compute; reflexivity|].
  split; [right; left; reflexivity|]. exact demo_denied.
Qed.
Print Assumptions C48_filtered_refuted.
