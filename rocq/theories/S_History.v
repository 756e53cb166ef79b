(** Specification vocabulary for histories of the provider. *)
From Verif Require Import M_Base M_Types M_Codec M_Grant M_Env M_Session M_Claims M_Handler
  M_Authz M_TokenEP M_PKCE M_AuthzEP M_Info M_Logout M_History S_Codec S_Grant.

(** ** What is assumed of the surroundings *)

(** [v] is a token text made with the [n]-th random draw: a Fernet ciphertext
    in base64, or a signed JWT. *)
Definition made (e : env) (n : nat) (v : string) : Prop :=
  (exists pw text, v = b64e (e_crypto e) (fenc (e_crypto e) pw n text))
  \/ (exists alg p, e_sign e alg n p = Ok v).

(** An identifier that can be part of a session key. *)
Definition good_id (x : string) : Prop :=
  x <> "" /\ ~ occurs_in ";;" x /\ ~ ends_in ";" x.

(** The laws of the libraries: decryption undoes encryption, uuids differ and
    are plain names, token texts made with different draws differ, and are
    neither empty nor contain blanks; session ids are base64 text, in which ";"
    does not occur. *)
Record laws (e : env) : Prop := {
  law_fernet : fernet_correct (e_crypto e);
  law_base64 : base64_correct (e_crypto e);
  law_sid : forall s x, b64d (e_crypto e) s = Some x -> ~ occurs_in ";;" s;
  law_uuid : forall n m, e_uuid e n = e_uuid e m -> n = m;
  law_uuid_id : forall n, good_id (e_uuid e n) /\ ~ ends_in_white_space (e_uuid e n);
  law_made : forall n m v, made e n v -> made e m v -> n = m;
  law_text : forall n v, made e n v -> v <> "" /\ ~ occurs_in " " v
}.

(** The calls that can come: user and client ids are proper identifiers, and
    when the user agent's cookie names a session, it is a session of the user
    it names. *)
Definition proper (e : env) (o : op) : Prop :=
  match o with
  | OAuthorize _ _ _ ar _ _ _ ans _ =>
      good_id (ar_client_id ar)
      /\ match ans with
         | ANobody => True
         | AUser u sid =>
             good_id u
             /\ forall s u' c g, sid = Some s -> dec_sid3 e s = Ok (u', c, g) -> u' = u
         end
  | OLogin _ _ ar uid _ _ _ => good_id (ar_client_id ar) /\ good_id uid
  | _ => True
  end.

(** [h] is reached from a new provider by the calls [ops], which were answered
    by [evs]. *)
Definition history (e : env) (ops : list op) (evs : list event) (h : hst) : Prop :=
  Forall (proper e) ops /\ exists always, exec e (h_init always) ops = (evs, h).

(** ** Grants and tokens of a state *)

(** The grant with id [gid] is [g]. *)
Definition grant_of (h : hst) (gid : string) (g : grant) : Prop :=
  exists l, nth_error (s_heap (h_st h)) l = Some (OGrant g) /\ g_id g = gid.

(** The grant [g] belongs to user [u] and client [c]: it holds an authorization
    request of that client and an authentication of that user, and its subject
    identifier is that of the user. *)
Definition belongs (e : env) (g : grant) (u c : string) : Prop :=
  exists ar ae, g_areq g = Some ar /\ ar_client_id ar = c
    /\ g_aevent g = Some ae /\ ae_uid ae = u /\ g_sub g = e_sub e u (ar_sector ar).

(** ** How tokens and grants change over time *)

(** [t'] is [t], except that it may have been used and revoked since. *)
Definition token_later (t t' : token) : Prop :=
  t_class t' = t_class t /\ t_value t' = t_value t /\ t_based t' = t_based t
  /\ t_rules t' = t_rules t /\ t_issued t' = t_issued t /\ t_exp t' = t_exp t
  /\ t_nbf t' = t_nbf t /\ t_id t' = t_id t
  /\ t_scope t' = t_scope t /\ t_resources t' = t_resources t
  /\ t_type t' = t_type t /\ t_sid t' = t_sid t
  /\ (t_revoked t = true -> t_revoked t' = true) /\ (t_used t <= t_used t')%Z.

(** The tokens of [ts] are still there, in [ts'], at the same places. *)
Definition tokens_later (ts ts' : list token) : Prop :=
  forall i t, nth_error ts i = Some t ->
    exists t', nth_error ts' i = Some t' /\ token_later t t'.

(** [g'] is [g] some calls later, all of them made at time [now]. *)
Definition grant_later (now : Z) (g g' : grant) : Prop :=
  g_id g' = g_id g /\ g_areq g' = g_areq g /\ g_aevent g' = g_aevent g
  /\ g_sub g' = g_sub g /\ g_issued g' = g_issued g /\ g_nbf g' = g_nbf g
  /\ g_max g' = g_max g
  /\ (g_revoked g = true -> g_revoked g' = true)
  /\ (g_used g <= g_used g')%Z
  /\ tokens_later (g_tokens g) (g_tokens g')
  /\ (grant_active now g = false ->
        g_exp g' = g_exp g /\ List.length (g_tokens g') = List.length (g_tokens g))
  /\ (g_scope g <> [] -> g_scope g' = g_scope g).

(** ** Where tokens come from *)

(** Some grant of [h] holds a token of class [tc] with the text [v]. *)
Definition holds (h : hst) (v tc : string) : Prop :=
  exists gid g t, grant_of h gid g /\ In t (g_tokens g) /\ t_value t = v /\ t_class t = tc.
Definition known (h : hst) (v : string) : Prop := exists tc, holds h v tc.

(** The call [o] is an authorization (with or without a log-in page) for the
    request [ar]. *)
Definition authorizes (o : op) (ar : areq) : Prop :=
  match o with
  | OAuthorize _ _ _ ar' _ _ _ _ _ | OLogin _ _ ar' _ _ _ _ => ar' = ar
  | _ => False
  end.
(** The call [o] is an authorization by the user [u]. *)
Definition by_user (o : op) (u : string) : Prop :=
  match o with
  | OAuthorize _ _ _ _ _ _ _ (AUser u' _) _ => u' = u
  | OLogin _ _ _ u' _ _ _ => u' = u
  | _ => False
  end.
Definition token_call (o : op) : Prop :=
  match o with OProcess _ _ _ => True | _ => False end.

(** The [j]-th call of [ops] made the token [v] of class [tc]: it was not known
    before that call and is held after it. *)
Definition made_by (e : env) (ops : list op) (j : nat) (o : op) (v tc : string) : Prop :=
  nth_error ops j = Some o
  /\ exists evs h1 ev h2, history e (firstn j ops) evs h1 /\ step e h1 o = (ev, h2)
     /\ ~ known h1 v /\ holds h2 v tc.

(** ** Token requests and answers *)

(** The token request [q] presents the text [v] of a token of class [tc]. *)
Definition presents (q : treq) (v tc : string) : Prop :=
  (tc = "authorization_code" /\ tr_grant_type q = "authorization_code" /\ tr_code q = Some v)
  \/ (tc = "refresh_token" /\ tr_grant_type q = "refresh_token" /\ tr_refresh q = Some v).

(** The [i]-th call was a token request [q], answered by the response [a]. *)
Definition answer_at (evs : list event) (i : nat) (q : treq) (a : tresp) : Prop :=
  nth_error evs i = Some (EvToken q (Ok (Good a))).

(** The response [a] carries the text [v] as a token of class [tc]. *)
Definition hands_out (a : tresp) (v tc : string) : Prop :=
  (tc = "access_token" /\ rs_access a = Some v)
  \/ (tc = "refresh_token" /\ rs_refresh a = Some v)
  \/ (tc = "id_token" /\ rs_id a = Some v).

(** The grant [g] holds a token [v] of class [tc]. *)
Definition in_grant (g : grant) (v tc : string) : Prop :=
  exists t, In t (g_tokens g) /\ t_value t = v /\ t_class t = tc.
(** ... that was made from the token [p]. *)
Definition drawn_from (g : grant) (p v tc : string) : Prop :=
  exists t, In t (g_tokens g) /\ t_value t = v /\ t_class t = tc /\ t_based t = Some p.

(** Refresh-token rotation is on for the client [c]: by its own setting, or by
    that of the provider. *)
Definition rotates (e : env) (c : string) : Prop :=
  match dget (e_clients e) c with
  | Some cl => c_revoke_refresh cl = Some true
               \/ (c_revoke_refresh cl = None /\ e_revoke_refresh e = true)
  | None => e_revoke_refresh e = true
  end.

(** The scopes the authorization of [g] was for: those the policy of the
    provider fixes, or else those requested. *)
Definition authorized_scope (e : env) (g : grant) (x : string) : Prop :=
  (exists sc, gc_scope (e_authz e) = Some sc /\ In x sc)
  \/ (exists ar sc, g_areq g = Some ar /\ ar_scope ar = Some sc /\ In x sc).

(** Looking the text [v] up at [now] leads to the grant [gid]. *)
Definition leads_to (e : env) (now : Z) (h : hst) (v gid : string) : Prop :=
  exists i s, get_session_info_by_token e now v (h_st h) = (Ok i, s) /\ ss_gid i = gid.

(** [cid] may use the grant type [gt] at the token endpoint, which supports it. *)
Definition may_use (e : env) (cid gt : string) : Prop :=
  exists cl, dget (e_clients e) cid = Some cl
    /\ (forall l, c_grant_types cl = Some l -> In gt l) /\ In gt (e_helpers e).

(** From [h] to [h'] no record changed, except that of the grant [gid], whose
    tokens [ts] became [ts'] and which otherwise stayed as it was; the session
    database and the parsed requests are the same. *)
Definition only_tokens (h h' : hst) (gid : string) (ts ts' : list token) : Prop :=
  s_db (h_st h') = s_db (h_st h) /\ h_parsed h' = h_parsed h
  /\ exists l g, nth_error (s_heap (h_st h)) l = Some (OGrant g) /\ g_id g = gid /\ g_tokens g = ts
     /\ nth_error (s_heap (h_st h')) l = Some (OGrant (g_set_tokens ts' g))
     /\ forall l', l' <> l -> nth_error (s_heap (h_st h')) l' = nth_error (s_heap (h_st h)) l'.

(** Every grant of [h] is in [h'] with the tokens it had, and the other way
    round. *)
Definition same_tokens (h h' : hst) : Prop :=
  (forall gid g, grant_of h gid g -> exists g', grant_of h' gid g' /\ g_tokens g' = g_tokens g)
  /\ (forall gid g', grant_of h' gid g' -> exists g, grant_of h gid g /\ g_tokens g' = g_tokens g).

(** The grant types the client [c] has, or else the provider's, include [gt]. *)
Definition supports (e : env) (c gt : string) : Prop :=
  exists cl, dget (e_clients e) c = Some cl
    /\ ((exists l, c_grant_types cl = Some l /\ In gt l)
        \/ (c_grant_types cl = None /\ exists l, e_grant_types e = Some l /\ In gt l)).

(** What introspection says about the token [t] of [g]: the scope is the token's
    own or, if it has none, that of the token it was made from; likewise the
    audience is the token's own or that of the grant. *)
Definition reported_scope (g : grant) (t : token) (sc : list string) : Prop :=
  (t_scope t <> [] /\ sc = t_scope t)
  \/ (t_scope t = [] /\ inherited_scope (g_tokens g) (g_scope g) (t_based t) sc).
Definition reported_aud (g : grant) (t : token) (aud : list string) : Prop :=
  (t_resources t <> [] /\ aud = t_resources t) \/ (t_resources t = [] /\ aud = g_resources g).
Definition reported_type (t : token) (ty : option string) : Prop :=
  forall x, ty = Some x <-> t_type t = Some x /\ x <> "".
