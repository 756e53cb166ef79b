(** Specification vocabulary for what the token endpoint must answer. *)
From Verif Require Import M_Base M_Types M_Codec M_Grant M_Env M_Session M_Claims M_Handler
  M_Authz M_TokenEP M_PKCE M_AuthzEP M_Info M_Logout M_History S_Grant S_Claims S_History S_PKCE.

(** Every claim asked for in [m], at any release point, is asked for in a form
    that can be compared with a user's attribute. *)
Definition legible (m : claims_map) : Prop :=
  forall point d k sp, In (point, d) m -> In (k, sp) d -> well_formed sp.

(** The names a user's attribute must not have, since a token handler takes
    them for its own. *)
Definition handler_words : list string := ["session_id"; "usage_rules"; "token_class"; "ttype"].
Definition clear_of_words (p : dict jval) : Prop :=
  forall w, In w handler_words -> dget p w = None.

(** At the time [now] the provider recognises the access tokens it makes: the
    handler of access tokens makes texts that the provider reads as tokens of
    the session they were made for. *)
Definition recognises (e : env) (now : Z) : Prop :=
  forall h sid rules p s v s',
    dget (e_handlers e) "access_token" = Some h -> sid <> "" -> clear_of_words p ->
    handler_mint e now h sid rules None None p s = (Ok v, s') ->
    exists i, token_info e now v = Ok i /\ ti_sid i = sid.

(** The provider is in working order for the user [u] and the client [c]: there
    are handlers for the tokens, which can sign; the client is registered, and
    it is known which grant types it may use ([gts]); the users' attributes can
    be read and those of [u] do not collide with the handlers' own words; the
    claims the configuration asks for are well formed; an OpenID Connect
    provider has a handler and claims for ID tokens. *)
Record in_order (e : env) (now : Z) (u c : string) (gts : list string) : Prop := {
  io_handlers : forall tc, In tc ["access_token"; "refresh_token"] ->
    exists h, dget (e_handlers e) tc = Some h;
  io_sign : forall alg n p, exists v, e_sign e alg n p = Ok v;
  io_reads : recognises e now;
  io_client : exists cl, dget (e_clients e) c = Some cl
    /\ (c_grant_types cl = Some gts \/ c_grant_types cl = None /\ e_grant_types e = Some gts);
  io_helper : In "authorization_code" (e_helpers e);
  io_users : exists users, e_users e = Some users /\ clear_of_words (users u);
  io_claims : forall point m k sp, In (point, m) (e_modules e) ->
    In (k, sp) (m_base m) \/ In (k, sp) (m_always m) -> well_formed sp;
  io_id : e_oidc e = true -> exists h m,
    dget (e_handlers e) "id_token" = Some h /\ dget (e_modules e) "id_token" = Some m
}.

(** A refresh token is wanted: the application asks for it ([issue]) or, at an
    OpenID Connect provider, leaves it to the scope of the grant. *)
Definition wants_refresh (e : env) (g : grant) (issue : option bool) : Prop :=
  issue = Some true
  \/ e_oidc e = true /\ issue = None /\ In "offline_access" (g_scope g).

(** The token request [q] is the one its client has to make for the code with
    the text [v] that was given out for [ar]. *)
Definition right_request (q : treq) (v : string) (ar : areq) : Prop :=
  presents q v "authorization_code" /\ tr_client q = Some (ar_client_id ar)
  /\ forall uri, ar_redirect_uri ar = Some uri -> tr_redirect q = Some uri.

(** The same as it is sent, when the client may leave out its id. *)
Definition sent_request (q : treq) (v : string) (ar : areq) : Prop :=
  presents q v "authorization_code"
  /\ (tr_client q = None \/ tr_client q = Some (ar_client_id ar))
  /\ forall uri, ar_redirect_uri ar = Some uri -> tr_redirect q = Some uri.

(** If the PKCE add-on is on and the authorization request [ar] held a code
    challenge, the token request [q] holds the matching verifier. *)
Definition keeps_challenge (e : env) (q : treq) (ar : areq) : Prop :=
  e_pkce e = true -> forall ch, ar_code_challenge ar = Some ch ->
    exists m vf, ar_code_challenge_method ar = Some m /\ tr_verifier q = Some vf /\ matches e m vf ch.

(** The code [t] allows tokens of class [tc] to be minted from it. *)
Definition lets_mint (t : token) (tc : string) : Prop :=
  exists m, r_minting (t_rules t) = Some m /\ In tc m.

(** What has to be in the answer [a] to a request with the code [t] of the
    grant [g], which was made for [ar]. *)
Definition full_answer (e : env) (g : grant) (ar : areq) (t : token) (gts : list string)
    (issue : option bool) (a : tresp) : Prop :=
  rs_scope a = g_scope g
  /\ (exists v, rs_access a = Some v)
  /\ ((exists v, rs_refresh a = Some v) <->
      wants_refresh e g issue /\ lets_mint t "refresh_token" /\ In "refresh_token" gts)
  /\ ((exists v, rs_id a = Some v) <->
      e_oidc e = true /\ lets_mint t "id_token"
      /\ exists sc, ar_scope ar = Some sc /\ In "openid" sc).

(** The request [q] asks with the refresh token [t] of the grant [g] for no more
    than the chain above the token carries. *)
Definition asks_within (g : grant) (t : token) (q : treq) : Prop :=
  forall sc above, tr_scope q = Some sc -> inherited_scope (g_tokens g) (g_scope g) (t_based t) above ->
    incl sc above.

(** A new refresh token is wanted, when tokens for [scope] are made. *)
Definition wanted_again (e : env) (scope : list string) (issue : option bool) : Prop :=
  issue = Some true
  \/ e_oidc e = true /\ issue = None /\ In "offline_access" scope.

(** What has to be in the answer [a] to a request [q] with the refresh token [t]
    of the grant [g]. *)
Definition full_refresh (e : env) (g : grant) (t : token) (q : treq) (issue : option bool) (a : tresp) : Prop :=
  ((forall sc, tr_scope q = Some sc -> rs_scope a = sc)
   /\ (tr_scope q = None -> inherited_scope (g_tokens g) (g_scope g) (t_based t) (rs_scope a)))
  /\ (exists v, rs_access a = Some v)
  /\ ((exists v, rs_refresh a = Some v) <->
      wanted_again e (rs_scope a) issue /\ lets_mint t "refresh_token")
  /\ ((exists v, rs_id a = Some v) <->
      e_oidc e = true /\ lets_mint t "id_token" /\ In "openid" (rs_scope a)).
