(** Specification vocabulary for what the tokens a provider signs say. *)
From Verif Require Import M_Base M_Types M_Codec M_Grant M_Env M_Session M_Claims M_Handler M_TokenEP M_AuthzEP M_History
  S_Claims S_History S_AuthzResp S_Release.

(** The members of an ID token that are not about the user but about the
    authentication, the parties and the tokens that come with it. *)
Definition id_members : list string :=
  ["iss"; "aud"; "iat"; "exp"; "sub"; "nonce"; "auth_time"; "acr"; "c_hash"; "at_hash";
   "sid"; "scope"; "jti"; "cnf"; "client_id"].
(** Likewise for the other signed tokens. *)
Definition jwt_members : list string :=
  ["iss"; "aud"; "iat"; "exp"; "sub"; "acr"; "sid"; "token_class"; "scope"; "jti"; "cnf"; "client_id"].

(** The scope [x] is one the request [ar] could be granted: the policy of the
    provider fixes it, or it was asked for. *)
Definition may_have (e : env) (ar : areq) (x : string) : Prop :=
  (exists sc, gc_scope (e_authz e) = Some sc /\ In x sc) \/ (exists sc, ar_scope ar = Some sc /\ In x sc).

(** The provider is configured to release [k] in ID tokens to the client of
    [ar], or lists it for the client's userinfo: the code appends the second
    list to the first when an ID token is all that was asked for. *)
Definition listed_for_userinfo (e : env) (always : dict (dict (list string))) (ar : areq) (point k : string) : Prop :=
  point = "id_token" /\ exists m cfg l, In (point, m) (e_modules e) /\ m_per_client m = true
    /\ dget always (ar_client_id ar) = Some cfg /\ In ("userinfo", l) cfg /\ In k l.

(** The member [k], with value [x], is an attribute of the user [u] that may be
    put in a token made for the request [ar] at the release point [point] (for
    an ID token that stands alone, also by the rules of [second], userinfo). *)
Definition token_claim (e : env) (always : dict (dict (list string))) (ar : areq) (point second u k : string)
    (x : jval) : Prop :=
  (exists sc, (forall s, In s sc -> may_have e ar s)
     /\ (asked_for e (st_init always) (Some ar) point (Some sc) (ar_client_id ar) second k
         \/ listed_for_userinfo e always ar point k))
  /\ (exists users, e_users e = Some users /\ dget (users u) k = Some x)
  /\ (forall sp, request_says ar point k sp -> claims_match (Some x) sp = Ok true).

(** The client [ci] has an address at which it wants to be told of log-outs, and
    the provider is set up to say which session was ended. *)
Definition wants_session (e : env) (ci : client) : Prop :=
  (e_bc_sid e = true /\ c_bc_logout ci = true) \/ (e_fc_sid e = true /\ c_fc_logout ci = true).
(** What an ID token with members [p] says about the session: its identifier
    is that of a session of [u] with the client. Only for a client that does not
    want to be told of log-outs can an attribute "sid" of the user be there in
    its place. *)
Definition tells_session (e : env) (always : dict (dict (list string))) (ar : areq) (second u : string) (ci : client)
    (p : dict jval) : Prop :=
  exists sid gid, dec_sid e sid = Ok [u; ar_client_id ar; gid]
    /\ (wants_session e ci -> dget p "sid" = Some (JStr sid))
    /\ (proper_dicts e ar -> exists x, dget p "sid" = Some x
          /\ (x = JStr sid \/ token_claim e always ar "id_token" second u "sid" x)).

(** An ID token [v] of life time [lt], made at [now] for the request [ar] of
    [u], who authenticated as [ae] says. *)
Definition id_token_says (e : env) (always : dict (dict (list string))) (now lt : Z) (u : string) (ar : areq)
    (ae : aevent) (second v : string) : Prop :=
  exists ci alg n p, dget (e_clients e) (ar_client_id ar) = Some ci /\ due_alg e ci alg
    /\ e_sign e alg n p = Ok v
    /\ (lt <> 0%Z -> dget p "exp" = Some (JInt (now + lt)))
    /\ (ae_authn_time ae <> 0%Z -> dget p "auth_time" = Some (JInt (ae_authn_time ae)))
    /\ (ae_authn_info ae <> "" -> dget p "acr" = Some (JStr (ae_authn_info ae)))
    /\ (proper_dicts e ar -> forall k x, dget p k = Some x ->
          In k id_members \/ token_claim e always ar "id_token" second u k x)
    /\ (proper_dicts e ar -> e_oidc e = true -> forall k sp users x, request_says ar "id_token" k sp ->
          e_users e = Some users -> dget (users u) k = Some x -> claims_match (Some x) sp = Ok true ->
          ~ In k id_members -> dget p k = Some x)
    /\ tells_session e always ar second u ci p.

(** A signed access token [v]. *)
Definition access_token_says (e : env) (always : dict (dict (list string))) (alg u : string) (ar : areq)
    (v : string) : Prop :=
  exists n p, e_sign e alg n p = Ok v
    /\ (proper_dicts e ar -> forall k x, dget p k = Some x ->
          In k jwt_members \/ token_claim e always ar "access_token" "" u k x).

(** When an ID token is all that a request asks for, the rules of userinfo apply
    to it too. *)
Definition alone (ar : areq) : string := match ar_response_type ar with [_] => "userinfo" | _ => "" end.

(** The signed tokens among those of a response. *)
Definition signed_as_due (e : env) (always : dict (dict (list string))) (now : Z) (u : string) (ar : areq) (ae : aevent)
    (second : string) (id access : option string) : Prop :=
  (forall v lt, id = Some v -> dget (e_handlers e) "id_token" = Some (HId lt) ->
     id_token_says e always now lt u ar ae second v)
  /\ (forall v cls alg iss lt, access = Some v -> dget (e_handlers e) "access_token" = Some (HJWT cls alg iss lt) ->
       access_token_says e always alg u ar v).
