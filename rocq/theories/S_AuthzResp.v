(** Specification vocabulary for what an authorization response carries. *)
From Verif Require Import M_Base M_Types M_Codec M_Grant M_Env M_Session M_Handler M_TokenEP M_AuthzEP M_History
  S_Claims S_History.

(** [t] expires [said] seconds after [now], or never. *)
Definition lasts (now : Z) (said : option Z) (t : token) : Prop :=
  match said with
  | Some x => t_exp t <> 0%Z /\ t_exp t = (now + x)%Z
  | None => t_exp t = 0%Z
  end.

(** The response has the state of the request, if that is not empty. *)
Definition same_state (ar : areq) (a : aresp) : Prop :=
  forall x, ap_state a = Some x <-> ar_state ar = Some x /\ x <> "".
(** If scopes were asked for, the response tells those that the client may have. *)
Definition tells_scopes (e : env) (ar : areq) (a : aresp) : Prop :=
  match ap_scope a with
  | Some l => exists asked, ar_scope ar = Some asked /\ forall x, In x l <-> In x asked /\ scope_allowed e (ar_client_id ar) x
  | None => ar_scope ar = None \/ ar_scope ar = Some []
  end.
(** It tells how long the access token of the grant [g] lasts. *)
Definition tells_time (now : Z) (g : grant) (a : aresp) : Prop :=
  match ap_access a with
  | Some v => exists t, In t (g_tokens g) /\ t_value t = v /\ t_class t = "access_token" /\ lasts now (ap_expires a) t
  | None => ap_expires a = None
  end.

(** The parameter [o] is there exactly if [x] is one of the response types. *)
Definition as_asked (ar : areq) (x : string) (o : option string) : Prop :=
  (exists v, o = Some v) <-> In x (ar_response_type ar).

(** Every text in [o] is a token of class [tc] that the grant [g] holds, that
    was made from no other token, and that was not known before. *)
Definition new_token (h : hst) (g : grant) (tc : string) (o : option string) : Prop :=
  forall v, o = Some v ->
    ~ known h v
    /\ exists t, In t (g_tokens g) /\ t_value t = v /\ t_class t = tc /\ t_based t = None.

(** The claim [name] is the hash of [o], made with the digest of the algorithm
    [alg], whose size is in its last three characters. *)
Definition hash_claim (e : env) (alg : string) (p : dict jval) (name : string) (o : option string) : Prop :=
  forall v pre d, o = Some v -> alg = append pre d -> String.length d = 3 ->
    dget p name = Some (JStr (e_left_hash e (append "HS" d) v)).

(** The algorithm for the ID tokens of a client: the one it registered; otherwise
    the provider's default; otherwise RS256, or the first that the provider supports if
    it supports some, but not RS256. *)
Definition due_alg (e : env) (ci : client) (alg : string) : Prop :=
  c_idt_alg ci = Some alg
  \/ (c_idt_alg ci = None /\ e_idt_alg_def e = Some alg)
  \/ (c_idt_alg ci = None /\ e_idt_alg_def e = None
      /\ ((alg = "RS256" /\ (e_idt_algs e = [] \/ In "RS256" (e_idt_algs e)))
          \/ (~ In "RS256" (e_idt_algs e) /\ exists r, e_idt_algs e = alg :: r))).

(** [v] is an ID token for the client [c] of the request [ar], about the user
    [u], signed with the algorithm due to the client, and bound to the request's
    nonce, to the code and to the access token. *)
Definition id_token_for (e : env) (now : Z) (u : string) (ar : areq) (code access : option string)
    (v : string) : Prop :=
  exists ci alg n p, dget (e_clients e) (ar_client_id ar) = Some ci /\ due_alg e ci alg
    /\ e_sign e alg n p = Ok v
    /\ dget p "iss" = Some (JStr (e_issuer e))
    /\ dget p "aud" = Some (JList [JStr (ar_client_id ar)])
    /\ dget p "iat" = Some (JInt now)
    /\ dget p "sub" = Some (JStr (e_sub e u (ar_sector ar)))
    /\ dget p "nonce" = option_map JStr (ar_nonce ar)
    /\ hash_claim e alg p "c_hash" code
    /\ hash_claim e alg p "at_hash" access.

(** The response [a] to the request [ar], with which the state went from [h] to
    [h'], is one for the user [u]. *)
Definition answers (e : env) (now : Z) (h h' : hst) (u : string) (ar : areq) (a : aresp) : Prop :=
  same_state ar a /\
  ((ar_response_type ar = ["none"] /\ ap_scope a = None /\ ap_expires a = None
    /\ ap_code a = None /\ ap_access a = None /\ ap_id a = None)
  \/ (tells_scopes e ar a
      /\ as_asked ar "code" (ap_code a) /\ as_asked ar "token" (ap_access a) /\ as_asked ar "id_token" (ap_id a)
      /\ incl (ar_response_type ar) ["code"; "token"; "id_token"]
      /\ exists gid g, grant_of h' gid g /\ belongs e g u (ar_client_id ar) /\ g_areq g = Some ar
         /\ new_token h g "authorization_code" (ap_code a)
         /\ new_token h g "access_token" (ap_access a) /\ tells_time now g a
         /\ new_token h g "id_token" (ap_id a)
         /\ forall v lt, ap_id a = Some v -> dget (e_handlers e) "id_token" = Some (HId lt) ->
              id_token_for e now u ar (ap_code a) (ap_access a) v)).
