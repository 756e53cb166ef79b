(** Specification vocabulary for what the authorization endpoint must answer. *)
From Verif Require Import M_Base M_Types M_Codec M_Grant M_Env M_Session M_Claims M_Handler
  M_Authz M_TokenEP M_AuthzEP M_Info M_Logout M_History S_Grant S_History S_Answer.

(** The provider can answer with a code: it has a handler of codes, and its
    authorization policy gives grants a life time that is not negative. *)
Record gives_codes (e : env) : Prop := {
  gv_handler : exists h, dget (e_handlers e) "authorization_code" = Some h;
  gv_policy : e_implicit e = false;
  gv_life : forall x, gc_exp (e_authz e) = Some x -> (0 <= x)%Z;
  gv_limit : 0 < e_limit e
}.

(** The request [ar] is one for a code, which is to be delivered by redirection
    or by a form. *)
Definition asks_for_code (ar : areq) : Prop :=
  ar_response_type ar = ["code"]
  /\ (ar_response_mode ar = None \/ ar_response_mode ar = Some "query" \/ ar_response_mode ar = Some "form_post").

(** The answer [o] to [ar] is an authorization response for the client at
    [uri]: it has the code [v] and the state of the request and no other token,
    and it is delivered the way the request asks for. *)
Definition answers_with_code (ar : areq) (uri v : string) (o : aout) : Prop :=
  (exists a, ao_args o = Good a /\ ap_code a = Some v /\ ap_access a = None /\ ap_id a = None
     /\ (forall x, ar_state ar = Some x -> x <> "" -> ap_state a = Some x))
  /\ ao_uri o = Some uri /\ (ao_form o = true <-> ar_response_mode ar = Some "form_post")
  /\ ao_frag o <> Some true.

(** The code [v] is recorded in a grant that was made for the request [ar] of
    the user [u]. *)
Definition code_recorded (h : hst) (ar : areq) (u v : string) : Prop :=
  exists gid g ae t, grant_of h gid g /\ g_areq g = Some ar /\ g_aevent g = Some ae /\ ae_uid ae = u
    /\ In t (g_tokens g) /\ t_value t = v /\ t_class t = "authorization_code".

(** The session id [sid] names a session of the user [u] with the client [c]
    whose grant [g] is live, and the user's authentication counts at [now]. *)
Definition signed_on (e : env) (now : Z) (h : hst) (u c sid : string) (g : grant) : Prop :=
  sid <> "" /\ exists gid l ae, dec_sid3 e sid = Ok (u, c, gid)
    /\ db_get [u; c; gid] (h_st h) = (Ok l, h_st h) /\ nth_error (s_heap (h_st h)) l = Some (OGrant g)
    /\ grant_live g now /\ g_aevent g = Some ae /\ ae_uid ae = u /\ (now < ae_valid_until ae)%Z.

(** The request does not ask for a new log-in. *)
Definition no_new_login (ar : areq) : Prop := forall p, ar_prompt ar = Some p -> ~ In "login" p.

(** The usage rules of the codes of the client [c] (what they are is C20). *)
Definition code_rule (e : env) (c : string) : rule :=
  usage_rules_for (gc_rules (e_authz e)) (e_clients e) c "authorization_code".

(** A code of [c] that is made at [now] can be redeemed at [now']: neither its
    own life time nor that of the grant is over. *)
Definition code_lasts (e : env) (c : string) (now now' : Z) : Prop :=
  (forall x, r_exp (code_rule e c) = Some x -> x <> 0%Z -> (now' <= now + x)%Z)
  /\ (forall x, gc_exp (e_authz e) = Some x -> (now' <= now + x)%Z).

(** Codes may be exchanged for access tokens. *)
Definition code_mints (e : env) (c : string) : Prop :=
  forall m, r_minting (code_rule e c) = Some m -> In "access_token" m.

(** The provider recognises at [now'] the codes it made at [now]: it reads
    their texts as those of tokens of the session they were made for. *)
Definition reads_codes (e : env) (now now' : Z) : Prop :=
  forall h sid rules p s v s',
    dget (e_handlers e) "authorization_code" = Some h -> sid <> "" -> clear_of_words p ->
    handler_mint e now h sid rules None None p s = (Ok v, s') ->
    exists i, token_info e now' v = Ok i /\ ti_sid i = sid.
