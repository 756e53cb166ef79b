(** Specification vocabulary for what a token response says about the tokens in
    it. *)
From Verif Require Import M_Base M_Types M_Codec M_Grant M_Env M_Session M_Handler M_TokenEP M_AuthzEP M_History
  S_Claims S_History S_AuthzResp.

(** The token type [said] in a response is the one [kept] with the token. The
    two spellings of bearer are the same type. *)
Definition same_type (said kept : option string) : Prop :=
  said = kept \/ (said = Some "Bearer" /\ kept = Some "bearer").

(** The response [a], given at time [now], describes the access token [t], which
    was made from the token [p]. *)
Definition describes (now : Z) (p : string) (a : tresp) (t : token) : Prop :=
  rs_access a = Some (t_value t) /\ t_class t = "access_token" /\ t_based t = Some p
  /\ t_issued t = now /\ lasts now (rs_expires a) t /\ same_type (rs_type a) (t_type t)
  /\ t_scope t = rs_scope a.

(** The response [a] to [q], which presented the token [p], is one about the
    grant [g] that [u] gave with the request [ar]. *)
Definition token_answer (e : env) (now : Z) (q : treq) (g : grant) (u : string) (ar : areq) (p : string)
    (a : tresp) : Prop :=
  belongs e g u (ar_client_id ar) /\ g_areq g = Some ar /\ tr_client q = Some (ar_client_id ar)
  /\ (exists pc, presents q p pc /\ in_grant g p pc)
  /\ (exists t, In t (g_tokens g) /\ describes now p a t)
  /\ (forall v, rs_id a = Some v -> drawn_from g p v "id_token")
  /\ (forall v lt, rs_id a = Some v -> dget (e_handlers e) "id_token" = Some (HId lt) ->
        id_token_for e now u ar None None v).

(** Every scope the request [ar] asks for is one its client may have. *)
Definition asks_allowed (e : env) (ar : areq) : Prop :=
  forall sc x, ar_scope ar = Some sc -> In x sc -> scope_allowed e (ar_client_id ar) x.

(** Unknown scopes are denied: by the endpoint itself (deny_unknown_scopes), or
    because a log-in follows only such a request. *)
Definition screened (e : env) (o : op) : Prop :=
  match o with
  | OAuthorize _ deny _ ar _ _ _ _ _ => deny = true \/ asks_allowed e ar
  | OLogin _ _ ar _ _ _ _ => asks_allowed e ar
  | _ => True
  end.
(** The policy of the provider gives grants no scope of its own that a client
    may not have. *)
Definition modest (e : env) : Prop :=
  forall sc x c, gc_scope (e_authz e) = Some sc -> In x sc -> scope_allowed e c x.
