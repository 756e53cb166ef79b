(** Specification vocabulary for browsers. *)
From Verif Require Import M_Base M_Types M_Codec M_Grant M_Env M_Session M_TokenEP M_AuthzEP M_Cookie M_Authn
  M_History M_Browser S_Codec S_Grant S_History S_Cookie S_Authn.

(** JSON: what is read of the text of a session cookie is what was written, and
    the text does not end in a colon. *)
Record json_laws (K : aconf) : Prop := {
  law_json : forall sid st,
    ac_loads K (ac_dumps K [("sid", JStr sid); ("state", st)]) = Ok [("sid", JStr sid); ("state", st)];
  law_json_end : forall d, ~ ends_in ":" (ac_dumps K d)
}.
Record browser_laws (K : aconf) (e : env) : Prop := {
  bl_laws : laws e;
  bl_cookies : cookie_laws (ac_lib K);
  bl_usable : usable (ac_handler K);
  bl_json : json_laws K
}.

(** The provider reads the value [x] in the cookies. *)
Definition reads_value (K : aconf) (cookies : list cookie) (x : string) : Prop :=
  exists cs y, parse_cookie (ac_lib K) (ac_handler K) (ac_cookie K) cookies = Ok (Some cs)
    /\ In y cs /\ ct_value y = x.
(** The cookies that a browser sends are neither forged nor those of others: what
    the provider reads in them is what it reads in one of the cookies that it
    gave to that browser. *)
Definition its_own (K : aconf) (given sent : list cookie) : Prop :=
  forall x, reads_value K sent x -> exists c, In c given /\ reads_value K [c] x.

(** The calls that can come in the state [w]. The ids of clients and users are
    proper; those who log in do not have the base64 form of a JSON object for an
    id; the browsers send their own cookies. Authorizations come from browsers
    only. *)
Definition fair (K : aconf) (e : env) (w : bst) (o : bop) : Prop :=
  match o with
  | BVisit b _ _ _ _ _ _ _ v => good_id (ar_client_id (vi_req v)) /\ its_own K (jar w b) (vi_cookies v)
  | BLogin _ _ _ ar uid _ _ _ _ => good_id (ar_client_id ar) /\ good_id uid /\ no_disguise K uid
  | BCall (OAuthorize _ _ _ _ _ _ _ _ _) | BCall (OLogin _ _ _ _ _ _ _) => False
  | BCall _ => True
  end.

(** The calls [ops], which were answered by [evs], lead from [w0] to [w]. *)
Inductive bfuture (K : aconf) (e : env) (w0 : bst) : list bop -> list bevent -> bst -> Prop :=
| bf_same : bfuture K e w0 [] [] w0
| bf_more ops evs w o ev w' : bfuture K e w0 ops evs w -> fair K e w o -> bstep K e w o = (ev, w') ->
    bfuture K e w0 (ops ++ [o]) (evs ++ [ev]) w'.
(** [w] is reached from a new provider, and browsers without cookies. *)
Definition bhistory (K : aconf) (e : env) (ops : list bop) (evs : list bevent) (w : bst) : Prop :=
  exists always, bfuture K e (b_init always) ops evs w.

(** In the [j]-th call the user [u] logged in with the browser [b], for a request
    of the client [c], and got a response. *)
Definition logs_in (ops : list bop) (evs : list bevent) (j : nat) (b u c : string) : Prop :=
  exists now iframe ar acr exp_in iv uri o ck,
    nth_error ops j = Some (BLogin b now iframe ar u acr exp_in iv uri) /\ ar_client_id ar = c
    /\ nth_error evs j = Some (BDone (Ok (o, Some ck))).

(** In the [j]-th call somebody logged in as [u] with the browser [b], for the
    request [ar]; whatever the response was. *)
Definition log_in_call (ops : list bop) (j : nat) (b u : string) (ar : areq) : Prop :=
  exists now iframe acr exp_in iv uri, nth_error ops j = Some (BLogin b now iframe ar u acr exp_in iv uri).

(** Every grant of [u] and [c] is revoked. *)
Definition all_revoked (e : env) (h : hst) (u c : string) : Prop :=
  forall gid g, grant_of h gid g -> belongs e g u c -> g_revoked g = true.
