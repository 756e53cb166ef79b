(** Specification vocabulary for the log-in form. *)
From Verif Require Import M_Base M_Types M_Grant M_Env M_Session M_TokenEP M_AuthzEP M_Cookie M_Authn
  M_History M_Browser M_Form S_Grant S_History S_AuthzResp S_Authn S_Browser.

(** A signed token says what was put in it, and when it was made; the signer adds
    its name and that time. *)
Record form_laws (L : lconf) : Prop := {
  fl_pack : forall now d, exists d', lc_unpack L (lc_pack L now d) = Ok d'
    /\ dget d' "iat" = Some (JInt now)
    /\ forall k, k <> "iss" -> k <> "iat" -> dget d' k = dget d k;
  fl_users : forall u p, dget (lc_db L) u = Some p -> u <> "" -> good_id u
}.

(** The form holds the name [u] of a user, and this user's password. *)
Definition right_password (L : lconf) (form : dict string) (u : string) : Prop :=
  exists p, dget form "username" = Some u /\ dget form "password" = Some p /\ dget (lc_db L) u = Some p.

(** The calls that can come. Tokens cannot be forged: what verifies as the token
    of a log-in page was in a page. The requests survive being written as a query
    and read again. The rest is as for browsers. *)
Definition fair_l (L : lconf) (K : aconf) (e : env) (w : lst) (o : lop) : Prop :=
  match o with
  | LVisit b now deny iframe acr exp_in iv uri v =>
      fair K e (l_b w) (BVisit b now deny iframe acr exp_in iv uri v)
      /\ lc_read L (lc_write L (vi_req v)) = Ok (vi_req v)
  | LForm b now iframe exp_in iv uri form =>
      (forall tok d q, dget form "token" = Some tok -> lc_unpack L tok = Ok d -> dget d "query" = Some q ->
         In tok (l_shown w))
      /\ (forall u, right_password L form u -> no_disguise K u)
  | LCall o => fair K e (l_b w) (BCall o)
  end.
Inductive lfuture (L : lconf) (K : aconf) (e : env) (w0 : lst) : list lop -> list levent -> lst -> Prop :=
| lf_same : lfuture L K e w0 [] [] w0
| lf_more ops evs w o ev w' : lfuture L K e w0 ops evs w -> fair_l L K e w o -> lstep L K e w o = (ev, w') ->
    lfuture L K e w0 (ops ++ [o]) (evs ++ [ev]) w'.
Definition lhistory (L : lconf) (K : aconf) (e : env) (ops : list lop) (evs : list levent) (w : lst) : Prop :=
  exists always, lfuture L K e (l_init always) ops evs w.

(** In the [j]-th call the browser [b] was shown a log-in page with the token
    [tok], for the request [ar] and with the context class [acr]. *)
Definition shown_page (ops : list lop) (evs : list levent) (j : nat) (b : string) (ar : areq) (acr tok : string) : Prop :=
  exists now deny iframe exp_in iv uri v,
    nth_error ops j = Some (LVisit b now deny iframe acr exp_in iv uri v) /\ vi_req v = ar
    /\ nth_error evs j = Some (LPage tok).
(** The [k]-th call was a form of the browser [b] with the token [tok] and the name
    and password of [u]; it got a response. *)
Definition form_done (L : lconf) (ops : list lop) (evs : list levent) (k : nat) (b u tok : string) (out : aout) : Prop :=
  exists now iframe exp_in iv uri form c,
    nth_error ops k = Some (LForm b now iframe exp_in iv uri form) /\ right_password L form u
    /\ dget form "token" = Some tok /\ nth_error evs k = Some (LDone (Ok (out, c))).
(** The user [u] has given the password with the browser [b], on a page for a
    request of the client [c]. *)
Definition gave_password (L : lconf) (ops : list lop) (evs : list levent) (b u c : string) : Prop :=
  exists k j b' ar acr tok out, form_done L ops evs k b u tok out /\ shown_page ops evs j b' ar acr tok /\ j < k
    /\ ar_client_id ar = c.

(** Somebody has sent, with the browser [b], a form with the name and password of
    [u], from a page shown before for a request of the client [c]; whatever the
    response was. *)
Definition sent_password (L : lconf) (ops : list lop) (evs : list levent) (b u c : string) : Prop :=
  exists k now iframe exp_in iv uri form tok j b' ar acr,
    nth_error ops k = Some (LForm b now iframe exp_in iv uri form) /\ right_password L form u
    /\ dget form "token" = Some tok /\ shown_page ops evs j b' ar acr tok /\ j < k /\ ar_client_id ar = c.
