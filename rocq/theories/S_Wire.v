(** Specification vocabulary for requests that come over the wire. *)
From Verif Require Import M_Base M_Uri M_Redirect S_Redirect M_Types M_Codec M_Grant M_Env M_Session M_Claims M_Handler
  M_Authz M_TokenEP M_PKCE M_AuthzEP M_Info M_Logout M_History M_ClientAuthn M_Wire
  S_Codec S_Grant S_History S_ClientAuthn.

(** The client database has proper client ids and redirect URIs, and reading the
    members of a request keeps its client and its redirect URI. *)
Record sound_front (fr : front) : Prop := {
  sf_ids : forall c info, dget (pc_cdb (fr_conf fr)) c = Some info -> good_id c;
  sf_uris : proper_clients (pc_cdb (fr_conf fr));
  sf_client : forall r c, dget r "client_id" = Some c -> ar_client_id (fr_read fr r) = c;
  sf_redirect : forall r u, dget r "redirect_uri" = Some u -> ar_redirect_uri (fr_read fr r) = Some u
}.

(** Calls that do not come over the wire. *)
Definition internal (o : op) : Prop :=
  match o with
  | OParse _ _ _ | OIntrospect _ _ _ | OUserinfo _ _ | OAuthorize _ _ _ _ _ _ _ _ _ | OLogin _ _ _ _ _ _ _ => False
  | _ => True
  end.
(** The calls that can come: user ids are proper identifiers, a cookie that
    names a session names one of its user, and a log-in page is for a request
    with a proper client id. *)
Definition wproper (sv : server) (e : env) (o : wop) : Prop :=
  match o with
  | WCall o => internal o /\ proper e o
  | WAuthorize _ _ _ _ _ _ _ _ _ (AUser u sid) =>
      good_id u /\ forall s u' c g, sid = Some s -> dec_sid3 e s = Ok (u', c, g) -> u' = u
  | WLogin _ _ rq uid _ _ => good_id uid /\ good_id (ar_client_id (fr_read (sv_front sv) rq))
  | _ => True
  end.

(** [w] is reached from a new provider, set up with [al], by the calls [ops],
    which were answered by [evs]. *)
Definition setting : Type := dict (dict (list string)).
Definition whistory (sv : server) (e : env) (al : setting) (ops : list wop) (evs : list wevent) (w : world)
  : Prop := sound_front (sv_front sv) /\ Forall (wproper sv e) ops /\ wexec sv e (w_init al) ops = (evs, w).

(** The [i]-th call processed the token request [q] and answered it by [a]. *)
Definition wanswer_at (evs : list wevent) (i : nat) (q : treq) (a : tresp) : Prop :=
  nth_error evs i = Some (WDone (EvToken q (Ok (Good a)))).

(** The call [o], made in the state [h], reached the endpoint [ep] at [now] with
    the credentials in [q] and [hdr]. *)
Definition reached (sv : server) (e : env) (h : hst) (o : wop) (ep : cendpoint) (now : Z) (q : creq)
    (hdr : option string) : Prop :=
  match o with
  | WToken now' q' hdr' _ => ep = sv_token sv /\ now' = now /\ q' = q /\ hdr' = hdr
  | WIntrospect now' q' hdr' _ _ => ep = sv_intro sv /\ now' = now /\ q' = q /\ hdr' = hdr
  | WUserinfo now' q' hdr' => ep = user_endpoint sv e now' h /\ now' = now /\ q' = q /\ hdr' = hdr
  | WPush now' q' hdr' _ _ => ep = fr_par (sv_front sv) /\ now' = now /\ q' = q /\ hdr' = hdr
  | WAuthorize now' q' hdr' _ _ _ _ _ _ _ => ep = fr_authz (sv_front sv) /\ now' = now /\ q' = q /\ hdr' = hdr
  | WLogin _ _ _ _ _ _ | WCall _ => False
  end.

(** The [j]-th call was [o]; its credentials [q] and [hdr] were accepted by the
    endpoint [ep] at [now], with the outcome [i]. *)
Definition accepted (sv : server) (e : env) (al : setting) (ops : list wop) (j : nat) (o : wop)
    (ep : cendpoint) (now : Z) (q : creq) (hdr : option string) (i : option ainfo) : Prop :=
  nth_error ops j = Some o
  /\ exists evs w db, whistory sv e al (firstn j ops) evs w /\ reached sv e (w_h w) o ep now q hdr
     /\ client_authentication (sv_auth sv) now ep q hdr (w_jtis w) = (Ok i, db).

(** The request carries the secret registered for [c], in the header or in the
    body. *)
Definition shows_secret (sv : server) (q : creq) (hdr : option string) (c : string) : Prop :=
  exists x, has_secret (sv_auth sv) c x /\ (basic_header (sv_auth sv) hdr c x \/ body_secret q c x).

(** The request carries an assertion that the library accepts, issued by [c] and
    addressed to [ep]. *)
Definition shows_assertion (sv : server) (ep : cendpoint) (now : Z) (q : creq) (c : string) : Prop :=
  exists text a x, cr_assertion q = Some text /\ a_unpack (sv_auth sv) now text = Ok a
    /\ as_iss a = c /\ In x (as_aud a) /\ In x (ep_targets ep).

(** The request carries the text [t] as a bearer token, in the header or in the
    body. *)
Definition bears (q : creq) (hdr : option string) (t : string) : Prop :=
  hdr = Some (append "Bearer " t) \/ cr_access_token q = Some t.

(** ** What leaves the provider *)

(** The authorization response [a] carries the text [v] as a token of class
    [tc]. *)
Definition carries (a : aresp) (v tc : string) : Prop :=
  (tc = "authorization_code" /\ ap_code a = Some v)
  \/ (tc = "access_token" /\ ap_access a = Some v)
  \/ (tc = "id_token" /\ ap_id a = Some v).

(** [ev] is the authorization response [a], which [o] delivers. *)
Definition delivers (ev : wevent) (o : aout) (a : aresp) : Prop :=
  (ev = WDone (EvAuthorize (Ok (ROut o))) \/ ev = WDone (EvLogin (Ok o))) /\ ao_args o = Good a.

(** The text [v] leaves the provider with [ev], as a token of class [tc]: in an
    authorization response or in a token response. *)
Definition sent (ev : wevent) (v tc : string) : Prop :=
  (exists o a, delivers ev o a /\ carries a v tc)
  \/ (exists q a, ev = WDone (EvToken q (Ok (Good a))) /\ hands_out a v tc).

(** The authorization request of the call names a redirect URI. Requests over
    the wire are given the registered one where they do not. *)
Definition with_redirect (o : wop) : Prop :=
  match o with WLogin _ _ rq _ _ _ => exists u, dget rq "redirect_uri" = Some u | _ => True end.

(** The library leaves the client and the reference of a request as they are. *)
Definition keeps_members (fr : front) : Prop :=
  forall c rq r k, fr_object fr c rq = Ok (Some r) -> k = "client_id" \/ k = "request_uri" -> dget r k = dget rq k.
