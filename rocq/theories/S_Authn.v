(** Specification vocabulary for the authentication of users at the
    authorization endpoint. *)
From Verif Require Import M_Base M_Types M_Codec M_Grant M_Env M_Session M_TokenEP M_AuthzEP M_Uri M_Cookie M_Authn M_History
  S_Codec S_Grant S_History.

(** One of the cookies, made at [t], names the session [sid], which is one of the
    user [u] with the client [c]. *)
Definition names (K : aconf) (e : env) (cookies : list cookie) (c u sid : string) (t : Z) : Prop :=
  exists cs x d rest,
    parse_cookie (ac_lib K) (ac_handler K) (ac_cookie K) cookies = Ok (Some cs) /\ In x cs
    /\ ac_loads K (ct_value x) = Ok d /\ dget d "sid" = Some (JStr sid)
    /\ py_int (ct_time x) = Some t /\ dec_sid e sid = Ok (u :: c :: rest).

(** The user id [u] is not the base64 form of a JSON object. *)
Definition no_disguise (K : aconf) (u : string) : Prop :=
  forall text d, ac_unb64 K u = Ok (Some text) -> ac_loads K text <> Ok d.

(** The sessions that the cookies name are those of users with proper ids. The
    id of a session is never empty. *)
Definition usual (K : aconf) (e : env) (v : visit) : Prop :=
  forall c u sid t, names K e (vi_cookies v) c u sid t -> good_id u /\ no_disguise K u /\ sid <> "".

(** The request asks for a log-in that is not older than [a]: in its request
    object, or else by itself. *)
Definition asks_max_age (v : visit) (a : Z) : Prop :=
  a <> 0%Z
  /\ (dget (ar_other (vi_req v)) "upm_answer" <> Some "true")
  /\ match dget (vi_verified v) "__verified_request" with
     | Some d => dget d "max_age" = Some (JInt a)
     | None => ar_max_age (vi_req v) = Some a
     end.

Definition prompts_for (v : visit) (x : string) : Prop :=
  exists l, ar_prompt (vi_req v) = Some l /\ In x l.

(** A grant of [u] and [c] is live at [now], and so is the log-in behind it. *)
Definition logged_in (e : env) (now : Z) (h : hst) (u c gid : string) : Prop :=
  exists g ae, grant_of h gid g /\ belongs e g u c /\ grant_live g now
    /\ g_aevent g = Some ae /\ (now < ae_valid_until ae)%Z.
(** The same, except that the log-in has expired. *)
Definition log_in_expired (e : env) (now : Z) (h : hst) (u c gid : string) : Prop :=
  exists g ae, grant_of h gid g /\ belongs e g u c /\ grant_live g now
    /\ g_aevent g = Some ae /\ (ae_valid_until ae <= now)%Z.

(** The answer is a response to the client that carries what it asked for. *)
Definition success (r : ares) (a : aresp) : Prop := exists o, r = ROut o /\ ao_args o = Good a.

(** The user [u] has the value [v] for [attr], as its value or in its list of
    values. *)
Definition has_value (users : dict (dict jval)) (attr v u : string) : Prop :=
  exists args, In (u, args) users
    /\ (dget args attr = Some (JStr v) \/ exists l, dget args attr = Some (JList l) /\ In (JStr v) l).
(** The login hint is the mail address or the phone number of [u]. A number
    without a plus sign is a Swedish one, whose first digit is dropped. *)
Definition hint_for (users : dict (dict jval)) (hint u : string) : Prop :=
  (exists v, hint = append "mail:" v /\ has_value users "email" v u)
  \/ (exists v, hint = append "tel:+" v /\ has_value users "phone_number" (append "+" v) u)
  \/ (exists c v, hint = append "tel:" (String c v) /\ c <> "+"%char
       /\ has_value users "phone_number" (append "+46" v) u).

(** The response [a] carries a code of a grant of [u] and [c]. *)
Definition code_for (e : env) (s : st) (u c : string) (a : aresp) : Prop :=
  exists v gid g t, ap_code a = Some v /\ grant_of (mk_hst s []) gid g /\ belongs e g u c
    /\ In t (g_tokens g) /\ t_value t = v.
(** Every log-in of [u] at [c] that [s] knows of was at [t] or before. *)
Definition log_ins_until (s : st) (u : string) (c : string) (t : Z) : Prop :=
  forall gid g ar ae, grant_of (mk_hst s []) gid g -> g_areq g = Some ar -> ar_client_id ar = c ->
    g_aevent g = Some ae -> ae_uid ae = u -> (ae_authn_time ae <= t)%Z.

(** The Authorization header holds the name, percent-encoded, and the password of
    the user [u]: in base64, after the word Basic and another character, or
    alone. *)
Definition shows_password (K : aconf) (pw : dict string) (hdr u : string) : Prop :=
  exists code name p,
    ((exists c, hdr = append "Basic" (String c code)) \/ (hdr = "Basic" /\ code = "")
      \/ (hdr = code /\ ~ exists r, hdr = append "Basic" r))
    /\ ac_b64 K code = Ok (append name (append ":" p)) /\ ~ occurs_in ":" name /\ ~ occurs_in ":" p
    /\ unquote name = u /\ dget pw u = Some p.
