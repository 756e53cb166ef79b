(** Property theorems about how a response reaches the client (C49, C50). *)
From Verif Require Import M_Base M_Uri M_Types M_Codec M_Grant M_Env M_Session M_Claims M_Handler
  M_Authz M_TokenEP M_PKCE M_AuthzEP M_Info M_Logout M_History M_Redirect M_Response S_Codec S_Grant S_Store S_Toy
  S_History S_Hex S_Resp S_Response L_Base L_Hex L_Info L_Response L_UserinfoResp P_History P_Info P_AuthzResp.

(** A response of the authorization endpoint that is not a form leads to the
    page of the redirect URI. In the place that the response mode calls for, the
    client reads there the state of its request, the code, the access token and
    the ID token of the response, the issuer and its own identifier, unchanged,
    and no error; all that stood in the query of its URI before is still there.
    The URI has no "#" (see [C49_fragment_refuted]). *)
Theorem C49_endpoint_answer : forall e now iframe ar sid uri s o s' a c desc ss cookies,
  authz_part2 e now iframe ar sid uri s = (Ok o, s') -> ao_args o = Good a -> rc_place c = PUrl ->
  delivery o <> "form_post" ->
  exists v, uri = Some v /\ forall p, has_char "#" v = false -> urlsplit v = Ok p ->
  exists out r P, do_response c (delivered ar desc ss cookies o) = Ok out /\ ro_response out = Some r
    /\ reaches (delivery o) p P r
    /\ (forall x, P "state" x <-> ar_state ar = Some x /\ x <> EmptyString)
    /\ (forall x, P "code" x <-> ap_code a = Some x)
    /\ (forall x, P "access_token" x <-> ap_access a = Some x)
    /\ (forall x, P "id_token" x <-> ap_id a = Some x)
    /\ (forall x, P "iss" x <-> x = e_issuer e)
    /\ (forall x, P "client_id" x <-> x = ar_client_id ar)
    /\ (forall x, ~ P "error" x).
Proof. exact endpoint_answer. Qed.
Print Assumptions C49_endpoint_answer.

(** Every response, an error too, that has a return URI and is not a form says
    exactly its parameters. *)
Theorem C49_url_answer : forall c ar desc ss cookies o v p,
  rc_place c = PUrl -> ao_form o = false -> ao_uri o = Some v -> has_char "#" v = false -> urlsplit v = Ok p ->
  exists out r, do_response c (delivered ar desc ss cookies o) = Ok out /\ ro_response out = Some r
    /\ reaches (delivery o) p (says (smem "scope" (rc_joined c)) ar desc ss o) r.
Proof. exact url_answer. Qed.
Print Assumptions C49_url_answer.

(** A form posts exactly the parameters to the redirect URI, provided that
    neither has a quotation mark or an ampersand in it. *)
Theorem C49_form_answer : forall c ar desc ss cookies o v,
  ao_form o = true -> ao_uri o = Some v -> plain_attr v -> (forall n x, says true ar desc ss o n x -> plain_attr x) ->
  exists out r fields, do_response c (delivered ar desc ss cookies o) = Ok out /\ ro_response out = Some r
    /\ ro_placement out = Some "body" /\ In ("Content-type", "text/html") (ro_headers out)
    /\ posts r v fields /\ (forall n x, In (n, x) fields <-> says true ar desc ss o n x).
Proof. exact form_answer. Qed.
Print Assumptions C49_form_answer.

(** No response of any endpoint may be stored by a cache, and cookies and
    status codes are passed on. *)
Theorem C49_no_store : forall c a o, do_response c a = Ok o ->
  In ("Cache-Control", "no-store") (ro_headers o) /\ In ("Pragma", "no-cache") (ro_headers o)
  /\ ro_cookie o = ra_cookie a /\ ro_code o = ra_code a.
Proof. exact response_nocache. Qed.
Print Assumptions C49_no_store.

(** Every response says exactly one content type, which is the caller's if there
    is one; the other headers are the caller's and the two above. *)
Theorem C49_one_content_type : forall c a o,
  do_response c a = Ok o -> ra_ctype a <> Some "" ->
  (forall hs, ra_headers a = Some hs -> List.length (content_types hs) <= 1) ->
  exists x, content_types (ro_headers o) = [x] /\ (forall ct, ra_ctype a = Some ct -> x = ct)
    /\ (forall n v, n <> "Content-type" ->
          (In (n, v) (ro_headers o) <->
           (n = "Pragma" /\ v = "no-cache") \/ (n = "Cache-Control" /\ v = "no-store")
           \/ exists hs, ra_headers a = Some hs /\ In (n, v) hs)).
Proof. exact one_content_type. Qed.
Print Assumptions C49_one_content_type.

(** If the user would have to log in but may not be asked to, and the request
    names no response mode, the client is told so, with its state: in the query
    if it asked for a code alone, in the fragment otherwise. *)
Theorem C49_login_required : forall c ar ru p,
  rc_place c = PUrl -> ar_response_mode ar = None -> ar_response_type ar <> [] -> has_char "#" ru = false -> urlsplit ru = Ok p ->
  exists a out r, login_required_args ar ru = Ok a /\ do_response c a = Ok out /\ ro_response out = Some r
    /\ exists mode, reaches mode p
         (fun n x => (n = "error" /\ x = "login_required") \/ (n = "state" /\ ar_state ar = Some x)) r
    /\ (mode = "query" <-> ar_response_type ar = ["code"]).
Proof. exact login_required_sent. Qed.
Print Assumptions C49_login_required.

(** ** Examples *)

Definition authz_class : rclass := mk_rclass FUrlencoded PUrl ["scope"] (fun _ => "").
Definition sent_by (e : env) (h : hst) (o : op) (ar : areq) : option string :=
  match step e h o with
  | (EvLogin (Ok a), _) =>
      match do_response authz_class (delivered ar "" "" None a) with Ok out => ro_response out | Raise _ => None end
  | _ => None
  end.
Definition mode_req (uri state : string) (rt : list string) (mode : option string) : areq :=
  mk_areq "c1" (Some uri) rt (Some ["openid"]) (Some state) (Some "nonce") None None None "" None None mode [].
Definition login_op (ar : areq) (uri : string) : op :=
  OLogin 2000 false ar "bob" "password" (Some 3600%Z) (Some uri).

(** A state full of reserved characters, and a redirect URI with a query. *)
Definition odd_state : string := "a&b=c#d?e f+%2f".
Definition cb_uri : string := "https://rp.example.com/cb?foo=bar".
Example C49_query_example : exists r p,
  sent_by demo_env (h_init []) (login_op (mode_req cb_uri odd_state ["code"] None) cb_uri)
    (mode_req cb_uri odd_state ["code"] None) = Some r
  /\ urlsplit r = Ok p /\ us_netloc p = "rp.example.com" /\ us_path p = "/cb" /\ us_frag p = ""
  /\ map fst (parse_qsl (us_query p)) = ["foo"; "state"; "scope"; "code"; "iss"; "client_id"]
  /\ dget (parse_qsl (us_query p)) "foo" = Some "bar" /\ dget (parse_qsl (us_query p)) "state" = Some odd_state.
Proof.
  eexists _, _. do 5 (split; [vm_compute; reflexivity|]). do 2 (split; [vm_compute; reflexivity|]). vm_compute. reflexivity.
Qed.
(** The same in the fragment. *)
Example C49_fragment_example : exists r p,
  sent_by demo_env (h_init []) (login_op (mode_req cb_uri odd_state ["code"; "token"] None) cb_uri)
    (mode_req cb_uri odd_state ["code"; "token"] None) = Some r
  /\ urlsplit r = Ok p /\ us_query p = "foo=bar"
  /\ map fst (parse_qsl (us_frag p)) =
       ["state"; "scope"; "code"; "access_token"; "token_type"; "expires_in"; "iss"; "client_id"]
  /\ dget (parse_qsl (us_frag p)) "state" = Some odd_state.
Proof. eexists _, _. do 4 (split; [vm_compute; reflexivity|]). vm_compute. reflexivity. Qed.
(** The hypotheses of the theorem on endpoint answers hold in these runs. *)
Definition session_run : res string * st :=
  ep_create_session demo_env 2000 (mode_req cb_uri odd_state ["code"; "token"] None) "bob" "password" (Some 3600%Z)
    (h_st (h_init [])).
Definition answer_run : res aout * st :=
  authz_part2 demo_env 2000 false (mode_req cb_uri odd_state ["code"; "token"] None)
    (match fst session_run with Ok sid => sid | Raise _ => "" end) (Some cb_uri) (snd session_run).
Example C49_answer_hypotheses :
  (exists o a, fst answer_run = Ok o /\ ao_args o = Good a /\ delivery o = "fragment")
  /\ rc_place authz_class = PUrl /\ has_char "#" cb_uri = false /\ (exists p, urlsplit cb_uri = Ok p).
Proof.
  split; [eexists _, _; split; [vm_compute; reflexivity|split; vm_compute; reflexivity]|].
  do 2 (split; [vm_compute; reflexivity|]). eexists. vm_compute. reflexivity.
Qed.

(** A caller that says text/html for a response that it has made itself, with a
    header list that says another type. *)
Example C49_headers_example : exists o,
  do_response authz_class
    (mk_rargs [] "" [] (Some "<html></html>") None (Some "text/html") None None None
       (Some [("Content-type", "text/plain"); ("X-Frame-Options", "DENY")]) None None) = Ok o
  /\ content_types (ro_headers o) = ["text/html"] /\ In ("X-Frame-Options", "DENY") (ro_headers o).
Proof. eexists. split; [vm_compute; reflexivity|]. split; [vm_compute; reflexivity|]. cbn. auto. Qed.

(** A form with a plain state. *)
Definition form_req (state : string) : areq := mode_req cb_uri state ["code"; "token"] (Some "form_post").
Definition page_of (state : string) : option string :=
  sent_by demo_env (h_init []) (login_op (form_req state) cb_uri) (form_req state).
Example C49_form_example : exists r code tok,
  page_of "a b<c>" = Some r
  /\ posts r cb_uri [("state", "a b<c>"); ("scope", "openid"); ("code", code); ("access_token", tok);
       ("token_type", "Bearer"); ("expires_in", "600")].
Proof. eexists _, _, _. split; [vm_compute; reflexivity|]. vm_compute. reflexivity. Qed.

(** Nothing is escaped in a form: a state with a quotation mark adds elements
    to the page that the provider serves, here a script. *)
Theorem C49_form_refuted : exists state r, page_of state = Some r /\ In ("script", [("src", "https://evil.example.org/x.js")]) (html_tags r).
Proof.
  exists (append dq (append "/><script src=" (append dq (append "https://evil.example.org/x.js" (append dq ">"))))).
  eexists. split; [vm_compute; reflexivity|].
  match goal with |- In ?x ?l => assert (exists q q', l = q ++ x :: q') as (q & q' & ->) end.
  { eexists [_; _; _; _; _; _; _; _], _. vm_compute. reflexivity. }
  apply in_elt.
Qed.
Print Assumptions C49_form_refuted.

(** A request may name a redirect URI that ends in "#" (the empty fragment is
    none for the check), and then a code that was to go into the query goes
    into the fragment. *)
Theorem C49_fragment_refuted : exists cdb info u ar o s' r p,
  dget cdb "c1" = Some info /\ dget (cl_uris info) "redirect_uris" = Some [RegPair "https://rp.example.com/cb" []]
  /\ get_uri cdb [("client_id", "c1"); ("redirect_uri", u); ("response_type", "code")] "redirect_uri" = Ok u
  /\ step demo_env (h_init []) (login_op ar u) = (EvLogin (Ok o), s') /\ delivery o = "query"
  /\ sent_by demo_env (h_init []) (login_op ar u) ar = Some r
  /\ urlsplit r = Ok p /\ us_query p = "" /\ In "code" (map fst (parse_qsl (us_frag p))).
Proof.
  exists [("c1", mkClInfo [("redirect_uris", [RegPair "https://rp.example.com/cb" []])] ["code"] None)].
  eexists. exists "https://rp.example.com/cb#", (mode_req "https://rp.example.com/cb#" "st" ["code"] None).
  eexists _, _, _, _. do 8 (split; [vm_compute; reflexivity|]).
  match goal with |- In ?x ?l => assert (l = ["?state"; "scope"; "code"; "iss"; "client_id"]) as -> by (vm_compute; reflexivity) end.
  cbn. auto.
Qed.
Print Assumptions C49_fragment_refuted.

(** With the response mode "query" or "fragment" the error of a user who would
    have to log in does not go to the client: the location has no host, and the
    redirect URI is one more parameter. *)
Theorem C49_login_mode_refuted : exists ar u p a out r p',
  ar_redirect_uri ar = Some u /\ urlsplit u = Ok p /\ ar_response_mode ar = Some "query"
  /\ login_required_args ar u = Ok a /\ do_response authz_class a = Ok out /\ ro_response out = Some r
  /\ urlsplit r = Ok p' /\ ~ same_page p p' /\ us_netloc p' = "" /\ dget (parse_qsl (us_query p')) "return_uri" = Some u.
Proof.
  exists (mode_req "https://rp.example.com/cb" "st" ["code"] (Some "query")), "https://rp.example.com/cb".
  eexists _, _, _, _, _. do 7 (split; [vm_compute; reflexivity|]). split; [|split; vm_compute; reflexivity].
  intros (_ & N & _). vm_compute in N. discriminate.
Qed.
Print Assumptions C49_login_mode_refuted.

Example C49_login_required_example : exists a out,
  login_required_args (mode_req cb_uri odd_state ["code"] None) cb_uri = Ok a /\ do_response authz_class a = Ok out
  /\ ro_response out = Some "https://rp.example.com/cb?foo=bar&error=login_required&state=a%26b%3Dc%23d%3Fe+f%2B%252f".
Proof. eexists _, _. do 2 (split; [vm_compute; reflexivity|]). vm_compute. reflexivity. Qed.

(** ** C50: userinfo responses are protected as the client registered *)

(** The claims that an access token opens are packed for the client that the
    token was issued to: signed if that client registered an algorithm for it,
    and with that algorithm; encrypted if it registered a pair of algorithms; and
    with nothing else. *)
Theorem C50_userinfo_packed : forall e ops evs h now tok info cl h' cdb ci r hs,
  laws e -> history e ops evs h ->
  step e h (OUserinfo now tok) = (EvUserinfo (Ok (Good (info, cl))), h') ->
  dget cdb cl = Some ci -> NoDup (dkeys ci) -> userinfo_response cdb (e_issuer e) cl info = Ok (r, hs) ->
  (exists gid g t u, grant_of h gid g /\ belongs e g u cl /\ In t (g_tokens g) /\ t_value t = tok)
  /\ (forall alg, wants_signed ci alg -> exists enc, r = Packed (Some alg) enc (e_issuer e) cl info)
  /\ (forall alg enc, wants_encrypted ci alg enc -> exists sg, r = Packed sg (Some (alg, enc)) (e_issuer e) cl info)
  /\ (r = Clear info \/ exists sg enc, r = Packed sg enc (e_issuer e) cl info
        /\ (forall alg, sg = Some alg -> wants_signed ci alg) /\ (forall x y, enc = Some (x, y) -> wants_encrypted ci x y))
  /\ In ("Cache-Control", "no-store") hs
  /\ In ("Content-type", match r with Clear _ => "application/json" | Packed _ _ _ _ _ => "application/jwt" end) hs.
Proof. exact userinfo_packed. Qed.
Print Assumptions C50_userinfo_packed.

Definition packing_cdb : dict (dict string) :=
  [("c1", [("userinfo_signed_response_alg", "ES256"); ("userinfo_encrypted_response_alg", "RSA-OAEP");
           ("userinfo_encrypted_response_enc", "A128CBC-HS256")])].
Example C50_example : exists info r hs,
  fst (step info_env info_end (OUserinfo 1010 info_access)) = EvUserinfo (Ok (Good (info, "c1")))
  /\ userinfo_response packing_cdb (e_issuer info_env) "c1" info = Ok (r, hs)
  /\ r = Packed (Some "ES256") (Some ("RSA-OAEP", "A128CBC-HS256")) (e_issuer info_env) "c1" info.
Proof. eexists _, _, _. split; [vm_compute; reflexivity|]. split; vm_compute; reflexivity. Qed.

(** A client that registers only the key encryption algorithm (the content
    encryption has a default in OpenID Connect) gets its claims in the clear. *)
Theorem C50_encryption_refuted : exists cdb ci info hs,
  dget cdb "c1" = Some ci /\ In ("userinfo_encrypted_response_alg", "RSA-OAEP") ci
  /\ fst (step info_env info_end (OUserinfo 1010 info_access)) = EvUserinfo (Ok (Good (info, "c1")))
  /\ userinfo_response cdb (e_issuer info_env) "c1" info = Ok (Clear info, hs).
Proof.
  exists [("c1", [("userinfo_encrypted_response_alg", "RSA-OAEP")])]. eexists _, _, _.
  split; [vm_compute; reflexivity|]. split; [now left|]. split; [vm_compute; reflexivity|]. vm_compute. reflexivity.
Qed.
Print Assumptions C50_encryption_refuted.
