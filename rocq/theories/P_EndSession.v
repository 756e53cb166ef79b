(** Property theorems about the end-session endpoint (C40). *)
From Verif Require Import M_Base M_Types M_Codec M_Grant M_Env M_Session M_Uri M_Redirect M_Cookie M_EndSession
  M_Registration S_Codec S_Hex S_Toy S_Jws S_Store S_Redirect S_Cookie S_Handler S_EndSession
  L_Base L_Jws L_Uri L_Redirect L_EndSession P_Registration.

(** ** What a successful call means *)

(** The confirmation handed out names the session of an authentic session
    cookie. A hint, if there is one, is for the client and the subject of that
    session. The user is sent to the provider's own page or, if a URI was
    given (and then a hint was given too), to that URI, which is registered for
    the client the request names or else for the client of the session. *)
Theorem C40_confirmed : forall E e now rq cookies s sjwt loc s', jws_correct e ->
  end_session E e now rq cookies s = (Ok (sjwt, loc), s') ->
  exists sid u c l claims t,
    cookie_names E cookies sid /\ session_at e s sid u c l /\
    (forall h, er_hint rq = Some h -> In c (hi_aud h) /\ subject_at s l (hi_sub h)) /\
    match dget (er_params rq) "post_logout_redirect_uri" with
    | None => own E e t
    | Some uri => er_hint rq <> None /\ with_state (er_params rq) uri t /\
        exists c', checked_for (er_params rq) c c' /\ post_logout_ok (en_cdb E) c' uri
    end /\
    unpack_signed_jwt E e sjwt = Ok claims /\ dget claims "sid" = Some (JStr sid) /\
    dget claims "redirect_uri" = Some (JStr t) /\
    loc = append (en_verify_url E) (append "?sjwt=" (quote_plus sjwt)).
Proof. exact end_session_ok. Qed.
Print Assumptions C40_confirmed.

(** ** Refusals *)
Theorem C40_mismatch_refused : forall E e now rq cookies s h, jws_correct e -> er_hint rq = Some h ->
  (forall sid u c l, cookie_names E cookies sid -> session_at e s sid u c l ->
     ~ In c (hi_aud h) \/ ~ subject_at s l (hi_sub h)) ->
  exists x, fst (end_session E e now rq cookies s) = Raise x.
Proof. exact mismatch_refused. Qed.
Print Assumptions C40_mismatch_refused.

Theorem C40_no_session_refused : forall E e now rq cookies s, jws_correct e ->
  (forall sid u c l, cookie_names E cookies sid -> ~ session_at e s sid u c l) ->
  exists x, fst (end_session E e now rq cookies s) = Raise x.
Proof. exact no_cookie_refused. Qed.
Print Assumptions C40_no_session_refused.

(** Whatever the outcome, the endpoint itself ends no session. *)
Theorem C40_changes_nothing : forall E e now rq cookies s r s',
  end_session E e now rq cookies s = (r, s') -> same_sessions s s'.
Proof. exact end_session_state. Qed.
Print Assumptions C40_changes_nothing.

(** ** Acceptance: a registered URI, with a cookie of the provider and a hint
    that belongs to it, is accepted *)
Theorem C40_fitting_accepted : forall E e s now rq ctime o ck sid u c l doc h uri pre it post q,
  cookie_laws (en_lib E) -> usable (en_handler E) -> fits (en_handler E) (o_value o) (o_type o) (o_time o) ->
  o_name o = en_cookie E -> made_for (en_lib E) (en_handler E) ctime o ck ->
  en_loads E (o_value o) = Ok doc -> dget doc "sid" = Some sid -> session_at e s sid u c l ->
  er_hint rq = Some h -> In c (hi_aud h) -> subject_at s l (hi_sub h) ->
  can_sign e (en_alg E) -> c <> "" -> checked_for (er_params rq) c c ->
  dget (er_params rq) "post_logout_redirect_uri" = Some uri ->
  registered (en_cdb E) c "post_logout_redirect_uri" (pre ++ it :: post) -> dict_like (pre ++ it :: post) ->
  (forall x, In x pre -> reg_base x <> reg_base it) -> plain_base (reg_base it) ->
  literal uri -> ~ occurs_in "#" q ->
  (q = "" /\ uri = reg_base it \/ uri = append (reg_base it) (append "?" q)) ->
  agrees (parse_qs q) (reg_query it) ->
  exists out, fst (end_session E e now rq [ck] s) = Ok out.
Proof. exact fitting_accepted. Qed.
Print Assumptions C40_fitting_accepted.

(** ** A provider with two clients and one session *)
Definition end_s : st := snd (create_session jws_env 1000 toy_event toy_areq "diana" "c1" None None (st_init [])).
Definition end_sid : string :=
  match create_session jws_env 1000 toy_event toy_areq "diana" "c1" None None (st_init []) with
  | (Ok x, _) => x | _ => "" end.
Definition end_sub : string :=
  match nth_error (s_heap end_s) 4 with Some (OGrant g) => g_sub g | _ => "" end.
Definition end_cdb : dict cl_info :=
  [("c1", mkClInfo [("post_logout_redirect_uris", [RegPair "https://rp.example.com/bye" []])] [] None);
   ("c2", mkClInfo [("post_logout_redirect_uris", [RegPair "https://other.example.org/bye" []])] [] None)].
(** The demo's JSON documents consist of the session id alone. *)
Definition end_demo : endconf := mkEndConf hex_clib (mkHandler (Some "s3cret") None) "oidc_op"
  (fun v => Ok [("sid", v)]) end_cdb "post_logout" "ES256" "https://op.example.com/verify_logout".
Definition end_cookie : cookie :=
  match make_cookie_content hex_clib (en_handler end_demo) "iv" "oidc_op" end_sid "" "1000" "1000" with
  | Ok c => c | Raise _ => mkCookie None None end.
Definition end_hint : hint := mkHint ["c1"] end_sub.
Definition end_params (uri : string) : request := [("post_logout_redirect_uri", uri); ("state", "x y")].

Example C40_case : jws_correct jws_env /\
  (exists sjwt loc s' claims,
    end_session end_demo jws_env 1000 (mkEndReq (end_params "https://rp.example.com/bye") (Some end_hint)) [end_cookie] end_s
      = (Ok (sjwt, loc), s') /\
    unpack_signed_jwt end_demo jws_env sjwt = Ok claims /\
    dget claims "redirect_uri" = Some (JStr "https://rp.example.com/bye?state=x+y") /\
    dget claims "sid" = Some (JStr end_sid)) /\
  (exists sjwt loc s' claims,
    end_session end_demo jws_env 1000 (mkEndReq [] None) [end_cookie] end_s = (Ok (sjwt, loc), s') /\
    unpack_signed_jwt end_demo jws_env sjwt = Ok claims /\
    dget claims "redirect_uri" = Some (JStr "https://op.example.com/post_logout")) /\
  fst (end_session end_demo jws_env 1000 (mkEndReq (end_params "https://other.example.org/bye") (Some end_hint)) [end_cookie] end_s)
    = Raise RedirectURIError /\
  fst (end_session end_demo jws_env 1000 (mkEndReq (end_params "https://rp.example.com/bye") None) [end_cookie] end_s)
    = Raise InvalidRequest /\
  fst (end_session end_demo jws_env 1000 (mkEndReq [] (Some (mkHint ["c2"] end_sub))) [end_cookie] end_s)
    = Raise ValueError /\
  fst (end_session end_demo jws_env 1000 (mkEndReq [] (Some (mkHint ["c1"] "eve"))) [end_cookie] end_s)
    = Raise ValueError /\
  fst (end_session end_demo jws_env 1000 (mkEndReq [] None) [] end_s) = Raise ValueError.
Proof.
  split; [apply toy_jws_correct|].
  split; [eexists _, _, _, _; split; [vm_compute; reflexivity|]; do 2 (split; [vm_compute; reflexivity|]); vm_compute; reflexivity|].
  split; [eexists _, _, _, _; split; [vm_compute; reflexivity|]; split; [vm_compute; reflexivity|]; vm_compute; reflexivity|].
  do 4 (split; [vm_compute; reflexivity|]). vm_compute. reflexivity.
Qed.

(** ** Findings *)

Definition end_other : endreq :=
  mkEndReq [("post_logout_redirect_uri", "https://other.example.org/bye"); ("client_id", "c2")] (Some end_hint).

(** A client_id in the request replaces the session's client (verify_uri reads
    request.get("client_id", client_id)): a session with one client ends in a
    redirect to a URI registered for another. *)
Theorem C40_other_client_refuted : exists E e now rq cookies s sjwt loc s' sid u c l claims uri,
  jws_correct e /\ end_session E e now rq cookies s = (Ok (sjwt, loc), s') /\
  cookie_names E cookies sid /\ session_at e s sid u c l /\
  dget (er_params rq) "post_logout_redirect_uri" = Some uri /\
  unpack_signed_jwt E e sjwt = Ok claims /\ dget claims "redirect_uri" = Some (JStr uri) /\
  ~ post_logout_ok (en_cdb E) c uri.
Proof.
  destruct (end_session end_demo jws_env 1000 end_other [end_cookie] end_s) as [[[sjwt loc]|x] s'] eqn:H;
    [|vm_compute in H; discriminate].
  destruct (end_session_ok _ _ _ _ _ _ _ _ _ (toy_jws_correct _ _) H) as (sid & u & c & l & claims & t & Cn & Sa & Hh & T & Un & _ & Ct & _).
  exists end_demo, jws_env, 1000%Z, end_other, [end_cookie], end_s, sjwt, loc, s', sid, u, c, l, claims, "https://other.example.org/bye".
  split; [apply toy_jws_correct|]. split; [exact H|]. split; [exact Cn|]. split; [exact Sa|]. split; [reflexivity|].
  split; [exact Un|].
  change (dget (er_params end_other) "post_logout_redirect_uri") with (Some "https://other.example.org/bye") in T.
  cbn iota in T. destruct T as (_ & T & _).
  assert (t = "https://other.example.org/bye") as Et by exact T. clear T. subst t. split; [exact Ct|].
  assert (c = "c1") as -> by (destruct (Hh _ eq_refl) as [[<-|[]] _]; reflexivity).
  intros (l0 & (info & Ei & El) & K). injection Ei as <-. injection El as <-.
  destruct K as (it & [<-|[]] & q & (sch & sch' & rest & extra & tail & E1 & E2 & _ & Ex & _) & _).
  - intros it [<-|[]]. left. exists "https", "rp.example.com", "/bye".
    split; [reflexivity|]. split; [discriminate|]. split; [reflexivity|]. split; [discriminate|]. split.
    + intros x Hx. cbn [has_char] in Hx. unfold netloc_end.
      repeat (apply orb_true_iff in Hx as [Hx|Hx]; [apply Ascii.eqb_eq in Hx; subst x; reflexivity|]).
      first [discriminate | apply Ascii.eqb_eq in Hx; subst x; reflexivity].
    + right. exists "bye". reflexivity.
  - intros it [<-|[]]. constructor.
  - cbn [reg_base] in E1. change (visible (unquote "https://other.example.org/bye")) with "https://other.example.org/bye" in E2.
    assert (Hs : forall h a b, has_char ":" h = false ->
      append "https" (append ":" h) = append a (append ":" b) -> a = "https" /\ b = h).
    { intros h a b Nh Ha.
      do 5 (destruct a as [|? a]; [discriminate Ha|cbn [append] in Ha; injection Ha as <- Ha]).
      destruct a as [|? a]; [injection Ha as <-; auto|]. cbn [append] in Ha. injection Ha as <- Ha.
      rewrite Ha, has_app in Nh. cbn in Nh. now rewrite orb_true_r in Nh. }
    apply (Hs "//rp.example.com/bye") in E1 as [_ ->]; [|reflexivity].
    apply (Hs "//other.example.org/bye") in E2 as [_ E2]; [|reflexivity].
    destruct Ex as [-> | ->]; discriminate E2.
Qed.
Print Assumptions C40_other_client_refuted.

(** Dynamic registration stores post_logout_redirect_uri; the endpoint reads
    post_logout_redirect_uris. A URI registered that way is refused. *)
Theorem C40_registered_refused_refuted : exists g rq id args x' uri,
  register g 100 rq empty_provider = (Ok (Done (id, args)), x') /\
  dget rq "post_logout_redirect_uri" = Some (RStr uri) /\
  forall E e now h cookies s, jws_correct e -> en_cdb E = record_cdb x' ->
    exists x, fst (end_session E e now (mkEndReq [("post_logout_redirect_uri", uri)] (Some h)) cookies s) = Raise x.
Proof.
  exists a_provider, [("redirect_uris", RList ["https://app.example/cb"]);
                      ("post_logout_redirect_uri", RStr "https://app.example/bye")].
  eexists _, _, _, _. split; [vm_compute; reflexivity|]. split; [reflexivity|].
  intros E e now h cookies s J Ec.
  destruct (end_session _ _ _ _ _ _) as [[[sjwt loc]|x] s'] eqn:H; [|exists x; reflexivity]. exfalso.
  apply (end_session_ok _ _ _ _ _ _ _ _ _ J) in H as (sid & u & c & l & claims & t & _ & _ & _ & T & _).
  cbn [dget er_params] in T. rewrite Ec in T. destruct T as (_ & _ & c' & _ & l0 & (info & Ei & El) & _).
  unfold record_cdb in Ei. cbn [map dget x_cdb fst snd] in Ei.
  destruct (String.eqb c' "r"); [|discriminate]. injection Ei as <-. vm_compute in El. discriminate.
Qed.
Print Assumptions C40_registered_refused_refuted.
