(** Property theorems about prompt, max_age and identity hints (C36). *)
From Verif Require Import M_Base M_Types M_Codec M_Grant M_Env M_Session M_Claims M_Handler
  M_Authz M_TokenEP M_PKCE M_AuthzEP M_Info M_Logout M_Uri M_Cookie M_Authn M_History
  S_Codec S_Grant S_Store S_Toy S_History S_Hex S_Jws S_Cookie
  S_AuthzResp S_Authn L_Base L_Hex L_Hist8 L_AuthzResp L_Authn P_History P_Logout P_Cookie P_AuthzResp.

(** ** What holds *)

(** With prompt=login an existing log-in is not used, whatever the method, the
    cookies and the state. *)
Theorem C36_prompt_login : forall K e now deny iframe acr exp_in iv uri v m s r c s',
  prompts_for v "login" ->
  process_request K e now deny iframe m acr exp_in iv uri v s = (Ok (r, c), s') ->
  r = RLogin \/ exists b, r = RLoginRequired b.
Proof. exact login_not_reused. Qed.
Print Assumptions C36_prompt_login.

(** With prompt=none, and nobody logged in, the answer is login_required. *)
Theorem C36_none_nobody : forall K e now deny iframe acr exp_in iv uri v m cs ru s r c s',
  prompts_for v "none" ->
  session_cookies K (vi_cookies v) = Ok cs -> request_user K (vi_req v) (vi_verified v) = Ok ru ->
  who_is K e now m (vi_hdr v) (vi_req v) (vi_verified v) cs = Ok ANobody ->
  process_request K e now deny iframe m acr exp_in iv uri v s = (Ok (r, c), s') ->
  exists b, r = RLoginRequired b.
Proof. exact nobody_none. Qed.
Print Assumptions C36_none_nobody.

(** With prompt=none a log-in page comes only if the user agent has a live grant
    whose log-in has expired. *)
Theorem C36_none_page : forall K e now deny iframe acr exp_in iv uri v ops evs h c s',
  laws e -> history e ops evs h -> good_id (ar_client_id (vi_req v)) -> usual K e v ->
  prompts_for v "none" -> ~ prompts_for v "login" ->
  process_request K e now deny iframe MPage acr exp_in iv uri v (h_st h) = (Ok (RLogin, c), s') ->
  exists u sid t gid, names K e (vi_cookies v) (ar_client_id (vi_req v)) u sid t
    /\ log_in_expired e now h u (ar_client_id (vi_req v)) gid.
Proof.
  exact (fun K e now deny iframe acr exp_in iv uri v ops evs h c s' W =>
    none_page K e now deny iframe acr exp_in iv uri v W ops evs h c s').
Qed.
Print Assumptions C36_none_page.

(** A response without a log-in page is one for a user whom a cookie names, with
    a live grant and a log-in that has not expired. The cookie is not older than
    max_age. A login hint is the mail address or the phone number of that user. *)
Theorem C36_continues : forall K e now deny iframe acr exp_in iv uri v ops evs h o c s',
  laws e -> history e ops evs h -> good_id (ar_client_id (vi_req v)) -> usual K e v ->
  process_request K e now deny iframe MPage acr exp_in iv uri v (h_st h) = (Ok (ROut o, c), s') ->
  exists u sid t gid, names K e (vi_cookies v) (ar_client_id (vi_req v)) u sid t
    /\ logged_in e now h u (ar_client_id (vi_req v)) gid
    /\ (forall a, asks_max_age v a -> (now <= t + a)%Z)
    /\ (forall users hint, dget (vi_verified v) "__verified_it_token_hint" = None ->
          dget (ar_other (vi_req v)) "login_hint" = Some hint -> hint <> "" -> ac_users K = Some users ->
          hint_for users hint u)
    /\ (forall a, ao_args o = Good a -> answers e now h (mk_hst s' (h_parsed h)) u (vi_req v) a).
Proof.
  exact (fun K e now deny iframe acr exp_in iv uri v ops evs h o c s' W =>
    page_continues K e now deny iframe acr exp_in iv uri v W ops evs h o c s').
Qed.
Print Assumptions C36_continues.

(** ** Examples, and what does not hold *)

(** A provider with toy JSON, and users with mail addresses and phone numbers. *)
Definition toy_loads (s : string) : res (dict jval) :=
  match parse (S (String.length s)) s with Some (JObj d) => Ok d | _ => Raise ValueError end.
Definition toy_people : dict (dict jval) :=
  [ ("diana", [("email", JList [JStr "diana@example.org"]); ("phone_number", JStr "+46701234567")]);
    ("bob", [("email", JStr "bob@example.com")]) ].
Definition disguised : string := "eyJ1aWQiOiJib2IifQ".
Definition toy_unb64 (s : string) : res (option string) :=
  Ok (if String.eqb s disguised then Some (ser (JObj [("uid", JStr "bob")])) else None).
Definition toy_K : aconf :=
  mkAConf hex_clib both "oidcop" toy_loads (fun d => ser (JObj d)) toy_unb64 (fun s => Ok s) (Some toy_people).

Definition asking (prompt : option (list string)) (age : option Z) (other : dict string) : areq :=
  mk_areq "c1" (Some "https://rp.example.com/cb") ["code"] (Some ["openid"; "email"; "offline_access"])
    (Some "state") (Some "nonce") None None None "" prompt age None other.
Definition cookie_at (t : Z) (sid : string) : list cookie :=
  match response_cookie toy_K t "iv1" (areq_for "c1") sid with Ok c => [c] | Raise _ => [] end.
Definition come (t : Z) (m : umethod) (v : visit) : M st (ares * option cookie) :=
  process_request toy_K demo_env t false false m "password" (Some 3600%Z) "iv2" (Some "https://rp.example.com/cb") v.
Definition returning (t : Z) (q : areq) : visit := mkVisit q [] (cookie_at t diana_c1) "".


Ltac holds_here := first [apply code_check_ok | apply until_check_ok]; vm_compute; reflexivity.
Ltac named_here :=
  eexists _, _, _, _; split; [vm_compute; reflexivity|]; split; [left; reflexivity|];
  do 2 (split; [vm_compute; reflexivity|]); split; vm_compute; reflexivity.

(** The browser comes back after 500 seconds, and needs no log-in. *)
Example C36_example : exists o c s' a,
  come 1500 MPage (returning 1000 (asking None (Some 600%Z) [("login_hint", "tel:0701234567")])) (h_st visits_end)
    = (Ok (ROut o, Some c), s')
  /\ names toy_K demo_env (cookie_at 1000 diana_c1) "c1" "diana" diana_c1 1000
  /\ asks_max_age (returning 1000 (asking None (Some 600%Z) [("login_hint", "tel:0701234567")])) 600
  /\ hint_for toy_people "tel:0701234567" "diana"
  /\ ao_args o = Good a /\ code_for demo_env s' "diana" "c1" a.
Proof.
  eexists _, _, _, _. split; [vm_compute; reflexivity|]. split; [named_here|].
  split; [split; [discriminate|split; [discriminate|reflexivity]]|].
  split.
  { right. right. exists "0"%char, "701234567". split; [reflexivity|]. split; [discriminate|].
    eexists. split; [left; reflexivity|]. left. reflexivity. }
  split; [reflexivity|]. holds_here.
Qed.
Lemma Ok_inj {A} (x y : A) : Ok x = Ok y -> x = y.
Proof. congruence. Qed.
Lemma Some_inj {A} (x y : A) : Some x = Some y -> x = y.
Proof. congruence. Qed.
(** Its cookie names only the session of diana. *)
Example C36_example_usual : usual toy_K demo_env (returning 1000 (areq_for "c1")).
Proof.
  intros c u sid t (cs & x & d & rest & Ep & I & El & Es & _ & D).
  assert (parse_cookie (ac_lib toy_K) (ac_handler toy_K) (ac_cookie toy_K) (vi_cookies (returning 1000 (areq_for "c1")))
    = Ok (Some [mkContent (ser (JObj [("sid", JStr diana_c1); ("state", JStr "state")])) "" "1000"])) as X.
  { vm_compute. reflexivity. }
  rewrite X in Ep. apply Ok_inj, Some_inj in Ep. subst cs. destruct I as [<-|[]].
  assert (toy_loads (ct_value (mkContent (ser (JObj [("sid", JStr diana_c1); ("state", JStr "state")])) "" "1000"))
    = Ok [("sid", JStr diana_c1); ("state", JStr "state")]) as Y by (vm_compute; reflexivity).
  change (ac_loads toy_K) with toy_loads in El. rewrite Y in El. apply Ok_inj in El. subst d.
  assert (diana_c1 = sid) as <- by (change (Some (JStr diana_c1) = Some (JStr sid)) in Es; congruence).
  assert (dec_sid demo_env diana_c1 = Ok ["diana"; "c1"; "u0"]) as Z by (vm_compute; reflexivity).
  rewrite Z in D. injection D as <- <- <-.
  split; [apply plain_good; reflexivity|]. split; [intros text d Hd; vm_compute in Hd; discriminate|].
  vm_compute. discriminate.
Qed.
(** A later browser is asked to log in; with prompt=none, and without a cookie,
    the answer is login_required; with another user's hint a log-in is needed. *)
Example C36_example_asked :
  fst (come 1500 MPage (returning 1000 (asking None (Some 60%Z) [])) (h_st visits_end)) = Ok (RLogin, None)
  /\ fst (come 1500 MPage (returning 1000 (asking (Some ["login"]) None [])) (h_st visits_end)) = Ok (RLogin, None)
  /\ fst (come 1500 MPage (mkVisit (asking (Some ["none"]) None []) [] [] "") (h_st visits_end))
     = Ok (RLoginRequired false, None)
  /\ fst (come 1500 MPage (returning 1000 (asking (Some ["none"]) None [("login_hint", "mail:bob@example.com")]))
       (h_st visits_end)) = Ok (RLoginRequired false, None)
  /\ fst (come 1500 MPage (returning 1000 (asking None None [("login_hint", "mail:bob@example.com")]))
       (h_st visits_end)) = Ok (RLogin, None).
Proof. do 4 (split; [vm_compute; reflexivity|]). vm_compute. reflexivity. Qed.

(** With prompt=none a log-in is started when the last one has expired. *)
Theorem C36_none_refuted : exists K e now ops evs h v s',
  laws e /\ history e ops evs h /\ prompts_for v "none"
  /\ process_request K e now false false MPage "password" (Some 3600%Z) "iv2" (Some "https://rp.example.com/cb") v (h_st h)
     = (Ok (RLogin, None), s').
Proof.
  eexists toy_K, demo_env, 5000%Z, _, _, visits_end, (returning 1000 (asking (Some ["none"]) None [])), _.
  split; [exact demo_laws|]. split; [exact visits_history|]. split; [eexists; split; [reflexivity|left; reflexivity]|].
  vm_compute. reflexivity.
Qed.
Print Assumptions C36_none_refuted.

(** Every response renews the cookie. The user has logged in at 1000, and not
    since; the response at 1500 carries a new cookie; with it a request at 1550
    that allows 60 seconds is answered without a log-in. *)
Theorem C36_max_age_renewed_refuted : exists K e ops evs h v1 o1 c1 s1 v2 o2 c2 s2 a,
  laws e /\ history e ops evs h
  /\ process_request K e 1500 false false MPage "password" (Some 3600%Z) "iv2" (Some "https://rp.example.com/cb") v1 (h_st h)
     = (Ok (ROut o1, Some c1), s1)
  /\ vi_cookies v2 = [c1] /\ asks_max_age v2 60
  /\ process_request K e 1550 false false MPage "password" (Some 3600%Z) "iv3" (Some "https://rp.example.com/cb") v2 s1
     = (Ok (ROut o2, Some c2), s2)
  /\ ao_args o2 = Good a /\ code_for e s2 "diana" "c1" a /\ log_ins_until s2 "diana" "c1" 1000.
Proof.
  pose (x := come 1500 MPage (returning 1000 (areq_for "c1")) (h_st visits_end)).
  pose (c1 := match fst x with Ok (_, Some c) => c | _ => mkCookie None None end).
  eexists toy_K, demo_env, _, _, visits_end, (returning 1000 (areq_for "c1")), _, c1, (snd x),
    (mkVisit (asking None (Some 60%Z) []) [] [c1] ""), _, _, _, _.
  split; [exact demo_laws|]. split; [exact visits_history|]. split; [vm_compute; reflexivity|].
  split; [reflexivity|]. split; [split; [discriminate|split; [discriminate|reflexivity]]|].
  split; [vm_compute; reflexivity|]. split; [reflexivity|]. split; holds_here.
Qed.
Print Assumptions C36_max_age_renewed_refuted.

(** max_age=0, and any max_age with upm_answer=true in the request, are ignored:
    a log-in that is 500 seconds old is used. *)
Theorem C36_max_age_ignored_refuted : exists K e ops evs h q,
  laws e /\ history e ops evs h
  /\ forall age other, (age = 0%Z /\ other = []) \/ (age = 60%Z /\ other = [("upm_answer", "true")]) ->
     exists v o c s' a, vi_req v = q age other /\ ar_max_age (vi_req v) = Some age
       /\ process_request K e 1500 false false MPage "password" (Some 3600%Z) "iv2" (Some "https://rp.example.com/cb")
            v (h_st h) = (Ok (ROut o, Some c), s')
       /\ ao_args o = Good a /\ code_for e s' "diana" "c1" a /\ log_ins_until s' "diana" "c1" 1000.
Proof.
  eexists toy_K, demo_env, _, _, visits_end, (fun age other => asking None (Some age) other).
  split; [exact demo_laws|]. split; [exact visits_history|].
  intros age other [[-> ->]|[-> ->]].
  - eexists (returning 1000 (asking None (Some 0%Z) [])), _, _, _, _. do 2 (split; [reflexivity|]).
    split; [vm_compute; reflexivity|]. split; [reflexivity|]. split; holds_here.
  - eexists (returning 1000 (asking None (Some 60%Z) [("upm_answer", "true")])), _, _, _, _. do 2 (split; [reflexivity|]).
    split; [vm_compute; reflexivity|]. split; [reflexivity|]. split; holds_here.
Qed.
Print Assumptions C36_max_age_ignored_refuted.

(** A verified id_token_hint about bob does not keep the session of diana from
    being used: the code looks for it_token_hint. *)
Theorem C36_id_token_hint_refuted : exists K e ops evs h v o c s' a,
  laws e /\ history e ops evs h
  /\ dget (vi_verified v) "__verified_id_token_hint" = Some [("sub", JStr (e_sub e "bob" (ar_sector (vi_req v))))]
  /\ e_sub e "bob" (ar_sector (vi_req v)) <> e_sub e "diana" (ar_sector (vi_req v))
  /\ process_request K e 1500 false false MPage "password" (Some 3600%Z) "iv2" (Some "https://rp.example.com/cb")
       v (h_st h) = (Ok (ROut o, Some c), s')
  /\ ao_args o = Good a /\ code_for e s' "diana" "c1" a.
Proof.
  eexists toy_K, demo_env, _, _, visits_end,
    (mkVisit (areq_for "c1") [("__verified_id_token_hint", [("sub", JStr (e_sub demo_env "bob" ""))])]
       (cookie_at 1000 diana_c1) ""), _, _, _, _.
  split; [exact demo_laws|]. split; [exact visits_history|]. split; [reflexivity|].
  split; [vm_compute; discriminate|]. split; [vm_compute; reflexivity|]. split; [reflexivity|]. holds_here.
Qed.
Print Assumptions C36_id_token_hint_refuted.

(** With HTTP Basic the client gets a response only if the header holds a user's
    password. Without cookies it is a response for that user. *)
Theorem C36_basic_password : forall K e now deny iframe acr exp_in iv uri v pw s o c s',
  process_request K e now deny iframe (MHttpBasic pw) acr exp_in iv uri v s = (Ok (ROut o, c), s') ->
  exists u, shows_password K pw (vi_hdr v) u.
Proof. exact basic_answer. Qed.
Print Assumptions C36_basic_password.
Theorem C36_basic_user : forall K e now deny iframe acr exp_in iv uri v pw ops evs h o c s' a,
  laws e -> history e ops evs h -> good_id (ar_client_id (vi_req v)) -> vi_cookies v = [] ->
  (forall u, shows_password K pw (vi_hdr v) u -> good_id u /\ no_disguise K u) ->
  process_request K e now deny iframe (MHttpBasic pw) acr exp_in iv uri v (h_st h) = (Ok (ROut o, c), s') ->
  ao_args o = Good a ->
  exists u, shows_password K pw (vi_hdr v) u /\ answers e now h (mk_hst s' (h_parsed h)) u (vi_req v) a.
Proof. exact basic_answers. Qed.
Print Assumptions C36_basic_user.

Definition basic_visit (p : string) : res (ares * option cookie) * st :=
  process_request toy_K demo_env 1500 false false (MHttpBasic [("bob", "pw")]) "password" (Some 3600%Z) "iv2"
    (Some "https://rp.example.com/cb") (mkVisit (areq_for "c1") [] [] (append "Basic bob:" p)) (h_st visits_end).
Example C36_basic_example :
  (exists o c a, fst (basic_visit "pw") = Ok (ROut o, c) /\ ao_args o = Good a /\ (exists v, ap_code a = Some v))
  /\ fst (basic_visit "guess") = Raise FailedAuthentication
  /\ shows_password toy_K [("bob", "pw")] "Basic bob:pw" "bob".
Proof.
  split; [eexists _, _, _; split; [vm_compute; reflexivity|]; split; [reflexivity|]; eexists; reflexivity|].
  split; [vm_compute; reflexivity|]. apply basic_shows. vm_compute. reflexivity.
Qed.

(** HTTP Basic: bob's password opens the session of diana that the cookie names. *)
Theorem C36_basic_cookie_refuted : exists K e ops evs h v o c s' a,
  laws e /\ history e ops evs h
  /\ basic_user K [("bob", "pw")] (vi_hdr v) = Ok "bob"
  /\ process_request K e 1500 false false (MHttpBasic [("bob", "pw")]) "password" (Some 3600%Z) "iv2"
       (Some "https://rp.example.com/cb") v (h_st h) = (Ok (ROut o, Some c), s')
  /\ ao_args o = Good a /\ code_for e s' "diana" "c1" a.
Proof.
  eexists toy_K, demo_env, _, _, visits_end, (mkVisit (areq_for "c1") [] (cookie_at 1000 diana_c1) "Basic bob:pw"), _, _, _, _.
  split; [exact demo_laws|]. split; [exact visits_history|]. split; [vm_compute; reflexivity|].
  split; [vm_compute; reflexivity|]. split; [reflexivity|]. holds_here.
Qed.
Print Assumptions C36_basic_cookie_refuted.

(** A user whose id is the base64 form of a JSON object that names bob gets, when
    they come back, a code for bob, who has never logged in. *)
Definition in_disguise : list (list event -> op) := [ login_at 1000 disguised "c1" ].
Theorem C36_disguise_refuted : exists K e ops evs h v o c s' a sid,
  laws e /\ history e ops evs h /\ ops = run_ops e [login_at 1000 disguised "c1"]
  /\ good_id disguised /\ names K e (vi_cookies v) "c1" disguised sid 1000
  /\ process_request K e 1500 false false MPage "password" (Some 3600%Z) "iv2"
       (Some "https://rp.example.com/cb") v (h_st h) = (Ok (ROut o, Some c), s')
  /\ ao_args o = Good a /\ code_for e s' "bob" "c1" a.
Proof.
  eexists toy_K, demo_env, _, _, (run_end demo_env in_disguise),
    (mkVisit (areq_for "c1") [] (cookie_at 1000 (some_sid [disguised; "c1"; "u0"])) ""), _, _, _, _,
    (some_sid [disguised; "c1"; "u0"]).
  split; [exact demo_laws|]. split; [apply run_history; vm_compute; reflexivity|]. split; [reflexivity|].
  split; [apply plain_good; reflexivity|]. split; [named_here|]. split; [vm_compute; reflexivity|].
  split; [reflexivity|]. holds_here.
Qed.
Print Assumptions C36_disguise_refuted.
