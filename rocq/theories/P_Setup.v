(** Property theorems about the set-up of a provider: C55 client authentication
    methods of the endpoints, C56 the configuration and the token handlers, C57
    scopes, and the served metadata (C45). *)
From Verif Require Import M_Base M_Types M_Codec M_Grant M_Env M_Session M_Claims M_Handler M_Uri M_Meta M_ClientAuthn M_Setup.
From Verif Require Import S_Codec S_Handler S_Claims S_ClientAuthn S_Toy S_Setup L_Base L_Codec L_Handler L_Claims L_Setup L_Setup2.

(** ** C55: an endpoint authenticates clients by the configured methods *)

(** A configured list: one method for each item, the one the item names; when an
    item names none, the provider does not start. *)
Theorem C55_methods_as_configured : forall load items defaults ms, items <> [] ->
  (endpoint_methods load (Some (AItems items)) defaults = Ok ms <-> Forall2 (names_method load) items ms).
Proof. exact methods_configured. Qed.
Print Assumptions C55_methods_as_configured.

(** A text instead of a list is refused. *)
Theorem C55_text_refused : forall load s defaults, load "" "" = Raise ValueError -> s <> "" ->
  endpoint_methods load (Some (AText s)) defaults = Raise ValueError.
Proof. exact methods_text. Qed.
Print Assumptions C55_text_refused.

(** When all items demand authentication, a request gets through only with a
    method the list names. *)
Theorem C55_authentication_demanded : forall load A now ep q hdr s items defaults o s',
  endpoint_methods load (Some (AItems items)) defaults = Ok (ep_methods ep) -> items <> [] ->
  (forall item, In item items -> ~ says_none item) ->
  (forall md a, load md a <> Ok MNone) ->
  client_authentication A now ep q hdr s = (Ok o, s') ->
  exists i item m, o = Some i /\ In item items /\ names_method load item m /\ m <> MNone /\ ai_method i = tag m.
Proof. exact demanded. Qed.
Print Assumptions C55_authentication_demanded.

(** The empty list switches authentication off, also at userinfo: a request is
    that of the client it names, if it is one that is registered. *)
Theorem C55_switched_off : forall load defaults,
  endpoint_methods load (Some (AItems [])) defaults = Ok [MNone] /\
  forall A now ep q hdr s, ep_methods ep = [MNone] -> ep_from_token ep = None ->
    match cr_client_id q with Some c => c = "" \/ in_force A now c | None => True end ->
    exists i, client_authentication A now ep q hdr s = (Ok (Some i), s) /\ ai_client i = cr_client_id q.
Proof. intros load d. split; [reflexivity|]. exact only_none. Qed.
Print Assumptions C55_switched_off.

(** Without a configured list: the shipped endpoints have no methods, but for
    userinfo, which takes bearer tokens. *)
Theorem C55_default_methods : forall load defaults, In defaults shipped ->
  (defaults <> Some userinfo_defaults -> endpoint_methods load None defaults = Ok []) /\
  endpoint_methods load None (Some userinfo_defaults) = Ok [MBearerHeader; MBearerBody].
Proof. intros load d I. split; [now apply default_methods|reflexivity]. Qed.
Print Assumptions C55_default_methods.

(** No methods: nobody is authenticated and nothing is refused. *)
Theorem C55_no_methods_no_authentication : forall A now ep q hdr s, ep_methods ep = [] ->
  client_authentication A now ep q hdr s = (Ok None, s) /\ attributed q None = cr_client_id q.
Proof. intros. split; [now apply no_methods|reflexivity]. Qed.
Print Assumptions C55_no_methods_no_authentication.

(** So the token endpoint does not always authenticate a client that has a
    secret: unless methods are configured, naming the client is enough. *)
Theorem C55_token_endpoint_authenticates_refuted :
  exists load A now ep q s,
    endpoint_methods load None (Some token_defaults) = Ok (ep_methods ep) /\
    has_secret A "c1" "the secret" /\ in_force A now "c1" /\
    cr_client_id q = Some "c1" /\ cr_client_secret q = None /\ cr_access_token q = None /\
    cr_assertion q = None /\ cr_request q = None /\
    exists o, client_authentication A now ep q None s = (Ok o, s) /\ attributed q o = Some "c1".
Proof.
  exists (fun _ _ => Raise ValueError),
    (mk_aenv [("c1", CInfo (Some "the secret") 0)] (fun _ => Raise ValueError) (fun s => s)
       (fun _ _ => Raise ValueError) (fun _ _ => [])), 100%Z,
    (mk_cendpoint [] ["https://op/token"] None), (mk_creq (Some "c1") None None None None), [].
  split; [reflexivity|]. split; [exists 0%Z; reflexivity|].
  split; [exists (Some "the secret"), 0%Z; split; [reflexivity|now left]|].
  do 5 (split; [reflexivity|]). exists None. split; reflexivity.
Qed.
Print Assumptions C55_token_endpoint_authenticates_refuted.

(** An assertion is for the endpoint when it is for the URL the endpoint has. *)
Theorem C55_audience : forall issuer paths name url,
  name <> "" -> dget paths name = Some url ->
  allowed_target_uris issuer paths [name] = Ok [url] /\
  allowed_target_uris issuer paths [name; ""] = Ok [url; issuer].
Proof.
  intros issuer paths n u N D. split; [now apply targets_own|]. cbn [allowed_target_uris].
  apply seqb_neq in N. rewrite N, D. reflexivity.
Qed.
Print Assumptions C55_audience.

Example C55_example :
  let load := fun m a => if String.eqb m "my.auth" && String.eqb a "Card" then Ok MPost else Raise AttributeError in
  endpoint_methods load (Some (AItems [Some "client_secret_basic"; Some "my.auth:Card"; Some "NONE"]))
    (Some token_defaults) = Ok [MBasic; MPost; MNone]
  /\ endpoint_methods load (Some (AItems [Some "client_secret_basic"; Some "private_key"])) None = Raise ValueError
  /\ endpoint_methods load (Some (AItems [Some "my.auth.Stamp"])) None = Raise AttributeError
  /\ endpoint_methods load (Some (AText "client_secret_basic")) None = Raise ValueError.
Proof. cbv zeta. vm_compute. auto. Qed.

(** ** C56: the configuration *)

(** A parameter has the value given, and the default if none is given. *)
Theorem C56_value_or_default : forall defaults fmt abspath params given conf key,
  is_params params -> configure defaults fmt abspath params given [] = Ok conf ->
  In key params -> key <> "keys" -> key <> "template_dir" ->
  forall v, dget conf key = Some v <-> chosen defaults fmt given key v.
Proof. exact conf_plain. Qed.
Print Assumptions C56_value_or_default.

(** These are the parameters. *)
Theorem C56_parameters : forall n,
  (In n as_parameters <-> server_parameter n) /\ (In n op_parameters <-> provider_parameter n).
Proof. exact (fun n => conj (as_parameters_spec n) (op_parameters_spec n)). Qed.
Print Assumptions C56_parameters.

Theorem C56_keys_and_templates : forall defaults fmt abspath params given conf,
  is_params params -> configure defaults fmt abspath params given [] = Ok conf ->
  (dget conf "keys" = None /\ forall v, dget conf "key_conf" = Some v <-> chosen defaults fmt given "keys" v) /\
  (forall v, dget conf "template_dir" = Some v <->
     exists s, chosen defaults fmt given "template_dir" (KText s) /\ v = KText (abspath s)).
Proof. intros. split; [eapply conf_keys; eauto|eapply conf_templates; eauto]. Qed.
Print Assumptions C56_keys_and_templates.

(** Anything that is not a parameter is dropped. *)
Theorem C56_others_dropped : forall defaults fmt abspath params given conf n,
  is_params params -> configure defaults fmt abspath params given [] = Ok conf ->
  ~ In n params -> n <> "key_conf" -> dget conf n = None.
Proof. exact conf_ignored. Qed.
Print Assumptions C56_others_dropped.

(** What an operator says is not always what they get: an empty value is replaced
    by the default, and "allowed_scopes", which the code reads from the
    configuration, never gets there. *)
Theorem C56_given_is_kept_refuted : exists given conf,
  configure op_defaults (fun v => v) (fun s => s) op_parameters given [] = Ok conf /\
  dget given "scopes_to_claims" = Some (KMap []) /\
  dget conf "scopes_to_claims" = dget op_defaults "scopes_to_claims" /\
  dget conf "scopes_to_claims" <> None /\
  dget given "allowed_scopes" = Some (KItems [KText "openid"]) /\
  dget conf "allowed_scopes" = None.
Proof.
  exists [("scopes_to_claims", KMap []); ("allowed_scopes", KItems [KText "openid"])].
  eexists. split; [vm_compute; reflexivity|]. do 2 (split; [vm_compute; reflexivity|]).
  split; [vm_compute; discriminate|]. split; vm_compute; reflexivity.
Qed.
Print Assumptions C56_given_is_kept_refuted.

(** ** C56: the token handlers *)

(** Opaque tokens: when the specification names no class. *)
Theorem C56_opaque_handler : forall issuer jar given code token refresh idt hs kid cls s,
  factory issuer jar given code token refresh idt = Ok hs ->
  asked_for_tokens code token refresh kid cls s -> ts_class s = None ->
  exists key z, dget hs cls = Some (Some (HDefault key cls z)) /\
    wants_key s (jar (handler_kids given code refresh token) kid) key /\ wants_lifetime s 300 z.
Proof. exact opaque_handler. Qed.
Print Assumptions C56_opaque_handler.

Theorem C56_jwt_handler : forall issuer jar given code token refresh idt hs kid cls s c,
  factory issuer jar given code token refresh idt = Ok hs ->
  asked_for_tokens code token refresh kid cls s -> ts_class s = Some c -> jwt_class c ->
  exists alg iss z, dget hs cls = Some (Some (HJWT cls alg iss z)) /\
    asks_alg s alg /\ asks_issuer s issuer iss /\ wants_lifetime s 1800 z.
Proof. exact jwt_handler. Qed.
Print Assumptions C56_jwt_handler.

Theorem C56_id_token_handler : forall issuer jar given code token refresh s hs c,
  factory issuer jar given code token refresh (Some s) = Ok hs -> ts_class s = Some c -> id_class c ->
  exists z, dget hs "id_token" = Some (Some (HId z)) /\ wants_lifetime s 300 z.
Proof. exact id_handler. Qed.
Print Assumptions C56_id_token_handler.

(** There are no other handlers. *)
Theorem C56_only_the_specified : forall issuer jar given code token refresh idt hs n h,
  factory issuer jar given code token refresh idt = Ok hs -> dget hs n = Some (Some h) ->
  (exists kid s, asked_for_tokens code token refresh kid n s) \/ (n = "id_token" /\ exists s, idt = Some s).
Proof. exact factory_names. Qed.
Print Assumptions C56_only_the_specified.

(** Keys are made for the opaque handlers, one for each, unless the
    configuration defines keys. *)
Theorem C56_a_key_for_each_opaque : forall code token refresh kid,
  In kid (handler_kids [] code refresh token) <->
  exists cls s, asked_for_tokens code token refresh kid cls s /\
    (ts_class s = None \/ ts_class s = Some "oidcop.token.DefaultToken").
Proof. exact kids_spec. Qed.
Print Assumptions C56_a_key_for_each_opaque.

(** Whatever keys there are, an opaque token of one kind is refused as another
    kind. *)
Theorem C56_kinds_kept_apart : forall c issuer jar given code token refresh idt hs kid kid' cls cls' s s',
  fernet_correct c -> fernet_authentic c -> base64_correct c ->
  factory issuer jar given code token refresh idt = Ok hs ->
  asked_for_tokens code token refresh kid cls s -> ts_class s = None ->
  asked_for_tokens code token refresh kid' cls' s' -> ts_class s' = None -> cls <> cls' ->
  exists key z key' z', dget hs cls = Some (Some (HDefault key cls z)) /\
    dget hs cls' = Some (Some (HDefault key' cls' z')) /\
    forall rnd nonce now sid,
      let t := default_mint c key cls z rnd nonce now sid false in
      (exists i, default_info c key cls t = Ok i /\ ti_sid i = sid) /\
      (default_info c key' cls' t = Raise UnknownToken \/ default_info c key' cls' t = Raise WrongTokenClass).
Proof. exact no_mixing. Qed.
Print Assumptions C56_kinds_kept_apart.

(** The defaults: without token_handler_args in a plain dictionary, and with the
    defaults of an OpenID provider's configuration. *)
Theorem C56_default_handlers : forall issuer jar k1 k2 k3 conf,
  jar ["code"; "token"; "refresh"] "code" = Some k1 -> jar ["code"; "token"; "refresh"] "token" = Some k2 ->
  jar ["code"; "token"; "refresh"] "refresh" = Some k3 -> dget conf "token_handler_args" = None ->
  context_handlers issuer jar conf = Ok
    [("authorization_code", Some (HDefault k1 "authorization_code" 600));
     ("access_token", Some (HDefault k2 "access_token" 3600));
     ("refresh_token", Some (HDefault k3 "refresh_token" 86400))].
Proof.
  intros issuer jar k1 k2 k3 conf H1 H2 H3 D. unfold context_handlers, token_handler_args. rewrite D.
  cbn - [factory]. unfold factory. cbn [handler_kids]. unfold one_handler, default_token. cbn [ts_class].
  rewrite H1, H2, H3. reflexivity.
Qed.
Print Assumptions C56_default_handlers.

Theorem C56_default_provider_handlers : forall issuer jar k conf abspath given,
  configure op_defaults (fun v => v) abspath op_parameters given [] = Ok conf ->
  (forall v, dget given "token_handler_args" = Some v -> ~ filled v) ->
  jar ["code"] "code" = Some k ->
  context_handlers issuer jar conf = Ok
    [("authorization_code", Some (HDefault k "authorization_code" 600));
     ("access_token", Some (HJWT "access_token" "ES256" issuer 3600));
     ("refresh_token", Some (HJWT "refresh_token" "ES256" issuer 86400));
     ("id_token", Some (HId 300))].
Proof.
  intros issuer jar k conf abspath given E N K.
  assert (D : exists d, dget op_defaults "token_handler_args" = Some d) by (eexists; vm_compute; reflexivity).
  destruct D as (d & D).
  assert (C : dget conf "token_handler_args" = Some d).
  { eapply conf_plain; [right; reflexivity|exact E| | | |].
    - apply smem_In. vm_compute. reflexivity.
    - discriminate.
    - discriminate.
    - apply (ch_default op_defaults (fun v => v) given "token_handler_args" d); [exact N|exact D]. }
  vm_compute in D. injection D as <-.
  unfold context_handlers, token_handler_args. rewrite C.
  vm_compute. rewrite K. vm_compute. reflexivity.
Qed.
Print Assumptions C56_default_provider_handlers.

(** Naming the class of opaque tokens is not the same as leaving it out: without
    arguments there is no handler, though there is a key. *)
Theorem C56_named_opaque_class_refuted : exists s jar,
  ts_class s = Some "oidcop.token.DefaultToken" /\ ts_lifetime s = Some 600%Z /\
  In "code" (handler_kids [] (Some s) None None) /\ jar ["code"] "code" = Some "key" /\
  factory "https://op" jar [] (Some s) None None None = Raise TypeError /\
  exists hs, factory "https://op" jar [] (Some (mk_tspec None (ts_kwargs s) (ts_lifetime s) (ts_password s)))
    None None None = Ok hs.
Proof.
  exists (mk_tspec (Some "oidcop.token.DefaultToken") None (Some 600%Z) None), (fun _ _ => Some "key").
  do 2 (split; [reflexivity|]). split; [now left|]. do 2 (split; [reflexivity|]). eexists. reflexivity.
Qed.
Print Assumptions C56_named_opaque_class_refuted.

(** Nor is a lifetime of 0 what one gets by asking for it. *)
Theorem C56_zero_lifetime_refuted : exists s jar hs,
  ts_lifetime s = Some 0%Z /\ factory "https://op" jar [] (Some s) None None None = Ok hs /\
  dget hs "authorization_code" = Some (Some (HDefault "key" "authorization_code" 300)).
Proof.
  exists (mk_tspec None None (Some 0%Z) None), (fun _ _ => Some "key"). eexists.
  split; [reflexivity|]. split; reflexivity.
Qed.
Print Assumptions C56_zero_lifetime_refuted.

(** Two opaque kinds and a JWT, as in the theorems above. *)
Example C56_example :
  let code := mk_tspec None (Some (mk_tkw (Some 600%Z) None None None)) None None in
  let token := mk_tspec (Some "oidcop.token.jwt_token.JWTToken") (Some (mk_tkw None None (Some "RS256") None)) (Some 60%Z) None in
  let refresh := mk_tspec None None (Some 86400%Z) None in
  let jar := fun kids kid => if smem kid kids then Some (append "key of " kid) else None in
  factory "https://op" jar [] (Some code) (Some token) (Some refresh) None = Ok
    [("authorization_code", Some (HDefault "key of code" "authorization_code" 600));
     ("access_token", Some (HJWT "access_token" "RS256" "https://op" 60));
     ("refresh_token", Some (HDefault "key of refresh" "refresh_token" 86400))]
  /\ asked_for_tokens (Some code) (Some token) (Some refresh) "refresh" "refresh_token" refresh
  /\ wants_lifetime token 1800 60 /\ wants_key refresh (jar ["code"; "refresh"] "refresh") "key of refresh".
Proof.
  cbv zeta. split; [vm_compute; reflexivity|]. split; [unfold asked_for_tokens; auto|].
  split; [apply wl_own; [reflexivity|discriminate]|]. apply wk_jar; [reflexivity|now left].
Qed.

(** ** C57: scopes *)

(** The metadata and the scopes handler agree, unless the capabilities say
    otherwise: the scopes that are advertised are those allowed to a client
    without scopes of its own, and the claims those it gets for them. *)
Theorem C57_metadata_agrees : forall e cid mp claims, plain_client e cid ->
  let s := scopes_start mp [] None claims in
  (forall x, In x (so_supported s) <-> scope_allowed (with_scopes e s) cid x) /\
  (mp <> [] -> forall x, In x (so_supported s) <-> In x (dkeys mp)).
Proof.
  intros e cid mp cl P s. split.
  - intros x. rewrite (plain_allowed e s cid x P). reflexivity.
  - intros N x. unfold s. destruct mp; [congruence|]. reflexivity.
Qed.
Print Assumptions C57_metadata_agrees.

Theorem C57_claims_advertised : forall mp allowed sup e cid k, plain_client e cid ->
  let s := scopes_start mp allowed sup None in
  In k (so_claims s) <-> In k (dkeys (scopes_to_claims (with_scopes e s) (so_supported s) cid)).
Proof. exact start_claims. Qed.
Print Assumptions C57_claims_advertised.

(** The add-on: its scopes are allowed and give its claims; of the others, those
    that were advertised stay allowed and give the standard claims. *)
Theorem C57_custom_scopes_allowed : forall e cid custom s x, plain_client e cid ->
  (scope_allowed (with_scopes e (add_custom_scopes custom s)) cid x <->
   In x (so_supported s) \/ In x (dkeys custom)).
Proof. intros e cid kw s x P. rewrite (plain_allowed _ _ _ _ P). apply custom_allowed. Qed.
Print Assumptions C57_custom_scopes_allowed.

Theorem C57_custom_scopes_release : forall e cid custom s scopes k,
  plain_client e cid -> NoDup (dkeys custom) ->
  (In k (dkeys (scopes_to_claims (with_scopes e (add_custom_scopes custom s)) scopes cid)) <->
   exists x names, In x scopes /\ In k names /\
     (In (x, names) custom \/
      (~ In x (dkeys custom) /\ In x (so_supported s) /\ In (x, names) SCOPE2CLAIMS))).
Proof. exact custom_claims. Qed.
Print Assumptions C57_custom_scopes_release.

Theorem C57_custom_scopes_advertised : forall custom s,
  (forall x, In x (so_supported (add_custom_scopes custom s)) <-> In x (so_supported s) \/ In x (dkeys custom)) /\
  (forall k, In k (so_claims (add_custom_scopes custom s)) <->
     In k (so_claims s) \/ exists x names, In (x, names) custom /\ In k names).
Proof. exact custom_metadata. Qed.
Print Assumptions C57_custom_scopes_advertised.

(** The add-on adds to the standard mapping, not to the one the operator
    configured: a configured scope stays advertised and allowed, and gives no
    claims any more, though its claims stay advertised. *)
Theorem C57_configured_mapping_kept_refuted : exists e cid custom s,
  plain_client e cid /\ s = scopes_start [("openid", ["sub"]); ("dept", ["department"])] [] None None /\
  dkeys (scopes_to_claims (with_scopes e s) ["dept"] cid) = ["department"] /\
  let s' := add_custom_scopes custom s in
  scope_allowed (with_scopes e s') cid "dept" /\ In "dept" (so_supported s') /\ In "department" (so_claims s') /\
  scopes_to_claims (with_scopes e s') ["dept"] cid = [].
Proof.
  exists (toy_env true), "c1", [("research", ["orcid"])]. eexists.
  assert (P : plain_client (toy_env true) "c1").
  { intros c H. vm_compute in H. injection H as <-. split; reflexivity. }
  split; [exact P|]. split; [reflexivity|]. split; [vm_compute; reflexivity|]. cbv zeta.
  split; [apply (plain_allowed _ _ _ _ P); vm_compute; auto|].
  do 2 (split; [vm_compute; auto|]). vm_compute. reflexivity.
Qed.
Print Assumptions C57_configured_mapping_kept_refuted.

(** And it allows every advertised scope, also one that was not allowed. *)
Theorem C57_allowed_scopes_kept_refuted : exists e cid custom s,
  plain_client e cid /\ s = scopes_start [] ["openid"] (Some ["openid"; "email"]) None /\
  ~ scope_allowed (with_scopes e s) cid "email" /\ ~ In "email" (dkeys custom) /\
  scope_allowed (with_scopes e (add_custom_scopes custom s)) cid "email".
Proof.
  exists (toy_env true), "c1", [("research", ["orcid"])]. eexists.
  assert (P : plain_client (toy_env true) "c1").
  { intros c H. vm_compute in H. injection H as <-. split; reflexivity. }
  split; [exact P|]. split; [reflexivity|].
  split; [rewrite (plain_allowed _ _ _ _ P); vm_compute; intuition discriminate|].
  split; [vm_compute; intuition discriminate|]. apply (plain_allowed _ _ _ _ P). vm_compute. auto.
Qed.
Print Assumptions C57_allowed_scopes_kept_refuted.

Example C57_example :
  let s := scopes_start [] [] None None in
  let s' := add_custom_scopes [("research", ["orcid"; "email"])] s in
  plain_client (toy_env true) "c1"
  /\ so_supported s = ["openid"; "profile"; "email"; "address"; "phone"; "offline_access"]
  /\ scope_allowed (with_scopes (toy_env true) s') "c1" "research"
  /\ ~ scope_allowed (with_scopes (toy_env true) s) "c1" "research"
  /\ dkeys (scopes_to_claims (with_scopes (toy_env true) s') ["research"; "phone"; "other"] "c1")
     = ["orcid"; "email"; "phone_number"; "phone_number_verified"].
Proof.
  cbv zeta.
  assert (P : plain_client (toy_env true) "c1").
  { intros c H. vm_compute in H. injection H as <-. split; reflexivity. }
  split; [exact P|]. split; [vm_compute; reflexivity|].
  split; [apply (plain_allowed _ _ _ _ P); vm_compute; auto 10|].
  split; [rewrite (plain_allowed _ _ _ _ P); vm_compute; intuition discriminate|]. vm_compute. reflexivity.
Qed.

(** ** C45: the metadata is served as it was made *)
Theorem C45_served_as_made : forall paths info,
  (forall n, In n (dkeys paths) -> In n shipped_names) -> serve_metadata paths info = info.
Proof. exact shipped_same. Qed.
Print Assumptions C45_served_as_made.

(** An endpoint with one of the names the code looks for changes it: the member
    becomes the path of the endpoint, which is not a URL. *)
Theorem C45_served_for_other_names_refuted : exists paths info,
  dget info "token_endpoint" = Some (CStr "https://op/token") /\
  dget (serve_metadata paths info) "token_endpoint" = Some (CStr "token").
Proof.
  exists [("token_endpoint", "token")], [("token_endpoint", CStr "https://op/token")].
  split; reflexivity.
Qed.
Print Assumptions C45_served_for_other_names_refuted.
