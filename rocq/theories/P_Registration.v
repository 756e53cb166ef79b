(** C38 and C39: client registration, and reading a registration. *)
From Verif Require Import M_Base M_Uri M_Redirect M_Meta M_ClientAuthn M_Registration
  S_Codec S_Redirect S_Registration L_Registration3.

(** * C38 *)

(** An accepted request follows the rules for redirect URIs and asks only for
    what the provider lists; the client gets a new name, the record told is the
    one stored, and no other record changes. *)
Theorem C38_accepted : forall G now rq x c args x',
  reg_laws G -> register G now rq x = (Ok (Done (c, args)), x') ->
  exists rq' rec, g_prepare G rq = Ok rq' /\ preferences_listed (g_info G) rq' /\
    (forall v, dget rq' "redirect_uris" = Some v ->
       exists us, v = RList us /\ forall u, In u us -> acceptable rq' u) /\
    dget (x_cdb x) c = None /\ dget (x_cdb x') c = Some rec /\ dget rec "client_id" = Some (RStr c) /\
    comb_uri (public_part G rec) = Ok args /\
    forall k, k <> c -> dget (x_cdb x') k = dget (x_cdb x) k.
Proof. exact accepted_good. Qed.
Print Assumptions C38_accepted.

(** Whatever a registration comes to, the records of other clients stay. *)
Theorem C38_others_kept : forall G now rq x r x' c rec,
  register G now rq x = (r, x') -> dget (x_cdb x) c = Some rec -> dget (x_cdb x') c = Some rec.
Proof. exact others_kept. Qed.
Print Assumptions C38_others_kept.

(** After any history of registrations, accepted or not, every record that was
    not there at the start was made by one registration. Either that was refused
    and the record has no redirect URIs; or it was accepted, the record holds
    only listed preferences, and its redirect URIs are those asked for, each of
    which follows the rules, stored as it is or split into base and query. *)
Theorem C38_history : forall G ops x evs x' c rec,
  reg_laws G -> fresh_start x -> rrun G ops x = (evs, x') ->
  dget (x_cdb x') c = Some rec -> dget (x_cdb x) c = None ->
  exists i now rq, nth_error ops i = Some (now, rq) /\
    (((forall a, nth_error evs i <> Some (Ok (Done a))) /\ dget rec "redirect_uris" = None) \/
     exists args rq', nth_error evs i = Some (Ok (Done (c, args))) /\ g_prepare G rq = Ok rq' /\
       preferences_listed (g_info G) rec /\
       forall v, dget rec "redirect_uris" = Some v ->
         exists us l, dget rq' "redirect_uris" = Some (RList us) /\ v = RUris l /\
           Forall2 (fun u bq => acceptable rq' u /\ (bq = (u, []) \/ split_uri u = Ok bq)) us l).
Proof. exact history_records. Qed.
Print Assumptions C38_history.

(** A request for plain https URIs is accepted. *)
Theorem C38_plain_accepted : forall G now rq x us,
  reg_laws G -> g_prepare G rq = Ok [("redirect_uris", RList us)] ->
  (forall u, In u us -> plain_base u /\ with_scheme u "https" /\ visible u = u) ->
  g_load G [("redirect_uris", RList us)] = Ok tt ->
  exists c args x', register G now rq x = (Ok (Done (c, args)), x').
Proof. exact plain_accepted. Qed.
Print Assumptions C38_plain_accepted.

(** ** A provider *)
Fixpoint marks (n : nat) : string := match n with O => "" | S k => String "x" (marks k) end.
Lemma marks_inj n m : marks n = marks m -> n = m.
Proof. revert m. induction n as [|n IH]; intros [|m] H; try discriminate; [reflexivity|]. injection H as H. f_equal. auto. Qed.
(** Its requests are dicts: a request with a key twice is refused. *)
Definition a_provider : regconf := mk_regconf
  [("id_token_signing_alg_values_supported", CList ["RS256"; "ES256"]);
   ("response_types_supported", CList ["code"; "id_token code"])]
  (fun rq => if Nat.eqb (List.length (nodup string_dec (dkeys rq))) (List.length rq) then Ok rq else Raise ValueError)
  (fun _ => Raise InvalidSectorIdentifier) (fun _ => Ok true) (fun _ => Ok tt)
  (fun n => String "r" (marks n)) (fun n id => append "secret" (marks n))
  (Some "https://op.example/registration_api") (Some 2592000%Z)
  ["client_id"; "client_secret"; "redirect_uris"; "registration_access_token"; "response_types";
   "id_token_signed_response_alg"; "client_name"].
Lemma provider_laws : reg_laws a_provider.
Proof.
  constructor.
  - intros rq rq' H. cbn in H. destruct (Nat.eqb _ _) eqn:E; [|discriminate]. injection H as <-. apply Nat.eqb_eq in E.
    assert (I : incl (nodup string_dec (dkeys rq)) (dkeys rq)) by (intros z Hz; now apply nodup_In in Hz).
    eapply NoDup_incl_NoDup; [apply NoDup_nodup| |exact I]. unfold dkeys at 1. rewrite map_length. lia.
  - cbn. intros n m H. injection H as H. now apply marks_inj.
  - cbn. discriminate.
Qed.
Definition empty_provider : rctx := mk_rctx [] [] 0.
Definition good_request : dict rval :=
  [("redirect_uris", RList ["https://app.example/cb?a=1"]); ("response_types", RList ["code id_token"]);
   ("id_token_signed_response_alg", RStr "ES256")].

Example C38_case : exists args x', register a_provider 100 good_request empty_provider = (Ok (Done ("r", args)), x') /\
  dget args "redirect_uris" = Some (RList ["https://app.example/cb?a=1"]) /\
  fst (register a_provider 100 [("redirect_uris", RList ["http://app.example/cb"])] empty_provider)
    = Ok (Refused "invalid_redirect_uri") /\
  fst (register a_provider 100 [("id_token_signed_response_alg", RStr "none")] empty_provider)
    = Ok (Refused "invalid_request").
Proof.
  eexists _, _. split; [vm_compute; reflexivity|]. split; [reflexivity|].
  split; vm_compute; reflexivity.
Qed.
Example C38_history_case : exists evs x' rec rec', rrun a_provider
    [(100%Z, good_request); (101%Z, [("redirect_uris", RList ["http://app.example/cb"])])] empty_provider = (evs, x') /\
  fresh_start empty_provider /\ List.length (x_cdb x') = 2 /\
  nth_error (x_cdb x') 0 = Some ("r", rec) /\ nth_error (x_cdb x') 1 = Some ("rxxxx", rec') /\
  dget rec "redirect_uris" = Some (RUris [("https://app.example/cb", [("a", ["1"])])]) /\
  dget rec' "redirect_uris" = None.
Proof. eexists _, _, _, _. split; [vm_compute; reflexivity|]. split; [split; reflexivity|]. repeat split. Qed.

(** ** What the rules do not exclude *)

(** An http URI anywhere is registered for a web client that uses only codes. *)
Theorem C38_http_refuted : exists args x',
  register a_provider 100 [("redirect_uris", RList ["http://app.example/cb"]); ("response_types", RList ["code"])]
    empty_provider = (Ok (Done ("r", args)), x').
Proof. eexists _, _. vm_compute. reflexivity. Qed.
Print Assumptions C38_http_refuted.

(** A URI without a host is registered. *)
Theorem C38_no_host_refuted : exists args x' rec,
  register a_provider 100 [("redirect_uris", RList ["https:cb"])] empty_provider = (Ok (Done ("r", args)), x') /\
  dget (x_cdb x') "r" = Some rec /\ dget rec "redirect_uris" = Some (RUris [("https:///cb", [])]).
Proof. eexists _, _, _. split; [vm_compute; reflexivity|]. split; reflexivity. Qed.
Print Assumptions C38_no_host_refuted.

(** A native client may register any scheme, none at all, a fragment, and, with
    a bracket after it, any http host. *)
Theorem C38_native_refuted : exists args x',
  register a_provider 100
    [("application_type", RStr "native");
     ("redirect_uris", RList ["javascript:alert(1)"; "cb"; "http://localhost/cb#x"; "http://evil.example[localhost]/cb"])]
    empty_provider = (Ok (Done ("r", args)), x').
Proof. eexists _, _. vm_compute. reflexivity. Qed.
Print Assumptions C38_native_refuted.

(** Attributes that are the provider's to decide are taken from the request. *)
Theorem C38_attributes_refuted : exists args x' rec,
  register a_provider 100
    [("redirect_uris", RList ["https://app.example/cb"]); ("client_secret", RStr "mine");
     ("allowed_scopes", RList ["admin"]); ("client_secret_expires_at", RInt 0); ("pkce_essential", RJson "false")]
    empty_provider = (Ok (Done ("r", args)), x') /\
  dget (x_cdb x') "r" = Some rec /\ dget rec "client_secret" = Some (RStr "mine") /\
  dget rec "allowed_scopes" = Some (RList ["admin"]) /\ dget rec "client_secret_expires_at" = Some (RInt 0) /\
  dget rec "pkce_essential" = Some (RJson "false").
Proof. eexists _, _, _. split; [vm_compute; reflexivity|]. repeat split. Qed.
Print Assumptions C38_attributes_refuted.

(** A refused registration leaves a client behind. *)
Theorem C38_refused_leaves_client_refuted : exists x' rec,
  register a_provider 100 [("redirect_uris", RList ["http://app.example/cb"])] empty_provider
    = (Ok (Refused "invalid_redirect_uri"), x') /\
  dget (x_cdb x') "r" = Some rec /\ dget rec "client_secret" = Some (RStr "secretxxx").
Proof. eexists _, _. split; [vm_compute; reflexivity|]. split; reflexivity. Qed.
Print Assumptions C38_refused_leaves_client_refuted.

(** * C39. The endpoint asks for a bearer token, as in the configuration that
    comes with the code (src/oidcop/configure.py 327-331). *)

(** A token given to the client [c] opens only the registration of [c], which is
    what [c] was told when it registered, whatever registrations came between. *)
Theorem C39_own_record : forall G A now q hdr ops x evs x' db a db' i c t args,
  reg_laws G -> fresh_start x -> rrun G ops x = (evs, x') -> given G ops evs i c t args ->
  hdr = Some (append "Bearer " t) ->
  read_registration G A [MBearerHeader] now q hdr x' db = (Ok a, db') ->
  cr_client_id q = Some c /\ a = args.
Proof. exact read_own. Qed.
Print Assumptions C39_own_record.

(** ... and it does open it. *)
Theorem C39_reads_back : forall G A now q hdr ops x evs x' db i c t args,
  reg_laws G -> fresh_start x -> rrun G ops x = (evs, x') -> given G ops evs i c t args ->
  reads_with q hdr c t ->
  read_registration G A [MBearerHeader] now q hdr x' db = (Ok args, db).
Proof. exact read_back. Qed.
Print Assumptions C39_reads_back.

(** Nothing is read without a token and a client id, nor with a token that the
    provider has not made. *)
Theorem C39_needs_token : forall G A now q hdr ops x evs x' db a db',
  reg_laws G -> fresh_start x -> rrun G ops x = (evs, x') ->
  read_registration G A [MBearerHeader] now q hdr x' db = (Ok a, db') ->
  exists c t n, reads_with q hdr c t /\ t = g_rnd G n /\ n < x_n x'.
Proof. exact read_drawn. Qed.
Print Assumptions C39_needs_token.

(** One token never opens two registrations, even if registrations come
    between the two reads. *)
Theorem C39_one_client : forall G A B now now' q q' hdr ops more x evs evs' x' x'' db db' a a' d d',
  reg_laws G -> fresh_start x -> rrun G ops x = (evs, x') -> rrun G more x' = (evs', x'') ->
  read_registration G A [MBearerHeader] now q hdr x' db = (Ok a, d) ->
  read_registration G B [MBearerHeader] now' q' hdr x'' db' = (Ok a', d') ->
  cr_client_id q = cr_client_id q' /\ a = a'.
Proof. exact read_one. Qed.
Print Assumptions C39_one_client.

Definition two_registrations : list regop :=
  [(100%Z, good_request); (101%Z, [("redirect_uris", RList ["https://other.example/cb"])])].
Definition no_libraries : aenv := mk_aenv [] (fun _ => Raise ValueError) (fun s => s) (fun _ _ => Raise ValueError) (fun _ _ => []).
Definition read_as (c : string) (hdr : option string) (x : rctx) : res (dict rval) :=
  fst (read_registration a_provider no_libraries [MBearerHeader] 102 (mk_creq (Some c) None None None None) hdr x []).

Example C39_case : exists evs x' args, rrun a_provider two_registrations empty_provider = (evs, x') /\
  given a_provider two_registrations evs 0 "r" "rxx" args /\
  read_as "r" (Some "Bearer rxx") x' = Ok args /\
  read_as "rxxxx" (Some "Bearer rxx") x' = Raise KeyError /\
  read_as "r" (Some "Bearer nonsense") x' = Raise BearerTokenAuthenticationError /\
  read_as "r" None x' = Raise UnAuthorizedClient.
Proof.
  eexists _, _, _. split; [vm_compute; reflexivity|]. split.
  - exists good_request, good_request. split; [exists 100%Z; split; reflexivity|]. split; [reflexivity|]. split; reflexivity.
  - repeat split; vm_compute; reflexivity.
Qed.

(** If no authentication method is configured for the endpoint, anyone reads any
    record, with the client secret. *)
Theorem C39_open_refuted : exists evs x' a,
  rrun a_provider two_registrations empty_provider = (evs, x') /\
  read_registration a_provider no_libraries [] 102 (mk_creq (Some "r") None None None None) None x' [] = (Ok a, []) /\
  dget a "client_secret" = Some (RStr "secretxxx").
Proof. eexists _, _, _. split; [vm_compute; reflexivity|]. split; [vm_compute; reflexivity|]. reflexivity. Qed.
Print Assumptions C39_open_refuted.

(** A client that names a token itself is told that token, which opens nothing. *)
Theorem C39_own_token_refuted : exists args x',
  register a_provider 100 [("registration_access_token", RStr "mine")] empty_provider = (Ok (Done ("r", args)), x') /\
  dget args "registration_access_token" = Some (RStr "mine") /\
  read_as "r" (Some "Bearer mine") x' = Raise BearerTokenAuthenticationError.
Proof. eexists _, _. split; [vm_compute; reflexivity|]. split; vm_compute; reflexivity. Qed.
Print Assumptions C39_own_token_refuted.
