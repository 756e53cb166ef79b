(** Property theorems about arguments that an operator adds to responses (C61). *)
From Verif Require Import M_Base M_Uri M_Types M_Codec M_Grant M_Env M_Session M_Claims M_Handler
  M_Authz M_TokenEP M_PKCE M_AuthzEP M_Info M_Logout M_History M_Redirect M_Response M_Extra S_Codec S_Grant S_Store S_Toy
  S_History S_Hex S_Resp S_Response S_Extra L_Base L_Hex L_Info L_Response L_Extra P_History P_Info P_AuthzResp P_Response.

(** An answer of the authorization endpoint that is neither an error nor a form
    says, at the redirect URI, every argument that the operator asked for, with
    the value of the provider's attribute, and under all other names exactly what
    it says without the add-on. *)
Theorem C61_added : forall names kwargs s attrs c ar desc ss cookies o a v p,
  well_formed kwargs -> In "authorization" names -> add_support kwargs (x_init names) = Ok s -> attributes_exist kwargs attrs ->
  rc_place c = PUrl -> ao_args o = Good a -> ao_form o = false -> ao_uri o = Some v -> has_char "#" v = false -> urlsplit v = Ok p ->
  exists out r, extended_response attrs s "authorization" (answer_kind o) c (delivered ar desc ss cookies o) = Ok out
    /\ ro_response out = Some r
    /\ reaches (delivery o) p (extended_says kwargs attrs (rc_joined c) (says (smem "scope" (rc_joined c)) ar desc ss o)) r.
Proof. exact extra_added. Qed.
Print Assumptions C61_added.

(** Errors and forms are what they are without the add-on. *)
Theorem C61_errors_and_forms : forall attrs s c ar desc ss cookies o,
  dget (xs_hooks s) "authorization" <> None -> (exists x, ao_args o = Err x) \/ ao_form o = true ->
  extended_response attrs s "authorization" (answer_kind o) c (delivered ar desc ss cookies o)
  = do_response c (delivered ar desc ss cookies o).
Proof. exact extra_not_in_errors_and_forms. Qed.
Print Assumptions C61_errors_and_forms.

(** The set-up of a provider accepts exactly the configurations whose keys are
    names of its endpoints. *)
Theorem C61_setup : forall kwargs names, well_formed kwargs ->
  ((exists s, add_support kwargs (x_init names) = Ok s) <-> forall k, In k (dkeys kwargs) -> In k names).
Proof. exact setup_iff. Qed.
Print Assumptions C61_setup.

(** With the endpoints of the package no accepted configuration changes a
    response of an endpoint other than the authorization endpoint. *)
Theorem C61_elsewhere : forall attrs kwargs names s name c a,
  well_formed kwargs -> (forall n, In n names -> In n PACKAGE_NAMES) -> add_support kwargs (x_init names) = Ok s ->
  In name names -> extended_response attrs s name (endpoint_kind name) c a = do_response c a.
Proof. exact extra_elsewhere. Qed.
Print Assumptions C61_elsewhere.

(** A configuration that names an attribute that does not exist is accepted, and
    then every answer that is neither an error nor a form fails. *)
Theorem C61_unknown_attribute : forall names kwargs s attrs c ar desc ss cookies o a args n param,
  well_formed kwargs -> In "authorization" names -> add_support kwargs (x_init names) = Ok s ->
  dget kwargs "authorization" = Some args -> In (n, param) args -> dget attrs param = None ->
  ao_args o = Good a -> ao_form o = false ->
  extended_response attrs s "authorization" (answer_kind o) c (delivered ar desc ss cookies o) = Raise AttributeError.
Proof. exact extra_unknown_attribute. Qed.
Print Assumptions C61_unknown_attribute.

(** ** Examples *)

Definition extra_names : list string := ["provider_config"; "authorization"; "token"; "introspection"; "userinfo"].
Definition extra_attrs : dict mval :=
  [("issuer", MStr "https://op.example.com/"); ("sso_ttl", MInt 14400); ("cwd", MStr "")].
Definition extra_kwargs : xconf :=
  [("authorization", [("op", "issuer"); ("sso", "sso_ttl"); ("dir", "cwd")]); ("introspection", [("op", "issuer")])].
Definition extra_state : xstate :=
  match add_support extra_kwargs (x_init extra_names) with Ok s => s | Raise _ => x_init [] end.
Definition extra_sent (ar : areq) (uri : string) : option string :=
  match step demo_env (h_init []) (login_op ar uri) with
  | (EvLogin (Ok a), _) =>
      match extended_response extra_attrs extra_state "authorization" (answer_kind a) authz_class (delivered ar "" "" None a) with
      | Ok out => ro_response out
      | Raise _ => None
      end
  | _ => None
  end.
Definition extra_req (mode : option string) : areq := mode_req cb_uri "st" ["code"] mode.

(** The hypotheses hold for a log-in of the demonstration provider, and the
    client reads the issuer and the number, but not the empty text. *)
Example C61_example :
  well_formed extra_kwargs /\ add_support extra_kwargs (x_init extra_names) = Ok extra_state
  /\ attributes_exist extra_kwargs extra_attrs
  /\ exists r p, extra_sent (extra_req None) cb_uri = Some r /\ urlsplit r = Ok p
     /\ map fst (parse_qsl (us_query p)) = ["foo"; "state"; "scope"; "code"; "iss"; "client_id"; "op"; "sso"]
     /\ dget (parse_qsl (us_query p)) "op" = Some "https://op.example.com/" /\ dget (parse_qsl (us_query p)) "sso" = Some "14400".
Proof.
  split; [split|].
  - cbn. repeat (apply NoDup_cons; [cbn; intuition discriminate|]). apply NoDup_nil.
  - intros k args [E|[E|[]]]; injection E as <- <-; cbn;
      repeat (apply NoDup_cons; [cbn; intuition discriminate|]); apply NoDup_nil.
  - split; [vm_compute; reflexivity|]. split.
    + intros args n p E I. vm_compute in E. injection E as <-. destruct I as [I|[I|[I|[]]]]; injection I as <- <-; vm_compute; discriminate.
    + eexists _, _. do 4 (split; [vm_compute; reflexivity|]). vm_compute. reflexivity.
Qed.

(** The same configuration, with the response mode form_post: the form is
    made before the add-on runs, so the client does not get the arguments. *)
Theorem C61_form_refuted : exists r fields,
  wanted extra_kwargs extra_attrs "op" (MStr "https://op.example.com/")
  /\ extra_sent (extra_req (Some "form_post")) cb_uri = Some r /\ posts r cb_uri fields /\ ~ In "op" (map fst fields).
Proof.
  eexists _, [(_, _); (_, _); (_, _)]. split; [|split; [vm_compute; reflexivity|split; [vm_compute; reflexivity|]]].
  - eexists _, _. split; [vm_compute; reflexivity|]. split; [now left|]. split; [vm_compute; reflexivity|]. discriminate.
  - cbn. intuition discriminate.
Qed.
Print Assumptions C61_form_refuted.

(** The add-on knows a key for introspection responses and one for access token
    responses, but no provider made of the endpoints of the package can be set
    up with them: the endpoints have other names. *)
Theorem C61_keys_refuted : forall names key kwargs args,
  (forall n, In n names -> In n PACKAGE_NAMES) -> In key ["token_introspection"; "accesstoken"; "token_exchange"] ->
  well_formed kwargs -> In (key, args) kwargs -> ~ exists s, add_support kwargs (x_init names) = Ok s.
Proof.
  intros names key kwargs args P K W I H. apply (proj1 (setup_iff kwargs names W)) with (k := key) in H.
  - apply P, smem_In in H. destruct K as [<-|[<-|[<-|[]]]]; vm_compute in H; discriminate.
  - now apply (in_map fst) in I.
Qed.
Print Assumptions C61_keys_refuted.
