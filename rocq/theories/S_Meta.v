(** Specification vocabulary for the advertised algorithms. *)
From Verif Require Import M_Base M_Meta.

(** The attributes of the metadata that list algorithms for signatures, for key
    encryption and for content encryption. (DPoP has its own, see
    [C45_dpop_refuted].) *)
Definition signing_attrs : list string := [
  "id_token_signing_alg_values_supported"; "userinfo_signing_alg_values_supported";
  "request_object_signing_alg_values_supported"; "token_endpoint_auth_signing_alg_values_supported"].
Definition alg_attrs : list string := [
  "id_token_encryption_alg_values_supported"; "userinfo_encryption_alg_values_supported";
  "request_object_encryption_alg_values_supported"].
Definition enc_attrs : list string := [
  "id_token_encryption_enc_values_supported"; "userinfo_encryption_enc_values_supported";
  "request_object_encryption_enc_values_supported"].

(** Attribute [attr] lists algorithms, and the library supports [l] for it. *)
Definition supports (L : lib) (attr : string) (l : list string) : Prop :=
  (In attr signing_attrs /\ l = l_sign L) \/ (In attr alg_attrs /\ l = l_alg L)
  \/ (In attr enc_attrs /\ l = l_enc L).
(** What is weak among them. *)
Definition weak (attr alg : string) : Prop :=
  (In attr signing_attrs /\ alg = "none")
  \/ (In attr alg_attrs /\ (alg = "none" \/ alg = "RSA1_5")).

(** The library supports something of each kind; SIGNER_ALGS is a dict. *)
Definition usual (L : lib) : Prop :=
  l_sign L <> [] /\ l_alg L <> [] /\ l_enc L <> [] /\ NoDup (l_sign L).

(** The endpoints are those that ship with the provider. *)
Definition shipped_endpoint (p : endp) : Prop :=
  In (ep_defaults p) shipped
  /\ In (ep_endpoint_name p) [""; "authorization_endpoint"; "end_session_endpoint";
       "introspection_endpoint"; "pushed_authorization_request_endpoint"; "registration_endpoint";
       "token_endpoint"; "userinfo_endpoint"].
Definition only_shipped (c : mconf) : Prop := Forall shipped_endpoint (mc_endpoints c).

(** The configuration fixes the metadata attribute itself, under "capabilities".
    (For those of the ID token its handler has the last word.) *)
Definition fixes (c : mconf) (attr : string) : Prop :=
  dget (mc_capabilities c) attr <> None
  /\ (mc_id_token c = None \/ ~ In attr (map fst id_token_defaults)).

(** The configuration proposes the value [v] for the attribute: as an argument of
    an endpoint that has it, or of the ID token handler. *)
Definition proposes (c : mconf) (attr : string) (v : cval) : Prop :=
  (exists p d, In p (mc_endpoints c) /\ ep_defaults p = Some d /\ In attr (map fst d)
     /\ dget (ep_kwargs p) attr = Some v)
  \/ (exists kw, mc_id_token c = Some kw /\ In attr (map fst id_token_defaults) /\ dget kw attr = Some v).

(** The value is a list and [x] is in it. *)
Definition lists (v : cval) (x : string) : Prop := exists l, v = CList l /\ In x l.
