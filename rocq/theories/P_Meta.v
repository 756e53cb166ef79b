(** Property theorems about the advertised algorithms (C45). *)
From Verif Require Import M_Base M_Meta S_Meta L_Base L_Meta.

(** What the metadata lists is supported by the library, unless the
    configuration fixes the attribute itself. *)
Theorem C45_advertised_is_supported : forall L c p attr l v,
  usual L -> only_shipped c -> metadata L c = Ok p ->
  S_Meta.supports L attr l -> ~ fixes c attr -> dget p attr = Some v ->
  exists l', iter v = Ok l' /\ incl l' l.
Proof. exact advertised_supported. Qed.
Print Assumptions C45_advertised_is_supported.

(** If nothing is configured, all that is supported is listed but the weak
    algorithms. *)
Theorem C45_default_is_not_weak : forall L c p attr l v,
  usual L -> only_shipped c -> metadata L c = Ok p ->
  S_Meta.supports L attr l -> ~ fixes c attr -> (forall w, ~ proposes c attr w) ->
  dget p attr = Some v ->
  forall x, lists v x <-> In x l /\ ~ weak attr x.
Proof. exact default_not_weak. Qed.
Print Assumptions C45_default_is_not_weak.

(** The provider does not start with a list of which an element is not
    supported. *)
Theorem C45_unsupported_is_refused : forall L c attr l v x,
  usual L -> only_shipped c -> S_Meta.supports L attr l ->
  proposes c attr v -> lists v x -> ~ In x l ->
  exists y, metadata L c = Raise y.
Proof. exact bad_list_refused. Qed.
Print Assumptions C45_unsupported_is_refused.

Definition toy_lib : lib :=
  mk_lib ["none"; "HS256"; "ES256"; "RS512"; "RS256"; "PS256"] ["RSA1_5"; "RSA-OAEP"; "A128KW"] ["A128GCM"; "A256GCM"].
Definition toy_endpoints (kw : dict cval) : list endp := [
  mk_endp (Some oidc_authorization_defaults) [] "authorization" "authorization_endpoint" "https://op/authz";
  mk_endp (Some userinfo_defaults) kw "userinfo" "userinfo_endpoint" "https://op/userinfo"].
Definition toy_mconf (caps kw : dict cval) (dpop : option (option (list string))) : mconf :=
  mk_mconf caps (toy_endpoints kw) "https://op" None None ["openid"] ["sub"] dpop (Some []).
Definition advertises (L : lib) (c : mconf) (attr : string) (l : list string) : Prop :=
  exists p, metadata L c = Ok p /\ dget p attr = Some (CList l).

Lemma toy_usual : usual toy_lib.
Proof. do 3 (split; [discriminate|]). repeat constructor; cbn; intuition discriminate. Qed.
Lemma toy_shipped caps kw dpop : only_shipped (toy_mconf caps kw dpop).
Proof. repeat constructor; cbn; tauto. Qed.

Example C45_example :
  usual toy_lib /\ only_shipped (toy_mconf [] [] None)
  /\ S_Meta.supports toy_lib "userinfo_encryption_alg_values_supported" ["RSA1_5"; "RSA-OAEP"; "A128KW"]
  /\ (forall w, ~ proposes (toy_mconf [] [] None) "userinfo_encryption_alg_values_supported" w)
  /\ ~ fixes (toy_mconf [] [] None) "userinfo_encryption_alg_values_supported"
  /\ advertises toy_lib (toy_mconf [] [] None) "userinfo_encryption_alg_values_supported" ["RSA-OAEP"; "A128KW"]
  /\ advertises toy_lib (toy_mconf [] [] None) "id_token_signing_alg_values_supported"
       ["RS256"; "RS512"; "ES256"; "HS256"; "PS256"]
  /\ proposes (toy_mconf [] [("userinfo_signing_alg_values_supported", CList ["RS256"; "XX1"])] None)
       "userinfo_signing_alg_values_supported" (CList ["RS256"; "XX1"])
  /\ metadata toy_lib (toy_mconf [] [("userinfo_signing_alg_values_supported", CList ["RS256"; "XX1"])] None)
     = Raise ValueError.
Proof.
  split; [exact toy_usual|]. split; [apply toy_shipped|].
  split; [right; left; split; [cbn; tauto|reflexivity]|].
  split. { intros w [(p & d & H & E & I & D)|(kw & E & I & D)].
    - cbn in H. destruct H as [<-|[<-|[]]]; discriminate D.
    - injection E as <-. discriminate D. }
  split. { intros [H _]. apply H. reflexivity. }
  split; [eexists; split; vm_compute; reflexivity|]. split; [eexists; split; vm_compute; reflexivity|].
  split; [|vm_compute; reflexivity].
  left. eexists. eexists. split; [right; left; reflexivity|]. split; [reflexivity|].
  split; [cbn; tauto|reflexivity].
Qed.

(** A list fixed under "capabilities" is not checked. *)
Theorem C45_fixed_refuted : exists L c attr l x, usual L /\ only_shipped c /\ S_Meta.supports L attr l
  /\ fixes c attr /\ ~ In x l /\ advertises L c attr [x].
Proof.
  exists toy_lib, (toy_mconf [("userinfo_signing_alg_values_supported", CList ["XX1"])] [] None),
    "userinfo_signing_alg_values_supported", (l_sign toy_lib), "XX1".
  split; [exact toy_usual|]. split; [apply toy_shipped|]. split; [left; split; [cbn; tauto|reflexivity]|].
  split. { split; [cbn; discriminate|]. right. cbn. intuition discriminate. }
  split; [cbn; intuition discriminate|]. eexists; split; vm_compute; reflexivity.
Qed.
Print Assumptions C45_fixed_refuted.

(** Weak algorithms that are configured are advertised. *)
Theorem C45_weak_refuted : exists L c attr v x, usual L /\ only_shipped c /\ ~ fixes c attr
  /\ proposes c attr v /\ weak attr x /\ advertises L c attr [x].
Proof.
  exists toy_lib, (toy_mconf [] [("userinfo_signing_alg_values_supported", CList ["none"])] None),
    "userinfo_signing_alg_values_supported", (CList ["none"]), "none".
  split; [exact toy_usual|]. split; [apply toy_shipped|]. split. { intros [H _]. apply H. reflexivity. }
  split. { left. eexists. eexists. split; [right; left; reflexivity|]. split; [reflexivity|].
    split; [cbn; tauto|reflexivity]. }
  split; [left; split; [cbn; tauto|reflexivity]|]. eexists; split; vm_compute; reflexivity.
Qed.
Print Assumptions C45_weak_refuted.

(** The algorithms for DPoP proofs are not checked. *)
Theorem C45_dpop_refuted : exists L c x, usual L /\ only_shipped c /\ mc_capabilities c = []
  /\ ~ In x (l_sign L) /\ advertises L c "dpop_signing_alg_values_supported" [x].
Proof.
  exists toy_lib, (toy_mconf [] [] (Some (Some ["XX1"]))), "XX1".
  split; [exact toy_usual|]. split; [apply toy_shipped|]. split; [reflexivity|].
  split; [cbn; intuition discriminate|]. eexists; split; vm_compute; reflexivity.
Qed.
Print Assumptions C45_dpop_refuted.
