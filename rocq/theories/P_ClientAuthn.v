(** C30, C31: client authentication. *)
From Verif Require Import M_Base M_Codec M_ClientAuthn S_Codec S_ClientAuthn L_ClientAuthn.

(** ** A concrete server for the examples. "c1" never expires, "c2" expired at
    100, "al" is another name of "c1". Texts stand for themselves. *)
Definition ex_jwt (alg iss : string) (aud : list string) (jti : option string) : assertion :=
  mk_assertion (Some alg) None iss aud jti.
Definition ex_A : aenv := mk_aenv
  [("c1", CInfo (Some "s1") 0); ("c2", CInfo (Some "s2") 100); ("al", CAlias "c1");
   ("c", CInfo (Some "s3") 0); ("c:1", CInfo (Some "s4") 0)]
  Ok (fun s => s)
  (fun _ t => if String.eqb t "hs" then Ok (ex_jwt "HS256" "c1" ["https://op/token"] (Some "j"))
              else if String.eqb t "rs" then Ok (ex_jwt "RS256" "c1" ["https://op/token"] (Some "k"))
              else if String.eqb t "nojti" then Ok (ex_jwt "RS256" "c1" ["https://op/token"] None)
              else if String.eqb t "foreign" then Ok (ex_jwt "RS256" "c1" ["https://other"] (Some "f"))
              else if String.eqb t "x" then Ok (ex_jwt "RS256" "c" ["https://op/token"] (Some "1:2"))
              else if String.eqb t "y" then Ok (ex_jwt "RS256" "c:1" ["https://op/token"] (Some "2"))
              else Raise ValueError)
  (fun iss _ => if String.eqb iss "c1" then ["s1"] else []).
Definition ex_ep (ms : list meth) : cendpoint := mk_cendpoint ms ["https://op/token"] None.
Definition ex_post (c s : string) : creq := mk_creq (Some c) (Some s) None None None.
Definition ex_assert (t : string) : creq := mk_creq None None None (Some t) None.

(** ** C30 *)

(** A request attributed to a client by a secret-based method carries, in the
    place the method prescribes, the name of that client and the secret that is
    registered for it; the client is registered and its secret has not expired. *)
Theorem C30_secret_needed A now ep q hdr s o s' m c :
  client_authentication A now ep q hdr s = (o, s') -> authenticated o m c ->
  m = "client_secret_basic" \/ m = "client_secret_post" ->
  exists x, (m = "client_secret_basic" /\ basic_header A hdr c x
             \/ m = "client_secret_post" /\ body_secret q c x)
    /\ has_secret A c x /\ (c <> "" -> in_force A now c).
Proof. exact (secret_sound A now ep q hdr s o s' m c). Qed.
Print Assumptions C30_secret_needed.

Example C30_secret_needed_ex :
  authenticated (fst (client_authentication ex_A 500 (ex_ep [MBasic; MPost]) (ex_post "x" "y") (Some "Basic c1:s1") []))
    "client_secret_basic" "c1"
  /\ authenticated (fst (client_authentication ex_A 500 (ex_ep [MBasic; MPost]) (ex_post "c1" "s1") None []))
    "client_secret_post" "c1".
Proof. split; eexists; vm_compute; split; try reflexivity; split; reflexivity. Qed.

(** The method that authenticated is one that the endpoint allows. *)
Theorem C30_method_allowed A now ep q hdr s i s' :
  client_authentication A now ep q hdr s = (Ok (Some i), s') ->
  exists m, In m (ep_methods ep) /\ ai_method i = tag m.
Proof.
  intros E. destruct (method_allowed A now ep q hdr s i s' E) as (m & I & T & _). exists m. auto.
Qed.
Print Assumptions C30_method_allowed.

(** Whatever the method, the client a request is attributed to is registered
    and its secret has not expired, or it was found from the token presented. *)
Theorem C30_client_in_force A now ep q hdr s i s' c :
  client_authentication A now ep q hdr s = (Ok (Some i), s') -> ai_client i = Some c -> c <> "" ->
  in_force A now c \/ (exists f t, ep_from_token ep = Some f /\ f t = Ok c /\ ai_token i = Some t).
Proof. exact (attributed_in_force A now ep q hdr s i s' c). Qed.
Print Assumptions C30_client_in_force.

Example C30_expired_ex :
  fst (client_authentication ex_A 101 (ex_ep [MBasic; MPost]) (ex_post "c2" "s2") None []) = Raise InvalidClient
  /\ authenticated (fst (client_authentication ex_A 100 (ex_ep [MBasic; MPost]) (ex_post "c2" "s2") None []))
       "client_secret_post" "c2"
  /\ fst (client_authentication ex_A 0 (ex_ep [MNone]) (ex_post "al" "") None []) = Raise AttributeError
  /\ fst (client_authentication ex_A 0 (ex_ep [MNone]) (ex_post "zz" "") None []) = Raise UnknownClient.
Proof. repeat split; try (vm_compute; reflexivity). eexists; vm_compute; split; try reflexivity; split; reflexivity. Qed.

(** At an endpoint that allows secret-based methods only, a request that
    carries no right secret is refused. *)
Theorem C30_wrong_secret_refused A now ep q hdr s :
  ep_methods ep <> [] -> (forall m, In m (ep_methods ep) -> m = MBasic \/ m = MPost) ->
  (forall c x, basic_header A hdr c x \/ body_secret q c x -> ~ has_secret A c x) ->
  client_authentication A now ep q hdr s = (Raise UnAuthorizedClient, s).
Proof. exact (wrong_secret A now ep q hdr s). Qed.
Print Assumptions C30_wrong_secret_refused.

Example C30_wrong_secret_ex :
  client_authentication ex_A 500 (ex_ep [MBasic; MPost]) (ex_post "c1" "s2") (Some "Basic c1:s2") []
  = (Raise UnAuthorizedClient, []).
Proof. vm_compute. reflexivity. Qed.

(** A request with the right secret, in the first place that is looked at, is
    attributed to its client. *)
Theorem C30_right_secret_accepted A now ep q hdr pre m post s c x :
  ep_methods ep = pre ++ m :: post -> (forall m', In m' pre -> is_usable m' q hdr = false) ->
  (m = MBasic /\ basic_header A hdr c x \/ m = MPost /\ body_secret q c x) ->
  has_secret A c x -> in_force A now c -> c <> "" ->
  exists i, client_authentication A now ep q hdr s = (Ok (Some i), s)
    /\ ai_method i = tag m /\ ai_client i = Some c.
Proof.
  intros. eexists. split; [eapply secret_complete; eauto|]. split; reflexivity.
Qed.
Print Assumptions C30_right_secret_accepted.

(** "A request with a wrong secret is refused wherever a secret-based method is
    configured" is false: with "none" beside it the failure is forgotten and the
    client named in the request is believed. *)
Theorem C30_wrong_secret_refused_everywhere_refuted :
  exists A now ep q c x, In MPost (ep_methods ep) /\ body_secret q c x /\ ~ has_secret A c x
    /\ authenticated (fst (client_authentication A now ep q None [])) "none" c.
Proof.
  exists ex_A, 0%Z, (ex_ep [MPost; MNone]), (ex_post "c1" "wrong"), "c1", "wrong".
  split; [left; reflexivity|]. split; [split; reflexivity|]. split.
  - intros (eta & E). vm_compute in E. discriminate.
  - eexists. vm_compute. split; [reflexivity|]. split; reflexivity.
Qed.
Print Assumptions C30_wrong_secret_refused_everywhere_refuted.

(** "An endpoint attributes a request to a registered client or to none" is
    false: with an empty list of methods the client named in the request is
    taken over unchecked. *)
Theorem C30_attributed_client_registered_refuted :
  exists A now ep q c o s', client_authentication A now ep q None [] = (Ok o, s')
    /\ attributed q o = Some c /\ dget (a_cdb A) c = None.
Proof.
  exists ex_A, 0%Z, (ex_ep []), (ex_post "nobody" ""), "nobody", None, [].
  vm_compute. auto.
Qed.
Print Assumptions C30_attributed_client_registered_refuted.

(** ** C31 *)

(** In any history of authentication attempts, at any endpoints and times, two
    accepted JWTs with the same issuer and the same jti were one attempt. *)
Theorem C31_accepted_once A db xs i k x y o p a b m m' j :
  attempted A db xs i x o -> attempted A db xs k y p -> by_jwt o m a -> by_jwt p m' b ->
  as_iss a = as_iss b -> as_jti a = Some j -> as_jti b = Some j -> j <> "" -> i = k.
Proof. exact (jwt_once A xs db i k x y o p a b m m' j). Qed.
Print Assumptions C31_accepted_once.

Definition ex_try (t : string) : attempt :=
  mk_attempt 0 (ex_ep [MSecretJWT; MPrivateJWT]) (ex_assert t) None.
Example C31_accepted_once_ex :
  (exists x o a, attempted ex_A [] [ex_try "hs"; ex_try "rs"; ex_try "hs"] 0 x o /\ by_jwt o "client_secret_jwt" a
     /\ as_jti a = Some "j")
  /\ (exists x o a, attempted ex_A [] [ex_try "hs"; ex_try "rs"; ex_try "hs"] 1 x o /\ by_jwt o "private_key_jwt" a
     /\ as_jti a = Some "k")
  /\ exists x, attempted ex_A [] [ex_try "hs"; ex_try "rs"; ex_try "hs"] 2 x (Raise UnAuthorizedClient).
Proof.
  split; [|split]; repeat eexists; vm_compute; reflexivity.
Qed.

(** An accepted client assertion came with the request and passed the
    verification of the library; it is addressed to this endpoint; the algorithm
    is a symmetric one for client_secret_jwt, with the first symmetric key known
    for the issuer being its secret, and not a symmetric one for
    private_key_jwt. The client is the issuer, which is registered and in
    force. *)
Theorem C31_assertion_checked A now ep q hdr s i s' a :
  client_authentication A now ep q hdr s = (Ok (Some i), s') -> ai_jwt i = Some a ->
  ai_method i = "client_secret_jwt" \/ ai_method i = "private_key_jwt" ->
  (exists text, cr_assertion q = Some text /\ a_unpack A now text = Ok a)
  /\ (exists x, In x (as_aud a) /\ In x (ep_targets ep))
  /\ (ai_method i = "client_secret_jwt" -> (exists g, as_alg a = Some (append "HS" g))
        /\ forall x, has_secret A (as_iss a) x -> x <> "" -> exists ks, a_oct A (as_iss a) (as_kid a) = x :: ks)
  /\ (ai_method i = "private_key_jwt" -> forall g, as_alg a <> Some (append "HS" g))
  /\ (as_iss a <> "" -> ai_client i = Some (as_iss a) /\ in_force A now (as_iss a)).
Proof.
  intros E Ej Hm.
  destruct (jwt_checked A now ep q hdr s (Ok (Some i)) s' (ai_method i) a E) as (H & K); [exists i; auto|].
  assert (forall m, jws_ok A now ep q m a -> (ai_method i = tag m) -> (m = MSecretJWT \/ m = MPrivateJWT) ->
    (exists text, cr_assertion q = Some text /\ a_unpack A now text = Ok a)
  /\ (exists x, In x (as_aud a) /\ In x (ep_targets ep))
  /\ (ai_method i = "client_secret_jwt" -> (exists g, as_alg a = Some (append "HS" g))
        /\ forall x, has_secret A (as_iss a) x -> x <> "" -> exists ks, a_oct A (as_iss a) (as_kid a) = x :: ks)
  /\ (ai_method i = "private_key_jwt" -> forall g, as_alg a <> Some (append "HS" g))) as L.
  { intros m (J1 & J2 & J3 & J4) T Hm'. do 2 (split; auto). split; intros X.
    - destruct Hm' as [->| ->]; [|cbn in T; congruence]. destruct (J3 eq_refl) as (g & G & c & D & F).
      split; eauto. intros x (eta & Hx) Nx. rewrite D in Hx. injection Hx as ->. eauto.
    - destruct Hm' as [->| ->]; [cbn in T; congruence|]. auto. }
  assert (forall P Q R S T : Prop, P /\ Q /\ R /\ S -> T -> P /\ Q /\ R /\ S /\ T) as W by tauto.
  apply W; [|eauto]. destruct H as [(T & J)|[(T & J)|(T & _)]].
  - apply (L MSecretJWT); auto.
  - apply (L MPrivateJWT); auto.
  - exfalso. rewrite T in Hm. destruct Hm; discriminate.
Qed.
Print Assumptions C31_assertion_checked.

Example C31_assertion_checked_ex :
  fst (client_authentication ex_A 0 (ex_ep [MSecretJWT; MPrivateJWT]) (ex_assert "foreign") None []) = Raise UnAuthorizedClient
  /\ fst (client_authentication ex_A 0 (ex_ep [MSecretJWT]) (ex_assert "rs") None []) = Raise UnAuthorizedClient
  /\ fst (client_authentication ex_A 0 (ex_ep [MPrivateJWT]) (ex_assert "hs") None []) = Raise UnAuthorizedClient
  /\ exists i, fst (client_authentication ex_A 0 (ex_ep [MSecretJWT]) (ex_assert "hs") None []) = Ok (Some i)
       /\ ai_client i = Some "c1".
Proof. repeat split; try (vm_compute; reflexivity). eexists. vm_compute. split; reflexivity. Qed.

(** "A client assertion is accepted once" is false of one without jti. *)
Theorem C31_once_without_jti_refuted :
  exists A xs x o p a, attempted A [] xs 0 x o /\ attempted A [] xs 1 x p
    /\ by_jwt o "private_key_jwt" a /\ by_jwt p "private_key_jwt" a.
Proof. exists ex_A, [ex_try "nojti"; ex_try "nojti"]. repeat eexists; vm_compute; reflexivity. Qed.
Print Assumptions C31_once_without_jti_refuted.

(** "A JWT that authenticates a client is addressed to the endpoint" is false
    of the method request_param. *)
Theorem C31_request_param_audience_refuted :
  exists A ep q i s' a, client_authentication A 0 ep q None [] = (Ok (Some i), s') /\ ai_jwt i = Some a
    /\ ai_client i = Some "c1" /\ forall x, In x (as_aud a) -> ~ In x (ep_targets ep).
Proof.
  exists ex_A, (ex_ep [MRequestParam]), (mk_creq None None None None (Some "foreign")). do 3 eexists. split; [vm_compute; reflexivity|].
  split; [vm_compute; reflexivity|]. split; [vm_compute; reflexivity|]. intros x [<-|[]] [X|[]]. discriminate.
Qed.
Print Assumptions C31_request_param_audience_refuted.

(** "Only a replay is refused for its jti" is false: the memory does not keep
    issuer and jti apart, so the assertion of one client ("c" with jti "1:2")
    uses up that of another ("c:1" with jti "2"). *)
Theorem C31_fresh_jti_accepted_refuted :
  exists A x y o a, by_jwt o "private_key_jwt" a /\ as_iss a = "c:1"
    /\ attempted A [] [y] 0 y o
    /\ (exists p b, attempted A [] [x; y] 0 x p /\ by_jwt p "private_key_jwt" b /\ as_iss b = "c")
    /\ attempted A [] [x; y] 1 y (Raise UnAuthorizedClient).
Proof. exists ex_A, (ex_try "x"), (ex_try "y"). repeat eexists; vm_compute; reflexivity. Qed.
Print Assumptions C31_fresh_jti_accepted_refuted.
