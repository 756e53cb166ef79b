(** Property theorems about what an authorization response carries (C42). *)
From Verif Require Import M_Base M_Types M_Codec M_Grant M_Env M_Session M_Claims M_Handler
  M_Authz M_TokenEP M_PKCE M_AuthzEP M_Info M_Logout M_History S_Codec S_Grant S_Store S_Toy S_History S_Hex
  S_AuthzResp S_Jws L_Base L_Hex L_AuthzResp P_History P_Logout.

(** After a log-in, the response carries a code, an access token and an ID token
    exactly as the response type says. All are new tokens of one grant of the
    user who logged in and of the client that asked. The ID token is for that
    client, about that user, and carries the request's nonce and the hashes of
    the code and of the access token next to it. *)
Theorem C42_login_response : forall e ops evs h now iframe ar uid acr exp_in uri o h' a,
  laws e -> history e ops evs h -> good_id (ar_client_id ar) -> good_id uid ->
  step e h (OLogin now iframe ar uid acr exp_in uri) = (EvLogin (Ok o), h') -> ao_args o = Good a ->
  answers e now h h' uid ar a.
Proof.
  exact (fun e ops evs h now iframe ar uid acr exp_in uri o h' a W =>
    login_answers e W ops evs h now iframe ar uid acr exp_in uri o h' a).
Qed.
Print Assumptions C42_login_response.

(** The same holds of a response without a log-in page. The user is then the one
    whom the authentication method found for the request. *)
Theorem C42_direct_response : forall e ops evs h now deny iframe ar ru acr exp_in ans uri o h' a,
  laws e -> history e ops evs h -> proper e (OAuthorize now deny iframe ar ru acr exp_in ans uri) ->
  step e h (OAuthorize now deny iframe ar ru acr exp_in ans uri) = (EvAuthorize (Ok (ROut o)), h') ->
  ao_args o = Good a ->
  exists u sid, ans = AUser u sid /\ answers e now h h' u ar a.
Proof.
  exact (fun e ops evs h now deny iframe ar ru acr exp_in ans uri o h' a W =>
    authorize_answers e W ops evs h now deny iframe ar ru acr exp_in ans uri o h' a).
Qed.
Print Assumptions C42_direct_response.

(** ** Examples *)

Definition hybrid_req : areq :=
  mk_areq "c1" (Some "https://rp.example.com/cb") ["code"; "id_token"; "token"] (Some ["openid"; "email"])
    (Some "state") (Some "nonce") None None None "" None None None [].
Definition hybrid_op : op :=
  OLogin 2000 false hybrid_req "bob" "password" (Some 3600%Z) (Some "https://rp.example.com/cb").
Definition given (ev : event) : option aresp :=
  match ev with
  | EvLogin (Ok o) => match ao_args o with Good a => Some a | Err _ => None end
  | EvAuthorize (Ok (ROut o)) => match ao_args o with Good a => Some a | Err _ => None end
  | _ => None
  end.

(** A response that asks for all three, after a history with other log-ins. *)
Example C42_example : exists o a h',
  laws demo_env /\ history demo_env (run_ops demo_env visits) (run_evs demo_env visits) visits_end
  /\ step demo_env visits_end hybrid_op = (EvLogin (Ok o), h') /\ ao_args o = Good a
  /\ answers demo_env 2000 visits_end h' "bob" hybrid_req a
  /\ (exists v, ap_code a = Some v) /\ (exists v, ap_access a = Some v) /\ (exists v, ap_id a = Some v).
Proof.
  assert (exists o a h', step demo_env visits_end hybrid_op = (EvLogin (Ok o), h') /\ ao_args o = Good a
    /\ (exists v, ap_code a = Some v) /\ (exists v, ap_access a = Some v) /\ (exists v, ap_id a = Some v))
    as (o & a & h' & E & A & X).
  { eexists _, _, _. split; [vm_compute; reflexivity|]. split; [vm_compute; reflexivity|].
    split; [eexists; vm_compute; reflexivity|]. split; eexists; vm_compute; reflexivity. }
  exists o, a, h'. split; [exact demo_laws|]. split; [exact visits_history|]. split; [exact E|]. split; [exact A|].
  split; [|exact X].
  refine (C42_login_response demo_env _ _ visits_end 2000 false hybrid_req "bob" _ _ _ o h' a demo_laws visits_history _ _ E A);
    apply plain_good; reflexivity.
Qed.

(** With the toy signature scheme one can look into the ID token. *)
Definition look (o : option aresp) (claim : string) : option jval :=
  match o with
  | Some a => match ap_id a with
              | Some v => match toy_open v with Some (_, p) => dget p claim | None => None end
              | None => None end
  | None => None
  end.
Definition jws_demo : env := with_jws demo_env jwt_handlers.
Definition hybrid_given : option aresp := given (fst (step jws_demo (h_init []) hybrid_op)).
Example C42_hashes :
  look hybrid_given "c_hash" = Some (JStr (append "HS256" (match hybrid_given with
     | Some a => match ap_code a with Some v => v | None => "" end | None => "" end)))
  /\ look hybrid_given "at_hash" = Some (JStr (append "HS256" (match hybrid_given with
     | Some a => match ap_access a with Some v => v | None => "" end | None => "" end)))
  /\ look hybrid_given "nonce" = Some (JStr "nonce") /\ look hybrid_given "aud" = Some (JList [JStr "c1"]).
Proof. do 3 (split; [vm_compute; reflexivity|]). vm_compute. reflexivity. Qed.

(** The same browser comes back: the request is answered without a log-in. *)
Definition sso_op : op :=
  OAuthorize 1500 false false (areq_for "c1") None "password" (Some 3600%Z) (AUser "diana" (Some diana_c1))
    (Some "https://rp.example.com/cb").
Example C42_direct_example : exists o a h',
  proper demo_env sso_op /\ step demo_env visits_end sso_op = (EvAuthorize (Ok (ROut o)), h')
  /\ ao_args o = Good a /\ (exists v, ap_code a = Some v) /\ ap_access a = None /\ ap_id a = None
  /\ answers demo_env 1500 visits_end h' "diana" (areq_for "c1") a.
Proof.
  assert (proper demo_env sso_op) as P.
  { split; [apply plain_good; reflexivity|]. split; [apply plain_good; reflexivity|].
    intros s u c g X. injection X as <-. vm_compute. congruence. }
  assert (exists o a h', step demo_env visits_end sso_op = (EvAuthorize (Ok (ROut o)), h') /\ ao_args o = Good a
    /\ (exists v, ap_code a = Some v) /\ ap_access a = None /\ ap_id a = None)
    as (o & a & h' & E & A & X1 & X2 & X3).
  { eexists _, _, _. split; [vm_compute; reflexivity|]. split; [vm_compute; reflexivity|].
    split; [eexists; vm_compute; reflexivity|]. split; vm_compute; reflexivity. }
  exists o, a, h'. do 6 (split; [assumption|]).
  destruct (C42_direct_response demo_env _ _ visits_end _ _ _ _ _ _ _ _ _ o h' a demo_laws visits_history P E A)
    as (u & sid & Ea & H). injection Ea as <- <-. exact H.
Qed.
