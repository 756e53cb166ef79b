(** C60: where codes, access tokens and ID tokens go: the authorization endpoint,
    pushed requests and the log-in page over the wire, together with the token
    endpoint. *)
From Verif Require Import M_Base M_Uri M_Redirect S_Redirect M_Types M_Codec M_Grant M_Env M_Session M_Claims M_Handler
  M_Authz M_TokenEP M_PKCE M_AuthzEP M_Info M_Logout M_History M_ClientAuthn M_Wire
  S_Codec S_Grant S_Toy S_History S_Hex S_ClientAuthn S_Wire
  L_Base L_Hex L_ClientAuthn L_Wire L_Front L_Push P_History P_ClientAuthn P_Wire.

(** A token of a grant that belongs to the client [c] leaves the provider in two
    ways only: in an authorization response to a redirect URI that [c] may use,
    or in a token response to a request that passed client authentication at the
    token endpoint and was attributed to [c]. *)
Theorem C60_tokens_confined : forall sv e al ops evs w i ev gid g u c v tc tc',
  laws e -> whistory sv e al ops evs w ->
  grant_of (w_h w) gid g -> belongs e g u c -> in_grant g v tc ->
  nth_error evs i = Some ev -> sent ev v tc' ->
  (exists o a uri, delivers ev o a /\ ao_uri o = Some uri /\ redirect_ok (pc_cdb (fr_conf (sv_front sv))) c uri)
  \/ (exists j now cq hdr body inf q a, j < i /\ ev = WDone (EvToken q (Ok (Good a)))
      /\ accepted sv e al ops j (WToken now cq hdr body) (sv_token sv) now cq hdr inf
      /\ attributed cq inf = Some c /\ q = with_client (Some c) body).
Proof. exact (fun sv e al ops evs w i ev gid g u c v tc tc' W => confined sv e al W ops evs w i ev gid g u c v tc tc'). Qed.
Print Assumptions C60_tokens_confined.

(** So, where the token endpoint asks for the secret, the tokens of a client
    whose secret nobody shows go to its redirect URIs and nowhere else: whatever
    requests, request objects, pushed requests, log-in pages and codes the others
    send. *)
Theorem C60_only_registered_uris : forall sv e al ops evs w i ev gid g u c v tc tc',
  laws e -> ep_methods (sv_token sv) <> [] ->
  (forall m, In m (ep_methods (sv_token sv)) -> m = MBasic \/ m = MPost) ->
  whistory sv e al ops evs w ->
  (forall now cq hdr body, In (WToken now cq hdr body) ops -> ~ shows_secret sv cq hdr c) ->
  grant_of (w_h w) gid g -> belongs e g u c -> in_grant g v tc ->
  nth_error evs i = Some ev -> sent ev v tc' ->
  exists o a uri, delivers ev o a /\ ao_uri o = Some uri /\ redirect_ok (pc_cdb (fr_conf (sv_front sv))) c uri.
Proof. exact (fun sv e al ops evs w i ev gid g u c v tc tc' W => only_registered sv e al W ops evs w i ev gid g u c v tc tc'). Qed.
Print Assumptions C60_only_registered_uris.

(** What an authorization response carries is in a grant, which belongs to a
    client that may use the URI the response goes to; where the request named a
    redirect URI, that is the URI of the grant. *)
Theorem C60_response_has_owner : forall sv e al ops evs w i ev o a v tc,
  laws e -> whistory sv e al ops evs w -> nth_error evs i = Some ev -> delivers ev o a -> carries a v tc ->
  exists x gid g u ar uri, nth_error ops i = Some x /\ ao_uri o = Some uri
    /\ grant_of (w_h w) gid g /\ belongs e g u (ar_client_id ar) /\ g_areq g = Some ar /\ in_grant g v tc
    /\ redirect_ok (pc_cdb (fr_conf (sv_front sv))) (ar_client_id ar) uri
    /\ (with_redirect x -> ar_redirect_uri ar = Some uri).
Proof. exact (fun sv e al ops evs w i ev o a v tc W => response_owner sv e al W ops evs w i ev o a v tc). Qed.
Print Assumptions C60_response_has_owner.

(** A code is redeemed only by a request that names the URI the code was sent
    to, from the client that may use that URI. So a code that an attacker brings
    into another client's log-in does not fit. *)
Theorem C60_code_redeemed_where_sent : forall sv e al ops evs w i ev o a x code k q b,
  laws e -> whistory sv e al ops evs w ->
  nth_error evs i = Some ev -> delivers ev o a -> ap_code a = Some code ->
  nth_error ops i = Some x -> with_redirect x ->
  wanswer_at evs k q b -> presents q code "authorization_code" ->
  exists c uri, ao_uri o = Some uri /\ redirect_ok (pc_cdb (fr_conf (sv_front sv))) c uri
    /\ tr_client q = Some c /\ tr_redirect q = Some uri.
Proof.
  exact (fun sv e al ops evs w i ev o a x code k q b W =>
    redeemed_where_sent sv e al W ops evs w i ev o a x code k q b).
Qed.
Print Assumptions C60_code_redeemed_where_sent.

(** What is handed out in answer to an authorization request that refers to a
    pushed one is in a grant of the client that pushed it, and the push passed
    client authentication at the pushed-authorization endpoint. (A pushed request
    that refers to a further one is not that of its sender: see
    C33_sender_refuted for the browser's side.) *)
Theorem C60_pushed_by_its_client : forall sv e al ops evs w i now q hdr rq deny iframe ru acr exp_in ans urn ev,
  laws e -> keeps_members (sv_front sv) -> pc_par (fr_conf (sv_front sv)) = true ->
  starts_with "urn:uuid:" urn = true -> whistory sv e al ops evs w ->
  nth_error ops i = Some (WAuthorize now q hdr rq deny iframe ru acr exp_in ans) ->
  dget rq "request_uri" = Some urn -> nth_error evs i = Some (WDone ev) ->
  exists j now' q' hdr' rq' inf, j < i
    /\ accepted sv e al ops j (WPush now' q' hdr' urn rq') (fr_par (sv_front sv)) now' q' hdr' inf
    /\ (dget rq' "request_uri" = None ->
        forall c o a v tc, attributed q' inf = Some c -> delivers (WDone ev) o a -> carries a v tc ->
        exists gid g u, grant_of (w_h w) gid g /\ belongs e g u c /\ in_grant g v tc).
Proof.
  exact (fun sv e al ops evs w i now q hdr rq deny iframe ru acr exp_in ans urn ev W =>
    pushed_before sv e al W ops evs w i now q hdr rq deny iframe ru acr exp_in ans urn ev).
Qed.
Print Assumptions C60_pushed_by_its_client.

(** Where that endpoint asks for the secret, the push showed it. *)
Theorem C60_pushes_need_the_secret : forall sv e al ops evs w i now q hdr rq deny iframe ru acr exp_in ans urn ev o a v tc,
  laws e -> keeps_members (sv_front sv) -> pc_par (fr_conf (sv_front sv)) = true ->
  starts_with "urn:uuid:" urn = true -> ep_methods (fr_par (sv_front sv)) <> [] ->
  (forall m, In m (ep_methods (fr_par (sv_front sv))) -> m = MBasic \/ m = MPost) ->
  whistory sv e al ops evs w ->
  (forall now' q' hdr' rq', In (WPush now' q' hdr' urn rq') ops -> dget rq' "request_uri" = None) ->
  nth_error ops i = Some (WAuthorize now q hdr rq deny iframe ru acr exp_in ans) ->
  dget rq "request_uri" = Some urn -> nth_error evs i = Some (WDone ev) ->
  delivers (WDone ev) o a -> carries a v tc ->
  exists j now' q' hdr' rq' c gid g u, j < i /\ nth_error ops j = Some (WPush now' q' hdr' urn rq')
    /\ shows_secret sv q' hdr' c /\ (c <> "" -> in_force (sv_auth sv) now' c)
    /\ grant_of (w_h w) gid g /\ belongs e g u c /\ in_grant g v tc.
Proof.
  exact (fun sv e al ops evs w i now q hdr rq deny iframe ru acr exp_in ans urn ev o a v tc W =>
    pushed_shown sv e al W ops evs w i now q hdr rq deny iframe ru acr exp_in ans urn ev o a v tc).
Qed.
Print Assumptions C60_pushes_need_the_secret.

(** ** A concrete history *)

(** The client pushes a request, with its secret; the browser brings the URN
    twice; the user logs in; another client tries the code, with its own secret;
    the client redeems it. *)
Definition par_rq : request := [("client_id", "c1"); ("request_uri", "urn:uuid:1")].
Definition by_urn (ans : auth_answer) : wop :=
  WAuthorize 1000 (named "c1") None par_rq false true None "password" (Some 3600%Z) ans.
Definition front_head : list wop := [
  WPush 999 (ex_post "c1" "wrong") None "urn:uuid:0" (wire_rq "https://rp.example.com/cb" "code");
  WPush 999 (ex_post "c1" "s1") None "urn:uuid:1" (wire_rq "https://rp.example.com/cb" "code");
  wire_ask "https://attacker.example.net/cb" "code";
  by_urn ANobody;
  by_urn ANobody;
  WLogin 1000 true (wire_rq "https://attacker.example.net/cb" "code") "diana" "password" (Some 3600%Z);
  WLogin 1000 true (wire_rq "https://rp.example.com/cb" "code") "diana" "password" (Some 3600%Z) ].
Definition front_server : server := wire_server [MBasic; MPost].
Definition front_code : string := sent_code (fst (wexec front_server demo_env (w_init []) front_head)).
Definition front_ops : list wop := front_head ++ [
  WToken 1001 (ex_post "c" "s3") None (hex_code_req front_code);
  WToken 1001 (ex_post "c1" "s1") None (hex_code_req front_code);
  WCall (OProcess 1002 0 None);
  wire_ask "https://rp.example.com/cb" "code id_token token" ].
Definition front_evs : list wevent := fst (wexec front_server demo_env (w_init []) front_ops).
Definition front_end : world := snd (wexec front_server demo_env (w_init []) front_ops).

Lemma front_history : whistory front_server demo_env [] front_ops front_evs front_end.
Proof.
  split; [exact wire_sound|]. split; [|unfold front_evs, front_end; apply surjective_pairing].
  unfold front_ops, front_head. cbn [app].
  do 2 (apply Forall_cons; [exact Logic.I|]). apply Forall_cons; [split; [now apply plain_good|discriminate]|].
  do 2 (apply Forall_cons; [exact Logic.I|]).
  do 2 (apply Forall_cons; [split; now apply plain_good|]).
  do 2 (apply Forall_cons; [exact Logic.I|]). apply Forall_cons; [split; exact Logic.I|].
  apply Forall_cons; [split; [now apply plain_good|discriminate]|]. apply Forall_nil.
Qed.

Example C60_example :
  nth_error front_evs 0 = Some (WRefused UnAuthorizedClient)
  /\ nth_error front_evs 1 = Some (WPushed "urn:uuid:1")
  /\ nth_error front_evs 2 = Some (WInvalid "invalid_request")
  /\ nth_error front_evs 3 = Some (WDone (EvAuthorize (Ok RLogin)))
  /\ nth_error front_evs 4 = Some (WRefused ValueError)
  /\ (exists o x, nth_error front_evs 5 = Some (WDone (EvLogin (Ok o))) /\ ao_args o = Err x)
  /\ (exists ev o a, nth_error front_evs 6 = Some ev /\ delivers ev o a /\ ap_code a = Some front_code
        /\ ao_uri o = Some "https://rp.example.com/cb")
  /\ (exists x, nth_error front_evs 7 = Some (WDone (EvParse (Raise x))))
  /\ (exists q b, wanswer_at front_evs 9 q b /\ presents q front_code "authorization_code")
  /\ (exists ev o a v x, nth_error front_evs 10 = Some ev /\ delivers ev o a
        /\ carries a v "access_token" /\ carries a x "id_token" /\ sent ev v "access_token").
Proof.
  do 5 (split; [vm_compute; reflexivity|]).
  split; [eexists _, _; split; [vm_compute; reflexivity|reflexivity]|].
  split.
  { eexists _, _, _. split; [vm_compute; reflexivity|]. split; [split; [right; reflexivity|reflexivity]|].
    split; [vm_compute; reflexivity|reflexivity]. }
  split; [eexists; vm_compute; reflexivity|].
  split; [eexists _, _; split; [vm_compute; reflexivity|left; split; [reflexivity|split; [reflexivity|vm_compute; reflexivity]]]|].
  eexists _, _, _, _, _. split; [vm_compute; reflexivity|]. split; [split; [left; reflexivity|reflexivity]|].
  split; [right; left; split; reflexivity|]. split; [right; right; split; reflexivity|].
  left. eexists _, _. split; [split; [left; reflexivity|reflexivity]|]. right. left. split; reflexivity.
Qed.

(** Nobody who shows the secret of the client: its tokens still leave, in an
    authorization response. *)
Definition quiet_ops : list wop := [
  wire_ask "https://rp.example.com/cb" "code id_token token";
  WToken 1001 (ex_post "c1" "wrong") None (hex_code_req front_code) ].
Definition quiet_evs : list wevent := fst (wexec front_server demo_env (w_init []) quiet_ops).
Definition quiet_end : world := snd (wexec front_server demo_env (w_init []) quiet_ops).
Definition quiet_grant : grant := the_grant (w_h quiet_end).
Example C60_only_registered_example :
  whistory front_server demo_env [] quiet_ops quiet_evs quiet_end
  /\ (forall now cq hdr body, In (WToken now cq hdr body) quiet_ops -> ~ shows_secret front_server cq hdr "c1")
  /\ grant_of (w_h quiet_end) (g_id quiet_grant) quiet_grant /\ belongs demo_env quiet_grant "diana" "c1"
  /\ exists ev v, nth_error quiet_evs 0 = Some ev /\ sent ev v "access_token" /\ in_grant quiet_grant v "access_token".
Proof.
  split.
  { split; [exact wire_sound|]. split; [|unfold quiet_evs, quiet_end; apply surjective_pairing]. unfold quiet_ops.
    apply Forall_cons; [split; [now apply plain_good|discriminate]|]. apply Forall_cons; [exact Logic.I|apply Forall_nil]. }
  split.
  { intros now cq hdr body I. unfold quiet_ops in I. set (code := front_code) in I. clearbody code.
    destruct I as [I|[I|[]]]; [discriminate I|]. injection I as <- <- <- <-.
    intros (x & (eta & D) & [(t & a & b & X & _)|(X & Y)]); [discriminate X|].
    cbn in Y. injection Y as <-. vm_compute in D. discriminate. }
  split; [exists 4; split; vm_compute; reflexivity|].
  split; [eexists _, _; vm_compute; repeat split; reflexivity|].
  eexists _, _. split; [vm_compute; reflexivity|]. split.
  - left. eexists _, _. split; [split; [left; reflexivity|reflexivity]|]. right. left. split; reflexivity.
  - apply in_grant_check. vm_compute. reflexivity.
Qed.

(** A pushed request that the browser of a user who is logged in brings. *)
Definition push_ops : list wop := [
  WPush 999 (ex_post "c1" "s1") None "urn:uuid:1" (wire_rq "https://rp.example.com/cb" "code id_token token");
  by_urn (AUser "diana" None) ].
Definition push_evs : list wevent := fst (wexec front_server demo_env (w_init []) push_ops).
Definition push_end : world := snd (wexec front_server demo_env (w_init []) push_ops).
Example C60_push_example :
  keeps_members wire_front /\ pc_par (fr_conf wire_front) = true
  /\ ep_methods (fr_par wire_front) = [MPost]
  /\ whistory front_server demo_env [] push_ops push_evs push_end
  /\ (forall now' q' hdr' rq', In (WPush now' q' hdr' "urn:uuid:1" rq') push_ops -> dget rq' "request_uri" = None)
  /\ dget par_rq "request_uri" = Some "urn:uuid:1"
  /\ exists ev o a v, nth_error push_evs 1 = Some (WDone ev) /\ delivers (WDone ev) o a /\ carries a v "access_token".
Proof.
  split; [intros c rq r k E _; cbn in E; congruence|]. do 2 (split; [reflexivity|]). split.
  { split; [exact wire_sound|]. split; [|unfold push_evs, push_end; apply surjective_pairing]. unfold push_ops.
    apply Forall_cons; [exact Logic.I|]. apply Forall_cons; [split; [now apply plain_good|discriminate]|apply Forall_nil]. }
  split.
  { intros now' q' hdr' rq' [I|[I|[]]]; [|discriminate I]. injection I as <- <- <- <-. reflexivity. }
  split; [reflexivity|].
  eexists _, _, _, _. split; [vm_compute; reflexivity|]. split; [split; [left; reflexivity|reflexivity]|].
  right. left. split; reflexivity.
Qed.
