(** Property theorems about the log-in form (C64). *)
From Verif Require Import M_Base M_Types M_Codec M_Grant M_Env M_Session M_Claims M_Handler
  M_Authz M_TokenEP M_PKCE M_AuthzEP M_Info M_Logout M_Uri M_Cookie M_Authn M_History M_Browser M_Form
  S_Codec S_Grant S_Store S_Toy S_History S_Hex S_Jws S_Cookie S_AuthzResp S_TokenResp S_Authn S_Logout S_Browser S_Form
  L_Base L_Hex L_Jws L_Cookie L_Hist8 L_Browser L_Form P_History P_Logout P_Cookie P_Authn P_Browser.

(** A form without the name of a user and this user's password is refused, and
    nothing changes. *)
Theorem C64_password : forall L K e w b now iframe exp_in iv uri form ev w',
  lstep L K e w (LForm b now iframe exp_in iv uri form) = (ev, w') ->
  (forall u, ~ right_password L form u) -> exists x, ev = LRefused x /\ w' = w.
Proof. exact form_no_password. Qed.
Print Assumptions C64_password.

(** So is one without the token of a page that was shown. *)
Theorem C64_token : forall L K e ops evs w b now iframe exp_in iv uri form ev w',
  form_laws L -> lhistory L K e ops evs w -> fair_l L K e w (LForm b now iframe exp_in iv uri form) ->
  (forall tok j b' ar acr, dget form "token" = Some tok -> ~ shown_page ops evs j b' ar acr tok) ->
  lstep L K e w (LForm b now iframe exp_in iv uri form) = (ev, w') -> exists x, ev = LRefused x /\ w' = w.
Proof.
  exact (fun L K e ops evs w b now iframe exp_in iv uri form ev w' FL H Fa N E =>
    form_refused L K e FL ops evs w b now iframe exp_in iv uri form ev w' H E
      (fun u tok j b' ar acr _ => N tok j b' ar acr) Fa).
Qed.
Print Assumptions C64_token.

(** A form is answered for the user whose password is in it; the response is one
    to the request for which the page was shown. *)
Theorem C64_response : forall L K e ops evs w b now iframe exp_in iv uri form out c w',
  form_laws L -> browser_laws K e -> lhistory L K e ops evs w ->
  fair_l L K e w (LForm b now iframe exp_in iv uri form) ->
  lstep L K e w (LForm b now iframe exp_in iv uri form) = (LDone (Ok (out, c)), w') ->
  exists u tok, right_password L form u /\ dget form "token" = Some tok
    /\ (exists j b' ar acr, shown_page ops evs j b' ar acr tok)
    /\ forall j b' ar acr a, shown_page ops evs j b' ar acr tok -> ao_args out = Good a ->
         answers e now (b_h (l_b w)) (b_h (l_b w')) u ar a.
Proof.
  exact (fun L K e ops evs w b now iframe exp_in iv uri form out c w' FL B =>
    form_response L K e B FL ops evs w b now iframe exp_in iv uri form out c w').
Qed.
Print Assumptions C64_response.

(** A response without a log-in page is one for a user who has given the password
    with the same browser before, on a page for a request of the same client. *)
Theorem C64_own_form : forall L K e ops evs w b now deny iframe acr exp_in iv uri v o c w',
  form_laws L -> browser_laws K e -> lhistory L K e ops evs w ->
  fair_l L K e w (LVisit b now deny iframe acr exp_in iv uri v) ->
  lstep L K e w (LVisit b now deny iframe acr exp_in iv uri v) = (LAnswer (Ok (ROut o, c)), w') ->
  exists u, gave_password L ops evs b u (ar_client_id (vi_req v))
    /\ forall a, ao_args o = Good a -> answers e now (b_h (l_b w)) (b_h (l_b w')) u (vi_req v) a.
Proof.
  exact (fun L K e ops evs w b now deny iframe acr exp_in iv uri v o c w' FL B =>
    own_form L K e B FL ops evs w b now deny iframe acr exp_in iv uri v o c w').
Qed.
Print Assumptions C64_own_form.

(** No grant without a password: a user with a grant for a client has sent the
    name and the password, on a page for a request of this client. *)
Theorem C64_every_grant : forall L K e ops evs w gid g u c,
  form_laws L -> browser_laws K e -> lhistory L K e ops evs w ->
  grant_of (b_h (l_b w)) gid g -> belongs e g u c -> exists b, sent_password L ops evs b u c.
Proof.
  exact (fun L K e ops evs w gid g u c FL B => grants_need_forms L K e B FL ops evs w gid g u c).
Qed.
Print Assumptions C64_every_grant.

(** No tokens without a password: those that the token endpoint hands out are for a
    user who sent it, and for the client of the page. *)
Theorem C64_tokens : forall L K e ops evs w now i issue q a w',
  form_laws L -> browser_laws K e -> lhistory L K e ops evs w ->
  lstep L K e w (LCall (OProcess now i issue)) = (LEv (EvToken q (Ok (Good a))), w') ->
  exists gid g u ar p b, grant_of (b_h (l_b w')) gid g /\ token_answer e now q g u ar p a
    /\ sent_password L ops evs b u (ar_client_id ar).
Proof.
  exact (fun L K e ops evs w now i issue q a w' FL B => tokens_need_forms L K e B FL ops evs w now i issue q a w').
Qed.
Print Assumptions C64_tokens.

(** No claims without a password: a userinfo response is about a user who sent it,
    for the client [c] of the page. *)
Theorem C64_userinfo : forall L K e ops evs w now tok info c w',
  form_laws L -> browser_laws K e -> lhistory L K e ops evs w ->
  lstep L K e w (LCall (OUserinfo now tok)) = (LEv (EvUserinfo (Ok (Good (info, c)))), w') ->
  exists gid g u b, grant_of (b_h (l_b w)) gid g /\ belongs e g u c /\ in_grant g tok "access_token"
    /\ dget info "sub" = Some (JStr (g_sub g))
    /\ (forall k v, dget info k = Some v -> k <> "sub" -> k <> "acr" ->
          exists users, e_users e = Some users /\ dget (users u) k = Some v)
    /\ sent_password L ops evs b u c.
Proof.
  exact (fun L K e ops evs w now tok info c w' FL B => claims_need_forms L K e B FL ops evs w now tok info c w').
Qed.
Print Assumptions C64_userinfo.

(** ** Example *)
Definition hinted (c : string) : areq :=
  mk_areq c (Some "https://rp.example.com/cb") ["code"] (Some ["openid"; "email"; "offline_access"])
    (Some "state") (Some "nonce") None None None "" None None None [("login_hint", "mail:diana@example.org")].
Definition toy_request (hint : bool) (c : string) : areq := if hint then hinted c else areq_for c.
Definition toy_L : lconf :=
  mk_lconf (fun now d => ser (JObj (("iss", JStr "op") :: ("iat", JInt now) :: d))) toy_loads
    (fun ar => append (match ar_other ar with [] => "n" | _ => "h" end) (ar_client_id ar))
    (fun q => match q with
      | String "n" c => Ok (areq_for c)
      | String "h" c => Ok (hinted c)
      | _ => Raise ValueError
      end)
    [("diana", "krall"); ("bob", "builder")] (fun _ => [("tos_uri", "https://rp.example.com/tos")]).
Lemma toy_form_laws : form_laws toy_L.
Proof.
  constructor.
  - intros now d. eexists. split.
    + cbn [lc_unpack lc_pack toy_L]. unfold toy_loads. rewrite parse_ser by lia. reflexivity.
    + split; [reflexivity|]. intros k N1 N2. cbn [dget]. apply String.eqb_neq in N1, N2. now rewrite N1, N2.
  - intros u p D _. apply dget_In in D. cbn in D. destruct D as [E|[E|[]]]; injection E as <- _; apply plain_good; reflexivity.
Qed.

(** Browsers that visit the authorization endpoint, with their newest cookie, and
    that send the form with the token of the [j]-th page that was shown. *)
Inductive move : Type :=
| Looks (b : string) (t : Z) (hint : bool) (c : string)
| Sends (b : string) (t : Z) (u p : string) (j : nat).
Definition move_op (w : lst) (m : move) : lop :=
  match m with
  | Looks b t hint c => LVisit b t false false "password" (Some 3600%Z) "iv2" (Some "https://rp.example.com/cb")
      (mkVisit (toy_request hint c) [] (newest (jar (l_b w) b)) "")
  | Sends b t u p j => LForm b t false (Some 3600%Z) "iv1" (Some "https://rp.example.com/cb")
      [("username", u); ("password", p); ("token", nth j (l_shown w) "")]
  end.
Definition move_ok (w : lst) (m : move) : bool :=
  match m with
  | Looks _ _ _ c => plain_id c
  | Sends _ _ _ _ j => Nat.ltb j (List.length (l_shown w))
  end.
Fixpoint moves (w : lst) (l : list move) : bool * (list lop * list levent * lst) :=
  match l with
  | [] => (true, ([], [], w))
  | m :: r => let (ev, w1) := lstep toy_L brace_K demo_env w (move_op w m) in
              let '(ok, (ops, evs, w2)) := moves w1 r in (move_ok w m && ok, (move_op w m :: ops, ev :: evs, w2))
  end.
Lemma move_fair w m : move_ok w m = true -> fair_l toy_L brace_K demo_env w (move_op w m).
Proof.
  destruct m as [b t hint c|b t u p j]; cbn [move_ok move_op fair_l fair vi_req vi_cookies].
  - intros H. split.
    + split; [destruct hint; exact (plain_good _ H)|]. apply own_subset. intros x Hx. unfold newest in Hx. apply in_rev.
      destruct (rev (jar (l_b w) b)) as [|y l]; [destruct Hx|]. destruct Hx as [->|[]]. left. reflexivity.
    + destruct hint; reflexivity.
  - intros H. apply Nat.ltb_lt in H. split.
    + intros tok d q T _ _. cbn in T. injection T as <-. now apply nth_In.
    + intros u' (p' & E & _ & D) text d U. apply dget_In in D. cbn [ac_unb64 brace_K] in U. unfold toy_unb64 in U.
      destruct (String.eqb u' disguised) eqn:X; [|discriminate]. apply String.eqb_eq in X. subst u'.
      cbn in D. destruct D as [Y|[Y|[]]]; discriminate Y.
Qed.
Lemma moves_future l : forall w0 ops0 evs0 w, fst (moves w l) = true -> lfuture toy_L brace_K demo_env w0 ops0 evs0 w ->
  lfuture toy_L brace_K demo_env w0 (ops0 ++ fst (fst (snd (moves w l)))) (evs0 ++ snd (fst (snd (moves w l)))) (snd (snd (moves w l))).
Proof.
  induction l as [|m l IH]; intros w0 ops0 evs0 w F H.
  - cbn [moves fst snd]. rewrite !app_nil_r. exact H.
  - cbn [moves] in F |- *. destruct (lstep toy_L brace_K demo_env w (move_op w m)) as [ev w1] eqn:E.
    specialize (fun X => IH w0 (ops0 ++ [move_op w m]) (evs0 ++ [ev]) w1 X).
    destruct (moves w1 l) as [ok [[ops evs] w2]]. cbn [fst snd] in F, IH |- *. apply andb_true_iff in F as [F1 F2].
    specialize (IH F2 (lf_more _ _ _ _ _ _ _ _ _ _ H (move_fair w m F1) E)). rewrite <- !app_assoc in IH. exact IH.
Qed.
Definition m_ops (l : list move) : list lop := fst (fst (snd (moves (l_init []) l))).
Definition m_evs (l : list move) : list levent := snd (fst (snd (moves (l_init []) l))).
Definition m_end (l : list move) : lst := snd (snd (moves (l_init []) l)).
Lemma moves_history l : fst (moves (l_init []) l) = true -> lhistory toy_L brace_K demo_env (m_ops l) (m_evs l) (m_end l).
Proof. intros F. exists []. exact (moves_future l _ [] [] _ F (lf_same _ _ _ _)). Qed.

(** What the last of the moves is told. *)
Definition tells_last (l : list move) (m : move) : string :=
  match fst (lstep toy_L brace_K demo_env (m_end l) (move_op (m_end l) m)) with
  | LAnswer (Ok (ROut o, Some _)) => match ao_args o with Good _ => "a response" | _ => "an error" end
  | LDone (Ok (o, Some _)) => match ao_args o with Good _ => "a response" | _ => "an error" end
  | LPage _ => "the log-in page"
  | LRefused _ => "no"
  | _ => "something else"
  end.
Definition monday : list move := [Looks "b1" 1000 false "c1"; Sends "b1" 1010 "diana" "krall" 0].
Example C64_example :
  fst (moves (l_init []) monday) = true
  /\ tells_last [] (Looks "b1" 1000 false "c1") = "the log-in page"
  /\ tells_last [Looks "b1" 1000 false "c1"] (Sends "b1" 1010 "diana" "krall" 0) = "a response"
  /\ tells_last [Looks "b1" 1000 false "c1"] (Sends "b1" 1010 "diana" "builder" 0) = "no"
  /\ tells_last [Looks "b1" 1000 false "c1"] (Sends "b1" 1010 "eve" "krall" 0) = "no"
  /\ tells_last [Looks "b1" 1000 false "c1"] (Sends "b1" 1010 "diana" "krall" 1) = "no"
  /\ tells_last monday (Looks "b1" 1100 false "c1") = "a response"
  /\ tells_last monday (Looks "b1" 1100 false "c2") = "the log-in page"
  /\ tells_last monday (Looks "b2" 1100 false "c1") = "the log-in page".
Proof. do 8 (split; [vm_compute; reflexivity|]). vm_compute. reflexivity. Qed.

(** On Monday Diana gives a grant; the client then gets tokens and claims. *)
Definition mondays_code : string :=
  match nth_error (m_evs monday) 1 with
  | Some (LDone (Ok (o, _))) => match ao_args o with
      | Good a => match ap_code a with Some c => c | None => "" end | _ => "" end
  | _ => ""
  end.
Definition m_call (w : lst) (o : op) : lst := snd (lstep toy_L brace_K demo_env w (LCall o)).
Definition parsed : lst := m_call (m_end monday) (OParse 1020 "c1" (hex_code_req mondays_code)).
Definition mondays_tokens : levent * lst := lstep toy_L brace_K demo_env parsed (LCall (OProcess 1021 0 None)).
Definition mondays_access : string :=
  match fst mondays_tokens with
  | LEv (EvToken _ (Ok (Good a))) => match rs_access a with Some v => v | None => "" end
  | _ => ""
  end.
Example C64_grants_example :
  (exists gid g, grant_of (b_h (l_b (m_end monday))) gid g /\ belongs demo_env g "diana" "c1")
  /\ mondays_access <> ""
  /\ match fst (lstep toy_L brace_K demo_env (snd mondays_tokens) (LCall (OUserinfo 1030 mondays_access))) with
     | LEv (EvUserinfo (Ok (Good (info, c)))) => (match dget info "sub" with Some _ => true | None => false end) && String.eqb c "c1"
     | _ => false
     end = true.
Proof.
  split.
  { destruct (nth_error (s_heap (h_st (b_h (l_b (m_end monday))))) 4) as [[|g|]|] eqn:E; try (vm_compute in E; discriminate).
    vm_compute in E. exists (g_id g), g. split.
    - exists 4. split; [|reflexivity]. revert E. generalize g. clear. intros g E. rewrite <- E. vm_compute. reflexivity.
    - injection E as <-. eexists _, _. cbn [g_areq g_aevent g_sub]. split; [reflexivity|]. split; [reflexivity|].
      split; [reflexivity|]. split; [reflexivity|]. vm_compute. reflexivity. }
  split; [vm_compute; discriminate|]. vm_compute. reflexivity.
Qed.

(** ** What does not hold *)
Definition done_good (ev : levent) : bool :=
  match ev with LDone (Ok (o, _)) => match ao_args o with Good _ => true | _ => false end | _ => false end.
Lemma done_check l k b t u p j : nth_error (m_ops l) k = Some (move_op (m_end l) (Sends b t u p j)) ->
  match dget (lc_db toy_L) u with Some p' => String.eqb p p' | None => false end = true ->
  match nth_error (m_evs l) k with Some ev => done_good ev | None => false end = true ->
  exists out a, form_done toy_L (m_ops l) (m_evs l) k b u (nth j (l_shown (m_end l)) "") out /\ ao_args out = Good a.
Proof.
  generalize (m_evs l) (m_ops l) (m_end l). intros evs ops w N P E.
  destruct (nth_error evs k) as [ev|] eqn:Ev; [|discriminate].
  destruct ev as [|?|[[o c]|]|?|?]; try discriminate. cbn [done_good] in E.
  destruct (ao_args o) as [|a] eqn:A; [discriminate|]. exists o, a. split; [|exact A].
  exists t, false, (Some 3600%Z), "iv1", (Some "https://rp.example.com/cb"). eexists _, c. split; [exact N|].
  split; [|split; [reflexivity|exact Ev]].
  destruct (dget (lc_db toy_L) u) as [p'|] eqn:D; [|discriminate]. apply String.eqb_eq in P. subst p'.
  exists p. auto.
Qed.

(** "The page was shown to the browser that sends the form" is false: the
    provider does not bind the token to a browser. Here Bob is shown a page,
    takes its form to another browser, and is logged in there. *)
Definition carried : list move := [Looks "b1" 1000 false "c1"; Sends "b2" 1010 "bob" "builder" 0].
Theorem C64_same_browser_refuted : exists L K e ops evs w k b u tok out a,
  form_laws L /\ browser_laws K e /\ lhistory L K e ops evs w
  /\ form_done L ops evs k b u tok out /\ ao_args out = Good a
  /\ forall j b' ar acr, shown_page ops evs j b' ar acr tok -> b' <> b.
Proof.
  destruct (done_check carried 1 "b2" 1010 "bob" "builder" 0) as (out & a & D & A); [vm_compute; reflexivity..|].
  exists toy_L, brace_K, demo_env, (m_ops carried), (m_evs carried), (m_end carried), 1, "b2", "bob".
  eexists _, out, a. split; [exact toy_form_laws|]. split; [exact brace_laws|]. split; [apply moves_history; vm_compute; reflexivity|].
  split; [exact D|]. split; [exact A|]. clear D.
  assert (forallb (fun o => match o with LVisit b' _ _ _ _ _ _ _ _ => String.eqb b' "b1" | _ => true end) (m_ops carried) = true) as C
    by (vm_compute; reflexivity).
  revert C. generalize (m_evs carried) (m_ops carried). intros evs ops C j b' ar acr (n & dn & i & x & iv & uri & v & N & _).
  rewrite forallb_forall in C. specialize (C _ (nth_error_In _ _ N)). cbn in C. apply String.eqb_eq in C. subst b'. clear. discriminate.
Qed.
Print Assumptions C64_same_browser_refuted.

(** "A form is answered once, and soon" is false: the tokens do not expire, and
    none is remembered. Here a form is sent twice, the second time more than thirty
    years later, for another user. *)
Definition again : list move :=
  [Looks "b1" 1000 false "c1"; Sends "b1" 1010 "diana" "krall" 0; Sends "b1" 1000001000 "bob" "builder" 0].
Theorem C64_once_refuted : exists L K e ops evs w k1 k2 b u1 u2 tok out1 out2 a1 a2,
  form_laws L /\ browser_laws K e /\ lhistory L K e ops evs w
  /\ form_done L ops evs k1 b u1 tok out1 /\ ao_args out1 = Good a1
  /\ form_done L ops evs k2 b u2 tok out2 /\ ao_args out2 = Good a2
  /\ k1 < k2 /\ u1 <> u2
  /\ (exists iframe x iv uri form, nth_error ops k1 = Some (LForm b 1010 iframe x iv uri form))
  /\ (exists iframe x iv uri form, nth_error ops k2 = Some (LForm b 1000001000 iframe x iv uri form)).
Proof.
  destruct (done_check again 1 "b1" 1010 "diana" "krall" 0) as (out1 & a1 & D1 & A1); [vm_compute; reflexivity..|].
  destruct (done_check again 2 "b1" 1000001000 "bob" "builder" 0) as (out2 & a2 & D2 & A2); [vm_compute; reflexivity..|].
  exists toy_L, brace_K, demo_env, (m_ops again), (m_evs again), (m_end again), 1, 2, "b1", "diana", "bob".
  eexists _, out1, out2, a1, a2. split; [exact toy_form_laws|]. split; [exact brace_laws|].
  split; [apply moves_history; vm_compute; reflexivity|].
  split; [exact D1|]. split; [exact A1|]. split; [exact D2|]. split; [exact A2|]. clear. split; [lia|]. split; [discriminate|].
  split; eexists _, _, _, _, _; vm_compute; reflexivity.
Qed.
Print Assumptions C64_once_refuted.

(** "If the request has a login hint for a user, then nobody else can log in" is
    false: the page is shown for that user, but the form of another one is
    answered. *)
Definition other_user : list move := [Looks "b1" 1000 true "c1"; Sends "b1" 1010 "bob" "builder" 0].
Theorem C64_hinted_user_refuted : exists L K e ops evs w users hint j k b u u' ar acr tok out a,
  form_laws L /\ browser_laws K e /\ lhistory L K e ops evs w
  /\ shown_page ops evs j b ar acr tok /\ dget (ar_other ar) "login_hint" = Some hint
  /\ ac_users K = Some users /\ hint_for users hint u' /\ ~ hint_for users hint u
  /\ form_done L ops evs k b u tok out /\ ao_args out = Good a.
Proof.
  destruct (done_check other_user 1 "b1" 1010 "bob" "builder" 0) as (out & a & D & A); [vm_compute; reflexivity..|].
  exists toy_L, brace_K, demo_env, (m_ops other_user), (m_evs other_user), (m_end other_user), toy_people, "mail:diana@example.org".
  exists 0, 1, "b1", "bob", "diana", (hinted "c1"), "password". eexists _, out, a.
  split; [exact toy_form_laws|]. split; [exact brace_laws|]. split; [apply moves_history; vm_compute; reflexivity|].
  split.
  { eexists _, _, _, _, _, _, _. split; [vm_compute; reflexivity|]. split; [vm_compute; reflexivity|]. vm_compute. reflexivity. }
  split; [reflexivity|]. split; [reflexivity|]. split.
  { left. exists "diana@example.org". split; [reflexivity|]. eexists. split; [left; reflexivity|]. right. eexists. split; [reflexivity|]. left. reflexivity. }
  split; [|split; [exact D|exact A]]. clear.
  assert (forall attr v, has_value toy_people attr v "bob" -> attr = "email" /\ v = "bob@example.com") as H.
  { intros attr v (args & [E|[E|[]]] & V); [discriminate E|]. injection E as <-. cbn [dget] in V.
    destruct (String.eqb attr "email") eqn:X.
    - apply String.eqb_eq in X. split; [exact X|]. destruct V as [V|(l & V & _)]; [congruence|discriminate].
    - destruct V as [V|(l & V & _)]; discriminate. }
  intros [(v & E & V)|[(v & E & V)|(c & v & E & _ & V)]]; apply H in V as [V1 V2]; try discriminate.
  subst v. discriminate E.
Qed.
Print Assumptions C64_hinted_user_refuted.
