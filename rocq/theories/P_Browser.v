(** Property theorems about browsers (C62). *)
From Verif Require Import M_Base M_Types M_Codec M_Grant M_Env M_Session M_Claims M_Handler
  M_Authz M_TokenEP M_PKCE M_AuthzEP M_Info M_Logout M_Uri M_Cookie M_Authn M_History M_Browser
  S_Codec S_Grant S_Store S_Toy S_History S_Hex S_Jws S_Cookie S_AuthzResp S_Authn S_Logout S_Browser
  L_Base L_Hex L_Jws L_Cookie L_Hist8 L_Browser P_History P_Logout P_Cookie P_Authn.

(** A response without a log-in page is one for a user who has logged in with the
    same browser, for a request of the same client. *)
Theorem C62_own_log_in : forall K e ops evs w b now deny iframe acr exp_in iv uri v o c w',
  browser_laws K e -> bhistory K e ops evs w ->
  fair K e w (BVisit b now deny iframe acr exp_in iv uri v) ->
  bstep K e w (BVisit b now deny iframe acr exp_in iv uri v) = (BAnswer (Ok (ROut o, c)), w') ->
  exists u j, logs_in ops evs j b u (ar_client_id (vi_req v))
    /\ forall a, ao_args o = Good a -> answers e now (b_h w) (b_h w') u (vi_req v) a.
Proof.
  exact (fun K e ops evs w b now deny iframe acr exp_in iv uri v o c w' B =>
    own_log_in K e B ops evs w b now deny iframe acr exp_in iv uri v o c w').
Qed.
Print Assumptions C62_own_log_in.

(** A browser with which nobody has logged in for a request of this client is
    shown the log-in page, or told that a log-in is required. *)
Theorem C62_stranger : forall K e ops evs w b now deny iframe acr exp_in iv uri v r c w',
  browser_laws K e -> bhistory K e ops evs w ->
  fair K e w (BVisit b now deny iframe acr exp_in iv uri v) ->
  (forall j u, ~ logs_in ops evs j b u (ar_client_id (vi_req v))) ->
  bstep K e w (BVisit b now deny iframe acr exp_in iv uri v) = (BAnswer (Ok (r, c)), w') ->
  r = RLogin \/ exists f, r = RLoginRequired f.
Proof.
  exact (fun K e ops evs w b now deny iframe acr exp_in iv uri v r c w' B =>
    stranger K e B ops evs w b now deny iframe acr exp_in iv uri v r c w').
Qed.
Print Assumptions C62_stranger.

(** Once all grants of the user [u] with the client [c] are revoked, a browser
    gets no response for [u] at [c] until [u] has logged in with it again,
    whatever cookies it has. *)
Theorem C62_after_revocation : forall K e ops1 evs1 w1 ops2 evs2 w u c b now deny iframe acr exp_in iv uri v o ck w',
  browser_laws K e -> bhistory K e ops1 evs1 w1 -> all_revoked e (b_h w1) u c -> bfuture K e w1 ops2 evs2 w ->
  fair K e w (BVisit b now deny iframe acr exp_in iv uri v) -> ar_client_id (vi_req v) = c ->
  bstep K e w (BVisit b now deny iframe acr exp_in iv uri v) = (BAnswer (Ok (ROut o, ck)), w') ->
  exists u' j, logs_in (ops1 ++ ops2) (evs1 ++ evs2) j b u' c
    /\ (u' = u -> exists i, logs_in ops2 evs2 i b u c)
    /\ forall a, ao_args o = Good a -> answers e now (b_h w) (b_h w') u' (vi_req v) a.
Proof.
  exact (fun K e ops1 evs1 w1 ops2 evs2 w u c b now deny iframe acr exp_in iv uri v o ck w' B =>
    after_revocation K e B ops1 evs1 w1 ops2 evs2 w u c b now deny iframe acr exp_in iv uri v o ck w').
Qed.
Print Assumptions C62_after_revocation.

(** The same after a log-out, if no session of [u] with [c] was taken out of the
    store before it. *)
Theorem C62_after_log_out : forall K e ops1 evs1 w1 t sid u c g ms w2 ops2 evs2 w b now deny iframe acr exp_in iv uri v o ck w',
  browser_laws K e -> bhistory K e ops1 evs1 w1 -> dec_sid3 e sid = Ok (u, c, g) ->
  (forall gid g, grant_of (b_h w1) gid g -> belongs e g u c -> g_revoked g = true \/ session_grant (b_h w1) u c gid g) ->
  bstep K e w1 (BCall (OLogout t sid false)) = (BEv (EvLogout (Ok ms)), w2) ->
  bfuture K e w2 ops2 evs2 w ->
  fair K e w (BVisit b now deny iframe acr exp_in iv uri v) -> ar_client_id (vi_req v) = c ->
  bstep K e w (BVisit b now deny iframe acr exp_in iv uri v) = (BAnswer (Ok (ROut o, ck)), w') ->
  exists u', (u' = u -> exists i, logs_in ops2 evs2 i b u c)
    /\ forall a, ao_args o = Good a -> answers e now (b_h w) (b_h w') u' (vi_req v) a.
Proof.
  exact (fun K e ops1 evs1 w1 t sid u c g ms w2 ops2 evs2 w b now deny iframe acr exp_in iv uri v o ck w' B =>
    after_log_out K e B ops1 evs1 w1 t sid u c g ms w2 ops2 evs2 w b now deny iframe acr exp_in iv uri v o ck w').
Qed.
Print Assumptions C62_after_log_out.

(** A browser that sends back cookies it got, and no others, sends its own. *)
Theorem C62_sends_back : forall K given sent, incl sent given -> its_own K given sent.
Proof. exact own_subset. Qed.
Print Assumptions C62_sends_back.

(** With browsers the provider goes through the same histories as without them:
    what is proved of those holds here. *)
Theorem C62_same_histories : forall K e ops evs w, browser_laws K e -> bhistory K e ops evs w ->
  exists ops' evs', history e ops' evs' (b_h w).
Proof. exact (fun K e ops evs w B H => proj2 (proj2 (proj2 (history_facts K e B ops evs w H)))). Qed.
Print Assumptions C62_same_histories.

(** No grant without a log-in: a user with a grant for a client has logged in, for
    a request of this client. *)
Theorem C62_every_grant : forall K e ops evs w gid g u c,
  browser_laws K e -> bhistory K e ops evs w -> grant_of (b_h w) gid g -> belongs e g u c ->
  exists j b ar, log_in_call ops j b u ar /\ ar_client_id ar = c.
Proof. exact (fun K e ops evs w gid g u c B => every_grant K e B ops evs w gid g u c). Qed.
Print Assumptions C62_every_grant.

(** ** Example *)

(** The toy JSON of C36, with a closing brace. *)
Definition brace_loads (s : string) : res (dict jval) := toy_loads (substring 0 (String.length s - 1) s).
Definition brace_K : aconf :=
  mkAConf hex_clib both "oidcop" brace_loads (fun d => append (ser (JObj d)) "}") toy_unb64 (fun s => Ok s) (Some toy_people).
Lemma substring_app a b : substring 0 (String.length a) (append a b) = a.
Proof. induction a as [|x a IH]; cbn; [destruct b; reflexivity|]. f_equal. exact IH. Qed.
Lemma brace_laws : browser_laws brace_K demo_env.
Proof.
  constructor.
  - exact demo_laws.
  - exact hex_cookie_laws.
  - cbn. auto.
  - constructor.
    + intros sid st. cbn [ac_loads ac_dumps brace_K]. unfold brace_loads. rewrite sapp_length. cbn [String.length].
      rewrite Nat.add_sub. rewrite substring_app. unfold toy_loads. rewrite parse_ser by lia. reflexivity.
    + intros d (a & E). cbn [ac_dumps brace_K] in E. apply app_same_len in E as [_ E]; [discriminate|reflexivity].
Qed.

(** Browsers that send the newest cookie they got: it has replaced the others, as
    all have the same name. *)
Inductive act : Type :=
| ALogin (b : string) (t : Z) (u c : string)
| AVisit (b : string) (t : Z) (c : string)
| ALogout (t : Z) (sid : string).
Definition newest (l : list cookie) : list cookie := match rev l with c :: _ => [c] | [] => [] end.
Definition act_op (w : bst) (a : act) : bop :=
  match a with
  | ALogin b t u c => BLogin b t false (areq_for c) u "password" (Some 3600%Z) "iv1" (Some "https://rp.example.com/cb")
  | AVisit b t c => BVisit b t false false "password" (Some 3600%Z) "iv2" (Some "https://rp.example.com/cb")
      (mkVisit (areq_for c) [] (newest (jar w b)) "")
  | ALogout t sid => BCall (OLogout t sid false)
  end.
Fixpoint acts (w : bst) (l : list act) : list bop * list bevent * bst :=
  match l with
  | [] => ([], [], w)
  | a :: r => let (ev, w1) := bstep brace_K demo_env w (act_op w a) in
              let '(ops, evs, w2) := acts w1 r in (act_op w a :: ops, ev :: evs, w2)
  end.
Definition act_ok (a : act) : bool :=
  match a with
  | ALogin _ _ u c => plain_id u && plain_id c && negb (String.eqb u disguised)
  | AVisit _ _ c => plain_id c
  | ALogout _ _ => true
  end.
Lemma act_fair w a : act_ok a = true -> fair brace_K demo_env w (act_op w a).
Proof.
  destruct a as [b t u c|b t c|t sid]; cbn [act_ok act_op fair].
  - intros H. apply andb_true_iff in H as [H H3]. apply andb_true_iff in H as [H1 H2].
    split; [exact (plain_good _ H2)|]. split; [exact (plain_good _ H1)|].
    intros text d E. cbn [ac_unb64 brace_K] in E. unfold toy_unb64 in E. apply negb_true_iff in H3. rewrite H3 in E. discriminate.
  - intros H. split; [exact (plain_good _ H)|]. apply own_subset. intros x Hx. cbn [vi_cookies] in Hx. unfold newest in Hx. apply in_rev.
    destruct (rev (jar w b)) as [|y l]; [destruct Hx|]. destruct Hx as [->|[]]. left. reflexivity.
  - intros _. exact Logic.I.
Qed.
Lemma acts_future l : forall w0 ops0 evs0 w, forallb act_ok l = true -> bfuture brace_K demo_env w0 ops0 evs0 w ->
  bfuture brace_K demo_env w0 (ops0 ++ fst (fst (acts w l))) (evs0 ++ snd (fst (acts w l))) (snd (acts w l)).
Proof.
  induction l as [|a l IH]; intros w0 ops0 evs0 w F H.
  - cbn [acts fst snd]. rewrite !app_nil_r. exact H.
  - cbn [forallb] in F. apply andb_true_iff in F as [F1 F2]. cbn [acts].
    destruct (bstep brace_K demo_env w (act_op w a)) as [ev w1] eqn:E.
    specialize (IH w0 _ _ w1 F2 (bf_more _ _ _ _ _ _ _ _ _ H (act_fair w a F1) E)).
    destruct (acts w1 l) as [[ops evs] w2]. cbn [fst snd] in IH |- *. rewrite <- !app_assoc in IH. exact IH.
Qed.
Definition after (w : bst) (l : list act) : bst := snd (acts w l).
Definition told_last (w : bst) (l : list act) (a : act) : bevent := fst (bstep brace_K demo_env (after w l) (act_op (after w l) a)).
Definition sees (w : bst) (l : list act) (a : act) : string :=
  match told_last w l a with
  | BAnswer (Ok (ROut o, Some _)) => match ao_args o with Good _ => "a response" | _ => "an error" end
  | BAnswer (Ok (RLogin, _)) => "the log-in page"
  | BDone (Ok (o, Some _)) => "a response"
  | BEv (EvLogout (Ok _)) => "a log-out"
  | _ => "something else"
  end.

(** Diana logs in with the first browser at the client c1, and Bob with the
    second one. Then the first browser is known at c1, and not at c2, and the
    third not at all; after Diana's log-out the first is not known at c1, and the
    second still is. *)
Definition morning : list act := [ALogin "b1" 1000 "diana" "c1"; ALogin "b2" 1010 "bob" "c1"].
Definition noon : list act := morning ++ [AVisit "b1" 1100 "c1"].
Definition evening : list act := noon ++ [ALogout 1200 diana_c1].
Definition new_world : bst := b_init [].
Example C62_example :
  (forall l, forallb act_ok l = true ->
     bhistory brace_K demo_env (fst (fst (acts new_world l))) (snd (fst (acts new_world l))) (after new_world l))
  /\ forallb act_ok evening = true
  /\ sees new_world morning (AVisit "b1" 1100 "c1") = "a response"
  /\ sees new_world morning (AVisit "b1" 1100 "c2") = "the log-in page"
  /\ sees new_world morning (AVisit "b3" 1100 "c1") = "the log-in page"
  /\ sees new_world noon (ALogout 1200 diana_c1) = "a log-out"
  /\ sees new_world evening (AVisit "b1" 1300 "c1") = "the log-in page"
  /\ sees new_world evening (AVisit "b2" 1300 "c1") = "a response"
  /\ sees new_world (evening ++ [ALogin "b1" 1400 "diana" "c1"]) (AVisit "b1" 1500 "c1") = "a response".
Proof.
  split.
  { intros l F. exists []. exact (acts_future l _ [] [] _ F (bf_same _ _ _)). }
  do 7 (split; [vm_compute; reflexivity|]). vm_compute. reflexivity.
Qed.

(** The log-out of the example is one that [C62_after_log_out] speaks of: no
    session was taken out of the store. *)
Definition in_store (w : bst) (u c : string) : bool :=
  forallb (fun l => match nth_error (s_heap (h_st (b_h w))) l with
    | Some (OGrant g) =>
        match g_areq g, g_aevent g with
        | Some ar, Some ae =>
            negb (String.eqb (ar_client_id ar) c && String.eqb (ae_uid ae) u) || g_revoked g
            || match fst (db_get [u; c; g_id g] (h_st (b_h w))) with Ok l' => Nat.eqb l' l | Raise _ => false end
        | _, _ => true
        end
    | _ => true
    end) (seq 0 (List.length (s_heap (h_st (b_h w))))).
Lemma in_store_ok w u c : in_store w u c = true -> forall gid g, grant_of (b_h w) gid g -> belongs demo_env g u c ->
  g_revoked g = true \/ session_grant (b_h w) u c gid g.
Proof.
  intros H gid g (l & N & Eg) (ar & ae & Ea & Ec & Ee & Eu & _). unfold in_store in H. rewrite forallb_forall in H.
  assert (In l (seq 0 (List.length (s_heap (h_st (b_h w)))))) as Hl.
  { apply in_seq. split; [lia|]. cbn. apply nth_error_Some. rewrite N. discriminate. }
  specialize (H l Hl). cbv beta in H. rewrite N, Ea, Ee in H. rewrite Ec, Eu, !String.eqb_refl in H. cbn [andb negb orb] in H.
  apply orb_true_iff in H as [H|H]; [left; exact H|right].
  destruct (db_get [u; c; g_id g] (h_st (b_h w))) as [r s'] eqn:E. cbn [fst] in H. destruct r as [l'|]; [|discriminate].
  apply Nat.eqb_eq in H. subst l'. exists l. split; [|exact N]. unfold reads.
  pose proof (L_Store.db_get_state [u; c; g_id g] (h_st (b_h w))) as Es. rewrite E in Es. cbn [snd] in Es. subst s' gid. exact E.
Qed.
Example C62_example_log_out : dec_sid3 demo_env diana_c1 = Ok ("diana", "c1", "u0")
  /\ (forall gid g, grant_of (b_h (after new_world noon)) gid g -> belongs demo_env g "diana" "c1" ->
       g_revoked g = true \/ session_grant (b_h (after new_world noon)) "diana" "c1" gid g).
Proof. split; [vm_compute; reflexivity|]. apply in_store_ok. vm_compute. reflexivity. Qed.
