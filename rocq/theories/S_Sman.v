(** Specification vocabulary for session management. *)
From Verif Require Import M_Base M_Types M_Grant M_Env M_Session M_AuthzEP M_Logout M_Uri M_Cookie M_Authn
  M_History M_Browser M_Sman S_Codec S_Redirect.

(** The hash is a text without dots, and a different one for each input; JSON
    texts are not empty. *)
Record sman_laws (S : smconf) (K : aconf) : Prop := {
  sl_dots : forall x, ~ occurs_in "." (sm_hash S x);
  sl_inj : forall x y, sm_hash S x = sm_hash S y -> x = y;
  sl_text : forall d, ac_dumps K d <> ""
}.

(** What the provider's frame compares (OpenID Connect Session Management 1.0,
    section 3.2): the state told to a client, the client's id, the origin that
    the client's frame has, and the value of the cookie in the browser. *)
Definition unchanged (S : smconf) (client origin opbs ss : string) : Prop :=
  exists salt, ~ occurs_in "." salt /\
    ss = append (sm_hash S (append client (append " " (append origin (append " "
           (append opbs (append " " salt))))))) (append "." salt).

(** [u] is an address of the origin [scheme]://[host]. *)
Definition address (u scheme host : string) : Prop :=
  exists rest, u = append scheme (append "://" (append host rest)) /\ visible u = u
    /\ scheme <> "" /\ all_chars scheme_char scheme = true /\ lower scheme = scheme
    /\ ~ occurs_in "/" host /\ ~ occurs_in "?" host /\ ~ occurs_in "#" host
    /\ (rest = "" \/ exists r, rest = append "/" r \/ rest = append "?" r \/ rest = append "#" r).
Definition origin_of (u origin : string) : Prop :=
  exists scheme host, address u scheme host /\ origin = append scheme (append "://" host).

(** The browser that a call comes from, and when. *)
Definition from_browser (o : mop) (b : string) : Prop :=
  match o with
  | MVisit b' _ _ _ _ _ _ _ _ _ _ _ | MLogin b' _ _ _ _ _ _ _ _ _ _ _ | MLogout b' _ _ _ => b' = b
  | MCall _ => False
  end.
Definition call_time (o : mop) : Z :=
  match o with
  | MVisit _ now _ _ _ _ _ _ _ _ _ _ | MLogin _ now _ _ _ _ _ _ _ _ _ _ | MLogout _ now _ _ => now
  | MCall o => op_time o
  end.
(** The authorization request that a call brings, whether the provider offers the
    frame, and the salt that it draws. *)
Definition requests (o : mop) (b : string) (ar : areq) (iframe : bool) (salt : string) : Prop :=
  match o with
  | MVisit b' _ _ i _ _ _ _ v _ s _ => b' = b /\ vi_req v = ar /\ i = iframe /\ s = salt
  | MLogin b' _ i ar' _ _ _ _ _ _ s _ => b' = b /\ ar' = ar /\ i = iframe /\ s = salt
  | _ => False
  end.
(** Salts are letters and digits. *)
Definition fair_salt (o : mop) : Prop :=
  match o with
  | MVisit _ _ _ _ _ _ _ _ _ _ salt _ | MLogin _ _ _ _ _ _ _ _ _ _ salt _ => ~ occurs_in "." salt
  | _ => True
  end.
(** The response in an answer of the authorization endpoint or of the log-in page. *)
Definition response_in (ev : mevent) (o : aout) : Prop :=
  exists c, me_ev ev = Ok (BAnswer (Ok (ROut o, c))) \/ me_ev ev = Ok (BDone (Ok (o, c))).
(** The address that the response is for. *)
Definition goes_to (ar : areq) (o : aout) (u : string) : Prop :=
  ao_uri o = Some u \/ (ao_uri o = None /\ ar_redirect_uri ar = Some u).

(** The calls [ops], which were answered by [evs], lead from [m0] to [m]. *)
Inductive mfuture (S : smconf) (K : aconf) (e : env) (m0 : mst) : list mop -> list mevent -> mst -> Prop :=
| mf_same : mfuture S K e m0 [] [] m0
| mf_more ops evs m o ev m' : mfuture S K e m0 ops evs m -> fair_salt o -> mstep S K e m o = (ev, m') ->
    mfuture S K e m0 (ops ++ [o]) (evs ++ [ev]) m'.
Definition mhistory (S : smconf) (K : aconf) (e : env) (ops : list mop) (evs : list mevent) (m : mst) : Prop :=
  exists always, mfuture S K e (m_init always) ops evs m.

(** In the [j]-th call the browser [b] was told the state [ss], for the client
    [client], in a response that went to an address of the origin [origin]. *)
Definition told_state (ops : list mop) (evs : list mevent) (j : nat) (b client origin ss : string) : Prop :=
  exists o ev ar iframe salt out u,
    nth_error ops j = Some o /\ nth_error evs j = Some ev /\ requests o b ar iframe salt
    /\ ar_client_id ar = client /\ response_in ev out /\ goes_to ar out u /\ origin_of u origin
    /\ me_state ev = Some ss.
(** The [k]-th call gave the browser [b] another cookie, or took it away. *)
Definition new_cookie_at (ops : list mop) (evs : list mevent) (k : nat) (b : string) : Prop :=
  exists o ev v, nth_error ops k = Some o /\ nth_error evs k = Some ev /\ from_browser o b /\ me_cookie ev = Some v.
(** Each call of the browser [b] comes later than the ones before. *)
Definition one_by_one (ops : list mop) (b : string) : Prop :=
  forall i j oi oj, i < j -> nth_error ops i = Some oi -> nth_error ops j = Some oj ->
    from_browser oi b -> from_browser oj b -> (call_time oi < call_time oj)%Z.
(** The log-out page, answered without frames for the front channel. *)
Definition logged_out (o : mop) (ev : mevent) (b : string) : Prop :=
  exists now sid alla ms, o = MLogout b now sid alla /\ me_ev ev = Ok (BEv (EvLogout (Ok ms)))
    /\ forall c s, ~ In (LFront c s) ms.
