(** The session database and session manager:
    src/oidcop/session/database.py and src/oidcop/session/manager.py. *)
From Verif Require Import M_Base M_Types M_Codec M_Grant M_Env.

(** ** Database *)

(** Database._eval_path: src/oidcop/session/database.py 51-61. *)
Definition eval_path (p : list string) : res (string * option string * option string) :=
  match p with
  | [] => Raise IndexError
  | [u] => Ok (u, None, None)
  | [u; c] => Ok (u, Some c, None)
  | u :: c :: g :: _ => Ok (u, Some c, Some g)
  end.

(** Truth value of an optional string. *)
Definition ostr_true (o : option string) : bool :=
  match o with Some s => str_true s | None => false end.
Definition ostr (o : option string) : string :=
  match o with Some s => s | None => EmptyString end.

(** [self.db.get(key, Info())]: the stored object, or a new one that is not yet
    in the database. *)
Definition db_get_or (k : string) (i : sinfo) : M st nat :=
  o <- db_lookup k ;;
  match o with Some l => ret l | None => new_obj (OInfo i) end.

(** Database.set: src/oidcop/session/database.py 63-90. *)
Definition db_set (p : list string) (v : nat) : M st unit :=
  e <- lift (eval_path p) ;;
  let '(u, c, g) := e in
  (if ostr_true g then db_put (session_key [u; ostr c; ostr g]) v else ret tt) ;;
  (if ostr_true c then
     let cid_key := session_key [u; ostr c] in
     ci <- db_get_or cid_key (new_client_info "") ;;
     if negb (ostr_true g) then db_put cid_key v
     else sub <- subordinate ci ;;
          if smem (ostr g) sub then ret tt
          else upd_obj ci (on_info (si_add (ostr g))) ;; db_put cid_key ci
   else ret tt) ;;
  ui <- db_get_or u (new_user_info "") ;;
  match c with
  | None => db_put u v
  | Some c =>
      if str_true c then
        sub <- subordinate ui ;;
        if smem c sub then ret tt
        else upd_obj ui (on_info (si_add c)) ;; db_put u ui
      else ret tt
  end.

(** Database.get: src/oidcop/session/database.py 92-126. *)
Definition db_get (p : list string) : M st nat :=
  e <- lift (eval_path p) ;;
  let '(u, c, g) := e in
  ou <- db_lookup u ;;
  match ou with
  | None => raise KeyError
  | Some ul =>
      uo <- deref ul ;;
      match uo with
      | ONone => raise KeyError
      | _ =>
          match c with
          | None => ret ul
          | Some c =>
              sub <- subordinate ul ;;
              if negb (smem c sub) then raise ValueError
              else
                oc <- db_lookup (session_key [u; c]) ;;
                match oc with
                | None => raise NoSuchClientSession
                | Some cl =>
                    match g with
                    | None => ret cl
                    | Some g =>
                        csub <- subordinate cl ;;
                        if negb (smem g csub) then raise ValueError
                        else
                          og <- db_lookup (session_key [u; c; g]) ;;
                          match og with
                          | None => raise NoSuchGrant
                          | Some gl => ret gl
                          end
                    end
                end
          end
      end
  end.

(** [if k in self.db: del self.db[k]]. *)
Definition db_discard (k : string) : M st unit :=
  o <- db_lookup k ;;
  match o with Some _ => db_del k | None => ret tt end.

(** Database.delete: src/oidcop/session/database.py 128-167. The loop of
    153-155 tests and deletes the same key in every round, so one round says
    it all, if there is any. *)
Definition db_delete (p : list string) : M st unit :=
  e <- lift (eval_path p) ;;
  let '(u, c, g) := e in
  ou <- db_lookup u ;;
  match ou with
  | None => ret tt
  | Some ul =>
      if negb (ostr_true c) then db_del u
      else
        let c := ostr c in
        let skc := session_key [u; c] in
        let skg := session_key [u; c; ostr g] in
        sub <- subordinate ul ;;
        if negb (smem c sub) then db_del c
        else
          oc <- db_lookup skc ;;
          (match oc with
           | None => ret tt
           | Some cl =>
               (if ostr_true g then
                  db_discard skg ;;
                  csub <- subordinate cl ;;
                  if smem (ostr g) csub
                  then upd_obj cl (on_info (fun i => si_set_sub (sremove (ostr g) (si_sub i)) i))
                  else ret tt
                else
                  csub <- subordinate cl ;;
                  (match csub with [] => ret tt | _ => db_discard skg end) ;;
                  upd_obj cl (on_info (si_set_sub []))) ;;
               csub <- subordinate cl ;;
               match csub with
               | [] => db_del skc ;;
                       upd_obj ul (on_info (fun i => si_set_sub (sremove c (si_sub i)) i))
               | _ => db_put c cl
               end
           end) ;;
          sub <- subordinate ul ;;
          match sub with
          | [] => db_del u
          | _ => db_put u ul
          end
  end.

(** ** Session identifiers *)

(** Database.encrypted_session_id: src/oidcop/session/database.py 181-185. *)
Definition enc_sid (e : env) (p : list string) : M st string :=
  n <- tick ;;
  ret (encrypted_session_id (e_crypto e) (e_skey e) (e_rnd e n) n p).

(** Database.decrypt_session_id: src/oidcop/session/database.py 187-196. *)
Definition dec_sid (e : env) (sid : string) : res (list string) :=
  decrypt_session_id (e_crypto e) (e_skey e) sid.

(** [user_id, client_id, grant_id = self.decrypt_session_id(...)]: a list of
    another length raises ValueError. *)
Definition dec_sid3 (e : env) (sid : string) : res (string * string * string) :=
  rbind (dec_sid e sid)
    (fun p => match p with
              | [u; c; g] => Ok (u, c, g)
              | _ => Raise ValueError
              end).

(** ** Manager *)

(** Grant.__init__ as called by create_grant (src/oidcop/session/grant.py
    124-164, src/oidcop/session/manager.py 186-195). *)
Definition new_grant (now : Z) (ar : areq) (ae : aevent) (sub gid : string)
    (rules : option (dict rule)) (scopes : option (list string)) : grant :=
  mk_grant (match scopes with Some s => s | None => [] end)
    (match ar_claims ar with Some c => c | None => [] end)
    [] (Some ar) (Some ae) []
    (match rules with Some r => r | None => [] end) None now 0 0 false 0 gid sub [].

(** SessionManager.create_grant: src/oidcop/session/manager.py 161-199. The
    callers never pass sub_type, so it is "public". *)
Definition create_grant (e : env) (now : Z) (ae : aevent) (ar : areq) (u c : string)
    (rules : option (dict rule)) (scopes : option (list string)) : M st string :=
  n <- tick ;;
  let gid := e_uuid e n in
  gl <- new_obj (OGrant (new_grant now ar ae (e_sub e u (ar_sector ar)) gid rules scopes)) ;;
  db_set [u; c; gid] gl ;;
  enc_sid e [u; c; gid].

(** SessionManager.create_session: src/oidcop/session/manager.py 201-248. *)
Definition create_session (e : env) (now : Z) (ae : aevent) (ar : areq) (u c : string)
    (rules : option (dict rule)) (scopes : option (list string)) : M st string :=
  catch (db_get [u] ;; ret tt)
    (fun x => if is_KeyError x
              then Some (l <- new_obj (OInfo (new_user_info u)) ;; db_set [u] l)
              else None) ;;
  let c := if str_true c then c else ar_client_id ar in
  catch (db_get [u; c] ;; ret tt)
    (fun x => match x with
              | NoSuchClientSession | ValueError =>
                  Some (l <- new_obj (OInfo (new_client_info c)) ;; db_set [u; c] l)
              | _ => None
              end) ;;
  create_grant e now ae ar u c rules scopes.

(** SessionManager.__getitem__ and __setitem__: manager.py 250-254. *)
Definition mgr_get (e : env) (sid : string) : M st nat :=
  p <- lift (dec_sid e sid) ;; db_get p.
Definition mgr_put (e : env) (sid : string) (l : nat) : M st unit :=
  p <- lift (dec_sid e sid) ;; db_set p l.

(** SessionManager.get_grant: manager.py 284-296. *)
Definition get_grant (e : env) (sid : string) : M st nat :=
  p <- lift (dec_sid3 e sid) ;;
  let '(u, c, g) := p in
  l <- db_get [u; c; g] ;;
  o <- deref l ;;
  match o with OGrant _ => ret l | _ => raise ValueError end.

(** What get_session_info returns; the parts not asked for are absent. The
    grant is a reference (heap location). *)
Record sess : Type := mk_sess {
  ss_sid : string; ss_user : string; ss_client : string; ss_gid : string;
  ss_grant : nat
}.

(** SessionManager.get_session_info(session_id, grant=True): manager.py
    419-471. *)
Definition get_session_info (e : env) (sid : string) : M st sess :=
  p <- lift (dec_sid3 e sid) ;;
  let '(u, c, g) := p in
  l <- db_get [u; c; g] ;;
  ret (mk_sess sid u c g l).

(** SessionManager.get_authentication_event: manager.py 352-354, 455-460. The
    grant may hold no event. *)
Definition get_authentication_event (e : env) (sid : string) : M st (option aevent) :=
  i <- get_session_info e sid ;;
  g <- grant_at (ss_grant i) ;;
  ret (g_aevent g).

(** SessionManager.find_token: manager.py 146-159. A token is referred to by
    its position in the grant's list. *)
Fixpoint find_pos (v : string) (ts : list token) (i : nat) : option nat :=
  match ts with
  | [] => None
  | t :: r => if String.eqb (t_value t) v then Some i else find_pos v r (S i)
  end.

Definition upd_tok (l i : nat) (f : token -> token) : M st unit :=
  upd_obj l (on_grant (fun g => g_set_tokens (upd_nth i f (g_tokens g)) g)).

(** Run a computation on the list of issued tokens of the grant at [l]. *)
Definition on_tokens (l : nat) (m : M (list token) unit) : M st unit :=
  g <- grant_at l ;;
  let (r, ts) := m (g_tokens g) in
  upd_obj l (on_grant (g_set_tokens ts)) ;;
  lift r.

(** SessionManager.revoke_token: manager.py 304-320. *)
Definition mgr_revoke_token (e : env) (sid v : string) (recursive : bool) : M st unit :=
  p <- lift (dec_sid3 e sid) ;;
  let '(u, c, g) := p in
  l <- db_get [u; c; g] ;;
  g <- grant_at l ;;
  match find_pos v (g_tokens g) 0 with
  | None => raise UnknownToken
  | Some i =>
      upd_tok l i tok_set_revoked ;;
      if recursive then
        l' <- mgr_get e sid ;;
        on_tokens l' (revoke_dependent (e_limit e) v)
      else ret tt
  end.

(** The loop of revoke_client_session (manager.py 375-377): each grant is
    fetched and revoked. [revoke] works on infos as well as on grants. *)
Definition revoke_obj (o : obj) : obj :=
  match o with
  | OInfo i => OInfo (si_revoke i)
  | OGrant g => OGrant (g_set_revoked g)
  | ONone => ONone
  end.
Fixpoint revoke_grants (u c : string) (gids : list string) : M st unit :=
  match gids with
  | [] => ret tt
  | g :: r =>
      l <- db_get [u; c; g] ;;
      o <- deref l ;;
      (match o with ONone => raise AttributeError | _ => upd_obj l revoke_obj end) ;;
      revoke_grants u c r
  end.

(** SessionManager.revoke_client_session: manager.py 356-377. [revoke] of an
    info returns the info, that of a grant returns None. *)
Definition revoke_client_session (e : env) (sid : string) : M st unit :=
  p <- lift (dec_sid e sid) ;;
  uc <- match p with
        | [u; c] => ret (u, c)
        | [u; c; _] => ret (u, c)
        | _ => raise ValueError
        end ;;
  let (u, c) := (uc : string * string) in
  l <- db_get [u; c] ;;
  o <- deref l ;;
  match o with
  | ONone => raise AttributeError
  | OGrant _ =>
      upd_obj l revoke_obj ;;
      n <- new_obj ONone ;;
      db_set [u; c] n ;;
      raise AttributeError
  | OInfo _ =>
      upd_obj l revoke_obj ;;
      db_set [u; c] l ;;
      gids <- subordinate l ;;
      revoke_grants u c gids
  end.

(** SessionManager.client_session_is_revoked: manager.py 379-382. *)
Definition client_session_is_revoked (e : env) (sid : string) : M st bool :=
  p <- lift (dec_sid3 e sid) ;;
  let '(u, c, _) := p in
  l <- db_get [u; c] ;;
  o <- deref l ;;
  match o with
  | OInfo i => ret (si_revoked i)
  | OGrant g => ret (g_revoked g)
  | ONone => raise AttributeError
  end.

(** SessionManager.revoke_grant: manager.py 384-393. *)
Definition revoke_grant (e : env) (sid : string) : M st unit :=
  p <- lift (dec_sid e sid) ;;
  l <- db_get p ;;
  o <- deref l ;;
  match o with
  | ONone => raise AttributeError
  | _ => upd_obj l revoke_obj ;; db_set p l
  end.

(** SessionManager.remove_session: manager.py 530-532. *)
Definition remove_session (e : env) (sid : string) : M st unit :=
  p <- lift (dec_sid3 e sid) ;;
  let '(u, c, g) := p in
  db_delete [u; c; g].

(** SessionManager.flush: manager.py 537-539. *)
Definition flush : M st unit :=
  fun s => (Ok tt, mk_st (s_heap s) [] (s_ctr s) (s_always s)).
