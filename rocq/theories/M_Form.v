(** The log-in page and its form, for the browsers of M_Browser. *)
From Verif Require Import M_Base M_Types M_Codec M_Grant M_Env M_Session M_Claims M_Handler
  M_Authz M_TokenEP M_PKCE M_AuthzEP M_Info M_Logout M_Uri M_Cookie M_Authn M_History M_Browser.

(** The libraries and the configuration of UserPassJinja2 (src/oidcop/user_authn/
    user.py 130-164). *)
Record lconf : Type := mk_lconf {
  lc_pack : Z -> dict jval -> string;           (* create_signed_jwt: 121-123, at a time *)
  lc_unpack : string -> res (dict jval);        (* verify_signed_jwt: 126-128 *)
  lc_write : areq -> string;                    (* AuthorizationRequest.to_urlencoded *)
  lc_read : string -> res areq;                 (* AuthorizationRequest().from_urlencoded *)
  lc_db : dict string;                          (* user_db *)
  lc_cinfo : string -> dict string              (* policy_uri, logo_uri, tos_uri of a client *)
}.

Definition page_member (d : dict string) (k : string) : dict jval :=
  match dget d k with Some v => if str_true v then [(k, JStr v)] else [] | None => [] end.

(** authn_args_gather: src/oidcop/oauth2/authorization.py 222-261. A request
    without redirect_uri does not come here; the member is left out for it. Lists
    (ui_locales, acr_values) are texts here. *)
Definition page_args (L : lconf) (ar : areq) (acr : string) (ru : option string) : dict jval :=
  [("query", JStr (lc_write L ar)); ("authn_class_ref", JStr acr)]
  ++ match ar_redirect_uri ar with Some u => [("return_uri", JStr u)] | None => [] end
  ++ match ru with Some u => [("as_user", JList [JStr u])] | None => [] end
  ++ page_member (lc_cinfo L (ar_client_id ar)) "policy_uri"
  ++ page_member (lc_cinfo L (ar_client_id ar)) "logo_uri"
  ++ page_member (lc_cinfo L (ar_client_id ar)) "tos_uri"
  ++ page_member (ar_other ar) "ui_locales"
  ++ page_member (ar_other ar) "acr_values"
  ++ page_member (ar_other ar) "login_hint".

(** UserPassJinja2.__call__: src/oidcop/user_authn/user.py 166-191: the page
    holds the token in a hidden field. *)
Definition page_token (L : lconf) (now : Z) (ar : areq) (acr : string) (ru : option string) : string :=
  lc_pack L now (page_args L ar acr ru).

(** UserPassJinja2.verify: src/oidcop/user_authn/user.py 193-198. *)
Definition verify_user (L : lconf) (form : dict string) : res string :=
  match dget form "username" with
  | None => Raise KeyError
  | Some u =>
      match dget (lc_db L) u with
      | None => Raise FailedAuthentication
      | Some p =>
          match dget form "password" with
          | None => Raise KeyError
          | Some p' => if String.eqb p p' then Ok u else Raise FailedAuthentication
          end
      end
  end.

Definition member {A} (d : dict A) (k : string) : res A :=
  match dget d k with Some v => Ok v | None => Raise KeyError end.
Definition text_member (d : dict jval) (k : string) : res string :=
  rbind (member d k) (fun v => match v with JStr s => Ok s | _ => Raise TypeError end).

(** The first part of the view: example/flask_op/views.py 113-123, with
    unpack_token of src/oidcop/user_authn/user.py 88-89. An empty user name is
    refused. Everything that can be missing is read before the session is made,
    as the arguments of create_session are. *)
Definition read_form (L : lconf) (form : dict string) : res (string * areq * string) :=
  rbind (verify_user L form) (fun u =>
  if negb (str_true u) then Raise FailedAuthentication else
  rbind (member form "token") (fun tok =>
  rbind (lc_unpack L tok) (fun d =>
  rbind (text_member d "query") (fun q =>
  rbind (lc_read L q) (fun ar =>
  rbind (text_member d "authn_class_ref") (fun acr =>
  rbind (member d "iat") (fun _ => Ok (u, ar, acr)))))))).

(** A visit of the authorization endpoint; a form that a browser sends; any other
    call. *)
Inductive lop : Type :=
| LVisit (b : string) (now : Z) (deny iframe : bool) (acr : string) (exp_in : option Z)
    (iv : string) (uri : option string) (v : visit)
| LForm (b : string) (now : Z) (iframe : bool) (exp_in : option Z) (iv : string) (uri : option string)
    (form : dict string)
| LCall (o : op).

(** The answer; for the log-in page, the token in it. A form that is refused. *)
Inductive levent : Type :=
| LAnswer (r : res (ares * option cookie))
| LPage (token : string)
| LDone (r : res (aout * option cookie))
| LRefused (x : exn)
| LEv (ev : event).

(** The provider and its browsers; the tokens in the pages shown so far (the
    provider does not keep them: they are there for the histories). *)
Record lst : Type := mk_lst { l_b : bst; l_shown : list string }.
Definition l_init (always : dict (dict (list string))) : lst := mk_lst (b_init always) [].

Definition lstep (L : lconf) (K : aconf) (e : env) (w : lst) (o : lop) : levent * lst :=
  match o with
  | LVisit b now deny iframe acr exp_in iv uri v =>
      let (ev, w') := bstep K e (l_b w) (BVisit b now deny iframe acr exp_in iv uri v) in
      match ev with
      | BAnswer (Ok (RLogin, c)) =>
          match request_user K (vi_req v) (vi_verified v) with
          | Ok ru => let tok := page_token L now (vi_req v) acr ru in
                     (LPage tok, mk_lst w' (l_shown w ++ [tok]))
          | Raise x => (LAnswer (Raise x), mk_lst w' (l_shown w))
          end
      | BAnswer r => (LAnswer r, mk_lst w' (l_shown w))
      | BDone r => (LDone r, mk_lst w' (l_shown w))
      | BEv ev => (LEv ev, mk_lst w' (l_shown w))
      end
  | LForm b now iframe exp_in iv uri form =>
      match read_form L form with
      | Raise x => (LRefused x, w)
      | Ok (u, ar, acr) =>
          let (ev, w') := bstep K e (l_b w) (BLogin b now iframe ar u acr exp_in iv uri) in
          match ev with
          | BDone r => (LDone r, mk_lst w' (l_shown w))
          | BAnswer r => (LAnswer r, mk_lst w' (l_shown w))
          | BEv ev => (LEv ev, mk_lst w' (l_shown w))
          end
      end
  | LCall o =>
      let (ev, w') := bstep K e (l_b w) (BCall o) in
      match ev with
      | BEv ev => (LEv ev, mk_lst w' (l_shown w))
      | BDone r => (LDone r, mk_lst w' (l_shown w))
      | BAnswer r => (LAnswer r, mk_lst w' (l_shown w))
      end
  end.
