(** The members of an introspection response
    (src/oidcop/oauth2/introspection.py). *)
From Verif Require Import M_Base M_Types M_Codec M_Grant M_Env M_Session M_Claims M_Handler
  M_TokenEP M_Info.

(** The members that _introspect and process_request give about the token:
    introspection.py 47-67, 108-116. What token_args_methods add
    (lines 69-74) is not modelled. token_class is not a member of
    TokenIntrospectionResponse: [_resp.weed()] (line 116) drops it. *)
Definition token_members (r : iresp) : dict jval :=
  [("active", JBool true); ("scope", JStr (py_join " " (ir_scope r))); ("client_id", JStr (ir_client r));
   ("exp", JInt (ir_exp r)); ("iat", JInt (ir_iat r)); ("sub", JStr (ir_sub r)); ("iss", JStr (ir_iss r))]
  ++ match ir_type r with Some t => [("token_type", JStr t)] | None => [] end
  ++ match ir_aud r with [] => [] | l => [("aud", JList (map JStr l))] end
  ++ match ir_username r with Some u => [("username", JStr u)] | None => [] end.

(** What the caller gets: introspection.py 91-128. The user claims are put over
    the members about the token (line 124), "active" over all (line 126). *)
Definition introspection_response (o : option iresp) : dict jval :=
  match o with
  | None => [("active", JBool false)]
  | Some r => dset (dupdate (token_members r) (ir_claims r)) "active" (JBool true)
  end.
