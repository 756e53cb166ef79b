(** Specification vocabulary for authorization responses. *)
From Verif Require Import M_Base M_Types M_Env M_TokenEP M_AuthzEP.

(** How a response reaches the client: Endpoint.do_response puts it in a form,
    in the fragment if fragment_enc is true, and in the query otherwise
    (src/oidcop/endpoint.py 333-378). *)
Definition delivery (o : aout) : string :=
  if ao_form o then "form_post"
  else match ao_frag o with Some true => "fragment" | _ => "query" end.
