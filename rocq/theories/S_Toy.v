(** A small concrete provider, used for examples only. *)
From Verif Require Import M_Base M_Types M_Codec M_Grant M_Env S_Codec.

Definition toy_rules : dict rule :=
  [ (CODE, mk_rule (Some [ACCESS; REFRESH; IDTOKEN]) (Some 1%Z) (Some 300%Z));
    (ACCESS, mk_rule None None (Some 600%Z));
    (REFRESH, mk_rule (Some [ACCESS; REFRESH; IDTOKEN]) None (Some 86400%Z)) ].

Definition toy_client : client :=
  mk_client (Some [CODE; REFRESH]) None None None None [] None true false.
Definition toy_client2 : client :=
  mk_client (Some [CODE; REFRESH]) (Some ["openid"; "email"]) None None (Some true)
    [("userinfo", true)] None false false.

Definition toy_users : string -> dict jval :=
  fun u => if String.eqb u "diana"
           then [("name", JStr "Diana"); ("email", JStr "diana@example.org");
                 ("email_verified", JBool false); ("nickname", JStr "Dina")]
           else [].

Definition toy_modules : dict cmodule :=
  [ ("userinfo", mk_cmodule [("email", None)] true true []);
    ("introspection", mk_cmodule [] false false []);
    ("id_token", mk_cmodule [] true false []);
    (ACCESS, mk_cmodule [] false false []) ].

Definition toy_handlers : dict handler :=
  [ (CODE, HDefault "pw_c" CODE 300); (ACCESS, HDefault "pw_a" ACCESS 600);
    (REFRESH, HDefault "pw_r" REFRESH 86400); (IDTOKEN, HId 300) ].

(** Draws are numbers in decimal, padded to a name without ";". *)
Definition toy_env (oidc : bool) : env := {|
  e_oidc := oidc; e_limit := 100; e_crypto := toy_crypto; e_skey := "skey";
  e_sign := fun alg n _ => Ok (append "J" (show_N (N.of_nat n)));
  e_verify := fun _ _ => Raise JWSException;
  e_peek := fun _ => None;
  e_left_hash := fun a b => append a b;
  e_uuid := fun n => append "u" (show_N (N.of_nat n));
  e_rnd := fun n => append "r" (show_N (N.of_nat n));
  e_issuer := "https://op.example.com/";
  e_handlers := toy_handlers; e_modules := toy_modules;
  e_clients := [("c1", toy_client); ("c2", toy_client2)];
  e_users := Some toy_users;
  e_scopes := ["openid"; "profile"; "email"; "offline_access"];
  e_scope_map := [("openid", ["sub"]); ("profile", ["name"; "nickname"]);
                  ("email", ["email"; "email_verified"]); ("offline_access", [])];
  e_grant_types := Some [CODE; REFRESH];
  e_helpers := [CODE; REFRESH];
  e_authz := mk_gconf (Some 43200%Z) (Some toy_rules) None;
  e_implicit := false;
  e_sub := fun u s => append u (append "@" s);
  e_revoke_refresh := false; e_dpop := false; e_dpop_info := false;
  e_idt_alg_def := None; e_idt_algs := ["RS256"; "ES256"];
  e_bc_sid := true; e_fc_sid := false; e_pkce := true;
  e_cc_hash := fun m v => Ok (append m (append ":" v))
|}.

Definition toy_areq : areq :=
  mk_areq "c1" (Some "https://rp.example.com/cb") ["code"] (Some ["openid"; "email"; "offline_access"])
    (Some "state") (Some "nonce") None None None "" None None None [].
Definition toy_event : aevent := mk_aevent "diana" "password" 1000 4600.
