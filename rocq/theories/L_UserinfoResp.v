(** Lemmas: how a userinfo response is packed, in histories. *)
From Verif Require Import M_Base M_Uri M_Types M_Codec M_Grant M_Env M_Session M_Claims M_Handler
  M_Authz M_TokenEP M_PKCE M_AuthzEP M_Info M_Logout M_History M_Response S_Codec S_Grant S_History S_Response
  L_Base L_Info L_Response.

Lemma userinfo_packed : forall e ops evs h now tok info cl h' cdb ci r hs,
  laws e -> history e ops evs h ->
  step e h (OUserinfo now tok) = (EvUserinfo (Ok (Good (info, cl))), h') ->
  dget cdb cl = Some ci -> NoDup (dkeys ci) -> userinfo_response cdb (e_issuer e) cl info = Ok (r, hs) ->
  (exists gid g t u, grant_of h gid g /\ belongs e g u cl /\ In t (g_tokens g) /\ t_value t = tok)
  /\ (forall alg, wants_signed ci alg -> exists enc, r = Packed (Some alg) enc (e_issuer e) cl info)
  /\ (forall alg enc, wants_encrypted ci alg enc -> exists sg, r = Packed sg (Some (alg, enc)) (e_issuer e) cl info)
  /\ (r = Clear info \/ exists sg enc, r = Packed sg enc (e_issuer e) cl info
        /\ (forall alg, sg = Some alg -> wants_signed ci alg) /\ (forall x y, enc = Some (x, y) -> wants_encrypted ci x y))
  /\ In ("Cache-Control", "no-store") hs
  /\ In ("Content-type", match r with Clear _ => "application/json" | Packed _ _ _ _ _ => "application/jwt" end) hs.
Proof.
  intros e ops evs h now tok info cl h' cdb ci r hs W Hi E D N R. split; [|eapply userinfo_packing; eauto].
  destruct (userinfo_live e W ops evs h now tok info cl h' Hi E)
    as (gid & g & t & u & c & ae & cs & G & B & _ & It & V & _ & _ & _ & _ & -> & _). exists gid, g, t, u. auto.
Qed.
