(** Specification vocabulary for DPoP. *)
From Verif Require Import M_Base M_DPoP.

(** [t] is a JWS with the headers [h] and the payload [p], whose signature
    verifies with the key [k] that its own header carries, under the algorithm
    that its header names. *)
Definition signed_by (D : dlib) (t : string) (h p : dict string) (k : string) : Prop :=
  exists jwk alg, d_factory D t = Ok (Some h) /\ dget h "jwk" = Some jwk /\ d_key D jwk = Ok k
    /\ dget h "alg" = Some alg /\ d_verify D t k alg = Ok p.

(** The JWS says that member [m] is [v]: in its payload or, failing that, in its
    header. *)
Definition says (h p : dict string) (m v : string) : Prop :=
  dget p m = Some v \/ (dget p m = None /\ dget h m = Some v).

(** A proof for this URL and method, that confirms the key with thumbprint
    [j]. *)
Definition proof_for (D : dlib) (t url method j : string) : Prop :=
  exists h p k jwk k', signed_by D t h p k /\ says h p "htu" url /\ says h p "htm" method
    /\ says h p "jwk" jwk /\ d_key D jwk = Ok k' /\ d_thumb D k' = j.

(** The payload of a JWS is a JSON object: no member twice. *)
Definition objects (D : dlib) : Prop := forall t k alg p, d_verify D t k alg = Ok p -> NoDup (dkeys p).
