(** Subject identifiers: how they are computed, and how the functions that
    compute them are set up when the provider starts. *)
From Verif Require Import M_Base.

(** hashlib.sha256(text.encode("utf-8")).hexdigest() is the parameter [H].
    pairwise_id and public_id: src/oidcop/session/manager.py 36-39 and 66-67. *)
Definition pairwise_id (H : string -> string) (uid sector salt : string) : string :=
  H (append uid (append sector salt)).
Definition public_id (H : string -> string) (uid salt : string) : string :=
  H (append uid salt).

(** The classes RawID, PairWiseID and PublicID (manager.py 28-33, 42-63, 70-72),
    and the functions public_id, pairwise_id and ephemeral_id. *)
Inductive mclass := KRaw | KPair | KPub.
Inductive mfunc := FPublic | FPair | FEphemeral.
(** An entry of session_params.sub_func: a class with the arguments salt and
    filename ("" when not given), a function, or neither. Functions and classes
    of other modules are not modelled. *)
Inductive entry := EClass (k : mclass) (salt file : string) | EFunction (f : mfunc) | ENeither.
(** What the provider has made of an entry. *)
Inductive minter := MObj (k : mclass) (salt : string) | MFn (f : mfunc).

(** Files: text, or something that is not a file. *)
Inductive fnode := FText (s : string) | FOther.
(** The files, and how many random strings have been drawn. *)
Record world := mk_world { w_files : dict fnode; w_draws : nat }.

(** rndstr: src/oidcop/__init__.py 26-33. The [n]-th draw is [rnd n]. *)
Definition rndstr (rnd : nat -> string) : M world string :=
  fun w => (Ok (rnd (w_draws w)), mk_world (w_files w) (S (w_draws w))).

(** PairWiseID.__init__, which PublicID inherits: manager.py 43-60. Failing to
    write the file is not modelled. *)
Definition init_salt (rnd : nat -> string) (salt file : string) : M world string :=
  if str_true salt then ret salt
  else if str_true file then
    w <- get_st ;;
    match dget (w_files w) file with
    | Some (FText s) => ret s
    | Some FOther => raise ConfigurationError
    | None =>
        s <- rndstr rnd ;;
        w <- get_st ;;
        put_st (mk_world (dset (w_files w) file (FText s)) (w_draws w)) ;;
        ret s
    end
  else rndstr rnd.

(** init_service for these classes: src/oidcop/endpoint_context.py 48-61. *)
Definition init_class (rnd : nat -> string) (k : mclass) (salt file : string) : M world minter :=
  match k with
  | KRaw => ret (MObj KRaw "")
  | _ => s <- init_salt rnd salt file ;; ret (MObj k s)
  end.

(** EndpointContext.do_sub_func: endpoint_context.py 295-310. *)
Fixpoint do_sub_func (rnd : nat -> string) (l : dict entry) (acc : dict minter) : M world (dict minter) :=
  match l with
  | [] => ret acc
  | (k, EClass c salt file) :: r =>
      m <- init_class rnd c salt file ;; do_sub_func rnd r (dset acc k m)
  | (k, EFunction f) :: r => do_sub_func rnd r (dset acc k (MFn f))
  | (k, ENeither) :: r => do_sub_func rnd r acc
  end.

(** The configuration session_params; password and salt are "" when not given. *)
Record sconf := mk_sconf { sc_password : string; sc_salt : string; sc_sub : dict entry }.
(** The parts of the SessionManager that matter here. *)
Record smgr := mk_smgr { sm_key : string; sm_salt : string; sm_sub : dict minter }.

(** Adding the functions that are not configured: manager.py 113-119. *)
Definition with_default (d : dict minter) (k : string) (f : mfunc) : dict minter :=
  if dmem d k then d else dset d k (MFn f).

(** EndpointContext.__init__ (endpoint_context.py 188-189), Server.__init__
    (src/oidcop/server.py 87-92), SessionManager.__init__ (manager.py 85-119) and
    Database.__init__ (src/oidcop/session/database.py 42-50), which sets the
    attribute salt to the configured salt after it has been set to the key. The
    draws of Database.__init__ that are not used are left out. *)
Definition start (rnd : nat -> string) (c : sconf) : M world smgr :=
  subs <- do_sub_func rnd (sc_sub c) [] ;;
  key <- (if str_true (sc_password c) then ret (sc_password c) else rndstr rnd) ;;
  salt <- (if str_true (sc_salt c) then ret (sc_salt c) else rndstr rnd) ;;
  ret (mk_smgr key salt
    (with_default (with_default (with_default subs "public" FPublic) "pairwise" FPair)
       "ephemeral" FEphemeral)).

(** self.sub_func[sub_type](user_id, salt=self.salt, sector_identifier=...):
    manager.py 32-33, 36-39, 62-63, 66-67, 71-72, 75-76, 189-191. [draw] is
    uuid4().hex. *)
Definition make_sub (H : string -> string) (m : smgr) (kind uid sector draw : string) : res string :=
  match dget (sm_sub m) kind with
  | None => Raise KeyError
  | Some (MObj KRaw _) => Ok uid
  | Some (MObj KPair s) => Ok (pairwise_id H uid sector s)
  | Some (MObj KPub s) => Ok (public_id H uid s)
  | Some (MFn FPublic) => Ok (public_id H uid (sm_salt m))
  | Some (MFn FPair) => Ok (pairwise_id H uid sector (sm_salt m))
  | Some (MFn FEphemeral) => Ok draw
  end.
