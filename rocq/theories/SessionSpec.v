(** Vocabulary for logins of a relying party. *)
From Verif Require Export StateM SessionModel.
Local Open Scope string_scope.
Local Open Scope list_scope.
Local Open Scope Z_scope.

(** the session that a response names *)
Definition named (d : dict val) : option string :=
  match dget "state" d with Some (VStr k) => Some k | _ => None end.

(** idpyoidc hands on the state parameter of an authorization response *)
Definition keeps_state (L : lib) : Prop :=
  forall rec raw d, l_parse L "authorization" rec raw = Ok d -> dget "state" d = dget "state" raw.

(** the session of get_access_and_id_token *)
Definition access_session (resp : option (dict val)) (key : string) : option string :=
  if String.eqb key "" then
    match resp with
    | Some ((_ :: _) as d) => named d
    | _ => Some ""
    end
  else Some key.

(** ** Sessions of operations *)

Definition session_of (o : op) : option string :=
  match o with
  | Finalize _ raw _ | FinalizeAuth _ raw => named raw
  | Access _ resp k _ => access_session resp k
  | Init _ k _ _ | Tokens _ k | Refresh _ k _ | UserInfo _ k _ | Active _ k | Valid _ k | Logout _ k _ | Clear k => Some k
  end.

Definition of_session (k : string) (o : op) : bool :=
  match session_of o with Some k' => String.eqb k k' | None => false end.

(** dictionaries that idpyoidc hands out have each key once *)
Definition wf_lib (L : lib) : Prop :=
  (forall svc rec raw d, l_parse L svc rec raw = Ok d -> NoDup (dkeys d))
  /\ (forall svc rec args d, l_request L svc rec args = Ok d -> NoDup (dkeys d)).

(** what a session holds *)
Definition holds (k x : string) (s : sess) : option val :=
  match dget k (c_db s) with Some r => dget x r | None => None end.

(** [v] is the verified ID token (or another item) of a response of the token endpoint, verified
    against the record of session [k] in [s] *)
Definition from_token_endpoint (L : lib) (E : env) (s : sess) (k x : string) (v : val) : Prop :=
  exists args q raw d,
    l_request L "accesstoken" (dget k (c_db s)) args = Ok q
    /\ v_net E "accesstoken" q = Ok raw
    /\ l_parse L "accesstoken" (dget k (c_db s)) raw = Ok d
    /\ dget x d = Some v.

(** when a token that comes with a message received at [now] expires; None: it does not *)
Definition expiry (L : lib) (now : Z) (d : dict val) : option Z :=
  match dget "expires_in" d with
  | Some v => match l_int L v with Ok n => Some (now + n) | Err _ => None end
  | None => None
  end.

(** what a caller who asks for a valid token at [now] should get *)
Definition valid_at (now : Z) (t : val) (e : option Z) : res (val * val) :=
  match e with
  | None => Ok (t, VInt 0)
  | Some e => if now <? e then Ok (t, VInt e) else Err OtherException
  end.

(** the response type to expect in an authorization request *)
Definition usual_type (types : list string) : option string :=
  if smem "code" types then Some "code"
  else match types with t :: _ => Some t | [] => None end.

(** the way in which a server answers a request: as asked for or, for the types, as usual *)
Definition effective_mode (L : lib) (q : dict val) : option val :=
  match dget "response_mode" q with
  | Some m => if truthy m then Some m else None
  | None =>
      match dget "response_type" q with
      | Some (VStr t) =>
          match dget (String.concat " " (sorted (words t))) (l_modes L) with Some m => Some (VStr m) | None => None end
      | _ => None
      end
  end.

(** idpyoidc hands on these arguments of an authorization request *)
Definition passes (L : lib) : Prop :=
  forall rec r q x, l_request L "authorization" rec r = Ok q ->
    In x ["response_type"; "response_mode"; "nonce"; "state"] -> dget x q = dget x r.

(** the response type that an authorization request should have: the caller's or the
    usual one *)
Definition wanted_type (types : list string) (args : option (dict val)) : option val :=
  if truthy (arg "response_type" args) then Some (arg "response_type" args)
  else match usual_type types with Some t => Some (VStr t) | None => None end.

Definition wf_args (args : option (dict val)) : Prop :=
  match args with Some a => NoDup (dkeys a) | None => True end.

(** the operation starts the login [k] *)
Definition starts (k : string) (o : op) : bool :=
  match o with Init _ k' _ _ => String.eqb k k' | _ => false end.

(** the client knows its provider *)
Definition knows_provider (o : op) : Prop :=
  match o with
  | Finalize E _ _ | FinalizeAuth E _ => py_eqb VNull (issuer_now (v_conf E)) = false
  | _ => True
  end.

(** an operation said that a user is logged in, or handed out what comes with a login *)
Definition gives_access (o : op) (r : res out) : bool :=
  match o, r with
  | Active _ _, Ok (OBool b) => b
  | (Valid _ _ | Tokens _ _ | Refresh _ _ _ | Access _ _ _ _), Ok _ => true
  | (Finalize _ _ _ | FinalizeAuth _ _), Ok (OMsg d) => negb (dmem "error" d)
  | _, _ => false
  end.
