(** Model of how an OP or AS gets to know federation clients: automatic registration
    (src/fedservice/appserver/oidc/authorization.py, oauth2/authorization.py, oauth2/pushed_authorization.py) and
    explicit registration (oidc/registration.py, oauth2/registration.py).

    The key jar of the server is not that of the federation entity.  The client authentication of idpyoidc, which follows
    when the client is known, the answer of explicit registration (an entity statement, see FetchModel), the trust
    anchor remembered for that answer, and the chains saved in the context are left out.  non_fed_process_request is
    RegistrationModel's step2_process_request. *)
From Verif Require Export FederationModel RegistrationModel.

Record astate := mkA {
  a_fed : fstate;
  a_reg : rstate
}.

Definition on_fed {A} (m : M fstate A) : M astate A := fun s =>
  match m (a_fed s) with (f, r) => (mkA f (a_reg s), r) end.

Definition on_reg {A} (m : M rstate A) : M astate A := fun s =>
  match m (a_reg s) with (f, r) => (mkA (a_fed s) f, r) end.

(** trust_chain.metadata[t], where the result has to be a dictionary *)
Definition chain_metadata (c : tchain) (t : string) : res metadata :=
  match ch_md c with
  | ByType m => let* o := dindex t m in match o with Some md => Ok md | None => Err TypeError end
  | Flat m => let* v := dindex t m in match v with VDict d => Ok d | _ => Err TypeError end
  end.

(** RegistrationRequest of the metadata (oidc/authorization.py:82, oauth2/authorization.py:76, pushed_authorization.py:69):
    the claims one by one *)
Definition request_of (md : dict val) : dict val := dupdate [] md.

(** the three endpoints: oidc/authorization.py, oauth2/authorization.py, oauth2/pushed_authorization.py *)
Inductive flavour := OIDC | OAuth | PAR.

Definition client_type (F : flavour) : string :=
  match F with OIDC => "openid_relying_party" | _ => "oauth_client" end.

(** the client that is authenticated afterwards, or unauthorized_client *)
Inductive verdict := Refused | Use (id : string).

Section Client.
Context (E : cenv) (O : iter_order) (fuel : nat) (R : reg_env).

(** oidc/authorization.py:53-59, oauth2/authorization.py:53-61, pushed_authorization.py:46-52: a provided chain is
    reversed and verified, otherwise the chains of the client are collected *)
Definition chains_for (id : string) (provided : list token) : M fstate (list tchain) :=
  if is_nil provided then get_verified_trust_chains E O fuel id
  else do tcs <- on_keys (verify_trust_chains E [rev provided] []) in lift (apply_policies O tcs).

(** oidc/authorization.py:52-91, oauth2/authorization.py:52-87, pushed_authorization.py:45-80; [new] is new_client_id,
    which pushed authorization does not pass on when it is empty *)
Definition do_automatic_registration (F : flavour) (new : bool) (id : string) (provided : list token)
  : M astate (option string) :=
  do cs <- on_fed (chains_for id provided) in
  match cs with
  | [] => raise NoTrustedChains
  | c :: _ =>
      do _ <- match F with OIDC => on_fed (store_trust_chain id cs) | _ => ret tt end in
      do md <- lift (chain_metadata c (client_type F)) in
      do _ <- on_reg (on_ckeys (match F with
                                | OIDC => get_keys (rg_keys R) md id
                                | _ => import_client_keys (rg_keys R) md id
                                end)) in
      let new_id := match F with PAR => true | _ => new end in
      let set_secret := match F with OIDC => false | _ => true end in
      do r <- on_reg (step2_process_request O R (dset "client_id" (VStr id) (request_of md)) new_id set_secret []) in
      match r with
      | Failed => ret None
      | Done args => match dget "client_id" args with
                     | Some (VStr i) => ret (Some i)
                     | Some _ => raise TypeError
                     | None => ret None
                     end
      end
  end.

Definition cdb_set (id k : string) (v : val) : M rstate unit :=
  do s <- StateM.get in
  do ci <- lift (dindex id (r_cdb s)) in
  set_client id (dset k v ci).

(** oidc/authorization.py:112-120: the client is known under both identifiers *)
Definition alias_client (id rid : string) : M rstate unit :=
  if String.eqb rid id then ret tt
  else
    do s <- StateM.get in
    do ci <- lift (dindex rid (r_cdb s)) in
    let ci := dset "entity_id" (VStr id) ci in
    do _ <- set_client rid ci in
    set_client id ci.

(** oidc/authorization.py:93-129, oauth2/authorization.py:89-121, pushed_authorization.py:82-114 up to the
    authentication of the known client; [automatic]: client_registration_types_supported has automatic (the registration
    endpoint puts the list there, registration.py:21; without a list the OAuth2 versions raise a TypeError before anything
    is changed, the OIDC version takes it to be empty) *)
Definition client_authentication (F : flavour) (new automatic : bool) (id : string) (provided : list token)
  : M astate verdict :=
  do s <- StateM.get in
  let info := dget id (r_cdb (a_reg s)) in
  let flagged := match F, info with OIDC, Some ci => dmem "automatic_registered" ci | _, _ => false end in
  if flagged || match info with None => true | Some _ => false end then
    if automatic then
      do _ <- on_reg (modify (fun s => if flagged then mkRState (ddel id (r_cdb s)) (r_keys s) else s)) in
      do r <- do_automatic_registration F new id provided in
      match r with
      | None => ret Refused
      | Some rid =>
          do _ <- on_reg (match F with OIDC => cdb_set rid "automatic_registered" (VBool true) | _ => ret tt end) in
          do _ <- on_reg (alias_client id rid) in
          ret (Use rid)
      end
    else ret Refused
  else ret (Use id).

(** ** Explicit registration *)

(** set.pop *)
Definition some_of (l : list string) : res string :=
  match ios O l with x :: _ => Ok x | [] => Err KeyError end.

(** oidc/registration.py:38-43 *)
Definition opponent_type (types : list string) : res string :=
  match types with
  | [t] => Ok t
  | _ => some_of (filter (fun t => negb (String.eqb t "federation_entity")) types)
  end.

Definition metadata_of (p : stmt) : res (dict metadata) :=
  match s_metadata p with Some m => Ok m | None => Err KeyError end.

(** oidc/registration.py:31-60 *)
Definition explicit_oidc (prio : list string) (t : token) : M astate (outcome (dict val)) :=
  do tp <- on_fed (on_col (open_self_signed E (Some t))) in
  let p := snd tp in
  do m <- lift (metadata_of p) in
  do ty <- lift (opponent_type (dkeys m)) in
  do cs <- on_fed (get_verified_trust_chains E O fuel (s_sub p)) in
  if is_nil cs then raise NoTrustedChains
  else
    do _ <- lift (pick_trust_chain prio cs) in
    do md <- lift (dindex ty m) in
    on_reg (step2_process_request O R (dset "client_id" (VStr (s_sub p)) (request_of md)) false true []).

(** oauth2/registration.py:55-77; no client_id, so a new one is made *)
Definition explicit_oauth (prio : list string) (t : token) : M astate (outcome (dict val)) :=
  do tp <- on_fed (on_col (open_self_signed E (Some t))) in
  let p := snd tp in
  do m <- lift (metadata_of p) in
  do ty <- lift (some_of (filter (fun t => negb (smem t ["federation_entity"; "trust_mark_issuer"])) (dkeys m))) in
  do r <- on_fed (collect_trust_chains_signed E fuel (s_sub p) t "" []) in
  do tcs <- on_fed (on_keys (verify_trust_chains E (fst r) [t])) in
  do cs <- lift (apply_policies O tcs) in
  do c <- lift (pick_trust_chain prio cs) in
  do md <- lift (chain_metadata c ty) in
  on_reg (step2_process_request O R (request_of md) true true []).

End Client.
