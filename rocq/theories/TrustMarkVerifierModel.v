(** Model of src/fedservice/entity/function/trust_mark_verifier.py, of get_metadata of the trust chain
    collector, of FederationEntity.verify_trust_mark (src/fedservice/entity/__init__.py) and of the client
    for the status endpoint (src/fedservice/entity/client/trust_mark_status.py).

    Signatures are symbolic, as in VerifierModel.  A payload without an issuer that is a string is
    rejected with KeyError; exceptions inside Message.verify are one value. *)
From Verif Require Export FederationModel TrustMarkModel.

(** what is not computed here: the choice the key jar makes among the keys of the issuer, the keys in a
    JWKS inside metadata, and the delegations, JWSs with a signer and an issuer *)
Record tmenv := mkTMEnv {
  tm_picks : tmtoken -> key -> bool;
  tm_jwks : val -> res (list key);
  tm_deleg : string -> option (key * string)
}.

(** [k in v] for a string *)
Definition contains (k : string) (v : val) : res bool :=
  match v with
  | VDict d => Ok (dmem k d)
  | VList l => Ok (vmem (VStr k) l)
  | VStr s => Ok (match String.index 0 k s with Some _ => true | None => false end)
  | _ => Err TypeError
  end.

(** [v[k]] for a string *)
Definition vindex (k : string) (v : val) : res val :=
  match v with
  | VDict d => dindex k d
  | _ => Err TypeError
  end.

(** utils.py:26-33 *)
Definition mark_expired (now : Z) (t : tmark) : res bool :=
  match dget "exp" t with
  | None => Ok false
  | Some v => let* e := as_int v in Ok (Z.ltb e now)
  end.

Section TrustMarkVerifier.
Context (E : cenv) (O : iter_order) (fuel : nat) (V : tmenv).

(** trust_chain_collector.py:168-182; an entry that has become too old is None *)
Definition get_metadata (id : string) : M fstate (dict metadata) :=
  do s <- StateM.get in
  do usable <-
     if cache_contains id (st_cfg (f_col s)) then
       do e <- on_col (cfg_getitem E id) in
       match e with
       | None => raise TypeError
       | Some e =>
           do n <- on_col (now E) in
           ret (match s_exp (ce_stmt e) with
                | Some x => if Z.ltb x n then None else Some e
                | None => Some e
                end)
       end
     else ret None in
  do e <- match usable with
          | Some e => ret e
          | None =>
              do r <- collect_trust_chains E fuel id "" in
              do _ <- on_keys (verify_trust_chains E (fst r) []) in
              do e <- on_col (cfg_getitem E id) in
              match e with
              | None => raise TypeError
              | Some e => ret e
              end
          end in
  match s_metadata (ce_stmt e) with
  | Some m => ret m
  | None => raise KeyError
  end.

(** trust_mark_verifier.py:97-104: the delegation itself, with what the trust anchor says *)
Definition check_delegation (fe : metadata) (id delegation : string) : res bool :=
  let* issuers := dindex "trust_mark_issuers" fe in
  let* i := contains id issuers in
  if negb i then Ok false
  else
    let* owners := dindex "trust_mark_owners" fe in
    let* o := contains id owners in
    if negb o then Ok false
    else
      let* info := vindex id owners in
      let* jwks := vindex "jwks" info in
      let* sub := vindex "sub" info in
      let* keys := tm_jwks V jwks in
      match tm_deleg V delegation with
      | None => Err AttributeError
      | Some (k, iss) => if py_eqb sub (VStr iss) && kmem k keys then Ok true else Err BadSignature
      end.

(** trust_mark_verifier.py:88-104: False for None *)
Definition verify_delegation (t : tmark) (anchor : string) : M fstate bool :=
  do m <- get_metadata anchor in
  do fe <- lift (dindex "federation_entity" m) in
  match dget "id" t, dget "delegation" t with
  | Some (VStr id), Some (VStr d) => lift (check_delegation fe id d)
  | _, _ => raise KeyError
  end.

(** cryptojwt KeyJar.get_jwt_verify_keys and verify_compact: the payload, if a key fits *)
Definition mark_keys (t : tmtoken) (iss : string) : M fstate (list key) := fun s =>
  (s, Ok (filter (tm_picks V t) (keys_of (f_keys s) iss))).

(** trust_mark_verifier.py:72-77 *)
Definition import_leaf_keys (cs : list tchain) : M fstate unit :=
  do cs' <- lift (apply_policies O (map ch_tc cs)) in
  match cs' with
  | [] => raise IndexError
  | c :: _ =>
      match rev (ch_verified c), tc_iss_path (ch_tc c) with
      | leaf :: _, owner :: _ =>
          match s_jwks leaf with
          | None => raise KeyError
          | Some ks => modify (fun s => mkFed (f_col s)
                         (dset owner (keys_of (f_keys s) owner ++ ks) (f_keys s)) (f_chains s))
          end
      | _, _ => raise IndexError
      end
  end.

(** trust_mark_verifier.py:25-86.  [check_status] and [entity_id] are not used. *)
Definition tm_verifier (t : tmtoken) (trust_anchor : string) (check_status : bool) (entity_id : string)
  : M fstate (option tmark) :=
  match t with
  | TMJunk => raise AttributeError
  | TMJws k p =>
      do _ <- lift (tm_verify p None) in
      do n <- on_col (now E) in
      do expired <- lift (mark_expired n p) in
      if expired then ret None
      else
        do _ <- if dmem "delegation" p then verify_delegation p trust_anchor else ret true in
        match dget "iss" p with
        | Some (VStr iss) =>
            do cs <- get_verified_trust_chains E O fuel iss in
            if is_nil cs then ret None
            else if negb (smem trust_anchor (map ch_anchor cs)) then ret None
            else
              do keys <- mark_keys t iss in
              do keys <- if is_nil keys then
                           do _ <- import_leaf_keys cs in mark_keys t iss
                         else ret keys in
              ret (if kmem k keys then Some p else None)
        | _ => raise KeyError
        end
  end.

(** client/trust_mark_status.py:51-68 and the answer: for an endpoint, a subject and a trust mark id *)
Context (ask : string -> string -> string -> res (dict val)).

Definition status_of (endpoint : val) (sub id : string) : res (dict val) :=
  match endpoint with
  | VStr u => if String.eqb u "" then Err AttributeError else ask u sub id
  | _ => Err OtherException
  end.

Definition chain_metadata (c : tchain) (entity_type claim : string) : res val :=
  match ch_md c with
  | ByType m =>
      let* md := dindex entity_type m in
      match md with Some md => dindex claim md | None => Err TypeError end
  | Flat m => let* v := dindex entity_type m in vindex claim v
  end.

(** entity/__init__.py:361-389 *)
Definition verify_trust_mark (t : tmtoken) (check_with_issuer : bool) : M fstate (option tmark) :=
  match t with
  | TMJunk => raise AttributeError
  | TMJws _ p =>
      match dget "iss" p with
      | Some (VStr iss) =>
          do cs <- get_trust_chains E O fuel iss in
          match cs with
          | [] => ret None
          | c :: _ =>
              do v <- tm_verifier t (ch_anchor c) false "" in
              if check_with_issuer then
                match v with
                | None => raise TypeError
                | Some p' =>
                    match dget "sub" p', dget "id" p' with
                    | Some (VStr sub), Some (VStr id) =>
                        do ep <- lift (chain_metadata c "federation_entity"
                                         "federation_trust_mark_status_endpoint") in
                        do resp <- lift (status_of ep sub id) in
                        ret (match dget "active" resp with
                             | Some a => if py_eqb a (VBool true) then Some p' else None
                             | None => None
                             end)
                    | _, _ => raise KeyError
                    end
                end
              else ret v
          end
      | _ => raise KeyError
      end
  end.

End TrustMarkVerifier.
