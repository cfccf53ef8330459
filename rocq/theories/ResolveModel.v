(** Model of the resolve endpoint (src/fedservice/entity/server/resolve.py) and of the functions that look up an
    endpoint of another entity (src/fedservice/entity/function/trust_anchor.py, get_entity_endpoint in
    src/fedservice/entity/function/__init__.py, get_federation_entity_metadata in src/fedservice/entity/__init__.py).

    A response is the claims of the statement and, separately, the trust chain, whose members are tokens.  It is signed
    with the resolver's own key, as in FetchModel.  The request has the claims anchor, sub and type, each a string if
    present. *)
From Verif Require Export FederationModel FetchModel.

Record rreq := mkRreq {
  rq_anchor : option string;
  rq_sub : option string;
  rq_type : option string
}.

Record rresp := mkRresp {
  rr_claims : dict val;
  rr_chain : list (option esval)
}.

(** the metadata of a trust chain as a value *)
Definition type_val (o : option metadata) : val := match o with Some md => VDict md | None => VNull end.

Definition md_val (m : tc_metadata) : val :=
  match m with
  | ByType d => VDict (map (fun e => (fst e, type_val (snd e))) d)
  | Flat d => VDict d
  end.

(** [trust_chain.metadata[t]] *)
Definition md_index (m : tc_metadata) (t : string) : res val :=
  match m with
  | ByType d => let* o := dindex t d in Ok (type_val o)
  | Flat d => dindex t d
  end.

Definition given (o : option string) : res string :=
  match o with Some x => Ok x | None => Err KeyError end.

Section Resolve.
Context (E : cenv) (O : iter_order) (fuel : nat).

(** resolve.py:28-59; [me] and [jwks] are the resolver's identifier and public keys.  Without a chain to the anchor
    the attribute metadata of None is asked for. *)
Definition resolve (me : string) (jwks : val) (with_ta_ec : bool) (q : rreq) : M fstate rresp :=
  do anchor <- lift (given (rq_anchor q)) in
  do sub <- lift (given (rq_sub q)) in
  do r <- collect_trust_chains E fuel sub anchor in
  do tcs <- on_keys (verify_trust_chains E (fst r) (match snd r with Some t => [t] | None => [] end)) in
  do cs <- lift (apply_policies O tcs) in
  match find (fun c => String.eqb anchor (ch_anchor c)) cs with
  | None => raise AttributeError
  | Some c =>
      do md <- lift (match rq_type q with
                     | Some t => let* v := md_index (ch_md c) t in Ok (VDict [(t, v)])
                     | None => Ok (md_val (ch_md c))
                     end) in
      do chain <- on_col (get_chain E (tc_iss_path (ch_tc c)) anchor with_ta_ec) in
      do n <- on_col (now E) in
      do claims <- lift (create_entity_statement n me sub jwks [("metadata", md)]) in
      ret (mkRresp claims chain)
  end.

(** trust_anchor.py:9-15; the keys are those of the issuer the configuration names *)
Definition get_verified_trust_anchor_statement (id : string) : M fstate stmt :=
  do t <- on_col (get_entity_configuration E id) in
  match t with
  | Some (TJws k p) => fun s =>
      let keys := verify_keys (e_lib E) (f_keys s) (TJws k p) (s_iss p) in
      (s, if is_nil keys then Err MissingKey else if kmem k keys then Ok p else Err BadSignature)
  | _ => raise AttributeError
  end.

(** [metadata["federation_entity"].get(name)] with KeyError caught *)
Definition fe_get (m : option (dict metadata)) (name : string) : option val :=
  match m with
  | None => None
  | Some m => match dget "federation_entity" m with Some fe => dget name fe | None => None end
  end.

(** the same of the metadata of a trust chain; an entity type without metadata has None, and the metadata of a chain of
    one statement has values of any type *)
Definition md_get (m : tc_metadata) (name : string) : res (option val) :=
  match m with
  | ByType d => match dget "federation_entity" d with
                | None => Ok None
                | Some None => Err AttributeError
                | Some (Some fe) => Ok (dget name fe)
                end
  | Flat d => match dget "federation_entity" d with
              | None => Ok None
              | Some (VDict fe) => Ok (dget name fe)
              | Some _ => Err AttributeError
              end
  end.

(** trust_anchor.py:18-35 *)
Definition get_verified_endpoint (prio : list string) (id name : string) : M fstate (option val) :=
  if smem id (e_anchors E) then
    do p <- get_verified_trust_anchor_statement id in
    ret (fe_get (s_metadata p) name)
  else
    do cs <- get_verified_trust_chains E O fuel id in
    do c <- lift (pick_trust_chain prio cs) in
    lift (md_get (ch_md c) name).

(** function/__init__.py:170-176 (the entity is not a trust anchor): the first chain *)
Definition get_entity_endpoint (id type name : string) : M fstate val :=
  do cs <- get_verified_trust_chains E O fuel id in
  match cs with
  | [] => ret (VStr "")
  | c :: _ =>
      do v <- lift (md_index (ch_md c) type) in
      match v with
      | VDict d => lift (dindex name d)
      | _ => raise TypeError
      end
  end.

(** entity/__init__.py:297-302; metadata without entries is returned as it is *)
Definition get_federation_entity_metadata (id : string) : M fstate val :=
  do m <- get_verified_metadata E O fuel id in
  match m with
  | None => ret VNull
  | Some m => if truthy (md_val m) then lift (md_index m "federation_entity") else ret (md_val m)
  end.

End Resolve.
