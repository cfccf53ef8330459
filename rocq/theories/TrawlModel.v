(** Model of the search for entities of a type: the client of the list endpoint
    (src/fedservice/entity/client/list.py), requests for statements through the client
    (src/fedservice/entity/client/__init__.py, entity_configuration.py, entity_statement.py), FederationEntity.trawl
    (src/fedservice/entity/__init__.py) and the who endpoint (src/fedservice/entity/server/who.py).

    An answer of a list endpoint is a list of strings.  What idpyoidc requires of a statement it is sent is an arbitrary
    function of the entity that was asked and the statement; whether the signed form stays with the parsed one is a
    parameter as well.  The trust marks of a statement are given by a function of it.  A request with an empty issuer
    is not told apart. *)
From Verif Require Export ResolveModel TrustMarkVerifierModel.

Inductive lquery := LAll | LType (t : string) | LIntermediate.

Inductive lresponse := LList (ids : list string) | LError | LRedirect | LNoConnection.

Record lenv := mkLenv {
  l_net : nat -> string -> lquery -> lresponse;     (* list endpoints, as e_net *)
  l_accepts : string -> stmt -> res unit;           (* EntityStatement.verify *)
  l_keeps : bool                                    (* the parsed statement has _jws *)
}.

(** what iterating over an answer gives: a message or dictionary in place of a list gives its keys *)
Definition names_in (r : lresponse) : res (list string) :=
  match r with
  | LList l => Ok l
  | LError => Ok ["error"; "error_description"]
  | LRedirect => Ok ["http_response"]
  | LNoConnection => Err ConnectionError
  end.

Section Trawl.
Context (E : cenv) (O : iter_order) (fuel : nat) (prio : list string) (L : lenv).

(** client/list.py:32-57 and client/__init__.py:287-402; without an endpoint the URL is that of None *)
Definition do_list (id : string) (q : lquery) : M fstate (list string) :=
  do ep <- get_verified_endpoint E O fuel prio id "federation_list_endpoint" in
  match ep with
  | Some (VStr u) => fun s =>
      let c := f_col s in
      (mkFed (mkState (st_cfg c) (st_es c) (S (st_tick c))) (f_keys s) (f_chains s), names_in (l_net L (st_tick c) u q))
  | _ => raise OtherException
  end.

(** client/__init__.py:314-365, 404-440 for a statement; None for an error message or a redirect.  [asked] is
    context.issuer. *)
Definition request_statement (asked : string) (q : request) : M fstate (option (token * stmt)) := fun s =>
  let c := f_col s in
  let s' := mkFed (mkState (st_cfg c) (st_es c) (S (st_tick c))) (f_keys s) (f_chains s) in
  match e_net E (st_tick c) q with
  | RNoConnection => (s', Err ConnectionError)
  | R404 | RStatus => (s', Ok None)
  | RText (Some (TJws k p)) =>
      let keys := verify_keys (e_lib E) (f_keys s) (TJws k p) (s_iss p) in
      (s', if is_nil keys then Err MissingKey
           else if kmem k keys then let* _ := l_accepts L asked p in Ok (Some (TJws k p, p))
           else Err BadSignature)
  | RText _ => (s', Err OtherException)
  end.

(** client/entity_configuration.py:59-118; a 404 is not followed by a second request *)
Definition request_configuration (id : string) : M fstate (option stmt) :=
  do r <- request_statement id (QDoc (e_wk E id)) in
  match r with
  | None => ret None
  | Some (t, p) =>
      do _ <- on_col (cfg_set (s_iss p) (mkEntry p (if l_keeps L then Some t else None) CMessage)) in
      ret (Some p)
  end.

(** _ec["metadata"]["federation_entity"] *)
Definition federation_metadata (p : stmt) : res metadata :=
  match s_metadata p with
  | None => Err KeyError
  | Some m => dindex "federation_entity" m
  end.

(** a cached configuration, otherwise a requested one (entity_statement.py:78-84 and trawl); the cache returns None for
    an outdated one, which cannot be indexed *)
Definition configuration_of (id : string) (otherwise : M fstate (option stmt)) : M fstate stmt :=
  do s <- StateM.get in
  if cache_contains id (st_cfg (f_col s)) then
    do e <- on_col (cfg_getitem E id) in
    match e with Some e => ret (ce_stmt e) | None => raise TypeError end
  else
    do r <- otherwise in
    match r with Some p => ret p | None => raise KeyError end.

(** client/entity_statement.py:49-94 *)
Definition request_about (issuer subject : string) : M fstate (option stmt) :=
  do c <- configuration_of issuer (request_configuration issuer) in
  do fe <- lift (federation_metadata c) in
  do ep <- lift (let* v := dindex "federation_fetch_endpoint" fe in
                 match v with
                 | VStr u => if String.eqb u "" then Err AttributeError else Ok u
                 | _ => if truthy v then Err ValueError else Err AttributeError
                 end) in
  do r <- request_statement issuer (QFetch ep issuer subject) in
  ret (option_map snd r).

(** entity/__init__.py:320-327: the keys go to the subject of the statement *)
Definition introduce (superior subordinate : string) : M fstate (option stmt) :=
  do es <- request_about superior subordinate in
  match es with
  | None => raise KeyError
  | Some p =>
      match s_jwks p with
      | None => raise KeyError
      | Some ks =>
          do _ <- modify (fun s => mkFed (f_col s) (dset (s_sub p) (keys_of (f_keys s) (s_sub p) ++ ks) (f_keys s)) (f_chains s)) in
          request_configuration subordinate
      end
  end.

(** entity/__init__.py:316-359; [n] is the recursion depth Python allows *)
Fixpoint trawl (n : nat) (superior subordinate type : string) : M fstate (list string) :=
  match n with
  | 0 => raise RecursionError
  | S n' =>
      do c <- configuration_of subordinate (introduce superior subordinate) in
      do m <- lift (match s_metadata c with Some m => Ok m | None => Err KeyError end) in
      let found := if dmem type m then [s_sub c] else [] in
      do fe <- lift (dindex "federation_entity" m) in
      if negb (dmem "federation_list_endpoint" fe) then ret found
      else
        do added <- do_list subordinate (LType type) in
        do ims <- do_list subordinate LIntermediate in
        mfold (fun acc id => do ids <- trawl n' subordinate id type in ret (acc ++ ids)) ims (found ++ added)
  end.

(** ** Who *)

Record wreq := mkWreq {
  wq_type : option string;
  wq_credential : option string;
  wq_mark : option string
}.

(** who.py:24-32: the endpoint is configured with an entity type, a credential type and a trust mark id *)
Record wconf := mkWconf {
  wc_me : string;
  wc_type : string;
  wc_credential : string;
  wc_mark : string
}.

Definition asked (o : option string) (d : string) : string := match o with Some x => x | None => d end.

Inductive wresp := Use (ids : list string) | NoChains.

(** iterating over a JSON value *)
Definition elements (v : val) : res (list val) :=
  match v with
  | VList l => Ok l
  | VDict d => Ok (map (fun e => VStr (fst e)) d)
  | VStr s => Ok (chars s)
  | _ => Err TypeError
  end.

(** who.py:67-70: the first of [cs] that has the type ends the loop *)
Fixpoint offers_one (cs : list val) (type : string) : res bool :=
  match cs with
  | [] => Ok false
  | c :: cs' =>
      let* d := vindex "credential_definition" c in
      let* t := vindex "type" d in
      let* b := contains type t in
      if b then Ok true else offers_one cs' type
  end.

Definition offers (m : tc_metadata) (type : string) : res bool :=
  let* ci := md_index m "openid_credential_issuer" in
  let* l := vindex "credentials_supported" ci in
  let* cs := elements l in
  offers_one cs type.

Context (V : tmenv) (ask : string -> string -> string -> res (dict val)) (marks_of : stmt -> option (list tmtoken)).

(** who.py:43-60 *)
Definition below_anchor (me anchor : string) : M fstate (list string) :=
  if String.eqb anchor "" then raise AttributeError
  else if String.eqb anchor me then do_list me LAll
  else if negb (smem anchor (e_anchors E)) then raise OtherException     (* NoTrustedClaims *)
  else do_list anchor LAll.

(** who.py:62-65: the superior is always this entity *)
Definition find_servers (n : nat) (me : string) (ids : list string) (type : string) : M fstate (list string) :=
  mfold (fun acc id => do l <- trawl n me id type in ret (acc ++ l)) ids [].

(** who.py:67-76; the metadata is not used afterwards *)
Definition with_credential (servers : list string) (type : string) : M fstate (list string) :=
  mfold (fun acc id =>
           do m <- get_verified_metadata E O fuel id in
           match m with
           | None => raise TypeError
           | Some m => do b <- lift (offers m type) in ret (if b : bool then acc ++ [id] else acc)
           end) (ios O (nodup string_dec servers)) [].

(** who.py:90-94 *)
Definition count_marks (id mark : string) (ms : list tmtoken) (acc : list string) : M fstate (list string) :=
  mfold (fun acc t =>
           do v <- verify_trust_mark E O fuel V ask t true in
           match v with
           | None => raise AttributeError
           | Some p => ret (match dget "id" p with
                            | Some v => if py_eqb v (VStr mark) then acc ++ [id] else acc
                            | None => acc
                            end)
           end) ms acc.

(** who.py:78-94; None if an entity has no chains *)
Fixpoint with_mark (ids : list string) (mark : string) (acc : list string) : M fstate (option (list string)) :=
  match ids with
  | [] => ret (Some acc)
  | id :: ids' =>
      do cs <- get_trust_chains E O fuel id in
      match cs with
      | [] => ret None
      | c :: _ =>
          match rev (ch_verified c) with
          | [] => raise IndexError
          | leaf :: _ =>
              do acc <- match marks_of leaf with Some ms => count_marks id mark ms acc | None => ret acc end in
              with_mark ids' mark acc
          end
      end
  end.

(** who.py:34-98 *)
Definition who (n : nat) (C : wconf) (q : wreq) (anchor : string) : M fstate wresp :=
  do ids <- below_anchor (wc_me C) anchor in
  do servers <- find_servers n (wc_me C) ids (asked (wq_type q) (wc_type C)) in
  let credential := asked (wq_credential q) (wc_credential C) in
  do srv <- if String.eqb credential "" then ret [] else with_credential servers credential in
  let mark := asked (wq_mark q) (wc_mark C) in
  if String.eqb mark "" then ret (Use srv)
  else
    do r <- with_mark srv mark [] in
    ret (match r with Some l => Use l | None => NoChains end).

End Trawl.
