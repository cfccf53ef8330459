(** Model of the fetch endpoint: src/fedservice/entity/server/fetch.py, with
    src/fedservice/entity_statement/create.py.

    Statements are their payloads; they are all signed with the entity's own key ([JWT(key_jar=...)] with
    no issuer given to [pack] takes the key from the entity's own part of the key jar).  The store of
    subordinates and the policies are plain dictionaries (entity/server/__init__.py:66-78). *)
From Verif Require Export StateM.

(** ** create.py *)

(** the named arguments, apart from iss, sub and key_jar *)
Definition stmt_params : list string :=
  ["metadata"; "metadata_policy"; "authority_hints"; "lifetime"; "aud"; "include_jwks"; "constraints"].

(** [**kwargs] *)
Definition extra_args (args : dict val) : dict val :=
  filter (fun e => negb (smem (fst e) stmt_params)) args.

(** [if x: msg[x] = x] *)
Definition claim_if (name : string) (args : dict val) (msg : dict val) : dict val :=
  match dget name args with
  | Some v => if truthy v then dset name v msg else msg
  | None => msg
  end.

(** the arguments have a default *)
Definition arg_or (name : string) (def : val) (args : dict val) : val :=
  match dget name args with Some v => v | None => def end.

(** create.py:9-56; a callable authority_hints does not occur here.  An argument that is given twice
    raises TypeError. *)
Definition statement_msg (sub : string) (own_jwks : val) (args : dict val) : res (dict val) :=
  if dmem "iss" args || dmem "sub" args || dmem "key_jar" args then Err TypeError
  else
    let msg := claim_if "constraints" args (claim_if "aud" args (claim_if "authority_hints" args
                 (claim_if "metadata_policy" args (claim_if "metadata" args [("sub", VStr sub)])))) in
    let msg := dupdate msg (extra_args args) in
    Ok (if truthy (arg_or "include_jwks" (VBool true) args)
        then dset "jwks" (match dget "jwks" (extra_args args) with Some v => v | None => own_jwks end) msg
        else msg).

(** cryptojwt JWT(iss=..., lifetime=...).pack *)
Definition sign_claims (now : Z) (iss : string) (lifetime : val) (msg : dict val) : res (dict val) :=
  let msg := dset "iat" (VInt now) (dset "iss" (VStr iss) msg) in
  if truthy lifetime then
    match lifetime with
    | VInt z => Ok (dset "exp" (VInt (now + z)) msg)
    | VBool b => Ok (dset "exp" (VInt (now + b2z b)) msg)
    | _ => Err TypeError
    end
  else Ok msg.

(** create.py:9-60 *)
Definition create_entity_statement (now : Z) (iss sub : string) (own_jwks : val) (args : dict val)
  : res (dict val) :=
  let* msg := statement_msg sub own_jwks args in
  sign_claims now iss (arg_or "lifetime" (VInt 86400) args) msg.

(** ** fetch.py *)

(** [d.get(k)], followed by a test for truth *)
Definition find_filled (k : string) (d : dict (dict val)) : option (dict val) :=
  match dget k d with
  | Some e => if is_nil e then None else Some e
  | None => None
  end.

(** what the entity knows: its identifier, its public keys, its metadata, its superiors and the policies,
    by entity or by entity type *)
Record fserver := mkFserver {
  fs_id : string;
  fs_jwks : val;
  fs_metadata : dict val;
  fs_hints : option val;
  fs_policy : dict (dict val)
}.

Record freq := mkFreq { fq_iss : option string; fq_sub : option string }.

(** subordinate -> what was registered: keys, entity types, ... *)
Definition subs := dict (dict val).

(** fetch.py:29-31 *)
Definition issuer_of (S : fserver) (q : freq) : string :=
  match fq_iss q with
  | None | Some "" => fs_id S
  | Some i => i
  end.

(** [_policy[_typ].update({entity_type: _et_policy[_typ]})] *)
Definition add_typed (typ et : string) (p : dict val) (acc : dict val) : dict val :=
  match dget typ p with Some v => dset et v acc | None => acc end.

(** fetch.py:62-72: metadata and metadata_policy by entity type *)
Definition type_policies (pol : dict (dict val)) (types : list val) : res (dict val * dict val) :=
  foldM (fun '(m, mp) t =>
           match t with
           | VStr et =>
               match find_filled et pol with
               | None => Ok (m, mp)
               | Some p => Ok (add_typed "metadata" et p m, add_typed "metadata_policy" et p mp)
               end
           | _ => if hashable t then Ok (m, mp) else Err TypeError
           end) types ([], []).

(** fetch.py:27-85 *)
Definition fetch (S : fserver) (now : Z) (q : freq) : M subs (dict val) :=
  let iss := issuer_of S q in
  match fq_sub q with
  | Some sub =>
      if String.eqb sub "" || String.eqb sub iss then
        lift (create_entity_statement now (fs_id S) (fs_id S) (fs_jwks S)
                (("metadata", VDict (fs_metadata S)) ::
                 match fs_hints S with Some h => [("authority_hints", h)] | None => [] end))
      else
        do db <- StateM.get in
        match find_filled sub db with
        | None => raise UnknownEntity
        | Some e =>
            let e1 := if dmem "authority_hints" e then e
                      else dset "authority_hints" (VList [VStr iss]) e in
            do _ <- put (dset sub e1 db) in
            match find_filled sub (fs_policy S) with
            | None =>
                match dget "entity_types" e1 with
                | None => lift (create_entity_statement now iss sub (fs_jwks S) e1)
                | Some ts => lift (
                    let* types := py_list ts in
                    let* (m, mp) := type_policies (fs_policy S) types in
                    let e2 := ddel "entity_types" e1 in
                    create_entity_statement now iss sub (fs_jwks S)
                      (if is_nil m && is_nil mp then e2
                       else dupdate e2 [("metadata", VDict m); ("metadata_policy", VDict mp)]))
                end
            | Some p =>
                let e2 := dupdate e1 p in
                do _ <- put (dset sub e2 db) in
                lift (create_entity_statement now iss sub (fs_jwks S) e2)
            end
        end
  | None =>
      lift (create_entity_statement now (fs_id S) (fs_id S) (fs_jwks S)
              (("metadata", VDict (fs_metadata S)) ::
               match fs_hints S with Some h => [("authority_hints", h)] | None => [] end))
  end.

(** a history of requests, each at its time *)
Fixpoint serve (S : fserver) (h : list (Z * freq)) (db : subs) : subs :=
  match h with
  | [] => db
  | (now, q) :: h' => serve S h' (fst (fetch S now q db))
  end.
