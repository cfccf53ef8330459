(** Model of what an entity publishes about itself: the entity configuration endpoint
    (src/fedservice/entity/server/entity_configuration.py), the values it takes from the context
    (src/fedservice/entity/context.py) and the metadata of an entity with several parts
    (src/fedservice/combo/__init__.py); and the network made up of entities that run these endpoints.

    Reading a JSON file is a function from paths.  The metadata of a part is what its get_metadata returns for the
    entity type it is given (idpyoidc's claims are not modelled). *)
From Verif Require Import UrlModel.
From Verif Require Export FetchModel CollectorModel.

(** authority_hints and trust_marks of a context: None, a list, the name of a file, something to call *)
Inductive source :=
| SrcNone
| SrcList (l : list val)
| SrcFile (path : string)
| SrcCall (r : res val)
| SrcOther.

Section Context_.
Context (file : string -> res val).

(** context.py:141-150; SrcNone becomes a list when the context is made (context.py:62) *)
Definition get_authority_hints (s : source) : res val :=
  match s with
  | SrcList l => Ok (VList l)
  | SrcFile path => file path
  | SrcCall r => r
  | SrcNone | SrcOther => Err ValueError
  end.

(** context.py:165-175 *)
Definition get_trust_marks (s : source) : res val :=
  match s with
  | SrcNone => Ok (VList [])
  | SrcFile path => file path
  | SrcList l => Ok (VList l)
  | SrcCall r => r
  | SrcOther => Err ValueError
  end.

End Context_.

(** entity_configuration.py:41-47; get_trust_marks is asked only if there is something to call, a file name is published as it is *)
Definition marks_args (s : source) : res (dict val) :=
  match s with
  | SrcNone | SrcList [] => Ok []
  | SrcFile path => Ok (if String.eqb path "" then [] else [("trust_marks", VStr path)])
  | SrcList l => Ok [("trust_marks", VList l)]
  | SrcCall r => let* v := r in Ok [("trust_marks", v)]
  | SrcOther => Err TypeError                      (* when the statement is serialised *)
  end.

(** a part of an entity: an RPHandler, something without metadata, or something that has metadata for the
    entity type it is given *)
Inductive part := PHandler | PPlain | PMeta (md : string -> dict val).

(** combo/__init__.py:110-119 without a client *)
Definition combo_metadata (parts : dict part) : dict val :=
  fold_left (fun acc p => match snd p with
                          | PMeta md => dupdate acc (md (fst p))
                          | PHandler | PPlain => acc
                          end) parts [].

(** what the entity is part of, if it is part of something *)
Definition published_metadata (S : fserver) (whole : option (dict part)) : dict val :=
  match whole with
  | Some parts => combo_metadata parts
  | None => fs_metadata S
  end.

(** entity_configuration.py:31-56 *)
Definition entity_configuration (S : fserver) (whole : option (dict part)) (marks : source) (now : Z)
  : res (dict val) :=
  let* m := marks_args marks in
  create_entity_statement now (fs_id S) (fs_id S) (fs_jwks S)
    (("metadata", VDict (published_metadata S whole)) ::
     match fs_hints S with Some h => [("authority_hints", h)] | None => [] end ++ m).

(** ** Reading statements (message.py:401-420).  A claim of another type makes the document unreadable. *)

Fixpoint omap {A B} (f : A -> option B) (l : list A) : option (list B) :=
  match l with
  | [] => Some []
  | x :: l' => match f x, omap f l' with Some y, Some ys => Some (y :: ys) | _, _ => None end
  end.

Definition as_str (v : val) : option string := match v with VStr s => Some s | _ => None end.
Definition as_int (v : val) : option Z := match v with VInt z => Some z | _ => None end.
Definition as_strs (v : val) : option (list string) := match v with VList l => omap as_str l | _ => None end.

Definition as_dict_of {B} (f : val -> option B) (v : val) : option (dict B) :=
  match v with
  | VDict d => omap (fun e => option_map (fun b => (fst e, b)) (f (snd e))) d
  | _ => None
  end.

(** a claim that may be missing *)
Definition claim {B} (f : val -> option B) (k : string) (p : dict val) : option (option B) :=
  match dget k p with
  | None => Some None
  | Some v => option_map Some (f v)
  end.

Definition as_naming (v : val) : option naming :=
  match v with
  | VDict d =>
      match claim as_strs "permitted" d, claim as_strs "excluded" d with
      | Some p, Some e => Some (mkNaming p e)
      | _, _ => None
      end
  | _ => None
  end.

Definition as_constraints (v : val) : option constraints :=
  match v with
  | VDict d =>
      match claim as_int "max_path_length" d, claim as_naming "naming_constraints" d with
      | Some m, Some n => Some (mkConstraints m n)
      | _, _ => None
      end
  | _ => None
  end.

Section Reading.
Context (jwks_of : val -> option (list key)).

Definition decode (p : dict val) : option stmt :=
  match dget "iss" p, dget "sub" p with
  | Some (VStr iss), Some (VStr sub) =>
      match claim as_int "exp" p, claim jwks_of "jwks" p,
            claim (as_dict_of (as_dict_of Some)) "metadata" p,
            claim (as_dict_of (as_dict_of (as_dict_of Some))) "metadata_policy" p,
            claim as_constraints "constraints" p, claim as_strs "authority_hints" p with
      | Some e, Some j, Some m, Some mp, Some c, Some h => Some (mkStmt iss sub e j m mp c h)
      | _, _, _, _, _, _ => None
      end
  | _, _ => None
  end.

(** ** Entities on the network *)

(** an entity: what it knows, what it is part of, its trust marks, its subordinates, the key it signs with and the
    URLs of its two endpoints *)
Record member := mkMember {
  m_srv : fserver;
  m_whole : option (dict part);
  m_marks : source;
  m_subs : subs;
  m_key : key;
  m_home : string;
  m_fetch : string
}.

Definition m_id (m : member) : string := fs_id (m_srv m).

(** a response is signed; an exception is an error *)
Definition answer (m : member) (r : res (dict val)) : response :=
  match r with
  | Ok p => RText (Some (match decode p with Some st => TJws (m_key m) st | None => TJunk end))
  | Err _ => RStatus
  end.

(** A fetch request is a URL (UrlModel); of several arguments with the same name the first one counts.
    The stores are those at the time of the collection; what requests change in them does not show in the answers to
    requests that name the right issuer (C51). *)
Definition library_net (F : list member) (clock : nat -> Z) (n : nat) (q : request) : response :=
  match q with
  | QDoc url =>
      match find (fun m => String.eqb (m_home m) url) F with
      | Some m => answer m (entity_configuration (m_srv m) (m_whole m) (m_marks m) (clock n))
      | None => R404
      end
  | QFetch ep iss sub =>
      let (loc, ps) := server_sees (fetch_url ep iss sub) in
      match find (fun m => negb (String.eqb loc "") && String.eqb (m_fetch m) loc) F with
      | Some m => answer m (snd (fetch (m_srv m) (clock n) (mkFreq (dget "iss" ps) (dget "sub" ps)) (m_subs m)))
      | None => R404
      end
  end.

End Reading.
