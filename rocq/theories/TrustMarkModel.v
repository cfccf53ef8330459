(** Model of src/fedservice/trust_mark_entity: the stores of issued trust marks (__init__.py), the issuer
    (entity.py) and its endpoints (server/).

    A line of a file is the JSON document on it; lines that are not JSON objects are not modelled, nor
    are missing access rights.  The clock does not move during a call.  [JWT.pack] puts the issuer into the
    payload and signs it with a key of the federation entity. *)
From Verif Require Export Stmt StateM.

(** the claims of a trust mark *)
Definition tmark := dict val.

(** numbers; True and False are the numbers 1 and 0 *)
Definition as_int (v : val) : res Z :=
  match v with
  | VInt z => Ok z
  | VBool b => Ok (b2z b)
  | _ => Err TypeError
  end.

(** ** The file store *)

(** trust mark id -> file name, file name -> lines *)
Definition fconfig := dict string.
Definition files := dict (list tmark).

(** __init__.py:10-16; a file that exists is left alone *)
Definition file_init (cfg : fconfig) (fs : files) : files :=
  fold_left (fun fs e => if dmem (snd e) fs then fs else dset (snd e) [] fs) cfg fs.

Definition file_lines (fn : string) (fs : files) : list tmark :=
  match dget fn fs with Some l => l | None => [] end.

(** [open(fn, "a")] and one write *)
Definition append_line (fn : string) (t : tmark) (fs : files) : files :=
  dset fn (file_lines fn fs ++ [t]) fs.

(** [self.config[id]] *)
Definition config_index {A} (v : val) (cfg : dict A) : res A :=
  match v with
  | VStr id => dindex id cfg
  | VList _ | VDict _ => Err TypeError
  | _ => Err KeyError
  end.

(** __init__.py:18-22 *)
Definition file_add (cfg : fconfig) (t : tmark) : M files unit :=
  do id <- lift (dindex "id" t) in
  do fn <- lift (config_index id cfg) in
  modify (append_line fn t).

(** __init__.py:24-31 *)
Definition match_line (sub : string) (iat : Z) (t : tmark) : res bool :=
  let* s := dindex "sub" t in
  if py_eqb (VStr sub) s then
    if Z.eqb iat 0 then Ok true
    else let* i := dindex "iat" t in Ok (py_eqb (VInt iat) i)
  else Ok false.

(** __init__.py:33-46, the loop over the lines, latest first *)
Fixpoint find_lines (now : Z) (sub : string) (iat : Z) (ls : list tmark) : res bool :=
  match ls with
  | [] => Ok false
  | t :: ls' =>
      let* expired := match dget "exp" t with
                      | None => Ok false
                      | Some v => let* e := as_int v in Ok (Z.ltb e now)
                      end in
      if expired then Ok false
      else let* m := match_line sub iat t in
           if m then Ok true else find_lines now sub iat ls'
  end.

(** [open(fn, "r")]: a file that is not there raises FileNotFoundError *)
Definition read_file (fn : string) (fs : files) : res (list tmark) :=
  match dget fn fs with Some l => Ok l | None => Err OtherException end.

(** __init__.py:33-46 *)
Definition file_find (cfg : fconfig) (fs : files) (now : Z) (id sub : string) (iat : Z) : res bool :=
  let* fn := dindex id cfg in
  let* ls := read_file fn fs in
  find_lines now sub iat (rev ls).

(** __init__.py:54-61 *)
Definition file_dump (cfg : fconfig) (fs : files) : res (dict (list tmark)) :=
  foldM (fun acc id =>
           let* fn := dindex id cfg in
           let* ls := read_file fn fs in
           Ok (dset id ls acc)) (dkeys cfg) [].

(** __init__.py:66-70 *)
Definition file_load (cfg : fconfig) (info : dict (list tmark)) : M files unit :=
  mfold (fun _ id =>
           do fn <- lift (dindex id cfg) in
           do _ <- modify (fun fs => dset fn (file_lines fn fs) fs) in
           do ls <- lift (dindex id info) in
           modify (fun fs => fold_left (fun fs t => append_line fn t fs) ls fs)) (dkeys cfg) tt.

(** __init__.py:75-91, the loop; a line without sub ends it, the result so far is returned *)
Fixpoint list_lines (sub : string) (acc : list val) (ls : list tmark) : list val :=
  match ls with
  | [] => acc
  | t :: ls' =>
      match dget "sub" t with
      | None => acc
      | Some s =>
          if vmem s acc then list_lines sub acc ls'
          else if String.eqb sub "" || py_eqb s (VStr sub) then list_lines sub (acc ++ [s]) ls'
          else list_lines sub acc ls'
      end
  end.

(** __init__.py:75-91 *)
Definition file_list (cfg : fconfig) (fs : files) (id sub : string) : res (list val) :=
  match dget id cfg with
  | None => Ok []
  | Some fn => let* ls := read_file fn fs in Ok (list_lines sub [] (rev ls))
  end.

(** ** The store in memory *)

Definition sdb := dict (dict tmark).

(** __init__.py:99-103; a dictionary has no method append.  Identifiers are strings. *)
Definition simple_add (t : tmark) : M sdb unit :=
  do id <- lift (dindex "id" t) in
  match id with
  | VStr id =>
      do db <- StateM.get in
      if dmem id db then raise AttributeError
      else
        do s <- lift (dindex "sub" t) in
        match s with
        | VStr s => put (dset id [(s, t)] db)
        | _ => raise TypeError
        end
  | _ => raise TypeError
  end.

(** __init__.py:112-121 *)
Definition simple_find (db : sdb) (id sub : string) (iat : Z) : res bool :=
  let* m := dindex id db in
  match dget sub m with
  | None | Some [] => Ok false
  | Some t =>
      if Z.eqb iat 0 then Ok true
      else let* i := dindex "iat" t in Ok (py_eqb (VInt iat) i)
  end.

(** __init__.py:105-110: None, a list with the subject, or the dictionary *)
Inductive simple_listing := LNone | LSub (s : string) | LMarks (m : dict tmark).

Definition simple_list (db : sdb) (id sub : string) : res simple_listing :=
  if negb (String.eqb sub "") then
    let* m := dindex id db in
    match dget sub m with
    | None | Some [] => Ok LNone
    | Some _ => Ok (LSub sub)
    end
  else match dget id db with
       | Some m => Ok (LMarks m)
       | None => Ok LNone
       end.

(** ** The issuer *)

Inductive store := SFile (cfg : fconfig) (fs : files) | SSimple (db : sdb).

Definition store_add (t : tmark) : M store unit := fun s =>
  match s with
  | SFile cfg fs => let (fs', r) := file_add cfg t fs in (SFile cfg fs', r)
  | SSimple db => let (db', r) := simple_add t db in (SSimple db', r)
  end.

Definition store_find (s : store) (now : Z) (id sub : string) (iat : Z) : res bool :=
  match s with
  | SFile cfg fs => file_find cfg fs now id sub iat
  | SSimple db => simple_find db id sub iat
  end.

(** entity.py:27-65: what is configured.  The lifetimes are taken out of the specifications. *)
Record issuer := mkIssuer {
  i_id : string;
  i_key : key;
  i_spec : dict (dict val);
  i_lifetime : dict val
}.

(** entity.py:42-46 *)
Definition make_issuer (id : string) (k : key) (spec : dict (dict val)) : issuer :=
  mkIssuer id k (map (fun e => (fst e, ddel "lifetime" (snd e))) spec)
    (flat_map (fun e => match dget "lifetime" (snd e) with Some v => [(fst e, v)] | None => [] end) spec).

(** what [factory] makes of a string: None, or a JWS *)
Inductive tmtoken := TMJunk | TMJws (signer : key) (payload : tmark).

(** cryptojwt JWT(iss=...).pack: iss and iat replace what the payload has *)
Definition pack (I : issuer) (now : Z) (content : tmark) : tmtoken :=
  TMJws (i_key I) (dset "iat" (VInt now) (dset "iss" (VStr (i_id I)) content)).

(** [if lifetime: _add['exp'] = _now + lifetime] *)
Definition base_claims (now : Z) (id sub : string) (lifetime : option val) : res tmark :=
  let add := [("iat", VInt now); ("id", VStr id); ("sub", VStr sub)] in
  match lifetime with
  | None => Ok add
  | Some v => if truthy v then let* z := as_int v in Ok (add ++ [("exp", VInt (now + z))]) else Ok add
  end.

(** entity.py:67-92; [id] or [sub] among the further arguments is a TypeError *)
Definition create_trust_mark (I : issuer) (now : Z) (id sub : string) (more : tmark) : M store tmtoken :=
  if dmem "id" more || dmem "sub" more then raise TypeError
  else
    do add <- lift (base_claims now id sub (dget id (i_lifetime I))) in
    match dget id (i_spec I) with
    | None => raise ValueError
    | Some spec =>
        let content := dupdate (dupdate spec add) more in
        do _ <- store_add content in
        ret (pack I now content)
    end.

(** entity.py:167-200; the state: the marks issued and the marks of the entity *)
Definition self_signed_mark (I : issuer) (now : Z) (id : string) (more : tmark)
  : M (list tmark * list tmtoken) tmtoken :=
  if dmem "id" more then raise TypeError
  else
    let add := [("iat", VInt now); ("id", VStr id); ("sub", VStr (i_id I));
                ("exp", VInt (now + 2592000)%Z)] in
    match dget id (i_spec I) with
    | None => raise ValueError
    | Some spec =>
        let content := dupdate (dupdate spec add) more in
        let t := pack I now content in
        do _ <- modify (fun s => (fst s ++ [content], snd s ++ [t])) in
        ret t
    end.

(** message.py:448-460 as checked by [Message.verify]: the required claims, with their types *)
Definition has_str (k : string) (t : tmark) : bool :=
  match dget k t with Some (VStr s) => negb (String.eqb s "") | _ => false end.
Definition has_int (k : string) (t : tmark) : bool :=
  match dget k t with Some (VInt _) => true | _ => false end.

Definition tm_schema (t : tmark) : bool :=
  has_str "sub" t && has_str "iss" t && has_int "iat" t && has_str "id" t
  && match dget "exp" t with None => true | Some (VInt _) => true | _ => false end
  && match dget "delegation" t with None => true | Some (VStr _) => true | _ => false end.

(** message.py:461-475; [exp] is looked up in the arguments, where no caller puts it *)
Definition tm_verify (t : tmark) (entity_id : option string) : res unit :=
  if tm_schema t then
    match entity_id with
    | Some e => if py_eqb (VStr e) (match dget "sub" t with Some v => v | None => VNull end)
                then Ok tt else Err WrongSubject
    | None => Ok tt
    end
  else Err OtherException.

(** what [JWT.unpack] depends on: the keys the key jar offers for an issuer, and whether the library is content with the
    times in the claims at some time *)
Record unpacker := mkUnpack {
  up_keys : string -> list key;
  up_valid : Z -> tmark -> bool
}.

(** entity.py:100-110.  [JWT.unpack] accepts a JWS whose signature can be verified with a key of its
    issuer, if the times are right. *)
Definition unpack_trust_mark (held : unpacker) (now : Z) (t : tmtoken) (entity_id : string) : res tmark :=
  match t with
  | TMJunk => Err OtherException
  | TMJws k p =>
      match dget "iss" p with
      | Some (VStr iss) =>
          if existsb (Nat.eqb k) (up_keys held iss) then
            if up_valid held now p then
              let* _ := tm_verify p (if String.eqb entity_id "" then None else Some entity_id) in Ok p
            else Err OtherException
          else Err BadSignature
      | _ => Err OtherException
      end
  end.

(** ** The endpoints *)

(** a status request; claims that are not used are left out *)
Record status_request := mkSReq {
  sr_mark : option tmtoken;
  sr_sub : option string;
  sr_tmid : option string;
  sr_id : option string
}.

(** {'active': True}, or the error not_found *)
Inductive status_response := Active | NotFound.

Definition found (r : res bool) : res status_response :=
  let* b := r in Ok (if b then Active else NotFound).

(** server/trust_mark_status.py:34-55; [id] and [sub] are strings in a mark that was unpacked *)
Definition trust_mark_status (held : unpacker) (s : store) (now : Z) (q : status_request)
  : res status_response :=
  match sr_mark q with
  | Some t =>
      let* p := unpack_trust_mark held now t "" in
      match dget "id" p, dget "sub" p with
      | Some (VStr id), Some (VStr sub) => found (store_find s now id sub 0)
      | _, _ => Err KeyError
      end
  | None =>
      match sr_sub q with
      | None => Ok NotFound
      | Some sub =>
          let id := match sr_tmid q with
                    | Some i => i
                    | None => match sr_id q with Some i => i | None => "" end
                    end in
          if String.eqb id "" then Ok NotFound
          else found (store_find s now id sub 0)
      end
  end.

(** server/trust_mark_list.py:35-48: {"foo": sub}, a JSON document, or the error not_found *)
Inductive list_response := LFoo (s : string) | LList (l : list val) | LDict (m : dict tmark) | LNotFound.

Definition trust_mark_list (s : store) (now : Z) (sub id : option string) : res list_response :=
  match sub, id with
  | Some sub, Some id =>
      let* b := store_find s now id sub 0 in Ok (if b then LFoo sub else LNotFound)
  | None, Some id =>
      match s with
      | SFile cfg fs =>
          let* l := file_list cfg fs id "" in Ok (if is_nil l then LNotFound else LList l)
      | SSimple db =>
          let* l := simple_list db id "" in
          match l with
          | LMarks (e :: m) => Ok (LDict (e :: m))
          | _ => Ok LNotFound
          end
      end
  | _, None => Ok LNotFound
  end.

(** server/trust_mark.py:39-50 *)
Definition trust_mark_endpoint (I : issuer) (now : Z) (id sub : string) : M store tmtoken :=
  create_trust_mark I now id sub [].
