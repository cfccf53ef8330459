(** Model of the list endpoint: src/fedservice/entity/server/list.py.

    The answer of the trust chain collector for the configuration of an entity is an arbitrary function of
    the entity (its caches, requests and exceptions are in CollectorModel.v); the keys found in a JWKS and the choice the
    library makes among the keys of an issuer are arbitrary functions.  Signatures are symbolic as in VerifierModel.v;
    the payload is a dictionary of claims.  Only claims of the JSON types the code expects are handled
    faithfully where a loop runs over them. *)
From Verif Require Export Py VerifierModel.

(** a signed entity configuration *)
Inductive ectoken :=
| ECJunk
| ECJws (signer : key) (claims : dict val).

(** what the endpoint depends on; [li_ec]: TrustChainCollector.get_entity_configuration; [li_valid]: whether JWT.unpack is
    content with the times in the claims at the time of the request *)
Record list_env := mkListEnv {
  li_ec : string -> res ectoken;
  li_jwks : val -> res (list key);
  li_picks : ectoken -> key -> bool;
  li_valid : dict val -> bool;
  li_extended : bool
}.

Inductive list_response :=
| LIds (ids : list string)
| LConfs (confs : dict (dict val)).

(** a set of strings as a list without repetitions *)
Definition sadd (x : string) (s : list string) : list string := if smem x s then s else s ++ [x].

(** [k in d and d[k]] *)
Definition set_and_true (k : string) (d : dict val) : bool :=
  match dget k d with Some v => truthy v | None => false end.

Section List.
Context (O : iter_order) (V : list_env).

(** JWT(key_jar=keyjar).unpack: the keys are those of the issuer named in the payload *)
Definition unpack (kj : keyjar) (t : ectoken) : res (dict val) :=
  match t with
  | ECJunk => Err OtherException
  | ECJws signer claims =>
      match dget "iss" claims with
      | Some (VStr iss) =>
          match filter (li_picks V t) (keys_of kj iss) with
          | [] => Err MissingKey
          | ks => if kmem signer ks then if li_valid V claims then Ok claims else Err OtherException
                  else Err BadSignature
          end
      | _ => Err MissingKey
      end
  end.

(** list.py:80-94 *)
Definition collect_subordinates (db : dict (dict val)) : res (dict (dict val)) :=
  let* r := foldM (fun (st : keyjar * dict (dict val)) (e : string * dict val) =>
      let (kj, sub) := st in
      let (id, conf) := e in
      let* t := li_ec V id in
      let* jwks := dindex "jwks" conf in
      let* ks := li_jwks V jwks in
      let kj := dset id (keys_of kj id ++ ks) kj in
      let* ec := unpack kj t in
      Ok (kj, dset id ec sub)) db ([], []) in
  Ok (snd r).

(** list.py:44-46: the loop over the trust marks *)
Definition has_mark (id : val) (marks : val) : res bool :=
  let* l := py_list marks in
  foldM (fun (b : bool) (m : val) =>
           match m with
           | VDict d => let* i := dindex "id" d in Ok (if py_eqb i id then true else b)
           | _ => Err TypeError
           end) l false.

(** list.py:24-50 [filter], one subordinate *)
Definition matches (q : dict val) (conf : dict val) : res bool :=
  let arg k := match dget k q with Some v => v | None => VNull end in
  let* m := if truthy (arg "entity_type")
            then let* md := dindex "metadata" conf in py_in (arg "entity_type") md
            else Ok false in
  let m := if truthy (arg "trust_marked") then dmem "trust_marks" conf else m in
  if truthy (arg "trust_mark_id")
  then match dget "trust_marks" conf with
       | Some marks => has_mark (arg "trust_mark_id") marks
       | None => Err TypeError
       end
  else Ok m.

Definition filter_subs (q : dict val) (sub : dict (dict val)) : res (list string) :=
  if dmem "subordinates" q || dmem "self" q then Err TypeError
  else foldM (fun (acc : list string) (e : string * dict val) =>
                let* m := matches q (snd e) in
                Ok (if m then acc ++ [fst e] else acc)) sub [].

(** list.py:60-67, one subordinate *)
Definition known_match (q : dict val) (s : list string) (e : string * dict val) : res (list string) :=
  let (id, item) := e in
  if set_and_true "intermediate" q && set_and_true "intermediate" item then Ok (sadd id s)
  else match dget "entity_type" q with
       | Some t => let* ts := dindex "entity_type" item in
                   let* b := py_in t ts in
                   Ok (if b then sadd id s else s)
       | None => Ok s
       end.

(** list.py:52-78 *)
Definition process (q : dict val) (db : dict (dict val)) : res list_response :=
  if forallb (fun k => smem k ["client_id"; "authenticated"]) (dkeys q) then Ok (LIds (dkeys db))
  else
    let* s := foldM (known_match q) db [] in
    if dmem "trust_marked" q || dmem "trust_mark_id" q then
      let* sub := collect_subordinates db in
      let* found := filter_subs q sub in
      let s := fold_left (fun acc x => sadd x acc) found s in
      if li_extended V && negb (is_nil sub) then
        let* l := mapM (fun id => let* c := dindex id sub in Ok (id, c)) (ios O s) in
        Ok (LConfs l)
      else Ok (LIds (ios O s))
    else Ok (LIds (ios O s)).
End List.
