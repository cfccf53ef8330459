(** Model of how the context of an entity is made (src/fedservice/entity/context.py, src/fedservice/entity/__init__.py,
    src/fedservice/entity/client/__init__.py, src/fedservice/entity/server/__init__.py, src/fedservice/utils.py) and of the
    entity statements made from it: those of a relying party that asks to be registered
    (src/fedservice/appclient/oidc/registration.py, src/fedservice/appclient/oauth2/registration.py).

    A configuration is the values under the keys the context looks for.  Reading a JSON file is a function from paths and
    calling a callable a result.  Claims, client authentication and the key jar of a context are not modelled. *)
From Verif Require Export PublishModel EndpointsModel.

(** trusted_roots: None, a dictionary, the name of a file, something to call *)
Inductive roots :=
| RtNone
| RtDict (d : dict val)
| RtFile (path : string)
| RtCall (r : res val)
| RtOther.

(** [x or y], for the values of an argument *)
Definition src_true (s : source) : bool :=
  match s with
  | SrcNone | SrcList [] => false
  | SrcFile path => negb (String.eqb path "")
  | SrcList _ | SrcCall _ | SrcOther => true
  end.

Definition rt_true (r : roots) : bool :=
  match r with
  | RtNone | RtDict [] => false
  | RtFile path => negb (String.eqb path "")
  | RtDict _ | RtCall _ | RtOther => true
  end.

(** the configuration a context is given *)
Record cconf := mkConf {
  cf_id : option string;
  cf_lifetime : option Z;
  cf_marks : option source;
  cf_roots : option roots;
  cf_hints : option source;
  cf_prio : option (list string)
}.

Definition no_conf : cconf := mkConf None None None None None None.

(** the other arguments of FederationContext; [ca_tr_prio] is one of its kwargs *)
Record cargs := mkCargs {
  ca_id : string;
  ca_lifetime : Z;
  ca_marks : source;
  ca_roots : roots;
  ca_hints : source;
  ca_prio : list string;           (* [] for None *)
  ca_tr_prio : option (list string)
}.

(** their defaults (context.py:34-46) *)
Definition no_args (id : string) : cargs := mkCargs id 86400 SrcNone RtNone SrcNone [] None.

Record context := mkContext {
  cx_id : string;
  cx_lifetime : Z;
  cx_marks : source;
  cx_roots : roots;
  cx_hints : source;
  cx_prio : list string
}.

(** [sorted], by insertion *)
Fixpoint insert (x : string) (l : list string) : list string :=
  match l with
  | [] => [x]
  | y :: l' => if String.leb x y then x :: l else y :: insert x l'
  end.

Fixpoint sorted (l : list string) : list string :=
  match l with
  | [] => []
  | x :: l' => insert x (sorted l')
  end.

(** [set] of strings *)
Definition str_set (l : list string) : list string := nodup string_dec l.

Section Making.
Context (file : string -> res val).

(** context.py:152-163 *)
Definition get_trusted_roots (r : roots) : res val :=
  match r with
  | RtNone => Ok (VDict [])
  | RtFile path => file path
  | RtDict d => Ok (VDict d)
  | RtCall r => r
  | RtOther => Err ValueError
  end.

(** [d.keys()] *)
Definition keys_of_val (v : val) : res (list string) :=
  match v with VDict d => Ok (dkeys d) | _ => Err AttributeError end.

(** context.py:68-73 *)
Definition first_priority (conf : cconf) (a : cargs) (r : roots) : res (list string) :=
  if negb (is_nil (ca_prio a)) then Ok (ca_prio a)
  else match cf_prio conf with
       | Some p => Ok p
       | None =>
           let* v := get_trusted_roots r in
           let* ks := keys_of_val v in
           Ok (sorted (str_set ks))
       end.

(** context.py:34-98; [upstream] is the identifier of the unit above *)
Definition make_context (upstream : string) (conf : cconf) (a : cargs) : res context :=
  let id := if String.eqb (ca_id a) "" then match cf_id conf with Some i => i | None => upstream end else ca_id a in
  let lifetime := if Z.eqb (ca_lifetime a) 0 then match cf_lifetime conf with Some z => z | None => 0%Z end
                  else ca_lifetime a in
  let marks := if src_true (ca_marks a) then ca_marks a
               else match cf_marks conf with Some m => m | None => SrcList [] end in
  let rts := if rt_true (ca_roots a) then ca_roots a
             else match cf_roots conf with Some r => r | None => RtDict [] end in
  let hints := if src_true (ca_hints a) then ca_hints a
               else match cf_hints conf with Some h => h | None => SrcList [] end in
  let* prio := first_priority conf a rts in
  Ok (mkContext id lifetime marks rts hints (match ca_tr_prio a with Some p => p | None => prio end)).

(** ** Who makes contexts *)

(** the keyword arguments FederationEntity has no use for (entity/__init__.py:50) *)
Record more_args := mkMore {
  ma_lifetime : option Z;
  ma_marks : source;
  ma_roots : roots;
  ma_prio : list string
}.

(** entity/__init__.py:76-78 *)
Definition entity_context (id : string) (hints : source) (more : more_args) : res context :=
  make_context id no_conf (mkCargs id 86400 SrcNone RtNone hints [] None).

(** entity/client/__init__.py:34-66, 167-171, without the import of the keys of the trusted roots; FederationClientEntity
    does not give it an identifier *)
Definition service_context (upstream : string) (conf : cconf) (prio : option (list string)) (marks : source) : res context :=
  make_context upstream conf (mkCargs "" 86400 marks RtNone SrcNone [] prio).

(** entity/context.py:178-205, server/__init__.py:56-61, without self-signed trust marks: the trust marks are set to the
    argument, which is not given *)
Definition server_context (id : string) (conf : cconf) : res context :=
  let* c := make_context id conf (no_args id) in
  Ok (mkContext (cx_id c) (cx_lifetime c) SrcNone (cx_roots c) (cx_hints c) (cx_prio c)).

(** ** Statements *)

(** authority_hints as the context has it, when it is given to create_entity_statement: what is called is called there
    (create.py:37-41), anything else is published as it is *)
Definition raw_hints (s : source) : res val :=
  match s with
  | SrcNone => Ok VNull
  | SrcList l => Ok (VList l)
  | SrcFile path => Ok (VStr path)
  | SrcCall r => r
  | SrcOther => Err TypeError
  end.

(** [args.get(k)] and a test for truth *)
Definition filled (k : string) (args : dict val) : option val :=
  match dget k args with Some v => if truthy v then Some v else None | None => None end.

(** context.py:108-113 *)
Definition with_jwks (args : dict val) : dict val :=
  match filled "jwks" args with
  | Some v => dset "jwks" v args
  | None =>
      let args := ddel "jwks" args in
      match dget "keys" args with
      | Some ks => dset "jwks" (VDict [("keys", ks)]) (ddel "keys" args)
      | None => args
      end
  end.

(** context.py:106-130.  What a callable returns is published, whatever it is. *)
Definition ctx_statement (cx : context) (now : Z) (iss sub : string) (own_jwks : val) (args : dict val) : res (dict val) :=
  let args := with_jwks args in
  let args := match filled "lifetime" args with Some _ => args | None => dset "lifetime" (VInt (cx_lifetime cx)) args end in
  let* args := (match filled "trust_marks" args with
                | Some _ => Ok args
                | None => let* m := get_trust_marks file (cx_marks cx) in
                          Ok (if truthy m then dset "trust_marks" m args else args)
                end) in
  match filled "authority_hints" args with
  | Some _ => create_entity_statement now iss sub own_jwks args
  | None =>
      let* h := raw_hints (cx_hints cx) in
      let* p := create_entity_statement now iss sub own_jwks (dset "authority_hints" h args) in
      Ok (match cx_hints cx with SrcCall _ => dset "authority_hints" h p | _ => p end)
  end.

(** combo/__init__.py:110-119 *)
Definition client_metadata_of (client : option (dict val)) (parts : dict part) : dict val :=
  fold_left (fun acc p => match snd p with
                          | PMeta md => dupdate acc (md (fst p))
                          | PHandler => match client with Some md => dupdate acc md | None => acc end
                          | PPlain => acc
                          end) parts [].

(** appclient/oidc/registration.py:51-88; something to call cannot be serialised *)
Definition request_oidc (cx : context) (own_jwks : val) (parts : dict part) (now : Z) : res (dict val) :=
  let* h := get_authority_hints file (cx_hints cx) in
  let* m := (match cx_marks cx with
             | SrcNone | SrcList [] => Ok []
             | SrcList l => Ok [("trust_marks", VList l)]
             | SrcFile path => Ok (if String.eqb path "" then [] else [("trust_marks", VStr path)])
             | SrcCall _ | SrcOther => Err TypeError
             end) in
  ctx_statement cx now (cx_id cx) (cx_id cx) own_jwks
    (("metadata", VDict (combo_metadata parts)) :: ("authority_hints", h) :: m).

(** appclient/oauth2/registration.py:77-113; [client] is the metadata of the client that asks *)
Definition request_oauth (cx : context) (own_jwks : val) (parts : dict part) (client : option (dict val)) (now : Z)
  : res (dict val) :=
  let* h := get_authority_hints file (cx_hints cx) in
  let* m := (if src_true (cx_marks cx) then let* v := get_trust_marks file (cx_marks cx) in Ok [("trust_marks", v)]
             else Ok []) in
  ctx_statement cx now (cx_id cx) (cx_id cx) own_jwks
    (("metadata", VDict (client_metadata_of client parts)) :: ("authority_hints", h) :: m).

(** entity_configuration.py:31-56 with the values of the context *)
Definition context_configuration (cx : context) (own_jwks : val) (parts : dict part) (now : Z) : res (dict val) :=
  let* h := get_authority_hints file (cx_hints cx) in
  entity_configuration (mkFserver (cx_id cx) own_jwks [] (Some h) []) (Some parts) (cx_marks cx) now.

End Making.

(** ** make_federation_combo *)

(** utils.py:256-266: the issuers and the owners of trust marks become attributes of the context, which are not part of what
    the metadata is made of *)
Record mark_attrs := mkAttrs { at_issuers : dict val; at_owners : dict val }.

Definition make_combo_fe (fe : fed_server) (issuers owners : dict val) : fed_server * mark_attrs :=
  (fe, mkAttrs issuers owners).
