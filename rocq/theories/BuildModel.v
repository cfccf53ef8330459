(** Building entities: fedservice/build_entity.py, fedservice/defaults.py,
    fedservice/utils.py (build_entity_config, make_federation_entity) and what
    FederationEntity.__init__ and TrustChainCollector.__init__ do with trust
    anchors.  The tables of defaults.py are module level dictionaries that live
    as long as the process, so they are state here.

    Simplified:
    - a value in the "kwargs" of an item is either a value that nobody changes
      or a dictionary with trust anchors, which is an object with an identity;
    - key sets of trust anchors are what import_jwks makes of them;
    - a definition that the caller passes belongs to that call: a caller who
      passes the same dictionary twice sees the settings of the first call in
      the second, which is not modelled;
    - what the classes of the items do when they are instantiated is not
      modelled, apart from the trust chain collector's trust anchors;
    - trust anchors, authority hints and subordinates that are given as
      {"class": ..., "kwargs": ...} are taken to be executed already;
    - an item named like a keyword argument of the add_ methods (self,
      preference, args, kwargs_spec) is not considered. *)
From Verif Require Import StateM VerifierModel.
Local Open Scope string_scope.
Local Open Scope list_scope.

(** an object with trust anchors: Python's identity of the dictionary *)
Definition object := nat.

Inductive kval := KVal (v : val) | KAnchors (o : object).

(** {"class": ..., "kwargs": {...}}; "kwargs" may be missing *)
Record item := mkItem { it_class : string; it_kwargs : option (dict kval) }.

Inductive part := Services | Functions | Endpoints.

Definition part_eqb (p q : part) : bool :=
  match p, q with
  | Services, Services | Functions, Functions | Endpoints, Endpoints => true
  | _, _ => false
  end.

(** the module level tables, and the content of the trust anchor objects *)
Record store := mkStore
  { tables : part -> dict item;
    heap : object -> dict (list key) }.

Definition set_item (p : part) (n : string) (it : item) (st : store) : store :=
  mkStore (fun q => if part_eqb p q then dset n it (tables st q) else tables st q) (heap st).

Definition set_object (o : object) (d : dict (list key)) (st : store) : store :=
  mkStore (tables st) (fun q => if Nat.eqb o q then d else heap st q).

(** The dictionary that is the value of trust_anchors in
    FEDERATION_ENTITY_FUNCTIONS (defaults.py:195-202). *)
Definition default_anchors : object := 0.

Definition plain (c : string) : item := mkItem c (Some []).
Definition bare (c : string) : item := mkItem c None.

(** defaults.py:17-79.  federation_services looks in SERVICES, then in
    DEFAULT_OAUTH2_FED_SERVICES, then in DEFAULT_OIDC_FED_SERVICES (the
    COMBINED_ names are the same objects), so one table with the first
    definition of each name is enough. *)
Definition services_table : dict item :=
  [ ("entity_configuration", plain "fedservice.entity.client.entity_configuration.EntityConfiguration");
    ("entity_statement", plain "fedservice.entity.client.entity_statement.EntityStatement");
    ("trust_mark_status", plain "fedservice.entity.client.trust_mark_status.TrustMarkStatus");
    ("trust_mark_list", plain "fedservice.entity.client.trust_mark_list.TrustMarkList");
    ("trust_mark", plain "fedservice.entity.client.trust_mark.TrustMark");
    ("resolve", plain "fedservice.entity.client.resolve.Resolve");
    ("list", plain "fedservice.entity.client.list.List");
    ("who", plain "fedservice.entity.client.who.Who");
    ("oauth_authorization", bare "fedservice.appclient.oauth2.authorization.Authorization");
    ("oauth_registration", bare "fedservice.appclient.oauth2.registration.Registration");
    ("discovery", bare "idpyoidc.client.oauth2.server_metadata.ServerMetadata");
    ("access_token", bare "idpyoidc.client.oauth2.access_token.AccessToken");
    ("refresh_access_token", bare "idpyoidc.client.oauth2.refresh_access_token.RefreshAccessToken");
    ("oidc_authorization", bare "fedservice.appclient.oidc.authorization.Authorization");
    ("oidc_registration", bare "fedservice.appclient.oidc.registration.Registration");
    ("userinfo", bare "idpyoidc.client.oidc.userinfo.UserInfo") ].

(** defaults.py:131-172; the paths are not modelled *)
Definition endpoints_table : dict item :=
  [ ("entity_configuration", plain "fedservice.entity.server.entity_configuration.EntityConfiguration");
    ("fetch", plain "fedservice.entity.server.fetch.Fetch");
    ("list", plain "fedservice.entity.server.list.List");
    ("resolve", plain "fedservice.entity.server.resolve.Resolve");
    ("trust_mark_status", plain "fedservice.trust_mark_entity.server.trust_mark_status.TrustMarkStatus");
    ("trust_mark", plain "fedservice.trust_mark_entity.server.trust_mark.TrustMark");
    ("trust_mark_list", plain "fedservice.trust_mark_entity.server.trust_mark_list.TrustMarkList");
    ("who", plain "fedservice.entity.server.who.Who") ].

(** defaults.py:195-219 *)
Definition functions_table : dict item :=
  [ ("trust_chain_collector",
     mkItem "fedservice.entity.function.trust_chain_collector.TrustChainCollector"
            (Some [("trust_anchors", KAnchors default_anchors); ("allowed_delta", KVal (VInt 600))]));
    ("verifier", plain "fedservice.entity.function.verifier.TrustChainVerifier");
    ("policy", plain "fedservice.entity.function.policy.TrustChainPolicy");
    ("trust_mark_verifier", plain "fedservice.entity.function.trust_mark_verifier.TrustMarkVerifier");
    ("metadata_verifier", plain "fedservice.entity.function.metadata_verifier.MetadataVerifier") ].

Definition initial_tables (p : part) : dict item :=
  match p with
  | Services => services_table
  | Functions => functions_table
  | Endpoints => endpoints_table
  end.

(** Items of an entity: the object in the module's table, or the caller's own. *)
Inductive src := Shared | Mine (it : item).

(** What a caller asks for: None, a list of names and dictionaries with
    definitions, or a dictionary with definitions. *)
Inductive want := WName (n : string) | WDefs (d : dict item).
Inductive items := INone | IList (l : list want) | IDict (d : dict item).

Definition has_items (i : items) : bool :=
  match i with
  | INone => false
  | IList l => negb (is_nil l)
  | IDict d => negb (is_nil d)
  end.

Definition mine (d : dict item) : dict src := map (fun kv => (fst kv, Mine (snd kv))) d.

(** the second loop of federation_services and federation_endpoints *)
Definition with_defs (l : list want) (res : dict src) : dict src :=
  fold_left (fun r w => match w with WName _ => r | WDefs d => dupdate r (mine d) end) l res.

(** federation_services (defaults.py:82-99): a name that is not in a table is
    left out *)
Definition federation_services (tbl : dict item) (l : list want) : dict src :=
  with_defs l
    (fold_left (fun r w => match w with
                           | WName n => if dmem n tbl then dset n Shared r else r
                           | WDefs _ => r
                           end) l []).

(** federation_endpoints (defaults.py:175-180): KeyError for a name that is not
    in FEDERATION_ENDPOINTS *)
Definition federation_endpoints (tbl : dict item) (l : list want) : res (dict src) :=
  let* r := foldM (fun r w => match w with
                              | WName n => if dmem n tbl then Ok (dset n Shared r) else Err KeyError
                              | WDefs _ => Ok r
                              end) l [] in
  Ok (with_defs l r).

(** federation_functions (defaults.py:222-223): a dictionary cannot be a key *)
Definition federation_functions (tbl : dict item) (l : list want) : res (dict src) :=
  foldM (fun r w => match w with
                    | WName n => if dmem n tbl then Ok (dset n Shared r) else Err KeyError
                    | WDefs _ => Err TypeError
                    end) l [].

(** utils.py:78-93; federation_functions( *items) of a dictionary gets its keys *)
Definition select (p : part) (tbl : dict item) (i : items) : res (dict src) :=
  match p, i with
  | _, INone => Ok []
  | Services, IDict d => Ok (mine d)
  | Services, IList l => Ok (federation_services tbl l)
  | Functions, IDict d => federation_functions tbl (map WName (dkeys d))
  | Functions, IList l => federation_functions tbl l
  | Endpoints, IDict d => Ok (mine d)
  | Endpoints, IList l => federation_endpoints tbl l
  end.

(** FEDERATION_ENTITY_SERVICES (defaults.py:102-103), DEFAULT_FEDERATION_ENTITY_FUNCTIONS
    (226-227), the default of add_endpoints (build_entity.py:69) *)
Definition default_names (p : part) : list string :=
  match p with
  | Services => ["entity_configuration"; "entity_statement"; "resolve"; "list"]
  | Functions => ["trust_chain_collector"; "verifier"; "policy"; "trust_mark_verifier"]
  | Endpoints => ["entity_configuration"; "fetch"; "list"]
  end.

Definition default_items (p : part) : dict src := map (fun n => (n, Shared)) (default_names p).

(** settings for items: item name -> {argument: value} *)
Definition settings := dict (dict kval).

(** x["kwargs"].update(val) *)
Definition update_item (v : dict kval) (it : item) : res item :=
  match it_kwargs it with
  | None => Err KeyError
  | Some k => Ok (mkItem (it_class it) (Some (dupdate k v)))
  end.

(** build_entity.py:46-49, 71-74, 79-82, 103-106: an item that comes from the
    module's table is changed there *)
Definition put_setting (p : part) (sel : dict src) (kv : string * dict kval) : M store (dict src) :=
  fun st =>
    match dget (fst kv) sel with
    | None => (st, Ok sel)
    | Some Shared =>
        match dget (fst kv) (tables st p) with
        | None => (st, Err KeyError)
        | Some it =>
            match update_item (snd kv) it with
            | Ok it' => (set_item p (fst kv) it' st, Ok sel)
            | Err e => (st, Err e)
            end
        end
    | Some (Mine it) =>
        match update_item (snd kv) it with
        | Ok it' => (st, Ok (dset (fst kv) (Mine it') sel))
        | Err e => (st, Err e)
        end
    end.

(** add_services, add_endpoints, add_functions (build_entity.py:31-118).  The
    keyword arguments are the items; none at all stands for the default ones.
    add_services and add_functions go through kwargs_spec twice and do not look
    at args. *)
Definition add (p : part) (given : dict src) (spec args : settings) : M store (dict src) :=
  let sel := if is_nil given then default_items p else given in
  do sel <- mfold (put_setting p) spec sel in
  mfold (put_setting p) (match p with Endpoints => args | _ => spec end) sel.

(** the arguments of make_federation_entity that matter here; [a_init] and
    [a_args] are {} where they are None or do not mention the part; [a_own] is
    what the key jar holds before any trust anchor: the entity's own keys *)
Record margs := mkArgs
  { a_items : part -> items;
    a_init : part -> settings;
    a_args : part -> settings;
    a_anchors : option object;
    a_own : keyjar }.

(** services == [] *)
Definition services_empty (a : margs) : bool :=
  match a_items a Services with IList [] => true | _ => false end.

(** utils.py:60-93, one round of the loop; None: the section is not configured *)
Definition build_part (a : margs) (p : part) : M store (option (dict src)) :=
  if has_items (a_items a p) then
    do st <- StateM.get in
    do given <- lift (select p (tables st p) (a_items a p)) in
    do sel <- add p given (a_init a p) (a_args a p) in
    ret (Some sel)
  else if services_empty a then ret None
  else
    do sel <- add p [] (a_init a p) (a_args a p) in
    ret (Some sel).

Definition config := part -> option (dict src).

(** build_entity_config (utils.py:36-99) *)
Definition build_entity_config (a : margs) : M store config :=
  do s <- build_part a Services in
  do f <- build_part a Functions in
  do e <- build_part a Endpoints in
  ret (fun p => match p with Services => s | Functions => f | Endpoints => e end).

(** the items as the classes get them *)
Definition read (tbl : dict item) (sel : dict src) : dict item :=
  flat_map (fun ns => match snd ns with
                      | Mine it => [(fst ns, it)]
                      | Shared => match dget (fst ns) tbl with
                                  | Some it => [(fst ns, it)]
                                  | None => []
                                  end
                      end) sel.

(** An entity: its items; the object its collector has as trust anchors, None if
    there is no collector; its key jar. *)
Record entity := mkEntity
  { en_items : part -> option (dict item);
    en_anchors : option object;
    en_keys : keyjar }.

(** import_jwks (idpyoidc/key_import.py) for every trust anchor *)
Definition import_keys (kj : keyjar) (e : string * list key) : keyjar :=
  dset (fst e) (keys_of kj (fst e) ++ snd e) kj.
Definition import_all (d : dict (list key)) (kj : keyjar) : keyjar :=
  fold_left import_keys d kj.

(** Collection.__init__ (idpyoidc/node.py) instantiates each function with a
    shallow copy of its kwargs; TrustChainCollector.__init__
    (trust_chain_collector.py:70-91) keeps the object and imports the keys. *)
Definition make_functions (h : object -> dict (list key)) (fs : dict item) (kj : keyjar) :
  res (option object * keyjar) :=
  if existsb (fun ni => match it_kwargs (snd ni) with None => true | Some _ => false end) fs
  then Err KeyError
  else
    match dget "trust_chain_collector" fs with
    | None => Ok (None, kj)
    | Some it =>
        match it_kwargs it with
        | None => Err KeyError
        | Some kw =>
            match dget "trust_anchors" kw with
            | None => Err TypeError
            | Some (KVal _) => Err AttributeError
            | Some (KAnchors o) => Ok (Some o, import_all (h o) kj)
            end
        end
    end.

(** FederationEntity.__init__ (entity/__init__.py:33-101): the client, the server
    and the functions, then self.server.endpoint *)
Definition federation_entity (st : store) (cfg : config) (own : keyjar) : res entity :=
  let its := fun p => option_map (read (tables st p)) (cfg p) in
  let* r := match its Functions with
            | None => Ok (None, own)
            | Some fs => make_functions (heap st) fs own
            end in
  match its Endpoints with
  | None => Err AttributeError
  | Some _ => Ok (mkEntity its (fst r) (snd r))
  end.

(** make_federation_entity (utils.py:102-149): with trust anchors the keys are
    imported and the collector is given the caller's dictionary *)
Definition make_federation_entity (a : margs) : M store entity :=
  do cfg <- build_entity_config a in
  do st <- StateM.get in
  do e <- lift (federation_entity st cfg (a_own a)) in
  match a_anchors a with
  | None => ret e
  | Some o =>
      if is_nil (heap st o) then ret e
      else match en_anchors e with
           | None => raise AttributeError
           | Some _ => ret (mkEntity (en_items e) (Some o) (import_all (heap st o) (en_keys e)))
           end
  end.

(** A process that makes entities and changes their trust anchors. *)
Record sys := mkSys { s_store : store; s_entities : list entity }.

Inductive op :=
| Make (a : margs)
| AddAnchor (i : nat) (id : string) (ks : list key)
| SetAnchors (i : nat) (o : object).

Fixpoint set_nth {A} (i : nat) (x : A) (l : list A) : list A :=
  match l, i with
  | [], _ => []
  | _ :: l', 0 => x :: l'
  | y :: l', S i' => y :: set_nth i' x l'
  end.

(** FederationEntity.add_trust_anchor (entity/__init__.py:399-409), also
    TrustChainCollector.add_trust_anchor (trust_chain_collector.py:378-388): the
    keys go into the entity's key jar, then the dictionary of the collector gets
    the entry *)
Definition add_trust_anchor (i : nat) (id : string) (ks : list key) : M sys unit :=
  fun s =>
    match nth_error (s_entities s) i with
    | None => (s, Err IndexError)
    | Some e =>
        let e' := mkEntity (en_items e) (en_anchors e) (import_keys (en_keys e) (id, ks)) in
        let s' := mkSys (s_store s) (set_nth i e' (s_entities s)) in
        match en_anchors e with
        | None => (s', Err AttributeError)
        | Some o =>
            (mkSys (set_object o (dset id ks (heap (s_store s) o)) (s_store s)) (s_entities s'), Ok tt)
        end
    end.

(** the setter of FederationEntity.trust_anchors (entity/__init__.py:395-397) *)
Definition set_trust_anchors (i : nat) (o : object) : M sys unit :=
  fun s =>
    match nth_error (s_entities s) i with
    | None => (s, Err IndexError)
    | Some e =>
        match en_anchors e with
        | None => (s, Err AttributeError)
        | Some _ =>
            (mkSys (s_store s)
                   (set_nth i (mkEntity (en_items e) (Some o) (en_keys e)) (s_entities s)), Ok tt)
        end
    end.

Definition make (a : margs) : M sys unit :=
  fun s =>
    match make_federation_entity a (s_store s) with
    | (st, Ok e) => (mkSys st (s_entities s ++ [e]), Ok tt)
    | (st, Err x) => (mkSys st (s_entities s), Err x)
    end.

Definition step (o : op) : M sys unit :=
  match o with
  | Make a => make a
  | AddAnchor i id ks => add_trust_anchor i id ks
  | SetAnchors i d => set_trust_anchors i d
  end.

(** the caller goes on after an exception *)
Definition run (ops : list op) (s : sys) : sys :=
  fold_left (fun s o => fst (step o s)) ops s.

(** When the module has been imported: the default dictionary is empty, what the
    caller's own dictionaries hold is given. *)
Definition start (h : object -> dict (list key)) : sys :=
  mkSys (mkStore initial_tables (fun o => if Nat.eqb default_anchors o then [] else h o)) [].

(** the trust anchors of entity [i] (entity/__init__.py:391-393) *)
Definition anchors_of (s : sys) (i : nat) : option (dict (list key)) :=
  match nth_error (s_entities s) i with
  | Some e => option_map (heap (s_store s)) (en_anchors e)
  | None => None
  end.
Definition jar_of (s : sys) (i : nat) : keyjar :=
  match nth_error (s_entities s) i with
  | Some e => en_keys e
  | None => []
  end.
