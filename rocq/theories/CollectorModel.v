(** Model of src/fedservice/entity/function/trust_chain_collector.py (TrustChainCollector).

    The network is an arbitrary function of the number of requests made so far, the time a function
    of the same number: documents may change between two requests, time passes between requests only.
    [msg.request] (the URL of a fetch request) is taken to be injective in endpoint, issuer and subject;
    the two well-known URLs of an entity are given by functions.  Entity configurations
    whose metadata has other JSON types are not modelled.  Logging is left out. *)
From Verif Require Export Stmt StateM CacheModel TreeModel VerifierModel.

(** trust_chain_collector.py:60-65 *)
Definition cache_key (authority entity : string) : string := (authority ++ "!!" ++ entity)%string.
Definition time_key (authority entity : string) : string := (authority ++ "!exp!" ++ entity)%string.

Inductive request :=
| QDoc (url : string)
| QFetch (endpoint issuer subject : string).

(** [RText None] is an empty body with status 200 *)
Inductive response := RText (t : option token) | R404 | RStatus | RNoConnection.

(** an entry of config_cache: the claims, the signed form under "_jws" (absent from what
    client/entity_configuration.py:105-111 stores), dict or Message *)
Record centry := mkEntry {
  ce_stmt : stmt;
  ce_jws : option token;
  ce_class : vclass
}.

(** a value in entity_statement_cache: a signed statement or an expiry time *)
Inductive esval := ESTok (t : token) | ESExp (z : Z).

Record cstate := mkState {
  st_cfg : dict centry;
  st_es : dict esval;
  st_tick : nat
}.

(** bool(entity_statement) *)
Definition es_truthy (v : esval) : bool :=
  match v with ESTok _ => true | ESExp z => negb (Z.eqb z 0) end.

(** what the collector is given: allowed_delta, the trust anchors, the network, the clock, the library and
    the URLs of client/entity_configuration.py:23-30 *)
Record cenv := mkEnv {
  e_delta : Z;
  e_anchors : list string;
  e_net : nat -> request -> response;
  e_clock : nat -> Z;
  e_lib : keyjar_lib;
  e_wk : string -> string;
  e_tenant : string -> string
}.

Section Collector.
Context (E : cenv).

Definition now : M cstate Z := fun s => (s, Ok (e_clock E (st_tick s))).

Definition cfg_getitem (k : string) : M cstate (option centry) := fun s =>
  match cache_getitem ce_class (fun e => s_exp (ce_stmt e)) (e_delta E) (e_clock E (st_tick s)) k
          (st_cfg s) with
  | (c, r) => (mkState c (st_es s) (st_tick s), r)
  end.

Definition cfg_set (k : string) (v : centry) : M cstate unit :=
  modify (fun s => mkState (cache_set k v (st_cfg s)) (st_es s) (st_tick s)).

Definition es_getitem (k : string) : M cstate (option esval) := fun s =>
  match cache_getitem (fun _ => CPlain) (fun _ => None) (e_delta E) (e_clock E (st_tick s)) k
          (st_es s) with
  | (c, r) => (mkState (st_cfg s) c (st_tick s), r)
  end.

Definition es_set (k : string) (v : esval) : M cstate unit :=
  modify (fun s => mkState (st_cfg s) (cache_set k v (st_es s)) (st_tick s)).

Definition es_del (k : string) : M cstate unit := fun s =>
  match cache_delitem k (st_es s) with
  | (c, r) => (mkState (st_cfg s) c (st_tick s), r)
  end.

(** trust_chain_collector.py:95-125 *)
Definition get_document (q : request) : M cstate (option token) := fun s =>
  (mkState (st_cfg s) (st_es s) (S (st_tick s)),
   match e_net E (st_tick s) q with
   | RText t => Ok t
   | R404 => Err MissingPage
   | RStatus => Err FailedConfigurationRetrieval
   | RNoConnection => Err ConnectionError
   end).

(** trust_chain_collector.py:127-166 *)
Definition get_entity_configuration (id : string) : M cstate (option token) := fun s =>
  match get_document (QDoc (e_wk E id)) s with
  | (s', Err MissingPage) =>
      if String.eqb (e_tenant E id) (e_wk E id) then (s', Err MissingPage)
      else get_document (QDoc (e_tenant E id)) s'
  | r => r
  end.

(** trust_chain_collector.py:29-33 *)
Definition unverified (t : option token) : res stmt :=
  match t with
  | Some (TJws _ p) => Ok p
  | _ => Err ValueError
  end.

(** trust_chain_collector.py:34-53 at the time [n]; the identifier is not looked at, exp only by JWT.unpack *)
Definition verify_self_signed (n : Z) (t : option token) : res (token * stmt) :=
  match t with
  | Some (TJws k p) =>
      match s_jwks p with
      | None => Err KeyError
      | Some keys =>
          if kmem k (filter (lib_picks (e_lib E) (TJws k p)) keys) then
            if lib_valid (e_lib E) n p then Ok (TJws k p, p) else Err OtherException
          else Err BadSignature
      end
  | _ => Err ValueError
  end.

(** the same, now *)
Definition open_self_signed (t : option token) : M cstate (token * stmt) := fun s =>
  (s, verify_self_signed (e_clock E (st_tick s)) t).

(** trust_chain_collector.py:56-58 for the fetch endpoint; a missing one is "" *)
Definition get_endpoint (config : stmt) : res string :=
  match s_metadata config with
  | None => Err KeyError
  | Some m =>
      let* fe := dindex "federation_entity" m in
      match dget "federation_fetch_endpoint" fe with
      | None => Ok ""
      | Some (VStr u) => Ok u
      | Some v => if truthy v then Err ValueError else Ok ""
      end
  end.

(** trust_chain_collector.py:184-207 *)
Definition get_federation_fetch_endpoint (intermediate : string) : M cstate string :=
  do cached <- cfg_getitem intermediate in
  do ep <- match cached with
           | Some e => lift (get_endpoint (ce_stmt e))
           | None => ret ""
           end in
  if negb (String.eqb ep "") then ret ep
  else
    do signed <- get_entity_configuration intermediate in
    do tp <- open_self_signed signed in
    do ep' <- lift (get_endpoint (snd tp)) in
    do _ <- cfg_set intermediate (mkEntry (snd tp) (Some (fst tp)) CDict) in
    ret ep'.

(** trust_chain_collector.py:265-299 *)
Definition get_entity_statement (entity authority : string) : M cstate (option esval) :=
  do cached <- es_getitem (cache_key authority entity) in
  do usable <-
     match cached with
     | None => ret None
     | Some v =>
         do n <- now in
         do exp <- es_getitem (time_key authority entity) in
         match exp with
         | Some (ESExp z) =>
             if Z.ltb (z - e_delta E) n then
               do _ <- es_del (cache_key authority entity) in
               do _ <- es_del (time_key authority entity) in
               ret None
             else ret (Some v)
         | _ => raise TypeError
         end
     end in
  match usable with
  | Some v => ret (Some v)
  | None =>
      do ep <- get_federation_fetch_endpoint authority in
      if String.eqb ep "" then ret None
      else
        do signed <- get_document (QFetch ep authority entity) in
        do p <- lift (unverified signed) in
        match signed with
        | None => raise ValueError
        | Some t =>
            do _ <- es_set (cache_key authority entity) (ESTok t) in
            match s_exp p with
            | None => raise KeyError
            | Some z =>
                do _ <- es_set (time_key authority entity) (ESExp z) in
                ret (Some (ESTok t))
            end
        end
  end.

(** trust_chain_collector.py:301-341; [rec] is collect_tree *)
Definition collect_branch (rec : string -> option stmt -> M cstate (tree esval))
    (entity authority : string) : M cstate (option (esval * tree esval)) :=
  if String.eqb entity authority && smem entity (e_anchors E) then ret None
  else
    do es <- get_entity_statement entity authority in
    match es with
    | Some v =>
        if es_truthy v then
          do cfg <- cfg_getitem authority in
          do t <- rec authority (option_map ce_stmt cfg) in
          ret (Some (v, t))
        else ret None
    | None => ret None
    end.

(** trust_chain_collector.py:227-263.  [seen] and [max_superiors] influence logging only.  [fuel] is the
    recursion depth Python allows. *)
Fixpoint collect_tree (fuel : nat) (stop_at : string) (entity : string) (config : option stmt)
  : M cstate (tree esval) :=
  match fuel with
  | O => raise RecursionError
  | S fuel' =>
      match config with
      | None => raise TypeError
      | Some c =>
          match s_hints c with
          | None => ret (T [])
          | Some hints =>
              if String.eqb (s_iss c) stop_at then ret (T [])
              else
                do bs <- mfold (fun acc authority =>
                                  do b <- collect_branch (collect_tree fuel' stop_at) entity authority in
                                  ret (dset authority b acc)) hints [] in
                ret (T bs)
          end
      end
  end.

(** trust_chain_collector.py:343-348 *)
Definition too_old (n : Z) (c : stmt) : res bool :=
  match s_exp c with
  | None => Err KeyError
  | Some e => Ok (Z.leb (e + e_delta E) n)
  end.

(** trust_chain_collector.py:350-376 *)
Definition collect (fuel : nat) (stop_at entity_id : string)
  : M cstate (option (tree esval * token)) :=
  do s <- StateM.get in
  do cached <-
     match cache_get entity_id (st_cfg s) with
     | None => ret None
     | Some e =>
         do n <- now in
         do old <- lift (too_old n (ce_stmt e)) in
         if old then ret None
         else match ce_jws e with
              | Some t => ret (Some (t, ce_stmt e))
              | None => raise AttributeError
              end
     end in
  match cached with
  | Some (t, c) =>
      do tr <- collect_tree fuel stop_at entity_id (Some c) in ret (Some (tr, t))
  | None =>
      do signed <- get_entity_configuration entity_id in
      match signed with
      | None => ret None
      | Some _ =>
          do tp <- open_self_signed signed in
          do _ <- cfg_set entity_id (mkEntry (snd tp) (Some (fst tp)) CDict) in
          do tr <- collect_tree fuel stop_at entity_id (Some (snd tp)) in
          ret (Some (tr, fst tp))
      end
  end.

(** trust_chain_collector.py:389-398.  A missing statement gives None in the list. *)
Definition get_chain_config (id : string) : M cstate token :=
  do e <- cfg_getitem id in
  match e with
  | None => raise TypeError
  | Some e => match ce_jws e with Some t => ret t | None => raise KeyError end
  end.

Fixpoint get_chain_statements (iss_path : list string) : M cstate (list (option esval)) :=
  match iss_path with
  | a :: ((b :: _) as rest) =>
      do v <- es_getitem (cache_key b a) in
      do vs <- get_chain_statements rest in
      ret (v :: vs)
  | _ => ret []
  end.

Definition get_chain (iss_path : list string) (trust_anchor : string) (with_ta_ec : bool)
  : M cstate (list (option esval)) :=
  match iss_path with
  | [] => raise IndexError
  | leaf :: _ =>
      do t <- get_chain_config leaf in
      do vs <- get_chain_statements iss_path in
      if with_ta_ec then
        do ta <- get_chain_config trust_anchor in
        ret (Some (ESTok t) :: vs ++ [Some (ESTok ta)])
      else ret (Some (ESTok t) :: vs)
  end.

End Collector.
