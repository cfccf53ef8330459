(** Vocabulary for the properties of the collector (C32-C36). *)
From Verif Require Export CollectorModel.

(** ** Identifiers *)
Fixpoint has_bang (s : string) : bool :=
  match s with
  | EmptyString => false
  | String c s' => Ascii.eqb c "!" || has_bang s'
  end.

Definition clean (id : string) : Prop := has_bang id = false.

(** ** Where information comes from *)

(** a signed statement whose signature checks out with a key it contains itself *)
Definition self_signed (t : token) (p : stmt) : Prop :=
  exists k keys, t = TJws k p /\ s_jwks p = Some keys /\ In k keys.

(** the network answers a request for the configuration of [id], made as request number [n],
    with [t] *)
Definition serves_config (E : cenv) (n : nat) (id : string) (t : token) : Prop :=
  e_net E n (QDoc (e_wk E id)) = RText (Some t) \/ e_net E n (QDoc (e_tenant E id)) = RText (Some t).

(** [c] with signed form [t] was obtained from [id] at request [n] *)
Definition config_from (E : cenv) (n0 : nat) (id : string) (t : token) (c : stmt) : Prop :=
  exists n, n0 <= n /\ serves_config E n id t /\ self_signed t c.

(** the configurations of [id] that a collection starting in [s] can get hold of *)
Definition obtainable (E : cenv) (s : cstate) (id : string) (c : stmt) : Prop :=
  (exists t, config_from E (st_tick s) id t c) \/
  (exists e, dget id (st_cfg s) = Some e /\ ce_stmt e = c).

Definition endpoint_of (c : stmt) (ep : string) : Prop :=
  exists m fe, s_metadata c = Some m /\ dget "federation_entity" m = Some fe /\
               dget "federation_fetch_endpoint" fe = Some (VStr ep).

(** the statement [v] about [entity] was obtained from [authority]: on request from a fetch endpoint the
    authority itself names, or it is a statement by it about the entity in the cache *)
Definition said_by (E : cenv) (s : cstate) (authority entity : string) (v : esval) : Prop :=
  (exists n ep c t, st_tick s <= n /\ obtainable E s authority c /\ endpoint_of c ep /\
                    e_net E n (QFetch ep authority entity) = RText (Some t) /\ v = ESTok t) \/
  dget (cache_key authority entity) (st_es s) = Some v.

(** ** The tree that belongs to a configuration *)
Inductive grown (E : cenv) (s : cstate) (stop_at : string) : string -> stmt -> tree esval -> Prop :=
| grown_top entity c : s_hints c = None \/ s_iss c = stop_at -> grown E s stop_at entity c (T [])
| grown_node entity c hints bs :
    s_hints c = Some hints -> s_iss c <> stop_at ->
    NoDup (map fst bs) ->
    (forall a, In a (map fst bs) <-> In a hints) ->
    (forall a b, In (a, b) bs -> grown_branch E s stop_at entity a b) ->
    grown E s stop_at entity c (T bs)
with grown_branch (E : cenv) (s : cstate) (stop_at : string)
  : string -> string -> option (esval * tree esval) -> Prop :=
| grown_none entity a :
    (entity = a /\ In entity (e_anchors E)) \/
    (exists c, obtainable E s a c /\ forall ep, endpoint_of c ep -> ep = "") \/
    (exists z, dget (cache_key a entity) (st_es s) = Some (ESExp z)) ->
    grown_branch E s stop_at entity a None
| grown_some entity a v c t :
    ~ (entity = a /\ In entity (e_anchors E)) ->
    said_by E s a entity v -> obtainable E s a c -> grown E s stop_at a c t ->
    grown_branch E s stop_at entity a (Some (v, t)).

(** ** Identifiers the collection meets *)
Definition clean_federation (E : cenv) (s : cstate) : Prop :=
  forall id c hints a, obtainable E s id c -> s_hints c = Some hints -> In a hints -> clean a.

(** ** Hints without loops: a rank that decreases along every hint that is followed *)
Definition acyclic (E : cenv) (s : cstate) (stop_at : string) (rank : string -> nat) : Prop :=
  forall id c hints a,
    obtainable E s id c -> s_hints c = Some hints -> s_iss c <> stop_at -> In a hints ->
    ~ (a = id /\ In id (e_anchors E)) -> rank a < rank id.
