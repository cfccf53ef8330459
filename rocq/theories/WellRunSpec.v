(** Vocabulary for federations in which every entity publishes what it should: the routes from an entity to its
    trust anchors, and the trust chain that belongs to a route. *)
From Verif Require Export FederationModel CollectorSpec VerifierSpec.

(** what the entities of a federation have to say, and the key each signs with *)
Record world := mkWorld {
  w_config : string -> stmt;
  w_about : string -> string -> stmt;      (* superior, subordinate *)
  w_key : string -> key
}.

Section World.
Context (W : world).

Definition superiors (e : string) : list string :=
  match s_hints (w_config W e) with Some h => h | None => [] end.

(** [stop] is the entity above which nobody looks; the empty string if there is none *)
Definition above (stop e : string) : list string := if String.eqb e stop then [] else superiors e.

(** [r] leads from [e] up to an entity above which nobody looks, or which has no superiors *)
Inductive route (stop : string) : string -> list string -> Prop :=
| route_end e : above stop e = [] -> route stop e []
| route_up e a r : In a (above stop e) -> route stop a r -> route stop e (a :: r).

(** the entity at the end of a route *)
Fixpoint end_of (e : string) (r : list string) : string :=
  match r with [] => e | a :: r' => end_of a r' end.

(** the statements along a route, top down *)
Fixpoint along (e : string) (r : list string) : list token :=
  match r with
  | [] => []
  | a :: r' => along a r' ++ [TJws (w_key W a) (w_about W a e)]
  end.

Definition own (e : string) : token := TJws (w_key W e) (w_config W e).

(** the trust chain of [e] along [r] *)
Definition chain_along (e : string) (r : list string) : list token := along e r ++ [own e].

Definition claims_along (e : string) (r : list string) : list stmt := map snd (jws (chain_along e r)).

(** [e] and the entities above it *)
Inductive reaches (stop : string) (e : string) : string -> Prop :=
| reaches_self : reaches stop e e
| reaches_up a b : reaches stop e a -> In b (above stop a) -> reaches stop e b.

(** the configuration of [e] is found at one of its two places *)
Definition published (E : cenv) (e : string) : Prop :=
  e_net E 0 (QDoc (e_wk E e)) = RText (Some (own e)) \/
  (e_net E 0 (QDoc (e_wk E e)) = R404 /\ e_tenant E e <> e_wk E e /\
   e_net E 0 (QDoc (e_tenant E e)) = RText (Some (own e))).

Definition vouches_for (p : stmt) (k : key) : Prop := exists ks, s_jwks p = Some ks /\ In k ks.

(** everybody from [id] upwards publishes a configuration of their own; superiors answer requests about their
    subordinates and know their keys *)
Record well_run (E : cenv) (stop id : string) : Prop := mkWellRun {
  wr_config : forall e, reaches stop id e ->
    published E e /\ s_iss (w_config W e) = e /\ s_sub (w_config W e) = e /\ e <> "" /\
    vouches_for (w_config W e) (w_key W e);
  wr_about : forall e a, reaches stop id e -> In a (above stop e) ->
    s_iss (w_about W a e) = a /\ s_sub (w_about W a e) = e /\ vouches_for (w_about W a e) (w_key W e) /\
    exists ep, endpoint_of (w_config W a) ep /\ ep <> "" /\
               e_net E 0 (QFetch ep a e) = RText (Some (TJws (w_key W a) (w_about W a e)));
  wr_picks : forall k p, lib_picks (e_lib E) (TJws k p) k = true;
  wr_valid : forall e, reaches stop id e -> lib_valid (e_lib E) (e_clock E 0) (w_config W e) = true
}.

(** nobody is above themselves *)
Definition ranked (stop id : string) (rank : string -> nat) : Prop :=
  forall e a, reaches stop id e -> In a (above stop e) -> rank a < rank e.

(** where the key jar has keys for an entity it has the one the entity signs with *)
Definition jar_right (stop id : string) (kj : keyjar) : Prop :=
  forall e ks, reaches stop id e -> dget e kj = Some ks -> In (w_key W e) ks.

(** the constraints along every route can be evaluated (naming constraints are URLs, and where a kind of them
    is used further up it is used further down as well) *)
Definition constraints_clear (stop id : string) : Prop :=
  forall r, route stop id r -> exists b, meets_restrictions (claims_along id r) = Ok b.

End World.
