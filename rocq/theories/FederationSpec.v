(** Vocabulary for collection, verification and policies together (C61-C63). *)
From Verif Require Export FederationModel CollectorSpec VerifierSpec.

(** every document says what it should: configurations are about the entity they were obtained from and
    statements by the authority about the entity asked for; an entity has one configuration and a
    non-empty identifier *)
Record honest (E : cenv) (s : cstate) : Prop := mkHonest {
  h_config : forall id c, obtainable E s id c -> s_iss c = id /\ s_sub c = id /\ id <> "";
  h_statement : forall a e v, said_by E s a e v ->
    exists k p, v = ESTok (TJws k p) /\ s_iss p = a /\ s_sub p = e;
  h_one : forall id c c', obtainable E s id c -> obtainable E s id c' -> c = c';
  h_cached : forall id e t, dget id (st_cfg s) = Some e -> ce_jws e = Some t ->
    exists k, t = TJws k (ce_stmt e)
}.

(** [l] are statements, top down, that lead from [e] upwards along authority hints *)
Inductive climbs (E : cenv) (s : cstate) : string -> list stmt -> Prop :=
| climbs_nil e : climbs E s e []
| climbs_snoc e c hints p l :
    obtainable E s e c -> s_hints c = Some hints -> In (s_iss p) hints -> s_sub p = e ->
    climbs E s (s_iss p) l -> climbs E s e (l ++ [p]).

(** [a] has a configuration without superiors *)
Definition top (E : cenv) (s : cstate) (a : string) : Prop :=
  exists c, obtainable E s a c /\ (s_hints c = None \/ s_hints c = Some []).

