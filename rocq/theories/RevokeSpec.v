(** Vocabulary for the end of a membership (C169). *)
From Verif Require Export FederationSpec.

(** what an entity does with its federation part, and time passing without any of it *)
Inductive step :=
| Look (fuel : nat) (id : string)   (* get_verified_trust_chains *)
| Ask (fuel : nat) (id : string)    (* get_trust_chains *)
| Wait.

Definition asked_for (st : step) : option string :=
  match st with Look _ id => Some id | Ask _ id => Some id | Wait => None end.

Definition do_step (E : cenv) (O : iter_order) (s : fstate) (st : step) : fstate :=
  match st with
  | Look fuel id => fst (get_verified_trust_chains E O fuel id s)
  | Ask fuel id => fst (get_trust_chains E O fuel id s)
  | Wait => mkFed (mkState (st_cfg (f_col s)) (st_es (f_col s)) (S (st_tick (f_col s)))) (f_keys s) (f_chains s)
  end.

Definition after_steps (E : cenv) (O : iter_order) (steps : list step) (s : fstate) : fstate :=
  fold_left (do_step E O) steps s.

(** what an entity knows when it starts: keys, nothing else *)
Definition newborn (s : fstate) : Prop := st_cfg (f_col s) = [] /\ st_es (f_col s) = [] /\ f_chains s = [].

(** the clock never goes back *)
Definition forwards (E : cenv) : Prop := forall n m, n <= m -> (e_clock E n <= e_clock E m)%Z.

(** the entity [a] has nothing to say about [e] from request [n0] on *)
Definition let_go (E : cenv) (a e : string) (n0 : nat) : Prop :=
  forall n ep t, n0 <= n -> e_net E n (QFetch ep a e) <> RText (Some t).

(** whatever [a] is quoted to have said about [e], by whomever and whenever, expires at [z] at the latest *)
Definition over_at (E : cenv) (a e : string) (z : Z) : Prop :=
  forall n q k p, e_net E n q = RText (Some (TJws k p)) -> s_iss p = a -> s_sub p = e ->
  exists x, s_exp p = Some x /\ (x <= z)%Z.

(** entities are asked about under names that do not contain the separator of the cache *)
Definition clean_net (E : cenv) : Prop := forall n u k p hints a,
  e_net E n (QDoc u) = RText (Some (TJws k p)) -> s_hints p = Some hints -> In a hints -> clean a.

Definition clean_steps (steps : list step) : Prop := forall st id, In st steps -> asked_for st = Some id -> clean id.

(** everybody speaks for themselves: a fetch endpoint gives statements by the entity about the entity asked
    for, and configurations are about the entity that makes them *)
Definition own_words (E : cenv) : Prop :=
  (forall n ep a e k p, e_net E n (QFetch ep a e) = RText (Some (TJws k p)) -> s_iss p = a /\ s_sub p = e) /\
  (forall n u k p, e_net E n (QDoc u) = RText (Some (TJws k p)) -> s_iss p = s_sub p).

(** who says it about whom *)
Definition between (p : stmt) : string * string := (s_iss p, s_sub p).

(** at request [n1] or later: [t] came from [a] when it was asked about [e], after [n1] or earlier but then
    its lifetime was not over when it was used *)
Definition recent (E : cenv) (n1 : nat) (a e : string) (t : token) : Prop :=
  exists n ep k p x, e_net E n (QFetch ep a e) = RText (Some (TJws k p)) /\ t = TJws k p /\ s_exp p = Some x /\
    (n1 <= n \/ exists m, n1 <= m /\ (e_clock E m <= x - e_delta E)%Z).

(** the same for a configuration, which is used until [e_delta] after its end *)
Definition recent_doc (E : cenv) (n1 : nat) (t : token) : Prop :=
  exists n u k p, e_net E n (QDoc u) = RText (Some (TJws k p)) /\ t = TJws k p /\
    (n1 <= n \/ exists m x, n1 <= m /\ s_exp p = Some x /\ (e_clock E m < x + e_delta E)%Z).

(** ** Keys that are withdrawn *)
Definition lists (p : stmt) (k : key) : Prop := exists ks, s_jwks p = Some ks /\ In k ks.

(** from request [n0] on nobody says that [k] is a key of [x], neither [x] nor anybody else *)
Definition withdrawn (E : cenv) (x : string) (k : key) (n0 : nat) : Prop :=
  forall n q k0 p, n0 <= n -> e_net E n q = RText (Some (TJws k0 p)) -> s_sub p = x -> ~ lists p k.

(** whatever says that [k] is a key of [x] expires at [z] at the latest *)
Definition key_over_at (E : cenv) (x : string) (k : key) (z : Z) : Prop :=
  forall n q k0 p, e_net E n q = RText (Some (TJws k0 p)) -> s_sub p = x -> lists p k ->
  exists y, s_exp p = Some y /\ (y <= z)%Z.
