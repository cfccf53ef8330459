(** Vocabulary for the properties of policy resolution (C01-C16).

    A chain is [front ++ [leaf]], the trust anchor's statement first.  [resolves] is the
    observable outcome of TrustChainPolicy.__call__: the metadata of one entity type. *)
From Verif Require Export PolicyModel.
From Verif Require Import PyFacts.

(** membership with Python's [==] *)
Definition In_eq (x : val) (l : list val) : Prop := exists y, In y l /\ py_eqb x y = true.

(** [v] is a list all of whose elements are in [S] *)
Definition list_within (v : val) (S : list val) : Prop :=
  exists l, v = VList l /\ forall x, In x l -> In_eq x S.

(** the statement's policy says [op: operand] about claim [c] of entity type [et] *)
Definition policy_says (s : stmt) (et c op : string) (operand : val) : Prop :=
  exists ps mp cp, s_policy s = Some ps /\ dget et ps = Some mp /\ dget c mp = Some cp /\
                   dget op cp = Some operand.

(** the statement has a policy for claim [c] *)
Definition policy_about (s : stmt) (et c : string) : Prop :=
  exists ps mp cp, s_policy s = Some ps /\ dget et ps = Some mp /\ dget c mp = Some cp.

(** the statement's own metadata gives claim [c] the value [v] *)
Definition metadata_says (s : stmt) (et c : string) (v : val) : Prop :=
  exists ms m, s_metadata s = Some ms /\ dget et ms = Some m /\ dget c m = Some v.

Definition has_type (s : stmt) (et : string) : Prop :=
  exists ms m, s_metadata s = Some ms /\ dget et ms = Some m.

(** JSON documents after parsing: no object has two entries for a key *)
Definition wf_stmt (s : stmt) : Prop :=
  (forall ms, s_metadata s = Some ms ->
     NoDup (dkeys ms) /\
     forall et m, dget et ms = Some m ->
       NoDup (dkeys m) /\ forall c v, dget c m = Some v -> wf_val v) /\
  (forall et c op v, policy_says s et c op v -> wf_val v).

Definition wf_chain (front : list stmt) (leaf : stmt) : Prop :=
  wf_stmt leaf /\ forall s, In s front -> wf_stmt s.

(** applying the policies of the chain succeeds and yields [md] for entity type [et] *)
Definition resolves (O : iter_order) (front : list stmt) (leaf : stmt) (et : string)
  (md : metadata) : Prop :=
  exists mds chain', policy_call_chain O (front ++ [leaf]) = Ok (ByType mds, chain') /\
                     dget et mds = Some (Some md).

(** applying the policies of the chain raises an exception *)
Definition rejects (O : iter_order) (front : list stmt) (leaf : stmt) : Prop :=
  exists e, policy_call_chain O (front ++ [leaf]) = Err e.

(** every value that anybody in the chain supplies for the claim is a list *)
Definition list_claim (front : list stmt) (leaf : stmt) (et c : string) : Prop :=
  (forall s v, In s (leaf :: front) -> metadata_says s et c v -> is_list v = true) /\
  (forall s v, In s front -> policy_says s et c "add" v -> is_list v = true) /\
  (forall s v, In s front -> policy_says s et c "default" v -> is_list v = true).

(** every value that anybody in the chain supplies for the claim is a scalar *)
Definition scalar_claim (front : list stmt) (leaf : stmt) (et c : string) : Prop :=
  (forall s v, In s (leaf :: front) -> metadata_says s et c v -> is_list v = false) /\
  (forall s v, In s front -> ~ policy_says s et c "add" v) /\
  (forall s v, In s front -> policy_says s et c "default" v -> is_list v = false).

(** the same value, lists compared as sets *)
Definition same_value (a b : val) : Prop :=
  a = b \/
  exists l m, a = VList l /\ b = VList m /\
    (forall x, In x l -> In_eq x m) /\ (forall x, In x m -> In_eq x l).

Definition same_claim (a b : option val) : Prop :=
  match a, b with
  | None, None => True
  | Some v, Some w => same_value v w
  | _, _ => False
  end.

(** same entity types, same claims, same values *)
Definition same_metadata (m1 m2 : dict (option metadata)) : Prop :=
  forall et, match dget et m1, dget et m2 with
             | None, None => True
             | Some (Some md1), Some (Some md2) => forall c, same_claim (dget c md1) (dget c md2)
             | Some None, Some None => True
             | _, _ => False
             end.

(** every value anybody supplies for the claim is a list of scalars *)
Definition flat_list (v : val) : Prop :=
  exists l, v = VList l /\ forall x, In x l -> hashable x = true.

Definition flat_list_claim (front : list stmt) (leaf : stmt) (et c : string) : Prop :=
  (forall s v, In s (leaf :: front) -> metadata_says s et c v -> flat_list v) /\
  (forall s v, In s front -> policy_says s et c "add" v -> flat_list v) /\
  (forall s v, In s front -> policy_says s et c "default" v -> flat_list v).

(** what a statement says for one entity type *)
Definition type_part (s : stmt) (et : string) : option mpolicy * option metadata :=
  (match s_policy s with Some ps => dget et ps | None => None end,
   match s_metadata s with Some ms => dget et ms | None => None end).

(** the leaf, or if it does not state the claim a superior, gives the claim the value [v] *)
Definition supplies (front : list stmt) (leaf : stmt) (et c : string) (v : val) : Prop :=
  metadata_says leaf et c v \/
  (forall w, ~ metadata_says leaf et c w) /\ exists s, In s front /\ metadata_says s et c v.

(** The condition under which resolving again changes nothing: what is added is a list of scalars,
    and a claim restricted by subset_of is list valued wherever it is supplied. *)
Definition repeatable_claim (front : list stmt) (leaf : stmt) (et c : string) : Prop :=
  (forall s v, In s front -> policy_says s et c "add" v -> flat_list v) /\
  ((exists s T, In s front /\ policy_says s et c "subset_of" T) -> list_claim front leaf et c).

(** a value (or the absence of one) meets a claim policy; superset_of is kept apart *)
Definition meets (p : claim_policy) (ov : option val) : Prop :=
  (forall v, dget "value" p = Some v -> exists w, ov = Some w /\ py_eqb v w = true) /\
  (forall S w, dget "subset_of" p = Some (VList S) -> ov = Some w -> list_within w S) /\
  (forall S w, dget "one_of" p = Some (VList S) -> ov = Some w -> In_eq w S) /\
  (dget "essential" p = Some (VBool true) -> ov <> None).

Definition meets_superset (p : claim_policy) (ov : option val) : Prop :=
  forall S w, dget "superset_of" p = Some (VList S) -> ov = Some w ->
    exists l, w = VList l /\ forall x, In x S -> In_eq x l.

(** claim policies with boolean essential *)
Definition bool_essential (p : claim_policy) : Prop :=
  forall e, dget "essential" p = Some e -> exists b, e = VBool b.

(** the elements of a claim value or of the operand of add: a list stands for its elements *)
Definition has_element (v x : val) : Prop :=
  match v with VList l => In_eq x l | _ => py_eqb x v = true end.
