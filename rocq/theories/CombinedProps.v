(** What a trust chain says about the policy that was applied to it (C203). *)
From Verif Require Import PyFacts ExampleKit PolicyProps.
From Verif Require Export CombinedModel.

(** ** Vocabulary *)

(** a chain that has just been verified *)
Definition untouched (leaf : stmt) : chain_state := mkChainState leaf [] [].

(** what the entity itself says it is, for an entity type *)
Definition publishes (leaf : stmt) (t : string) : option metadata :=
  match s_metadata leaf with Some m => dget t m | None => None end.

(** any number of calls for types of entities, whether they succeed or not *)
Definition after_calls (O : iter_order) (front : list stmt) (ts : list string) (s : chain_state) : chain_state :=
  fold_left (fun s t => fst (record_call O front t s)) ts s.

(** ** Lemmas *)
Lemma set_type_other s t t' md : t' <> t -> publishes (set_type_metadata s t md) t' = publishes s t'.
Proof.
  intros N. unfold publishes, set_type_metadata. destruct (s_metadata s) as [m|] eqn:E; [|rewrite E; reflexivity].
  cbn [s_metadata]. apply dget_dset_other. exact N.
Qed.

Lemma record_type_other O front t s t' : t' <> t ->
  let s' := fst (record_type O front t s) in
  publishes (cs_leaf s') t' = publishes (cs_leaf s) t' /\ dget t' (cs_metadata s') = dget t' (cs_metadata s) /\
  dget t' (cs_combined s') = dget t' (cs_combined s).
Proof.
  intros N. unfold record_type. destruct (gather_policies O front t) as [p|e]; [|auto].
  fold (publishes (cs_leaf s) t). destruct (publishes (cs_leaf s) t) as [md|].
  - destruct (apply_policy O md p) as [[r b]|e]; cbn.
    + rewrite !dget_dset_other by exact N. split; [|auto]. destruct b; [apply set_type_other; exact N|reflexivity].
    + rewrite !dget_dset_other by exact N. auto.
  - cbn. rewrite !dget_dset_other by exact N. auto.
Qed.

Lemma record_type_own O front t s s' md0 : record_type O front t s = (s', Ok tt) -> publishes (cs_leaf s) t = Some md0 ->
  exists p md b, gather_policies O front t = Ok p /\ apply_policy O md0 p = Ok (md, b) /\
    dget t (cs_combined s') = Some p /\ dget t (cs_metadata s') = Some (Some md).
Proof.
  unfold record_type. destruct (gather_policies O front t) as [p|e]; [|discriminate].
  fold (publishes (cs_leaf s) t). intros H P. rewrite P in H. revert H. destruct (apply_policy O md0 p) as [[md b]|e] eqn:A; [|discriminate].
  intros [= <-]. exists p, md, b. cbn. rewrite !dget_dset_same. auto.
Qed.

Lemma record_types_other O front ts : forall s t', ~ In t' ts ->
  let s' := fst (record_types O front ts s) in
  publishes (cs_leaf s') t' = publishes (cs_leaf s) t' /\ dget t' (cs_metadata s') = dget t' (cs_metadata s) /\
  dget t' (cs_combined s') = dget t' (cs_combined s).
Proof.
  induction ts as [|t ts IH]; intros s t' N; [cbn; auto|]. cbn [record_types].
  assert (N1 : t' <> t) by (intros ->; apply N; left; reflexivity).
  assert (N2 : ~ In t' ts) by (intros I; apply N; right; exact I).
  destruct (record_type_other O front t s t' N1) as (A & B & C).
  destruct (record_type O front t s) as [s1 [u|e]]; cbn [fst] in A, B, C; [|cbn; auto].
  destruct (IH s1 t' N2) as (A' & B' & C'). cbv zeta. rewrite A', B', C'. auto.
Qed.

Lemma record_types_own O front ts : forall s s' t md0, NoDup ts -> record_types O front ts s = (s', Ok tt) -> In t ts ->
  publishes (cs_leaf s) t = Some md0 ->
  exists p md b, gather_policies O front t = Ok p /\ apply_policy O md0 p = Ok (md, b) /\
    dget t (cs_combined s') = Some p /\ dget t (cs_metadata s') = Some (Some md).
Proof.
  induction ts as [|t0 ts IH]; intros s s' t md0 ND H I P; [destruct I|]. cbn [record_types] in H.
  inversion ND as [|? ? N1 N2]; subst.
  destruct (record_type O front t0 s) as [s1 [[]|e]] eqn:R; [|discriminate H].
  destruct (string_dec t t0) as [->|Nt].
  - destruct (record_type_own _ _ _ _ _ _ R P) as (p & md & b & G & A & C & M). exists p, md, b.
    destruct (record_types_other O front ts s1 t0 N1) as (_ & B' & C'). rewrite H in B', C'. cbn [fst] in B', C'. rewrite B', C'. auto.
  - destruct I as [->|I]; [contradiction|]. apply (IH s1 s' t md0 N2 H I).
    destruct (record_type_other O front t0 s t Nt) as (A & _). rewrite R in A. cbn [fst] in A. rewrite A. exact P.
Qed.

(** the model with combined_policy does what the model without it does *)
Lemma record_types_same O front ts : forall s,
  foldM (fun acc t => let* r := policy_type O front (snd acc) t in Ok (dset t (fst r) (fst acc), snd r)) ts (cs_metadata s, cs_leaf s) =
  let '(s', r) := record_types O front ts s in let* _ := r in Ok (cs_metadata s', cs_leaf s').
Proof.
  induction ts as [|t ts IH]; intros s; [reflexivity|]. cbn [foldM record_types]. unfold policy_type at 1, record_type. cbn [snd fst].
  destruct (gather_policies O front t) as [p|e]; [|reflexivity]. cbn [bind].
  destruct (s_metadata (cs_leaf s)) as [m|].
  - destruct (dget t m) as [md|].
    + destruct (apply_policy O md p) as [[r b]|e]; [|reflexivity]. cbn [bind fst snd]. rewrite <- IH. reflexivity.
    + cbn [bind fst snd]. rewrite <- IH. reflexivity.
  - cbn [bind fst snd]. rewrite <- IH. reflexivity.
Qed.

Lemma record_call_same O front leaf :
  policy_call O front leaf = let '(s', r) := record_call O front "" (untouched leaf) in let* _ := r in Ok (cs_metadata s', cs_leaf s').
Proof.
  unfold policy_call, record_call. cbn [String.eqb untouched cs_leaf]. destruct (s_metadata leaf) as [m|]; [|reflexivity].
  exact (record_types_same O front (dkeys m) (untouched leaf)).
Qed.

Definition says_why (O : iter_order) (front : list stmt) (s : chain_state) : Prop :=
  forall t, (forall md, dget t (cs_metadata s) = Some (Some md) -> exists p, dget t (cs_combined s) = Some p) /\
            (forall p, dget t (cs_combined s) = Some p -> gather_policies O front t = Ok p).

Lemma record_type_why O front t s : says_why O front s -> says_why O front (fst (record_type O front t s)).
Proof.
  intros W t'. destruct (string_dec t' t) as [->|N].
  2: { destruct (record_type_other O front t s t' N) as (_ & A & B). rewrite A, B. exact (W t'). }
  unfold record_type. destruct (gather_policies O front t) as [p|e] eqn:G; [|rewrite <- G; exact (W t)].
  destruct (match s_metadata (cs_leaf s) with Some m => dget t m | None => None end) as [md|].
  - destruct (apply_policy O md p) as [[r b]|e]; cbn; rewrite !dget_dset_same.
    + split; [eauto|]. intros q [= <-]. reflexivity.
    + split; [eauto|]. intros q [= <-]. reflexivity.
  - cbn. rewrite dget_dset_same. split; [discriminate|]. intros q D. rewrite <- G. exact (proj2 (W t) q D).
Qed.

Lemma record_types_why O front ts : forall s, says_why O front s -> says_why O front (fst (record_types O front ts s)).
Proof.
  induction ts as [|t ts IH]; intros s W; [exact W|]. cbn [record_types]. assert (X := record_type_why O front t s W).
  destruct (record_type O front t s) as [s1 [u|e]]; [exact (IH s1 X)|exact X].
Qed.

(** ** C203: a trust chain says which policy was applied *)

(** After policies have been applied to all of a chain, it has for each type that the entity publishes metadata for the combination of the
    policies of the statements above, and the metadata is what this policy makes of what the entity published; for other types it has nothing. *)
Theorem C203_all O front leaf m s' :
  record_call O front "" (untouched leaf) = (s', Ok tt) -> s_metadata leaf = Some m -> NoDup (dkeys m) ->
  forall t,
    (forall md0, dget t m = Some md0 ->
       exists p md b, gather_policies O front t = Ok p /\ apply_policy O md0 p = Ok (md, b) /\
         dget t (cs_combined s') = Some p /\ dget t (cs_metadata s') = Some (Some md)) /\
    (dget t m = None -> dget t (cs_combined s') = None /\ dget t (cs_metadata s') = None).
Proof.
  intros H Hm ND t. unfold record_call in H. cbn [String.eqb untouched cs_leaf] in H. rewrite Hm in H. split.
  - intros md0 D. apply (record_types_own O front (dkeys m) (untouched leaf) s' t md0 ND H).
    + destruct (in_dec string_dec t (dkeys m)) as [I|N]; [exact I|]. apply dget_None_key in N. congruence.
    + unfold publishes. cbn [untouched cs_leaf]. rewrite Hm. exact D.
  - intros D. destruct (record_types_other O front (dkeys m) (untouched leaf) t) as (_ & A & B); [apply dget_None_key; exact D|].
    fold (untouched leaf) in H. rewrite H in A, B. cbn [fst] in A, B. rewrite A, B. auto.
Qed.
Print Assumptions C203_all.

(** A call for one type concerns this type only; if the entity does not publish metadata for it, there is no metadata and no policy is said
    to have been applied. *)
Theorem C203_one O front t s s' r :
  t <> "" -> record_call O front t s = (s', r) ->
  (forall t', t' <> t -> dget t' (cs_combined s') = dget t' (cs_combined s) /\ dget t' (cs_metadata s') = dget t' (cs_metadata s) /\
     publishes (cs_leaf s') t' = publishes (cs_leaf s) t') /\
  (forall md0, r = Ok tt -> publishes (cs_leaf s) t = Some md0 ->
     exists p md b, gather_policies O front t = Ok p /\ apply_policy O md0 p = Ok (md, b) /\
       dget t (cs_combined s') = Some p /\ dget t (cs_metadata s') = Some (Some md)) /\
  (r = Ok tt -> publishes (cs_leaf s) t = None -> cs_combined s' = cs_combined s /\ dget t (cs_metadata s') = Some None) /\
  (forall e, r = Err e -> cs_metadata s' = cs_metadata s /\ cs_leaf s' = cs_leaf s).
Proof.
  intros Nt H. unfold record_call in H. apply String.eqb_neq in Nt. rewrite Nt in H. split; [|split; [|split]].
  - intros t' N. destruct (record_type_other O front t s t' N) as (A & B & C). rewrite H in A, B, C. auto.
  - intros md0 -> P. exact (record_type_own _ _ _ _ _ _ H P).
  - intros -> P. unfold record_type in H. destruct (gather_policies O front t) as [p|e]; [|discriminate H].
    fold (publishes (cs_leaf s) t) in H. rewrite P in H. injection H as <-. cbn. rewrite dget_dset_same. auto.
  - intros e ->. unfold record_type in H. destruct (gather_policies O front t) as [p|x]; [|injection H as <- _; auto].
    destruct (match s_metadata (cs_leaf s) with Some m => dget t m | None => None end) as [md|]; [|discriminate H].
    destruct (apply_policy O md p) as [y|y]; [discriminate H|]. injection H as <- _. auto.
Qed.
Print Assumptions C203_one.

(** After whatever calls, failed ones included, a chain that has metadata for a type says which policy was applied, and what it says is the
    combination of the policies above. *)
Theorem C203_always O front leaf ts t md :
  dget t (cs_metadata (after_calls O front ts (untouched leaf))) = Some (Some md) ->
  exists p, dget t (cs_combined (after_calls O front ts (untouched leaf))) = Some p /\ gather_policies O front t = Ok p.
Proof.
  assert (W : says_why O front (after_calls O front ts (untouched leaf))).
  { unfold after_calls. assert (W0 : says_why O front (untouched leaf)) by (intros x; split; intros ? D; discriminate D).
    revert W0. generalize (untouched leaf). induction ts as [|x ts IH]; intros s W0; [exact W0|]. cbn [fold_left]. apply IH.
    unfold record_call. destruct (String.eqb x ""); [|exact (record_type_why O front x s W0)].
    destruct (s_metadata (cs_leaf s)) as [m|]; [exact (record_types_why O front (dkeys m) s W0)|exact W0]. }
  intros D. destruct (proj1 (W t) md D) as (p & P). exists p. split; [exact P|exact (proj2 (W t) p P)].
Qed.
Print Assumptions C203_always.

(** the chain of the examples for C01-C08 *)
Example C203_ex :
  (exists s' p, record_call id_order [ex_ta; ex_im] "" (untouched ex_leaf) = (s', Ok tt) /\ dget "rp" (cs_combined s') = Some p /\
     dget "org" (r_policy p) = Some [("value", VStr "Org")] /\ dget "rp" (cs_metadata s') = Some (Some ex_md) /\
     dget "op" (cs_combined s') = None) /\
  (exists m, s_metadata ex_leaf = Some m /\ NoDup (dkeys m)) /\
  (exists s', record_call id_order [ex_ta; ex_im] "op" (untouched ex_leaf) = (s', Ok tt) /\ dget "op" (cs_metadata s') = Some None) /\
  (* a policy that is violated is in combined_policy, but there is no metadata *)
  let bad := ex_stmt "leaf" "leaf" (Some [("auth", VStr "z")]) None in
  (exists s' e, record_call id_order [ex_ta; ex_im] "rp" (untouched bad) = (s', Err e) /\
     dmem "rp" (cs_combined s') = true /\ cs_metadata s' = []) /\
  dget "rp" (cs_metadata (after_calls id_order [ex_ta; ex_im] ["op"; "rp"; ""] (untouched ex_leaf))) = Some (Some ex_md).
Proof.
  split; [eexists; eexists; split; [vm_compute; reflexivity|]; vm_compute; auto|].
  split; [eexists; split; [reflexivity|]; repeat constructor; simpl; intuition discriminate|].
  split; [eexists; split; [vm_compute; reflexivity|reflexivity]|].
  split; [eexists; eexists; split; [vm_compute; reflexivity|]; split; reflexivity|].
  vm_compute. reflexivity.
Qed.
