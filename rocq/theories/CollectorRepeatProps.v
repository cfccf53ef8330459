(** Repeated collections: C34 (second collection) and C60. *)
From Verif Require Import PyFacts CollectorProps CollectorRepeat.
From Coq Require Import Lia.

Lemma hints_clean E s : static E -> clean_federation E s ->
  forall id t p hints a, pverified E id = Ok (t, p) -> s_hints p = Some hints -> In a hints -> clean a.
Proof.
  intros HS HC id t p hints a Hv Eh Hin. apply (HC id p hints a); auto.
  apply (pverified_obtainable E HS s id t p Hv).
Qed.

(** ** C60: caching does not change what a collection finds *)

(** in a federation whose documents do not change, a collector that has been used already finds the same as
    a new one *)
Definition C60_full : Prop := forall E fuel stop_at id s,
  static E -> visited E s ->
  snd (collect E fuel stop_at id s) = snd (collect E fuel stop_at id (mkState [] [] 0)).

(** a leaf whose configuration does not say when it expires *)
Definition no_exp : cenv := ex_env
  [("rp/wk", TJws 3 (mkStmt "rp" "rp" None (Some [3]) None None None None))] [] [].

(** the second collection raises KeyError *)
Theorem C60_caching_transparent_refuted : ~ C60_full.
Proof.
  intros H.
  assert (V : visited no_exp (fst (collect no_exp 3 "" "rp" (mkState [] [] 0))))
    by (constructor; [constructor|reflexivity]).
  specialize (H no_exp 3 "" "rp" _ (conj (fun _ _ => eq_refl) (fun _ => eq_refl)) V).
  vm_compute in H. discriminate.
Qed.

(** Missing: federations with documents that are expired or do not say when they expire, and identifiers
    containing "!".  What holds: in a federation of fresh documents whose identifiers do not contain "!",
    the result, tree or exception, is the same whatever was collected before. *)
Theorem C60_caching_transparent_partial : forall E fuel stop_at id s,
  static E -> serves_fresh E -> clean_federation E (mkState [] [] 0) -> clean id -> visited E s ->
  snd (collect E fuel stop_at id s) = snd (collect E fuel stop_at id (mkState [] [] 0)).
Proof.
  intros E fuel stop_at id s HS HF HC Hid V.
  assert (HC' := hints_clean E _ HS HC).
  destruct (collect_eq E HS HF HC' stop_at fuel id Hid s) as (s1 & -> & _).
  { apply (visited_consistent E HS HF HC' s V). }
  destruct (collect_eq E HS HF HC' stop_at fuel id Hid (mkState [] [] 0)) as (s2 & -> & _).
  { apply (visited_consistent E HS HF HC' _ (visited_none E 0)). }
  reflexivity.
Qed.

Lemma fed_serves_fresh : serves_fresh fed.
Proof.
  intros n q k p H. unfold fed, ex_env, static_net in H. cbn [e_net] in H.
  destruct q as [u|ep i s]; simpl in H.
  - repeat match type of H with context [String.eqb ?a ?b] => destruct (String.eqb a b) end;
      try discriminate; injection H as <- <-; eexists; split; reflexivity.
  - repeat match type of H with context [String.eqb ?a ?b] => destruct (String.eqb a b) end;
      try discriminate; injection H as <- <-; eexists; split; reflexivity.
Qed.

Example C60_ex : static fed /\ serves_fresh fed /\ clean_federation fed (mkState [] [] 0) /\
  visited fed (fst (collect fed 3 "" "im" (mkState [] [] 0))) /\
  fst (collect fed 3 "" "im" (mkState [] [] 0)) <> mkState [] [] 0 /\
  snd (collect fed 3 "" "rp" (fst (collect fed 3 "" "im" (mkState [] [] 0))))
  = Ok (Some (fed_tree, TJws 3 (ec "rp" 3 1000 (Some ["im"])))).
Proof.
  split; [split; reflexivity|]. split; [apply fed_serves_fresh|].
  split; [apply (proj1 (proj2 C33_ex))|].
  split; [constructor; [constructor|reflexivity]|].
  split; [discriminate|reflexivity].
Qed.

(** ** C34: as long as everything is fresh, the second collection makes no request *)

(** the first collection found a statement at every branch; the second is run at a later time with any
    network *)
Theorem C34_second_collection : forall E E' fuel stop_at id s s' tr t,
  static E -> serves_fresh E -> clean_federation E (mkState [] [] 0) -> clean id -> visited E s ->
  collect E fuel stop_at id s = (s', Ok (Some (tr, t))) -> complete E id tr ->
  e_anchors E' = e_anchors E -> (0 <= e_delta E')%Z -> all_fresh E' s' ->
  collect E' fuel stop_at id s' = (s', Ok (Some (tr, t))).
Proof.
  intros E E' fuel stop_at id s s' tr t HS HF HC Hid V Hcol Hcomp Ha Hd Hfr.
  assert (HC' := hints_clean E _ HS HC).
  destruct (collect_eq E HS HF HC' stop_at fuel id Hid s) as (s1 & E1 & C1 & _ & P1).
  { apply (visited_consistent E HS HF HC' s V). }
  rewrite Hcol in E1. injection E1 as <- Er. symmetry in Er.
  destruct (P1 _ Er) as [Hin (c & Hv & Ht & Hg)].
  unfold collect. unfold mbind at 1, StateM.get, cache_get. rewrite Hg.
  destruct (proj1 Hfr id _ Hg) as (z & Hz & Hlt). cbn [ce_stmt] in Hz.
  unfold mbind at 1 2, now at 1. unfold mbind at 1, lift at 1. unfold too_old at 1. cbn [ce_stmt].
  rewrite Hz. destruct (Z.leb_spec (z + e_delta E') (e_clock E' (st_tick s'))) as [Hold|_]; [lia|].
  cbn [ce_jws]. unfold ret at 1. cbn beta iota. unfold mbind.
  rewrite (again_tree E HC' E' Ha s' stop_at fuel C1 Hfr id t c tr Hid Hv Ht Hin Hcomp). reflexivity.
Qed.

(** a network that no longer answers, 400 seconds later *)
Definition dead (E : cenv) (t : Z) : cenv :=
  mkEnv (e_delta E) (e_anchors E) (fun _ _ => RNoConnection) (fun _ => t) (e_lib E) (e_wk E) (e_tenant E).

Definition fed_state : cstate := fst (collect fed 3 "" "rp" (mkState [] [] 0)).

Example C34_second_collection_ex :
  visited fed (mkState [] [] 0) /\ complete fed "rp" fed_tree /\
  e_anchors (dead fed 400) = e_anchors fed /\ all_fresh (dead fed 400) fed_state /\
  collect (dead fed 400) 3 "" "rp" fed_state
  = (fed_state, Ok (Some (fed_tree, TJws 3 (ec "rp" 3 1000 (Some ["im"]))))).
Proof.
  split; [constructor|]. split.
  { repeat (constructor; [intros a Ha; simpl in Ha; intuition discriminate|];
            intros a v t Hin; simpl in Hin; destruct Hin as [[= <- <- <-]|[]]).
    constructor; [intros a []|intros a v t []]. }
  split; [reflexivity|]. split; [|reflexivity]. split.
  - intros id e H. apply dget_In in H. vm_compute in H.
    destruct H as [[= <- <-]|[[= <- <-]|[[= <- <-]|[]]]]; eexists; split; reflexivity.
  - intros k z H. unfold fed_state in H.
    apply dget_In in H. vm_compute in H.
    destruct H as [[=]|[[= <- <-]|[[=]|[[= <- <-]|[]]]]]; vm_compute; discriminate.
Qed.

Print Assumptions C60_caching_transparent_refuted.
Print Assumptions C60_caching_transparent_partial.
Print Assumptions C34_second_collection.
