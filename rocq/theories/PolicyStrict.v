(** Combining two claim policies (C12). *)
From Verif Require Export PolicyOps2.

Lemma in_eq_any x l : In_eq x l <-> vmem x l = true.
Proof. apply In_eq_vmem. Qed.

(** in the operators combined by intersection the result allows no more than either side *)
Lemma inter_shrinks O op x y z S :
  In op ["subset_of"; "one_of"] ->
  combine_no_value O x y = Ok z ->
  dget op x = Some (VList S) \/ dget op y = Some (VList S) ->
  exists T, dget op z = Some (VList T) /\ (forall e, In_eq e T -> In_eq e S).
Proof.
  intros HO H D.
  assert (HO4 : In op ["subset_of"; "superset_of"; "one_of"; "add"]) by (simpl in *; tauto).
  assert (HO3 : In op ["subset_of"; "superset_of"; "one_of"]) by (simpl in *; tauto).
  assert (X := comb_set_op O x y z op HO4 H).
  destruct (dget op x) as [a|] eqn:Ea, (dget op y) as [b|] eqn:Eb.
  - destruct X as [v [E [_ Z]]]. destruct (inter_op _ _ _ _ _ HO3 E) as [sx [sy [P1 [P2 ->]]]].
    eexists. split; [exact Z|]. intros e He. rewrite in_eq_any in *.
    destruct (inter_vmem_any _ _ _ _ _ _ P1 P2 He) as [Q1 Q2].
    destruct D as [D|D]; injection D as ->; assumption.
  - destruct D as [D|D]; [|discriminate]. injection D as ->. eauto.
  - destruct D as [D|D]; [discriminate|]. injection D as ->. eauto.
  - destruct D; discriminate.
Qed.

Lemma combine_value_fixed O sup child c v :
  combine_claim_policy O sup child = Ok c ->
  dget "value" sup = Some v -> dget "value" c = Some v.
Proof. apply comb_value_l. Qed.

Lemma no_value_sup O sup child c :
  combine_claim_policy O sup child = Ok c -> dget "value" sup = None ->
  combine_no_value O sup child = Ok c.
Proof.
  intros H N. destruct (combine_claim_cases _ _ _ _ H) as
    [w H1 H2 ->|w e H1 H2 H3 ->|w w' H1 H2 H3 H4 ->|H1 H2]; try congruence.
Qed.

Lemma value_from_child O sup child c v :
  combine_no_value O sup child = Ok c -> dget "value" sup = None ->
  dget "value" child = Some v -> dget "value" c = Some v.
Proof.
  intros H N Hv. assert (S := combine_no_value_spec _ _ _ _ H "value" known_value).
  rewrite N, Hv in S. destruct S as [w [D ->]]. f_equal.
  change (do_value sup child "value" = Ok w) in D. unfold do_value in D. rewrite N, Hv in D.
  congruence.
Qed.

Lemma combine_strict O sup child c ov :
  combine_claim_policy O sup child = Ok c -> dget "value" sup = None ->
  bool_essential sup -> bool_essential child ->
  meets c ov -> meets sup ov /\ meets child ov.
Proof.
  intros H N BS BC [M1 [M2 [M3 M4]]].
  assert (H' := no_value_sup _ _ _ _ H N).
  assert (SUB : forall S w, dget "subset_of" sup = Some (VList S) \/
                            dget "subset_of" child = Some (VList S) ->
                            ov = Some w -> list_within w S).
  { intros S w D E. destruct (inter_shrinks O "subset_of" _ _ _ S (or_introl eq_refl) H' D)
      as [T [HT I]]. destruct (M2 T w HT E) as [l [-> L]]. exists l. split; [reflexivity|].
    intros x Hx; apply I, L, Hx. }
  assert (ONE : forall S w, dget "one_of" sup = Some (VList S) \/
                            dget "one_of" child = Some (VList S) ->
                            ov = Some w -> In_eq w S).
  { intros S w D E. destruct (inter_shrinks O "one_of" _ _ _ S (or_intror (or_introl eq_refl)) H' D)
      as [T [HT I]]. apply I. exact (M3 T w HT E). }
  assert (ESS : dget "essential" sup = Some (VBool true) \/
                dget "essential" child = Some (VBool true) -> ov <> None).
  { intros D. apply M4. assert (X := comb_essential _ _ _ _ H').
    destruct (dget "essential" sup) as [a|] eqn:Ea, (dget "essential" child) as [b|] eqn:Eb.
    - destruct (BS a Ea) as [ba ->]. destruct (BC b Eb) as [bb ->]. rewrite X.
      destruct D as [D|D]; injection D as ->; [reflexivity|]. destruct ba; reflexivity.
    - destruct D as [D|D]; [|discriminate]. rewrite X; exact D.
    - destruct D as [D|D]; [discriminate|]. rewrite X; exact D.
    - destruct D; discriminate. }
  split; (split; [|split; [|split]]); eauto.
  - intros v Hv; congruence.
  - intros v Hv. apply M1. eapply value_from_child; eauto.
Qed.

Lemma combine_keeps_default O sup child c d :
  combine_claim_policy O sup child = Ok c -> dget "value" sup = None ->
  dget "default" sup = Some d -> dget "default" c = Some d.
Proof.
  intros H N Hd. assert (X := comb_default _ _ _ _ (no_value_sup _ _ _ _ H N)).
  rewrite Hd in X. destruct (dget "default" child); tauto.
Qed.

Lemma has_element_vmem v x : has_element v x <-> vmem x (members v) = true.
Proof.
  destruct v; simpl; rewrite ?orb_false_r; try tauto. apply In_eq_vmem.
Qed.

Lemma combine_keeps_add O sup child c A x :
  combine_claim_policy O sup child = Ok c -> dget "value" sup = None ->
  dget "add" sup = Some A -> has_element A x ->
  exists B, dget "add" c = Some B /\ has_element B x.
Proof.
  intros H N HA HX.
  assert (X := comb_set_op O sup child c "add" ltac:(simpl; tauto) (no_value_sup _ _ _ _ H N)).
  rewrite HA in X. destruct (dget "add" child) as [y|]; [|eauto].
  destruct X as [v [E [_ Z]]]. exists v. split; [exact Z|].
  rewrite has_element_vmem in *.
  change (combine_add O A y = Ok v) in E.
  assert (Hx : hashable x = true).
  { unfold combine_add in E. apply bind_ok in E. destruct E as [sa [Sa _]].
    destruct (set_or_single_ok _ _ Sa) as [AH _]. eapply vmem_hashable; eauto. }
  rewrite (combine_add_mem _ _ _ _ _ Hx E), HX. reflexivity.
Qed.

(** superset_of: only what both sides require is required *)
Lemma combine_superset O sup child c ov :
  combine_claim_policy O sup child = Ok c -> dget "value" sup = None ->
  dget "superset_of" child = None -> meets_superset c ov -> meets_superset sup ov.
Proof.
  intros H N HC M S w HS E.
  assert (X := comb_set_op O sup child c "superset_of" ltac:(simpl; tauto) (no_value_sup _ _ _ _ H N)).
  rewrite HS, HC in X. exact (M S w X E).
Qed.
