(** Independence of the set iteration order (C14) and repeated resolution (C13). *)
From Verif Require Export PolicyOps2.

(** ** equality up to the order of lists of scalars *)
Definition set_eq (s t : list val) : Prop :=
  all_hashable s /\ all_hashable t /\ forall x, hashable x = true -> vmem x s = vmem x t.

Definition v_eq (a b : val) : Prop :=
  a = b \/ exists l m, a = VList l /\ b = VList m /\ set_eq l m.

Definition o_eq (a b : option val) : Prop :=
  match a, b with
  | None, None => True
  | Some v, Some w => v_eq v w
  | _, _ => False
  end.

Lemma set_eq_refl s : all_hashable s -> set_eq s s.
Proof. intros H; split; [exact H|]; split; auto. Qed.

Lemma set_eq_nil s t : set_eq s t -> is_nil s = is_nil t.
Proof.
  intros [Hs [Ht H]]. destruct s as [|x s], t as [|y t]; try reflexivity.
  - specialize (H y (Ht y (or_introl eq_refl))). simpl in H.
    rewrite py_eqb_refl_h in H by (apply Ht; left; reflexivity). discriminate.
  - specialize (H x (Hs x (or_introl eq_refl))). simpl in H.
    rewrite py_eqb_refl_h in H by (apply Hs; left; reflexivity). discriminate.
Qed.

Lemma set_eq_vmem s t v : set_eq s t -> vmem v s = vmem v t.
Proof.
  intros [Hs [Ht H]]. destruct (hashable v) eqn:Hv; [apply H, Hv|].
  destruct (vmem v s) eqn:E1.
  - rewrite (vmem_hashable _ _ Hs E1) in Hv; discriminate.
  - destruct (vmem v t) eqn:E2; [|reflexivity].
    rewrite (vmem_hashable _ _ Ht E2) in Hv; discriminate.
Qed.

Lemma v_eq_refl v : v_eq v v.
Proof. left; reflexivity. Qed.

Lemma o_eq_refl o : o_eq o o.
Proof. destruct o; simpl; [apply v_eq_refl | exact I]. Qed.

Lemma v_eq_sets s t : set_eq s t -> v_eq (VList s) (VList t).
Proof. intros H; right; eauto. Qed.

Lemma v_eq_is_list a b : v_eq a b -> is_list a = is_list b.
Proof. intros [->|[l [m [-> [-> _]]]]]; reflexivity. Qed.

Lemma v_eq_scalar a b : v_eq a b -> is_list a = false -> a = b.
Proof. intros [->|[l [m [-> [-> _]]]]]; [reflexivity | discriminate]. Qed.

Lemma v_eq_truthy a b : v_eq a b -> truthy a = truthy b.
Proof.
  intros [->|[l [m [-> [-> H]]]]]; [reflexivity|]. simpl. rewrite (set_eq_nil _ _ H). reflexivity.
Qed.

Lemma set_of_list_ok l : all_hashable l -> exists s, set_of_list l = Ok s.
Proof.
  intros H. unfold set_of_list. rewrite (proj2 (forallb_hashable l) H). eauto.
Qed.

Lemma py_set_cong a b s :
  v_eq a b -> py_set a = Ok s -> exists t, py_set b = Ok t /\ set_eq s t.
Proof.
  intros [->|[l [m [-> [-> [Hl [Hm E]]]]]]] H.
  - exists s. split; [exact H|]. apply set_eq_refl. eapply py_set_hashable; eauto.
  - destruct (set_of_list_ok m Hm) as [t Ht]. exists t. split; [exact Ht|].
    split; [eapply py_set_hashable; exact H|].
    split; [eapply (py_set_hashable (VList m)); exact Ht|].
    intros x Hx. rewrite (py_set_mem (VList l) s x H Hx), (py_set_mem (VList m) t x Ht Hx).
    apply E; exact Hx.
Qed.

Lemma set_or_single_cong a b s :
  v_eq a b -> set_or_single a = Ok s -> exists t, set_or_single b = Ok t /\ set_eq s t.
Proof.
  intros [->|[l [m [-> [-> [Hl [Hm E]]]]]]] H.
  - exists s. split; [exact H|]. apply set_eq_refl.
    destruct (set_or_single_ok b s H) as [H1 ->]. apply dedup_hashable, H1.
  - destruct (set_of_list_ok m Hm) as [t Ht]. exists t. split; [exact Ht|].
    split; [eapply (py_set_hashable (VList l)); exact H|].
    split; [eapply (py_set_hashable (VList m)); exact Ht|].
    intros x Hx. rewrite (py_set_mem (VList l) s x H Hx), (py_set_mem (VList m) t x Ht Hx).
    apply E; exact Hx.
Qed.

Lemma inter_cong O1 O2 s t s' t' :
  set_eq s s' -> set_eq t t' ->
  set_eq (iov O1 (set_inter s t)) (iov O2 (set_inter s' t')).
Proof.
  intros [A1 [A2 A3]] [B1 [B2 B3]].
  split; [apply iov_hashable, set_inter_hashable; exact A1|].
  split; [apply iov_hashable, set_inter_hashable; exact A2|].
  intros x Hx. rewrite !iov_mem, !set_inter_mem by exact Hx. rewrite A3, B3 by exact Hx. reflexivity.
Qed.

Lemma union_cong O1 O2 s t s' t' :
  set_eq s s' -> set_eq t t' ->
  set_eq (iov O1 (set_union s t)) (iov O2 (set_union s' t')).
Proof.
  intros [A1 [A2 A3]] [B1 [B2 B3]].
  split; [apply iov_hashable, set_union_hashable; assumption|].
  split; [apply iov_hashable, set_union_hashable; assumption|].
  intros x Hx. rewrite !iov_mem, !set_union_mem by exact Hx. rewrite A3, B3 by exact Hx. reflexivity.
Qed.

Lemma diff_hashable s t : all_hashable s -> all_hashable (set_diff s t).
Proof. intros H x Hx. unfold set_diff in Hx. apply filter_In in Hx. apply H; tauto. Qed.

Lemma diff_cong s t s' t' : set_eq s s' -> set_eq t t' -> set_eq (set_diff s t) (set_diff s' t').
Proof.
  intros [A1 [A2 A3]] [B1 [B2 B3]].
  split; [apply diff_hashable; assumption|]. split; [apply diff_hashable; assumption|].
  intros x Hx. rewrite !set_diff_mem by exact Hx. rewrite A3, B3 by exact Hx. reflexivity.
Qed.

Lemma differs_cong a b a' b' d :
  v_eq a a' -> v_eq b b' -> differs a b = Ok d -> differs a' b' = Ok d.
Proof.
  intros E1 E2 H. unfold differs in *.
  apply bind_ok in H. destruct H as [s [H1 H]].
  apply bind_ok in H. destruct H as [t [H2 H]]. injection H as <-.
  destruct (py_set_cong _ _ _ E1 H1) as [s' [P1 Q1]].
  destruct (py_set_cong _ _ _ E2 H2) as [t' [P2 Q2]].
  rewrite P1, P2. cbn [bind]. rewrite (set_eq_nil _ _ (diff_cong _ _ _ _ Q1 Q2)). reflexivity.
Qed.

(** ** claim policies *)
Definition set_ops : list string := ["subset_of"; "superset_of"; "one_of"; "add"].

Definition op_eq (op : string) (a b : option val) : Prop :=
  if smem op set_ops then o_eq a b else a = b.

Definition cp_eq (p q : claim_policy) : Prop := forall op, op_eq op (dget op p) (dget op q).

Lemma op_eq_refl op a : op_eq op a a.
Proof. unfold op_eq. destruct (smem op set_ops); [apply o_eq_refl | reflexivity]. Qed.

Lemma cp_eq_refl p : cp_eq p p.
Proof. intros op; apply op_eq_refl. Qed.

Lemma op_eq_o op a b : op_eq op a b -> o_eq a b.
Proof. unfold op_eq. destruct (smem op set_ops); [auto|]. intros ->; apply o_eq_refl. Qed.

Lemma cp_eq_mem p q op : cp_eq p q -> dmem op p = dmem op q.
Proof.
  intros H. specialize (H op). apply op_eq_o in H. rewrite !dmem_get.
  destruct (dget op p), (dget op q); simpl in H; try reflexivity; destruct H.
Qed.

Lemma cp_eq_plain p q op : smem op set_ops = false -> cp_eq p q -> dget op p = dget op q.
Proof. intros E H. specialize (H op). unfold op_eq in H. rewrite E in H. exact H. Qed.

Lemma cp_eq_set p q op v :
  cp_eq p q -> dget op p = Some v -> exists w, dget op q = Some w /\ v_eq v w.
Proof.
  intros H E. specialize (H op). apply op_eq_o in H. rewrite E in H.
  destruct (dget op q) as [w|]; [|destruct H]. eauto.
Qed.

Lemma cp_eq_none p q op : cp_eq p q -> dget op p = None -> dget op q = None.
Proof.
  intros H E. specialize (H op). apply op_eq_o in H. rewrite E in H.
  destruct (dget op q); [destruct H | reflexivity].
Qed.

Lemma op2func_cong O1 O2 op a a' b v :
  v_eq a a' -> op2func O1 op a b = Ok v ->
  exists w, op2func O2 op a' b = Ok w /\ v_eq v w.
Proof.
  intros E H.
  assert (INT : forall v, combine_subset_of O1 a b = Ok v ->
            exists w, combine_subset_of O2 a' b = Ok w /\ v_eq v w).
  { clear H v. intros v H. unfold combine_subset_of in *.
    apply bind_ok in H. destruct H as [s [H1 H]].
    apply bind_ok in H. destruct H as [t [H2 H]]. injection H as <-.
    destruct (py_set_cong _ _ _ E H1) as [s' [P1 Q1]].
    destruct (py_set_cong _ _ _ (v_eq_refl b) H2) as [t' [P2 Q2]].
    rewrite P1, P2. cbn [bind]. eexists; split; [reflexivity|].
    apply v_eq_sets, inter_cong; assumption. }
  unfold op2func in *.
  destruct (String.eqb op "subset_of"); [apply INT, H|].
  destruct (String.eqb op "superset_of"); [apply INT, H|].
  destruct (String.eqb op "one_of"); [apply INT, H|].
  destruct (String.eqb op "add"); [|discriminate].
  unfold combine_add in *.
  apply bind_ok in H. destruct H as [s [H1 H]].
  apply bind_ok in H. destruct H as [t [H2 H]]. injection H as <-.
  destruct (set_or_single_cong _ _ _ E H1) as [s' [P1 Q1]].
  destruct (set_or_single_cong _ _ _ (v_eq_refl b) H2) as [t' [P2 Q2]].
  rewrite P1, P2. cbn [bind]. eexists; split; [reflexivity|].
  apply v_eq_sets, union_cong; assumption.
Qed.

Lemma known_split p : known p -> In p set_ops \/ p = "value" \/ p = "default" \/ p = "essential".
Proof. unfold known, policy_functions, set_ops; simpl; intros H; decompose [or] H; subst; tauto. Qed.

Lemma do_policy_cong O1 O2 p a a' b v :
  known p -> cp_eq a a' -> do_policy O1 p a b = Ok v ->
  exists w, do_policy O2 p a' b = Ok w /\ op_eq p (Some v) (Some w).
Proof.
  intros K E H. destruct (known_split p K) as [S|[-> |[-> | ->]]].
  - rewrite do_policy_set in * by exact S. unfold do_sub_one_super_add in *.
    unfold op_eq. rewrite (proj2 (smem_In p set_ops) S). cbn [o_eq].
    destruct (dget p a) as [x|] eqn:Ea.
    + destruct (cp_eq_set _ _ _ _ E Ea) as [x' [Ea' Q]]. rewrite Ea'.
      destruct (dget p b) as [y|].
      * apply bind_ok in H. destruct H as [u [H1 H2]].
        destruct (truthy u) eqn:T; [|discriminate]. injection H2 as <-.
        destruct (op2func_cong O1 O2 p x x' y u Q H1) as [w [P1 P2]].
        rewrite P1. cbn [bind]. rewrite <- (v_eq_truthy _ _ P2), T. eauto.
      * injection H as <-. eauto.
    + rewrite (cp_eq_none _ _ _ E Ea).
      destruct (dget p b) as [y|]; injection H as <-; eexists; (split; [reflexivity|apply v_eq_refl]).
  - exists v. split; [|reflexivity].
    change (do_value a b "value" = Ok v) in H. change (do_value a' b "value" = Ok v).
    unfold do_value in *. rewrite <- (cp_eq_plain a a') by (auto; reflexivity). exact H.
  - exists v. split; [|reflexivity].
    change (do_default a b "default" = Ok v) in H. change (do_default a' b "default" = Ok v).
    unfold do_default in *. rewrite <- (cp_eq_plain a a') by (auto; reflexivity). exact H.
  - exists v. split; [|reflexivity].
    change (do_essential a b "essential" = Ok v) in H.
    change (do_essential a' b "essential" = Ok v).
    unfold do_essential in *. rewrite <- (cp_eq_plain a a') by (auto; reflexivity). exact H.
Qed.

Lemma foldM_dset_ok A (f : string -> res A) L : forall acc,
  (forall p, In p L -> exists v, f p = Ok v) ->
  exists r, foldM (fun acc p => let* v := f p in Ok (dset p v acc)) L acc = Ok r.
Proof.
  induction L as [|q L IH]; intros acc H; simpl; [eauto|].
  destruct (H q (or_introl eq_refl)) as [v ->]. cbn [bind].
  apply IH. intros p Hp; apply H; right; exact Hp.
Qed.

Lemma same_ops_ext a a' b : (forall x, In x a <-> In x a') -> same_ops a b = same_ops a' b.
Proof.
  intros H. unfold same_ops. f_equal.
  - apply eq_true_iff_eq. rewrite !forallb_forall.
    split; intros X x Hx; apply X, H, Hx.
  - apply eq_true_iff_eq. rewrite !forallb_forall.
    split; intros X x Hx; specialize (X x Hx); rewrite smem_In in *; apply H, X.
Qed.

Lemma reject_if_cong a b a' b' u :
  v_eq a a' -> v_eq b b' -> reject_if (differs a b) = Ok u -> reject_if (differs a' b') = Ok u.
Proof.
  intros E1 E2 H. unfold reject_if in *. apply bind_ok in H. destruct H as [d [H1 H2]].
  rewrite (differs_cong _ _ _ _ _ E1 E2 H1). exact H2.
Qed.

Lemma dindex_cong p q op v :
  cp_eq p q -> dindex op p = Ok v -> exists w, dindex op q = Ok w /\ v_eq v w.
Proof.
  intros E H. apply dindex_ok in H. destruct (cp_eq_set _ _ _ _ E H) as [w [H1 H2]].
  exists w. split; [apply dindex_ok, H1 | exact H2].
Qed.

Ltac idx H E := apply bind_ok in H; destruct H as [? [? H]];
  match goal with X : dindex ?op _ = Ok ?v |- _ =>
    destruct (dindex_cong _ _ _ _ E X) as [? [-> ?]]; clear X; cbn [bind] end.

Lemma rule_check_cong comb comb' r r' u :
  (forall x, In x comb <-> In x comb') -> cp_eq r r' ->
  rule_check comb r = Ok u -> rule_check comb' r' = Ok u.
Proof.
  intros C E H. unfold rule_check in *.
  rewrite <- !(same_ops_ext comb comb') by exact C.
  destruct (same_ops comb ["superset_of"; "subset_of"]).
  { idx H E. idx H E. eapply reject_if_cong; eauto. }
  destruct (same_ops comb ["superset_of"; "subset_of"; "default"]).
  { idx H E. idx H E. idx H E.
    apply bind_ok in H. destruct H as [u1 [R1 H]].
    apply bind_ok in H. destruct H as [u2 [R2 H]].
    erewrite reject_if_cong by eauto. cbn [bind].
    erewrite reject_if_cong by eauto. cbn [bind].
    eapply reject_if_cong; eauto. }
  destruct (same_ops comb ["subset_of"; "default"]).
  { idx H E. idx H E. eapply reject_if_cong; eauto. }
  destruct (same_ops comb ["superset_of"; "default"]).
  { idx H E. idx H E. eapply reject_if_cong; eauto. }
  destruct (same_ops comb ["one_of"; "default"]).
  { idx H E. idx H E.
    apply bind_ok in H. destruct H as [d [R1 H]].
    apply bind_ok in H. destruct H as [o [R2 H]].
    edestruct set_or_single_cong as [d' [P1 Q1]]; [eassumption | exact R1 |].
    edestruct py_set_cong as [o' [P2 Q2]]; [|exact R2|]; [eassumption|].
    rewrite P1, P2. cbn [bind]. rewrite <- (set_eq_nil _ _ (diff_cong _ _ _ _ Q1 Q2)). exact H. }
  destruct (same_ops comb ["subset_of"; "add"]).
  { idx H E. idx H E. eapply reject_if_cong; eauto. }
  destruct (same_ops comb ["superset_of"; "add"]).
  { idx H E. idx H E. eapply reject_if_cong; eauto. }
  exact H.
Qed.
