(** Operator by operator: what a policy anywhere in the chain means for the resolved value. *)
From Verif Require Export PolicyLemmas.

Lemma In_eq_vmem x l : In_eq x l <-> vmem x l = true.
Proof. unfold In_eq. rewrite vmem_true. reflexivity. Qed.

(** ** lifting along the chain *)
Lemma chain_all O (K : claim_policy -> Prop) et c first rest a :
  (forall x y z, K x -> K y -> combine_claim_policy O x y = Ok z -> K z) ->
  (forall s p, In s (first :: rest) -> cpol et c s = Some p -> K p) ->
  foldM (fun a s => ocombine O a (cpol et c s)) rest (cpol et c first) = Ok a ->
  forall p, a = Some p -> K p.
Proof.
  intros KC KE F p Hp.
  apply (ofold_all O K (cpol et c) rest KC) with (a := cpol et c first) (r := a).
  - intros s q Hs; apply KE; right; exact Hs.
  - intros q; apply KE; left; reflexivity.
  - exact F.
  - exact Hp.
Qed.

Lemma chain_some O (K I : claim_policy -> Prop) et c first rest a s0 p0 :
  (forall x y z, K x -> K y -> combine_claim_policy O x y = Ok z -> K z) ->
  (forall x y z, K x -> K y -> I x -> combine_claim_policy O x y = Ok z -> I z) ->
  (forall x y z, K x -> K y -> I y -> combine_claim_policy O x y = Ok z -> I z) ->
  (forall s p, In s (first :: rest) -> cpol et c s = Some p -> K p) ->
  foldM (fun a s => ocombine O a (cpol et c s)) rest (cpol et c first) = Ok a ->
  In s0 (first :: rest) -> cpol et c s0 = Some p0 -> I p0 ->
  exists p, a = Some p /\ I p /\ K p.
Proof.
  intros KC I1 I2 KE F Hs0 Hp0 HI.
  apply (ofold_some O K I (cpol et c) rest KC I1 I2) with (a := cpol et c first) (r := a).
  - intros s q Hs; apply KE; right; exact Hs.
  - intros q; apply KE; left; reflexivity.
  - exact F.
  - destruct Hs0 as [->|Hs0]; [left; eauto | right; eauto].
Qed.

(** ** what the operators do to a list *)
Definition lists (ov : option val) : Prop := forall v, ov = Some v -> is_list v = true.
Definition scalars (ov : option val) : Prop := forall v, ov = Some v -> is_list v = false.

Lemma differs_false U v :
  differs U v = Ok false ->
  forall x, hashable x = true -> vmem x (elems U) = true -> vmem x (elems v) = true.
Proof.
  unfold differs. intros H x Hx Hm.
  apply bind_ok in H. destruct H as [sU [H1 H]].
  apply bind_ok in H. destruct H as [sv [H2 H]]. injection H as H.
  apply negb_false_iff, is_nil_true in H.
  assert (AU := py_set_hashable _ _ H1).
  rewrite (set_diff_nil _ _ AU) in H.
  rewrite <- (py_set_mem _ _ _ H1) in Hm by exact Hx.
  apply vmem_true in Hm. destruct Hm as [y [Hy Hxy]].
  rewrite <- (py_set_mem _ _ _ H2) by exact Hx.
  rewrite (vmem_eq x y) by assumption. apply H; exact Hy.
Qed.

Lemma tail_none O p r : v_tail O p None = Ok r -> r = None.
Proof.
  unfold v_tail. destruct (dget "subset_of" p); cbn [opt_op v_subset_of bind];
    destruct (dget "superset_of" p); cbn [opt_op v_superset_of bind];
    (destruct (dget "essential" p) as [e|]; cbn [opt_op v_essential];
     [destruct (py_eqb e (VBool true)); congruence | congruence]).
Qed.

Lemma tail_list O p l r :
  v_tail O p (Some (VList l)) = Ok r ->
  exists w, r = Some (VList w) /\
    match dget "subset_of" p with
    | None => w = l
    | Some T => all_hashable w /\
                forall x, hashable x = true -> vmem x w = vmem x (elems T) && vmem x l
    end /\
    (forall U, dget "superset_of" p = Some U ->
       forall x, hashable x = true -> vmem x (elems U) = true -> vmem x w = true).
Proof.
  unfold v_tail. intros H.
  apply bind_ok in H. destruct H as [o1 [H1 H]].
  apply bind_ok in H. destruct H as [o2 [H2 H]].
  assert (E1 : exists w, o1 = Some (VList w) /\
    match dget "subset_of" p with
    | None => w = l
    | Some T => all_hashable w /\
                forall x, hashable x = true -> vmem x w = vmem x (elems T) && vmem x l
    end).
  { destruct (dget "subset_of" p) as [T|]; cbn [opt_op] in H1.
    - unfold v_subset_of in H1. cbn [is_list] in H1.
      apply bind_ok in H1. destruct H1 as [w [H1 H3]].
      apply bind_ok in H1. destruct H1 as [sT [S1 H1]].
      apply bind_ok in H1. destruct H1 as [sl [S2 H1]]. injection H1 as <-.
      destruct (is_nil _); [discriminate|]. injection H3 as <-.
      eexists; split; [reflexivity|]. split.
      + apply iov_hashable, set_inter_hashable. eapply py_set_hashable; eauto.
      + intros x Hx. erewrite inter_mem by eauto. reflexivity.
    - injection H1 as <-. exists l; auto. }
  destruct E1 as [w [-> E1]].
  assert (E2 : o2 = Some (VList w) /\ forall U, dget "superset_of" p = Some U ->
            differs U (VList w) = Ok false).
  { destruct (dget "superset_of" p) as [U|]; cbn [opt_op] in H2.
    - unfold v_superset_of in H2. apply bind_ok in H2. destruct H2 as [d [D H2]].
      destruct d; [discriminate|]. injection H2 as <-. split; [reflexivity|].
      intros U' EU; injection EU as <-; exact D.
    - injection H2 as <-. split; [reflexivity|]. discriminate. }
  destruct E2 as [-> E2].
  assert (E3 : r = Some (VList w)).
  { destruct (dget "essential" p); cbn [opt_op v_essential] in H; congruence. }
  exists w. split; [exact E3|]. split; [exact E1|].
  intros U HU x Hx Hm. exact (differs_false _ _ (E2 U HU) x Hx Hm).
Qed.

(** add, default and one_of on a list-valued claim *)
Lemma claim_list O p ov r :
  dget "value" p = None ->
  (forall v, dget "add" p = Some v -> is_list v = true) ->
  (forall v, dget "default" p = Some v -> is_list v = true) ->
  lists ov ->
  claim_result O p ov = Ok r ->
  exists ov2, lists ov2 /\ v_tail O p ov2 = Ok r.
Proof.
  unfold claim_result. intros Hv Ha Hd Ho H. rewrite Hv in H.
  apply bind_ok in H. destruct H as [o1 [H1 H]].
  apply bind_ok in H. destruct H as [o2 [H2 H]].
  assert (L1 : lists o1).
  { destruct (dget "add" p) as [A|]; cbn [opt_op] in H1.
    - destruct ov as [v|]; simpl in H1.
      + apply bind_ok in H1. destruct H1 as [s1 [_ H1]].
        apply bind_ok in H1. destruct H1 as [s2 [_ H1]]. injection H1 as <-.
        intros w E; injection E as <-; reflexivity.
      + injection H1 as <-. intros w E; injection E as <-; auto.
    - injection H1 as <-; exact Ho. }
  assert (L2 : lists o2).
  { destruct (dget "default" p) as [A|]; cbn [opt_op] in H2.
    - destruct o1 as [v|]; simpl in H2; injection H2 as <-; [exact L1|].
      intros w E; injection E as <-; auto.
    - injection H2 as <-; exact L1. }
  exists o2. split; [exact L2|].
  unfold v_one_of in H. destruct (dget "one_of" p) as [T|]; [|exact H].
  destruct o2 as [v|]; [|exact H]. rewrite (L2 v eq_refl) in H. exact H.
Qed.

(** ** C01 subset_of *)
Definition K_lists (S : list val) (p : claim_policy) : Prop :=
  (forall v, dget "value" p = Some v -> list_within v S) /\
  (forall v, dget "add" p = Some v -> is_list v = true) /\
  (forall v, dget "default" p = Some v -> is_list v = true).

Lemma add_is_list O x y v : op2func O "add" x y = Ok v -> is_list v = true.
Proof.
  change (op2func O "add") with (combine_add O). unfold combine_add. intros H.
  apply bind_ok in H. destruct H as [s1 [_ H]].
  apply bind_ok in H. destruct H as [s2 [_ H]]. injection H as <-; reflexivity.
Qed.

Lemma default_op O x y v : op2func O "default" x y <> Ok v.
Proof. discriminate. Qed.
Lemma value_op O x y v : op2func O "value" x y <> Ok v.
Proof. discriminate. Qed.

Lemma comb_value_from O a b c v :
  combine_claim_policy O a b = Ok c -> dget "value" c = Some v ->
  dget "value" a = Some v \/ dget "value" b = Some v.
Proof.
  intros H Hv. destruct (comb_from _ _ _ _ _ _ known_value H Hv)
    as [?|[?|[[x [y [_ [_ E]]]]|[E _]]]]; auto; discriminate.
Qed.

Lemma comb_default_from O a b c v :
  combine_claim_policy O a b = Ok c -> dget "default" c = Some v ->
  dget "default" a = Some v \/ dget "default" b = Some v.
Proof.
  intros H Hv. destruct (comb_from _ _ _ _ _ _ known_default H Hv)
    as [?|[?|[[x [y [_ [_ E]]]]|[E _]]]]; auto; discriminate.
Qed.

Lemma comb_add_from O a b c v :
  combine_claim_policy O a b = Ok c -> dget "add" c = Some v ->
  dget "add" a = Some v \/ dget "add" b = Some v \/
  (exists x y, dget "add" a = Some x /\ dget "add" b = Some y /\ combine_add O x y = Ok v).
Proof.
  intros H Hv. destruct (comb_from _ _ _ _ _ _ known_add H Hv)
    as [?|[?|[E|[E _]]]]; auto; discriminate.
Qed.

Lemma K_lists_comb O S x y z :
  K_lists S x -> K_lists S y -> combine_claim_policy O x y = Ok z -> K_lists S z.
Proof.
  intros [X1 [X2 X3]] [Y1 [Y2 Y3]] H. split; [|split]; intros v Hv.
  - destruct (comb_value_from _ _ _ _ _ H Hv); auto.
  - destruct (comb_add_from _ _ _ _ _ H Hv) as [?|[?|[a [b [_ [_ E]]]]]]; auto.
    eapply add_is_list; exact E.
  - destruct (comb_default_from _ _ _ _ _ H Hv); auto.
Qed.

Definition has_value (p : claim_policy) : Prop := exists v, dget "value" p = Some v.

Lemma has_value_comb_l O x y z :
  has_value x -> combine_claim_policy O x y = Ok z -> has_value z.
Proof. intros [v Hv] H. exists v. eapply comb_value_l; eauto. Qed.

Lemma has_value_comb_r O x y z :
  has_value y -> combine_claim_policy O x y = Ok z -> has_value z.
Proof. intros [v Hv] H. destruct (comb_value_r _ _ _ _ _ H Hv) as [w [E _]]. exists w; exact E. Qed.

Lemma has_value_dec p : has_value p \/ dget "value" p = None.
Proof. unfold has_value. destruct (dget "value" p); eauto. Qed.

Definition I_within (op : string) (S : list val) (p : claim_policy) : Prop :=
  has_value p \/ exists T, dget op p = Some T /\ op_within S T.

Lemma in3_4 p : In p ["subset_of"; "superset_of"; "one_of"] ->
  In p ["subset_of"; "superset_of"; "one_of"; "add"].
Proof. simpl; tauto. Qed.

Lemma I_within_l O op S x y z :
  In op ["subset_of"; "superset_of"; "one_of"] ->
  I_within op S x -> combine_claim_policy O x y = Ok z -> I_within op S z.
Proof.
  intros HO [HV|[T [HT W]]] H; [left; eapply has_value_comb_l; eauto|].
  destruct (has_value_dec z) as [|N]; [left; assumption|]. right.
  destruct (comb_no_value _ _ _ _ H N) as [_ [_ C]].
  assert (X := comb_set_op _ _ _ _ op (in3_4 _ HO) C). rewrite HT in X.
  destruct (dget op y) as [U|]; [|eauto].
  destruct X as [v [E [_ X]]]. exists v. split; [exact X|].
  destruct (inter_op _ _ _ _ _ HO E) as [sx [sy [P1 [P2 ->]]]].
  intros e He Hm. cbn [elems] in Hm. rewrite (inter_mem _ _ _ _ _ _ P1 P2 He) in Hm.
  apply andb_true_iff in Hm. apply W; tauto.
Qed.

Lemma I_within_r O op S x y z :
  In op ["subset_of"; "superset_of"; "one_of"] ->
  I_within op S y -> combine_claim_policy O x y = Ok z -> I_within op S z.
Proof.
  intros HO [HV|[T [HT W]]] H; [left; eapply has_value_comb_r; eauto|].
  destruct (has_value_dec z) as [|N]; [left; assumption|]. right.
  destruct (comb_no_value _ _ _ _ H N) as [_ [_ C]].
  assert (X := comb_set_op _ _ _ _ op (in3_4 _ HO) C). rewrite HT in X.
  destruct (dget op x) as [U|]; [|eauto].
  destruct X as [v [E [_ X]]]. exists v. split; [exact X|].
  destruct (inter_op _ _ _ _ _ HO E) as [sx [sy [P1 [P2 ->]]]].
  intros e He Hm. cbn [elems] in Hm. rewrite (inter_mem _ _ _ _ _ _ P1 P2 He) in Hm.
  apply andb_true_iff in Hm. apply W; tauto.
Qed.

Lemma list_claim_incoming et c leaf first rest m :
  list_claim (first :: rest) leaf et c ->
  foldM (fun a s => omerge a (cmd et c s)) rest (cmd et c first) = Ok m ->
  lists (incoming (cmd et c leaf) m).
Proof.
  intros [L _] F v Hv. destruct (incoming_from _ _ _ _ _ _ _ F Hv) as [s [Hs Hm]].
  exact (L s v Hs Hm).
Qed.

Lemma list_claim_K S et c leaf front s p :
  list_claim front leaf et c ->
  (forall s' w, In s' front -> policy_says s' et c "value" w -> list_within w S) ->
  In s front -> cpol et c s = Some p -> K_lists S p.
Proof.
  intros [_ [L2 L3]] V Hs Hp. split; [|split]; intros v Hv.
  - eapply V; [exact Hs | eapply cpol_says; eauto].
  - eapply L2; [exact Hs | eapply cpol_says; eauto].
  - eapply L3; [exact Hs | eapply cpol_says; eauto].
Qed.

Lemma subset_of_binds O front leaf et c s S md v :
  wf_chain front leaf ->
  resolves O front leaf et md ->
  In s front -> policy_says s et c "subset_of" (VList S) ->
  list_claim front leaf et c ->
  (forall s' w, In s' front -> policy_says s' et c "value" w -> list_within w S) ->
  dget c md = Some v ->
  list_within v S.
Proof.
  intros W R Hs Hsay LC HV Hv.
  destruct (resolves_claim _ _ _ _ _ c W R) as [first [rest [a [m [-> [_ [F1 [F2 [_ A]]]]]]]]].
  destruct (says_cpol _ _ _ _ _ Hsay) as [p0 [Hp0 HS]].
  destruct (chain_some O (K_lists S) (I_within "subset_of" S) et c first rest a s p0)
    as [p [-> [I K]]]; auto.
  - intros x y z; apply K_lists_comb.
  - intros x y z _ _; apply I_within_l; simpl; auto.
  - intros x y z _ _; apply I_within_r; simpl; auto.
  - intros s' p Hs' Hp'. eapply list_claim_K; eauto.
  - right. exists (VList S). split; [exact HS|]. intros e _ Hm; exact Hm.
  - cbn zeta in A.
    change (match cmd et c leaf with Some v => Some v | None => m end)
      with (incoming (cmd et c leaf) m) in A.
    assert (L := list_claim_incoming _ _ _ _ _ _ LC F2).
    destruct K as [K1 [K2 K3]].
    destruct (has_value_dec p) as [[w Hw]|N].
    + unfold claim_result in A. rewrite Hw in A. assert (w = v) by congruence. subst w.
      apply K1; exact Hw.
    + destruct I as [[w Hw]|[T [HT HW]]]; [congruence|].
      destruct (claim_list _ _ _ _ N K2 K3 L A) as [ov2 [L2 T2]].
      destruct ov2 as [u|]; [|apply tail_none in T2; congruence].
      assert (Lu := L2 u eq_refl). destruct u as [| | | |l|]; try discriminate.
      destruct (tail_list _ _ _ _ T2) as [w [E [M _]]]. rewrite HT in M.
      destruct M as [AH M].
      exists w. split; [congruence|].
      intros x Hx. assert (Hh := AH x Hx). apply In_eq_vmem.
      apply HW; [exact Hh|].
      assert (X := In_vmem x w Hh Hx). rewrite M in X by exact Hh.
      apply andb_true_iff in X; tauto.
Qed.

(** ** C02 one_of *)
Definition K_scalar (S : list val) (p : claim_policy) : Prop :=
  (forall v, dget "value" p = Some v -> In_eq v S) /\
  dget "add" p = None /\
  (forall v, dget "default" p = Some v -> is_list v = false).

Lemma K_scalar_comb O S x y z :
  K_scalar S x -> K_scalar S y -> combine_claim_policy O x y = Ok z -> K_scalar S z.
Proof.
  intros [X1 [X2 X3]] [Y1 [Y2 Y3]] H. split; [|split].
  - intros v Hv. destruct (comb_value_from _ _ _ _ _ H Hv); auto.
  - destruct (dget "add" z) eqn:E; [|reflexivity].
    destruct (comb_add_from _ _ _ _ _ H E) as [?|[?|[a [b [? _]]]]]; congruence.
  - intros v Hv. destruct (comb_default_from _ _ _ _ _ H Hv); auto.
Qed.

Definition I_one_of (S : list val) (p : claim_policy) : Prop :=
  has_value p \/
  exists T, dget "one_of" p = Some (VList T) /\ forall v, vmem v T = true -> vmem v S = true.

Lemma vmem_hashable v T : all_hashable T -> vmem v T = true -> hashable v = true.
Proof.
  intros A H. apply vmem_true in H. destruct H as [y [Hy E]].
  rewrite (py_eqb_hashable _ _ E). apply A; exact Hy.
Qed.

Lemma inter_vmem_any O x y sx sy v :
  py_set x = Ok sx -> py_set y = Ok sy -> vmem v (iov O (set_inter sx sy)) = true ->
  vmem v (elems x) = true /\ vmem v (elems y) = true.
Proof.
  intros P1 P2 H.
  assert (Hv : hashable v = true).
  { eapply vmem_hashable; [|exact H].
    apply iov_hashable, set_inter_hashable. eapply py_set_hashable; eauto. }
  rewrite (inter_mem _ _ _ _ _ _ P1 P2 Hv) in H. apply andb_true_iff in H. exact H.
Qed.

Lemma I_one_of_l O S x y z :
  I_one_of S x -> combine_claim_policy O x y = Ok z -> I_one_of S z.
Proof.
  intros [HV|[T [HT W]]] H; [left; eapply has_value_comb_l; eauto|].
  destruct (has_value_dec z) as [|N]; [left; assumption|]. right.
  destruct (comb_no_value _ _ _ _ H N) as [_ [_ C]].
  assert (HO : In "one_of" ["subset_of"; "superset_of"; "one_of"]) by (simpl; auto).
  assert (X := comb_set_op _ _ _ _ "one_of" (in3_4 _ HO) C). rewrite HT in X.
  destruct (dget "one_of" y) as [U|]; [|eauto].
  destruct X as [v [E [_ X]]].
  destruct (inter_op _ _ _ _ _ HO E) as [sx [sy [P1 [P2 ->]]]].
  eexists. split; [exact X|]. intros v Hv. apply W.
  apply (inter_vmem_any _ _ _ _ _ _ P1 P2 Hv).
Qed.

Lemma I_one_of_r O S x y z :
  I_one_of S y -> combine_claim_policy O x y = Ok z -> I_one_of S z.
Proof.
  intros [HV|[T [HT W]]] H; [left; eapply has_value_comb_r; eauto|].
  destruct (has_value_dec z) as [|N]; [left; assumption|]. right.
  destruct (comb_no_value _ _ _ _ H N) as [_ [_ C]].
  assert (HO : In "one_of" ["subset_of"; "superset_of"; "one_of"]) by (simpl; auto).
  assert (X := comb_set_op _ _ _ _ "one_of" (in3_4 _ HO) C). rewrite HT in X.
  destruct (dget "one_of" x) as [U|]; [|eauto].
  destruct X as [v [E [_ X]]].
  destruct (inter_op _ _ _ _ _ HO E) as [sx [sy [P1 [P2 ->]]]].
  eexists. split; [exact X|]. intros v Hv. apply W.
  apply (inter_vmem_any _ _ _ _ _ _ P1 P2 Hv).
Qed.

Lemma scalar_claim_incoming et c leaf first rest m :
  scalar_claim (first :: rest) leaf et c ->
  foldM (fun a s => omerge a (cmd et c s)) rest (cmd et c first) = Ok m ->
  scalars (incoming (cmd et c leaf) m).
Proof.
  intros [L _] F v Hv. destruct (incoming_from _ _ _ _ _ _ _ F Hv) as [s [Hs Hm]].
  exact (L s v Hs Hm).
Qed.

Lemma one_of_binds O front leaf et c s S md v :
  wf_chain front leaf ->
  resolves O front leaf et md ->
  In s front -> policy_says s et c "one_of" (VList S) ->
  scalar_claim front leaf et c ->
  (forall s' w, In s' front -> policy_says s' et c "value" w -> In_eq w S) ->
  dget c md = Some v ->
  In_eq v S.
Proof.
  intros W R Hs Hsay LC HV Hv.
  destruct (resolves_claim _ _ _ _ _ c W R) as [first [rest [a [m [-> [_ [F1 [F2 [_ A]]]]]]]]].
  destruct (says_cpol _ _ _ _ _ Hsay) as [p0 [Hp0 HS]].
  destruct (chain_some O (K_scalar S) (I_one_of S) et c first rest a s p0)
    as [p [-> [I K]]]; auto.
  - intros x y z; apply K_scalar_comb.
  - intros x y z _ _; apply I_one_of_l.
  - intros x y z _ _; apply I_one_of_r.
  - intros s' p Hs' Hp'. destruct LC as [_ [L2 L3]]. split; [|split].
    + intros w Hw. eapply HV; [exact Hs' | eapply cpol_says; eauto].
    + destruct (dget "add" p) eqn:E; [|reflexivity].
      exfalso. eapply L2; [exact Hs' | eapply cpol_says; eauto].
    + intros w Hw. eapply L3; [exact Hs' | eapply cpol_says; eauto].
  - right. exists S. auto.
  - cbn zeta in A.
    change (match cmd et c leaf with Some v => Some v | None => m end)
      with (incoming (cmd et c leaf) m) in A.
    assert (L := scalar_claim_incoming _ _ _ _ _ _ LC F2).
    destruct K as [K1 [K2 K3]].
    unfold claim_result in A.
    destruct (dget "value" p) as [w|] eqn:E.
    { assert (w = v) by congruence. subst w. apply K1; reflexivity. }
    destruct I as [[w Hw]|[T [HT HW]]]; [congruence|].
    rewrite K2 in A. cbn [opt_op bind] in A.
    apply bind_ok in A. destruct A as [o2 [H2 A]].
    assert (L2 : scalars o2).
    { destruct (dget "default" p) as [d|]; cbn [opt_op] in H2.
      - destruct (incoming _ m) as [u|]; simpl in H2; injection H2 as <-; [exact L|].
        intros w Ew; injection Ew as <-; auto.
      - injection H2 as <-; exact L. }
    unfold v_one_of in A. rewrite HT in A.
    destruct o2 as [u|].
    + rewrite (L2 u eq_refl) in A. cbn [py_in bind] in A.
      destruct (vmem u T) eqn:M; [|discriminate].
      assert (u = v) by congruence. subst u. apply In_eq_vmem, HW, M.
    + apply tail_none in A. congruence.
Qed.

(** ** C03 superset_of *)
Definition K_sup (x : val) (p : claim_policy) : Prop :=
  (forall v, dget "value" p = Some v -> exists l, v = VList l /\ vmem x l = true) /\
  (forall v, dget "add" p = Some v -> is_list v = true) /\
  (forall v, dget "default" p = Some v -> is_list v = true) /\
  (forall U, dget "superset_of" p = Some U -> vmem x (elems U) = true).

Lemma K_sup_comb O e x y z :
  hashable e = true ->
  K_sup e x -> K_sup e y -> combine_claim_policy O x y = Ok z -> K_sup e z.
Proof.
  intros He [X1 [X2 [X3 X4]]] [Y1 [Y2 [Y3 Y4]]] H. split; [|split; [|split]]; intros v Hv.
  - destruct (comb_value_from _ _ _ _ _ H Hv); auto.
  - destruct (comb_add_from _ _ _ _ _ H Hv) as [?|[?|[a [b [_ [_ E]]]]]]; auto.
    eapply add_is_list; exact E.
  - destruct (comb_default_from _ _ _ _ _ H Hv); auto.
  - destruct (comb_from _ _ _ _ _ _ known_superset_of H Hv)
      as [?|[?|[[a [b [E1 [E2 E]]]]|[E _]]]]; auto; [|discriminate].
    destruct (inter_op O "superset_of" a b v) as [sx [sy [P1 [P2 ->]]]]; simpl; auto.
    rewrite (inter_mem _ _ _ _ _ _ P1 P2 He). rewrite X4, Y4 by assumption. reflexivity.
Qed.

Definition I_has (op : string) (p : claim_policy) : Prop :=
  has_value p \/ exists T, dget op p = Some T.

Lemma I_has_l O op x y z :
  In op ["subset_of"; "superset_of"; "one_of"; "add"] ->
  I_has op x -> combine_claim_policy O x y = Ok z -> I_has op z.
Proof.
  intros HO [HV|[T HT]] H; [left; eapply has_value_comb_l; eauto|].
  destruct (has_value_dec z) as [|N]; [left; assumption|]. right.
  destruct (comb_no_value _ _ _ _ H N) as [_ [_ C]].
  assert (X := comb_set_op _ _ _ _ op HO C). rewrite HT in X.
  destruct (dget op y) as [U|]; [|eauto]. destruct X as [v [_ [_ X]]]; eauto.
Qed.

Lemma I_has_r O op x y z :
  In op ["subset_of"; "superset_of"; "one_of"; "add"] ->
  I_has op y -> combine_claim_policy O x y = Ok z -> I_has op z.
Proof.
  intros HO [HV|[T HT]] H; [left; eapply has_value_comb_r; eauto|].
  destruct (has_value_dec z) as [|N]; [left; assumption|]. right.
  destruct (comb_no_value _ _ _ _ H N) as [_ [_ C]].
  assert (X := comb_set_op _ _ _ _ op HO C). rewrite HT in X.
  destruct (dget op x) as [U|]; [|eauto]. destruct X as [v [_ [_ X]]]; eauto.
Qed.

Lemma superset_of_binds O front leaf et c s T x md v :
  wf_chain front leaf ->
  resolves O front leaf et md ->
  In s front -> policy_says s et c "superset_of" T ->
  list_claim front leaf et c ->
  hashable x = true ->
  (forall s' U, In s' front -> policy_says s' et c "superset_of" U ->
     exists l, U = VList l /\ In_eq x l) ->
  (forall s' w, In s' front -> policy_says s' et c "value" w ->
     exists l, w = VList l /\ In_eq x l) ->
  dget c md = Some v ->
  exists l, v = VList l /\ In_eq x l.
Proof.
  intros W R Hs Hsay LC Hx HU HV Hv.
  destruct (resolves_claim _ _ _ _ _ c W R) as [first [rest [a [m [-> [_ [F1 [F2 [_ A]]]]]]]]].
  destruct (says_cpol _ _ _ _ _ Hsay) as [p0 [Hp0 HS]].
  destruct (chain_some O (K_sup x) (I_has "superset_of") et c first rest a s p0)
    as [p [-> [I K]]]; auto.
  - intros a1 a2 a3; apply K_sup_comb; exact Hx.
  - intros a1 a2 a3 _ _; apply I_has_l; simpl; auto.
  - intros a1 a2 a3 _ _; apply I_has_r; simpl; auto.
  - intros s' p Hs' Hp'. destruct LC as [_ [L2 L3]]. split; [|split; [|split]]; intros w Hw.
    + destruct (HV s' w Hs') as [l [E M]]; [eapply cpol_says; eauto|].
      exists l; split; [exact E|]. apply In_eq_vmem; exact M.
    + eapply L2; [exact Hs' | eapply cpol_says; eauto].
    + eapply L3; [exact Hs' | eapply cpol_says; eauto].
    + destruct (HU s' w Hs') as [l [E M]]; [eapply cpol_says; eauto|].
      subst w. apply In_eq_vmem; exact M.
  - right. eauto.
  - cbn zeta in A.
    change (match cmd et c leaf with Some v => Some v | None => m end)
      with (incoming (cmd et c leaf) m) in A.
    assert (L := list_claim_incoming _ _ _ _ _ _ LC F2).
    destruct K as [K1 [K2 [K3 K4]]].
    destruct (has_value_dec p) as [[w Hw]|N].
    + unfold claim_result in A. rewrite Hw in A. assert (w = v) by congruence. subst w.
      destruct (K1 v Hw) as [l [E M]]. exists l. split; [exact E|]. apply In_eq_vmem, M.
    + destruct I as [[w Hw]|[U HU']]; [congruence|].
      destruct (claim_list _ _ _ _ N K2 K3 L A) as [ov2 [L2 T2]].
      destruct ov2 as [u|]; [|apply tail_none in T2; congruence].
      assert (Lu := L2 u eq_refl). destruct u as [| | | |l|]; try discriminate.
      destruct (tail_list _ _ _ _ T2) as [w [E [_ M]]].
      exists w. split; [congruence|]. apply In_eq_vmem. eapply M; eauto.
Qed.

(** ** C04 essential *)
Definition K_ess (p : claim_policy) : Prop :=
  forall e, dget "essential" p = Some e -> exists b, e = VBool b.

Definition I_ess (p : claim_policy) : Prop :=
  has_value p \/ dget "essential" p = Some (VBool true).

Lemma K_ess_comb O x y z : K_ess x -> K_ess y -> combine_claim_policy O x y = Ok z -> K_ess z.
Proof.
  intros X Y H e He. destruct (comb_from _ _ _ _ _ _ known_essential H He)
    as [?|[?|[[a [b [_ [_ E]]]]|[_ [E _]]]]]; auto; [discriminate | eauto].
Qed.

Lemma comb_essential O x y z :
  combine_no_value O x y = Ok z ->
  match dget "essential" x, dget "essential" y with
  | None, None => dget "essential" z = None
  | Some a, None => dget "essential" z = Some a
  | None, Some b => dget "essential" z = Some b
  | Some a, Some b =>
      dget "essential" z = Some (if negb (truthy a) && truthy b then VBool true else a)
  end.
Proof.
  intros H. assert (S := combine_no_value_spec _ _ _ _ H "essential" known_essential).
  change (do_policy O "essential" x y) with (do_essential x y "essential") in S.
  unfold do_essential in S.
  destruct (dget "essential" x) as [a|], (dget "essential" y) as [b|]; auto;
    destruct S as [v [S1 S2]]; try congruence.
  destruct (negb (truthy a) && truthy b); congruence.
Qed.

Lemma I_ess_l O x y z : I_ess x -> combine_claim_policy O x y = Ok z -> I_ess z.
Proof.
  intros [HV|HE] H; [left; eapply has_value_comb_l; eauto|].
  destruct (has_value_dec z) as [|N]; [left; assumption|]. right.
  destruct (comb_no_value _ _ _ _ H N) as [_ [_ C]].
  assert (X := comb_essential _ _ _ _ C). rewrite HE in X.
  destruct (dget "essential" y); exact X.
Qed.

Lemma I_ess_r O x y z : K_ess x -> I_ess y -> combine_claim_policy O x y = Ok z -> I_ess z.
Proof.
  intros K [HV|HE] H; [left; eapply has_value_comb_r; eauto|].
  destruct (has_value_dec z) as [|N]; [left; assumption|]. right.
  destruct (comb_no_value _ _ _ _ H N) as [_ [_ C]].
  assert (X := comb_essential _ _ _ _ C). rewrite HE in X.
  destruct (dget "essential" x) as [a|] eqn:E; [|exact X].
  destruct (K a E) as [b ->]. destruct b; exact X.
Qed.

Lemma v_essential_true ov r : v_essential (VBool true) ov = Ok r -> exists v, r = Some v.
Proof. destruct ov; simpl; [|discriminate]. intros H; injection H as <-; eauto. Qed.

Lemma claim_essential O p ov r :
  dget "essential" p = Some (VBool true) -> claim_result O p ov = Ok r -> exists v, r = Some v.
Proof.
  intros HE H. unfold claim_result in H.
  destruct (dget "value" p); [injection H as <-; eauto|].
  apply bind_ok in H. destruct H as [o1 [_ H]].
  apply bind_ok in H. destruct H as [o2 [_ H]].
  assert (T : forall ov, v_tail O p ov = Ok r -> exists v, r = Some v).
  { intros ov' HT. unfold v_tail in HT.
    apply bind_ok in HT. destruct HT as [o3 [_ HT]].
    apply bind_ok in HT. destruct HT as [o4 [_ HT]]. rewrite HE in HT.
    eapply v_essential_true; exact HT. }
  unfold v_one_of in H. destruct (dget "one_of" p) as [U|]; [|eauto].
  destruct o2 as [v|]; [|eauto].
  destruct (is_list v); [eauto|].
  apply bind_ok in H. destruct H as [b [_ H]]. destruct b; [|discriminate].
  injection H as <-; eauto.
Qed.

Lemma essential_binds O front leaf et c s md :
  wf_chain front leaf ->
  resolves O front leaf et md ->
  In s front -> policy_says s et c "essential" (VBool true) ->
  (forall s' e, In s' front -> policy_says s' et c "essential" e -> exists b, e = VBool b) ->
  exists v, dget c md = Some v.
Proof.
  intros W R Hs Hsay HE.
  destruct (resolves_claim _ _ _ _ _ c W R) as [first [rest [a [m [-> [_ [F1 [_ [_ A]]]]]]]]].
  destruct (says_cpol _ _ _ _ _ Hsay) as [p0 [Hp0 HS]].
  destruct (chain_some O K_ess I_ess et c first rest a s p0) as [p [-> [I K]]]; auto.
  - intros x y z; apply K_ess_comb.
  - intros x y z _ _; apply I_ess_l.
  - intros x y z Kx _; apply I_ess_r; exact Kx.
  - intros s' p Hs' Hp' e He. eapply HE; [exact Hs' | eapply cpol_says; eauto].
  - right; exact HS.
  - destruct I as [[w Hw]|I].
    + unfold claim_result in A. rewrite Hw in A. injection A as A. eauto.
    + eapply claim_essential; eauto.
Qed.

(** ** C05 value *)
Definition K_wf (p : claim_policy) : Prop := forall v, dget "value" p = Some v -> wf_val v.

Lemma value_binds O front leaf et c s v md :
  wf_chain front leaf ->
  resolves O front leaf et md ->
  In s front -> policy_says s et c "value" v ->
  exists w, dget c md = Some w /\ py_eqb v w = true.
Proof.
  intros W R Hs Hsay.
  assert (Wv : wf_val v) by (destruct W as [_ WF]; destruct (WF s Hs) as [_ P]; eauto).
  destruct (resolves_claim _ _ _ _ _ c W R) as [first [rest [a [m [-> [_ [F1 [_ [_ A]]]]]]]]].
  destruct (says_cpol _ _ _ _ _ Hsay) as [p0 [Hp0 HS]].
  destruct (chain_some O K_wf (fun p => exists w, dget "value" p = Some w /\ py_eqb v w = true)
              et c first rest a s p0) as [p [-> [[w [I1 I2]] K]]]; auto.
  - intros x y z Kx Ky H u Hu. destruct (comb_value_from _ _ _ _ _ H Hu); auto.
  - intros x y z _ _ [w [E1 E2]] H. exists w. split; [|exact E2]. eapply comb_value_l; eauto.
  - intros x y z Kx Ky [w [E1 E2]] H.
    destruct (comb_value_r _ _ _ _ _ H E1) as [u [U1 [[U2 U3]|[U2 ->]]]]; [|eauto].
    exists u. split; [exact U1|].
    eapply py_eqb_trans; [exact Wv | apply Ky; exact E1 | apply Kx; exact U2 | exact E2 | exact U3].
  - intros s' p Hs' Hp' u Hu. destruct W as [_ WF]. destruct (WF s' Hs') as [_ P].
    eapply P, cpol_says; eauto.
  - exists v. split; [exact HS|]. apply py_eqb_refl; exact Wv.
  - unfold claim_result in A. rewrite I1 in A. injection A as A. eauto.
Qed.
