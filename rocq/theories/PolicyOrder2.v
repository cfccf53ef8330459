(** Order independence of the whole resolution (C14). *)
From Verif Require Export PolicyOrder.

Lemma In_comb a b p :
  In p (nodup string_dec (known_ops a ++ known_ops b)) <->
  known p /\ (dmem p a = true \/ dmem p b = true).
Proof.
  rewrite nodup_In, in_app_iff, !known_ops_In, !dmem_some. unfold known. tauto.
Qed.

Lemma combine_no_value_cong O1 O2 a a' b c :
  cp_eq a a' -> combine_no_value O1 a b = Ok c ->
  exists c', combine_no_value O2 a' b = Ok c' /\ forall p, known p -> op_eq p (dget p c) (dget p c').
Proof.
  intros E H. assert (S := combine_no_value_spec _ _ _ _ H).
  unfold combine_no_value in *.
  set (comb := nodup string_dec (known_ops a ++ known_ops b)) in *.
  set (comb' := nodup string_dec (known_ops a' ++ known_ops b)) in *.
  assert (C : forall x, In x comb <-> In x comb').
  { intros x. unfold comb, comb'. rewrite !In_comb, (cp_eq_mem _ _ _ E). reflexivity. }
  assert (CM : forall x, smem x comb = smem x comb').
  { intros x. apply eq_true_iff_eq. rewrite !smem_In. apply C. }
  apply bind_ok in H. destruct H as [u [H1 H]].
  rewrite !known_ops_mem in * by auto with known.
  rewrite <- (cp_eq_mem _ _ _ E), <- (cp_eq_plain a a' "essential" eq_refl E), H1. cbn [bind].
  rewrite <- !CM.
  destruct (smem "one_of" comb && (smem "subset_of" comb || smem "superset_of" comb));
    [discriminate|].
  apply bind_ok in H. destruct H as [r [H2 H]].
  apply bind_ok in H. destruct H as [u2 [H3 H]]. injection H as <-.
  assert (ND : NoDup (ios O1 comb)) by apply ios_NoDup, NoDup_nodup.
  assert (ND' : NoDup (ios O2 comb')) by apply ios_NoDup, NoDup_nodup.
  destruct (foldM_dset_spec _ (fun p => do_policy O1 p a b) _ _ _ ND H2) as [D1 D2].
  assert (ALL : forall p, In p (ios O2 comb') ->
             exists v, do_policy O1 p a b = Ok v /\ dget p r = Some v /\ known p).
  { intros p Hp. apply ios_In, C in Hp.
    destruct (D1 p (proj2 (ios_In O1 p comb) Hp)) as [v [V1 V2]].
    apply In_comb in Hp. exists v. tauto. }
  destruct (foldM_dset_ok _ (fun p => do_policy O2 p a' b) (ios O2 comb') []) as [r' H2'].
  { intros p Hp. destruct (ALL p Hp) as [v [V1 [_ K]]].
    destruct (do_policy_cong O1 O2 p a a' b v K E V1) as [w [W _]]. eauto. }
  rewrite H2'. cbn [bind].
  destruct (foldM_dset_spec _ (fun p => do_policy O2 p a' b) _ _ _ ND' H2') as [D1' D2'].
  assert (RR : cp_eq r r').
  { intros p. destruct (in_dec string_dec p (ios O2 comb')) as [Hp|Hp].
    - destruct (ALL p Hp) as [v [V1 [V2 K]]]. destruct (D1' p Hp) as [w [W1 W2]].
      destruct (do_policy_cong O1 O2 p a a' b v K E V1) as [w' [W' Q]].
      rewrite V2, W2. congruence.
    - rewrite D2' by exact Hp. rewrite D2; [apply op_eq_refl|].
      rewrite ios_In in *. rewrite C. exact Hp. }
  rewrite (rule_check_cong _ _ _ _ _ C RR H3). cbn [bind].
  exists r'. split; [reflexivity|]. intros p _; apply RR.
Qed.

(** a rule produced by [combine_no_value] has known operators only *)
Lemma foldM_dset_dom A (f : string -> res A) L p : forall acc r,
  ~ In p L -> foldM (fun acc p => let* v := f p in Ok (dset p v acc)) L acc = Ok r ->
  dget p r = dget p acc.
Proof.
  induction L as [|q L IH]; intros acc r N H; simpl in H; [injection H as <-; reflexivity|].
  destruct (f q) as [v|e]; cbn [bind] in H; [|discriminate].
  rewrite (IH _ _ (fun X => N (or_intror X)) H). apply dget_dset_other.
  intros ->; apply N; left; reflexivity.
Qed.

Lemma combine_no_value_dom O a b c p :
  combine_no_value O a b = Ok c -> ~ known p -> dget p c = None.
Proof.
  unfold combine_no_value. intros H Hp.
  apply bind_ok in H. destruct H as [u [_ H]]. destruct (_ && _); [discriminate|].
  apply bind_ok in H. destruct H as [r [H2 H]].
  apply bind_ok in H. destruct H as [u2 [_ H]]. injection H as <-.
  change (dget p r = dget p (@nil (string * val))).
  refine (foldM_dset_dom _ (fun p => do_policy O p a b) _ p [] r _ H2).
  rewrite ios_In, In_comb. tauto.
Qed.

Lemma combine_claim_cong O1 O2 a a' b c :
  cp_eq a a' -> combine_claim_policy O1 a b = Ok c ->
  exists c', combine_claim_policy O2 a' b = Ok c' /\ cp_eq c c'.
Proof.
  intros E H. unfold combine_claim_policy in *.
  rewrite !(known_ops_mem a), !(known_ops_mem a') in * by auto with known.
  rewrite <- (cp_eq_mem _ _ _ E).
  destruct (dmem "value" a) eqn:V.
  - destruct (negb (is_nil (known_ops b))); [|injection H as <-; eauto].
    destruct (smem "essential" (known_ops b)).
    + destruct (Nat.eqb (length (known_ops b)) 1); [|discriminate].
      unfold dindex in *. rewrite <- (cp_eq_plain a a' "value" eq_refl E).
      exists c. split; [exact H | apply cp_eq_refl].
    + destruct (smem "value" (known_ops b)); [|discriminate].
      unfold dindex in *. rewrite <- (cp_eq_plain a a' "value" eq_refl E).
      destruct (dget "value" b); cbn [bind] in *; [|discriminate].
      destruct (dget "value" a); cbn [bind] in *; [|discriminate].
      destruct (negb _); [discriminate|]. injection H as <-. eauto.
  - destruct (combine_no_value_cong O1 O2 a a' b c E H) as [c' [H' Q]].
    exists c'. split; [exact H'|]. intros p.
    destruct (in_dec string_dec p policy_functions) as [K|K]; [apply Q, K|].
    rewrite (combine_no_value_dom _ _ _ _ _ H K), (combine_no_value_dom _ _ _ _ _ H' K).
    apply op_eq_refl.
Qed.

(** ** rules *)
Definition ocp_eq (a b : option claim_policy) : Prop :=
  match a, b with
  | None, None => True
  | Some p, Some q => cp_eq p q
  | _, _ => False
  end.

Definition rule_eq (r s : rule) : Prop :=
  r_metadata r = r_metadata s /\ forall c, ocp_eq (dget c (r_policy r)) (dget c (r_policy s)).

Lemma rule_eq_refl r : rule_eq r r.
Proof.
  split; [reflexivity|]. intros c. destruct (dget c (r_policy r)); simpl; [apply cp_eq_refl | exact I].
Qed.

Lemma foldM_ok_ext A B (f : B -> A -> res B) L b :
  (forall b x, In x L -> exists b', f b x = Ok b') -> exists r, foldM f L b = Ok r.
Proof.
  revert b. induction L as [|x L IH]; intros b H; simpl; [eauto|].
  destruct (H b x (or_introl eq_refl)) as [b' ->]. apply IH. intros b2 y Hy; apply H; right; exact Hy.
Qed.

Lemma combine_ok O sup sub md :
  combine_metadata (r_metadata sup) (r_metadata sub) = Ok md ->
  (forall c a b, dget c (r_policy sup) = Some a -> dget c (r_policy sub) = Some b ->
     exists p, combine_claim_policy O a b = Ok p) ->
  exists r, combine O sup sub = Ok r /\ r_metadata r = if is_nil md then r_metadata sup else md.
Proof.
  intros M H. unfold combine. rewrite M. cbn [bind].
  destruct (is_nil (r_policy sub)); [eexists; split; reflexivity|].
  destruct (foldM_ok_ext _ _ (fun acc claim =>
               let* a := dindex claim (r_policy sup) in
               let* b := dindex claim (r_policy sub) in
               let* c := combine_claim_policy O a b in Ok (dset claim c acc))
     (ios O (filter (fun c => smem c (string_set (dkeys (r_policy sub))))
               (string_set (dkeys (r_policy sup))))) []) as [r1 ->].
  { intros acc x Hx. rewrite ios_In, filter_In, smem_In in Hx. unfold string_set in Hx.
    rewrite !nodup_In in Hx. destruct Hx as [X1 X2].
    apply key_In_dget in X1, X2. destruct X1 as [a X1], X2 as [b X2].
    unfold dindex. rewrite X1, X2. cbn [bind]. destruct (H x a b X1 X2) as [p ->].
    cbn [bind]. eauto. }
  cbn [bind].
  destruct (foldM_ok_ext _ _ (fun acc claim => let* a := dindex claim (r_policy sup) in
                Ok (dset claim a acc))
     (ios O (filter (fun c => negb (smem c (string_set (dkeys (r_policy sub)))))
               (string_set (dkeys (r_policy sup))))) r1) as [r2 ->].
  { intros acc x Hx. rewrite ios_In, filter_In in Hx. unfold string_set in Hx.
    rewrite nodup_In in Hx. destruct Hx as [X1 _].
    apply key_In_dget in X1. destruct X1 as [a X1]. unfold dindex. rewrite X1. cbn [bind]. eauto. }
  cbn [bind].
  destruct (foldM_ok_ext _ _ (fun acc claim => let* a := dindex claim (r_policy sub) in
                Ok (dset claim a acc))
     (ios O (filter (fun c => negb (smem c (string_set (dkeys (r_policy sup)))))
               (string_set (dkeys (r_policy sub))))) r2) as [r3 ->].
  { intros acc x Hx. rewrite ios_In, filter_In in Hx. unfold string_set in Hx.
    rewrite nodup_In in Hx. destruct Hx as [X1 _].
    apply key_In_dget in X1. destruct X1 as [a X1]. unfold dindex. rewrite X1. cbn [bind]. eauto. }
  cbn [bind]. eexists; split; reflexivity.
Qed.

Lemma combine_md O sup sub r md :
  combine O sup sub = Ok r -> combine_metadata (r_metadata sup) (r_metadata sub) = Ok md ->
  r_metadata r = if is_nil md then r_metadata sup else md.
Proof.
  intros H M. unfold combine in H. rewrite M in H. cbn [bind] in H.
  destruct (is_nil (r_policy sub)); [injection H as <-; reflexivity|].
  apply bind_ok in H. destruct H as [? [_ H]].
  apply bind_ok in H. destruct H as [? [_ H]].
  apply bind_ok in H. destruct H as [? [_ H]]. injection H as <-; reflexivity.
Qed.

Lemma ocombine_cong O1 O2 a a' b c :
  ocp_eq a a' -> ocombine O1 a b = Ok c -> exists c', ocombine O2 a' b = Ok c' /\ ocp_eq c c'.
Proof.
  intros E H. unfold ocombine in *. destruct a as [p|], a' as [p'|]; simpl in E; try contradiction.
  - destruct b as [q|].
    + apply bind_ok in H. destruct H as [r [H1 H2]]. injection H2 as <-.
      destruct (combine_claim_cong O1 O2 p p' q r E H1) as [r' [H1' Q]].
      rewrite H1'. cbn [bind]. eexists; split; [reflexivity | exact Q].
    + injection H as <-. eexists; split; [reflexivity | exact E].
  - exists c. split; [exact H|]. injection H as <-.
    destruct b; simpl; [apply cp_eq_refl | exact I].
Qed.

Lemma combine_cong O1 O2 r r' sub s :
  NoDup (dkeys (r_metadata sub)) ->
  rule_eq r r' -> combine O1 r sub = Ok s ->
  exists s', combine O2 r' sub = Ok s' /\ rule_eq s s'.
Proof.
  intros ND [E1 E2] H.
  assert (SP := combine_spec _ _ _ _ ND H).
  assert (M : exists md, combine_metadata (r_metadata r) (r_metadata sub) = Ok md).
  { unfold combine in H. apply bind_ok in H. destruct H as [md [M _]]. eauto. }
  destruct M as [md M].
  destruct (combine_ok O2 r' sub md) as [s' [H' Hm]].
  - rewrite <- E1; exact M.
  - intros c a b Ha Hb. specialize (SP c). specialize (E2 c).
    rewrite Ha in E2. rewrite Hb in SP.
    destruct (dget c (r_policy r)) as [p|]; [|destruct E2]. simpl in E2.
    destruct SP as [SP _]. simpl in SP. apply bind_ok in SP. destruct SP as [q [SP _]].
    destruct (combine_claim_cong O1 O2 p a b q E2 SP) as [q' [Q _]]. eauto.
  - exists s'. split; [exact H'|]. split.
    + rewrite Hm, (combine_md _ _ _ _ _ H M), E1. reflexivity.
    + intros c. assert (SP' := combine_spec _ _ _ _ ND H' c). specialize (SP c). specialize (E2 c).
      destruct (ocombine_cong O1 O2 _ _ _ _ E2 (proj1 SP)) as [x [X1 X2]].
      rewrite (proj1 SP') in X1. injection X1 as <-. exact X2.
Qed.

Lemma gather_cong O1 O2 chain et r :
  (forall s, In s chain -> md_nodup et s) ->
  gather_policies O1 chain et = Ok r ->
  exists r', gather_policies O2 chain et = Ok r' /\ rule_eq r r'.
Proof.
  intros W H. destruct chain as [|first rest]; [discriminate|].
  change (foldM (gstep O1 et) rest (stmt_rule first et) = Ok r) in H.
  change (exists r', foldM (gstep O2 et) rest (stmt_rule first et) = Ok r' /\ rule_eq r r').
  assert (W' : forall s, In s rest -> md_nodup et s) by (intros; apply W; right; assumption).
  clear W. assert (E := rule_eq_refl (stmt_rule first et)). revert E H.
  generalize (stmt_rule first et) at 1 3 as acc. generalize (stmt_rule first et) as acc'.
  induction rest as [|s rest IH]; intros acc' acc E H; cbn [foldM] in H |- *.
  - injection H as <-. eauto.
  - assert (X : forall x, gstep O1 et acc s = Ok x ->
                exists x', gstep O2 et acc' s = Ok x' /\ rule_eq x x').
    { intros x Hx. unfold gstep in *. cbn zeta in *.
      destruct (_ && _); [injection Hx as <-; eauto|].
      destruct (existsb _ _); [discriminate|].
      eapply combine_cong; eauto. apply W'; left; reflexivity. }
    destruct (gstep O1 et acc s) as [x|]; [|discriminate].
    destruct (X x eq_refl) as [x' [-> E']].
    apply (IH (fun s' Hs => W' s' (or_intror Hs)) x' x E' H).
Qed.

(** ** application *)
Lemma v_add_cong O1 O2 A A' ov ov' r :
  v_eq A A' -> o_eq ov ov' -> v_add O1 A ov = Ok r ->
  exists r', v_add O2 A' ov' = Ok r' /\ o_eq r r'.
Proof.
  intros E1 E2 H. unfold v_add in *. destruct ov as [v|], ov' as [v'|]; simpl in E2; try contradiction.
  - apply bind_ok in H. destruct H as [s [H1 H]].
    apply bind_ok in H. destruct H as [t [H2 H]]. injection H as <-.
    destruct (set_or_single_cong _ _ _ E2 H1) as [s' [P1 Q1]].
    destruct (set_or_single_cong _ _ _ E1 H2) as [t' [P2 Q2]].
    rewrite P1, P2. cbn [bind]. eexists; split; [reflexivity|].
    apply v_eq_sets, union_cong; assumption.
  - injection H as <-. eexists; split; [reflexivity | exact E1].
Qed.

Lemma py_in_cong v T T' b : v_eq T T' -> py_in v T = Ok b -> py_in v T' = Ok b.
Proof.
  intros [->|[l [m [-> [-> S]]]]] H; [exact H|]. simpl in *.
  rewrite <- (set_eq_vmem _ _ v S). exact H.
Qed.

Lemma v_subset_cong O1 O2 p p' T T' ov ov' r :
  cp_eq p p' -> v_eq T T' -> o_eq ov ov' -> v_subset_of O1 p T ov = Ok r ->
  exists r', v_subset_of O2 p' T' ov' = Ok r' /\ o_eq r r'.
Proof.
  intros E E1 E2 H. unfold v_subset_of in *.
  destruct ov as [v|], ov' as [v'|]; simpl in E2; try contradiction.
  2:{ injection H as <-. eexists; split; [reflexivity | exact I]. }
  rewrite <- (v_eq_is_list _ _ E2).
  apply bind_ok in H. destruct H as [l [H1 H]].
  destruct (is_nil l) eqn:N; [discriminate|]. injection H as <-.
  destruct (is_list v) eqn:L.
  - apply bind_ok in H1. destruct H1 as [s [S1 H1]].
    apply bind_ok in H1. destruct H1 as [t [S2 H1]]. injection H1 as <-.
    destruct (py_set_cong _ _ _ E1 S1) as [s' [P1 Q1]].
    destruct (py_set_cong _ _ _ E2 S2) as [t' [P2 Q2]].
    rewrite P1, P2. cbn [bind].
    assert (SE := inter_cong O1 O2 _ _ _ _ Q1 Q2).
    rewrite <- (set_eq_nil _ _ SE), N. eexists; split; [reflexivity|].
    apply v_eq_sets; exact SE.
  - assert (X := v_eq_scalar _ _ E2 L). subst v'.
    assert (PI : py_in v (VDict p') = py_in v (VDict p)).
    { destruct v; try reflexivity. simpl. rewrite (cp_eq_mem _ _ _ E). reflexivity. }
    rewrite PI. rewrite H1. cbn [bind]. rewrite N. eexists; split; [reflexivity | apply v_eq_refl].
Qed.

Lemma v_superset_cong U U' ov ov' r :
  v_eq U U' -> o_eq ov ov' -> v_superset_of U ov = Ok r ->
  exists r', v_superset_of U' ov' = Ok r' /\ o_eq r r'.
Proof.
  intros E1 E2 H. unfold v_superset_of in *.
  destruct ov as [v|], ov' as [v'|]; simpl in E2; try contradiction.
  - apply bind_ok in H. destruct H as [d [H1 H]].
    rewrite (differs_cong _ _ _ _ _ E1 E2 H1). cbn [bind].
    destruct d; [discriminate|]. injection H as <-. eexists; split; [reflexivity | exact E2].
  - injection H as <-. eexists; split; [reflexivity | exact I].
Qed.

Lemma v_rest_cong p p' ov ov' r :
  cp_eq p p' -> o_eq ov ov' ->
  (let* ov := opt_op (dget "superset_of" p) v_superset_of ov in
   opt_op (dget "essential" p) v_essential ov) = Ok r ->
  exists r', (let* ov := opt_op (dget "superset_of" p') v_superset_of ov' in
              opt_op (dget "essential" p') v_essential ov) = Ok r' /\ o_eq r r'.
Proof.
  intros E E2 H. apply bind_ok in H. destruct H as [o [H1 H]].
  assert (X : exists o', opt_op (dget "superset_of" p') v_superset_of ov' = Ok o' /\ o_eq o o').
  { destruct (dget "superset_of" p) as [U|] eqn:EU; cbn [opt_op] in H1.
    - destruct (cp_eq_set _ _ _ _ E EU) as [U' [-> Q]]. cbn [opt_op].
      eapply v_superset_cong; eauto.
    - rewrite (cp_eq_none _ _ _ E EU). cbn [opt_op]. injection H1 as <-. eauto. }
  destruct X as [o' [-> Q]]. cbn [bind].
  rewrite <- (cp_eq_plain p p' "essential" eq_refl E).
  destruct (dget "essential" p) as [e|]; cbn [opt_op] in *.
  - unfold v_essential in *. destruct o as [v|], o' as [v'|]; simpl in Q; try contradiction.
    + injection H as <-. eauto.
    + destruct (py_eqb e (VBool true)); [discriminate|]. injection H as <-.
      eexists; split; [reflexivity | exact I].
  - injection H as <-. eauto.
Qed.

Lemma v_tail_cong O1 O2 p p' ov ov' r :
  cp_eq p p' -> o_eq ov ov' -> v_tail O1 p ov = Ok r ->
  exists r', v_tail O2 p' ov' = Ok r' /\ o_eq r r'.
Proof.
  intros E E2 H. unfold v_tail in *. apply bind_ok in H. destruct H as [o [H1 H]].
  assert (X : exists o', opt_op (dget "subset_of" p') (v_subset_of O2 p') ov' = Ok o' /\ o_eq o o').
  { destruct (dget "subset_of" p) as [U|] eqn:EU; cbn [opt_op] in H1.
    - destruct (cp_eq_set _ _ _ _ E EU) as [U' [-> Q]]. cbn [opt_op].
      eapply v_subset_cong; eauto.
    - rewrite (cp_eq_none _ _ _ E EU). cbn [opt_op]. injection H1 as <-. eauto. }
  destruct X as [o' [-> Q]]. cbn [bind]. eapply v_rest_cong; eauto.
Qed.

Lemma claim_result_cong O1 O2 p p' ov ov' r :
  cp_eq p p' -> o_eq ov ov' -> claim_result O1 p ov = Ok r ->
  exists r', claim_result O2 p' ov' = Ok r' /\ o_eq r r'.
Proof.
  intros E E2 H. unfold claim_result in *.
  rewrite <- (cp_eq_plain p p' "value" eq_refl E).
  destruct (dget "value" p) as [v|].
  { injection H as <-. eexists; split; [reflexivity | apply v_eq_refl]. }
  apply bind_ok in H. destruct H as [o1 [H1 H]].
  assert (X : exists o', opt_op (dget "add" p') (v_add O2) ov' = Ok o' /\ o_eq o1 o').
  { destruct (dget "add" p) as [U|] eqn:EU; cbn [opt_op] in H1.
    - destruct (cp_eq_set _ _ _ _ E EU) as [U' [-> Q]]. cbn [opt_op].
      eapply v_add_cong; eauto.
    - rewrite (cp_eq_none _ _ _ E EU). cbn [opt_op]. injection H1 as <-. eauto. }
  destruct X as [o1' [-> Q1]]. cbn [bind].
  apply bind_ok in H. destruct H as [o2 [H2 H]].
  rewrite <- (cp_eq_plain p p' "default" eq_refl E).
  assert (X : exists o', opt_op (dget "default" p) v_default o1' = Ok o' /\ o_eq o2 o').
  { destruct (dget "default" p) as [d|]; cbn [opt_op] in *.
    - unfold v_default in *. destruct o1 as [v|], o1' as [v'|]; simpl in Q1; try contradiction.
      + injection H2 as <-. eauto.
      + injection H2 as <-. eexists; split; [reflexivity | apply v_eq_refl].
    - injection H2 as <-. eauto. }
  destruct X as [o2' [-> Q2]]. cbn [bind].
  unfold v_one_of in *.
  destruct (dget "one_of" p) as [U|] eqn:EU.
  - destruct (cp_eq_set _ _ _ _ E EU) as [U' [-> Q]].
    destruct o2 as [v|], o2' as [v'|]; simpl in Q2; try contradiction.
    + rewrite <- (v_eq_is_list _ _ Q2). destruct (is_list v) eqn:L.
      * exact (v_tail_cong O1 O2 p p' (Some v) (Some v') r E Q2 H).
      * assert (Z := v_eq_scalar _ _ Q2 L). subst v'.
        apply bind_ok in H. destruct H as [b [B H]].
        rewrite (py_in_cong _ _ _ _ Q B). cbn [bind]. destruct b; [|discriminate].
        injection H as <-. eauto.
    + exact (v_tail_cong O1 O2 p p' None None r E I H).
  - rewrite (cp_eq_none _ _ _ E EU). eapply v_tail_cong; eauto.
Qed.

Lemma apply_policy_cong O1 O2 md r r' md1 b :
  NoDup (dkeys md) -> rule_eq r r' -> apply_policy O1 md r = Ok (md1, b) ->
  exists md2, apply_policy O2 md r' = Ok (md2, b) /\ forall c, o_eq (dget c md1) (dget c md2).
Proof.
  intros ND [E1 E2] H.
  assert (S1 := apply_policy_spec O1 md r ND). rewrite H in S1.
  assert (S2 := apply_policy_spec O2 md r' ND). rewrite <- E1 in S2.
  assert (B : b = is_nil (r_metadata r)).
  { unfold apply_policy in H. destruct (is_nil (r_policy r)); [congruence|].
    apply bind_ok in H. destruct H as [x [_ H]]. congruence. }
  destruct (apply_policy O2 md r') as [[md2 b']|e] eqn:H'.
  - assert (B' : b' = is_nil (r_metadata r')).
    { unfold apply_policy in H'. destruct (is_nil (r_policy r')); [congruence|].
      apply bind_ok in H'. destruct H' as [x [_ H']]. congruence. }
    exists md2. split; [congruence|]. intros c. specialize (S1 c). specialize (S2 c). specialize (E2 c).
    destruct (dget c (r_policy r)) as [p|], (dget c (r_policy r')) as [p'|]; simpl in E2; try contradiction.
    + destruct (claim_result_cong O1 O2 _ _ _ _ _ E2 (o_eq_refl _) S1) as [x [X1 X2]].
      rewrite S2 in X1. injection X1 as <-. exact X2.
    + rewrite S1, S2. apply o_eq_refl.
  - exfalso. destruct S2 as [c [p' [P1 P2]]]. specialize (S1 c). specialize (E2 c).
    rewrite P1 in E2. destruct (dget c (r_policy r)) as [p|]; simpl in E2; [|contradiction].
    destruct (claim_result_cong O1 O2 _ _ _ _ _ E2 (o_eq_refl _) S1) as [x [X1 X2]]. congruence.
Qed.

(** ** all entity types *)
(** the call succeeds when it succeeds for each type *)
Lemma policy_call_fold_ok O front L : forall mds lf,
  NoDup L ->
  (exists m, s_metadata lf = Some m) ->
  (forall t, In t L -> exists r, policy_type O front lf t = Ok r) ->
  exists r, foldM (fun acc t => let* r := policy_type O front (snd acc) t in
                      Ok (dset t (fst r) (fst acc), snd r)) L (mds, lf) = Ok r.
Proof.
  induction L as [|t L IH]; intros mds lf ND HM H; simpl; [eauto|].
  inversion ND as [|? ? Ht ND']; subst.
  destruct (H t (or_introl eq_refl)) as [[o lf'] E]. rewrite E. cbn [bind fst snd].
  destruct HM as [m Hm].
  assert (SM : exists m', s_metadata lf' = Some m' /\
                          forall t', t' <> t -> dget t' m' = dget t' m).
  { unfold policy_type in E. apply bind_ok in E. destruct E as [comb [_ E]].
    rewrite Hm in E. destruct (dget t m) as [md|].
    - apply bind_ok in E. destruct E as [[md' b] [_ E]]. simpl in E. injection E as <- <-.
      destruct b.
      + unfold set_type_metadata; rewrite Hm; simpl. eexists; split; [reflexivity|].
        intros t' Hne; apply dget_dset_other, Hne.
      + exists m; auto.
    - injection E as <- <-. exists m; auto. }
  destruct SM as [m' [Hm' Hsame]].
  apply IH; [exact ND' | eauto |].
  intros t' Ht'. destruct (H t' (or_intror Ht')) as [r Hr]. unfold policy_type in *.
  apply bind_ok in Hr. destruct Hr as [comb [G P]]. rewrite G. cbn [bind].
  rewrite Hm'. rewrite Hm in P. rewrite Hsame by (intros ->; contradiction).
  destruct (dget t' m) as [md|]; [|eauto].
  apply bind_ok in P. destruct P as [[md' b] [A P]]. rewrite A. cbn [bind]. eauto.
Qed.

Lemma call_chain_ok O front leaf :
  types_nodup leaf -> front <> [] -> (exists m, s_metadata leaf = Some m) ->
  (forall t, has_type leaf t -> exists r, policy_type O front leaf t = Ok r) ->
  exists mds ch, policy_call_chain O (front ++ [leaf]) = Ok (ByType mds, ch).
Proof.
  intros W NE [m Hm] H. rewrite call_chain_app.
  apply is_nil_false in NE. rewrite NE.
  assert (ND := W m Hm).
  assert (X : exists r, policy_call O front leaf = Ok r).
  { unfold policy_call. rewrite Hm. apply policy_call_fold_ok; [exact ND | eauto |].
    intros t Ht. apply H. apply key_In_dget in Ht. destruct Ht as [md Ht]. exists m, md; auto. }
  destruct X as [r ->]. cbn [bind]. eauto.
Qed.

Lemma o_eq_same a b : o_eq a b -> same_claim a b.
Proof.
  destruct a as [v|], b as [w|]; simpl; auto.
  intros [->|[l [m [-> [-> [Hl [Hm E]]]]]]]; [left; reflexivity|].
  right. exists l, m. split; [reflexivity|]. split; [reflexivity|]. split; intros x Hx.
  - apply In_eq_vmem. rewrite <- E by (apply Hl, Hx). apply In_vmem; [apply Hl|]; exact Hx.
  - apply In_eq_vmem. rewrite E by (apply Hm, Hx). apply In_vmem; [apply Hm|]; exact Hx.
Qed.

Lemma order_independent O1 O2 front leaf mds1 ch1 :
  wf_chain front leaf ->
  policy_call_chain O1 (front ++ [leaf]) = Ok (ByType mds1, ch1) ->
  exists mds2 ch2, policy_call_chain O2 (front ++ [leaf]) = Ok (ByType mds2, ch2) /\
                   same_metadata mds1 mds2.
Proof.
  intros [WL WF] H.
  destruct (call_chain_types _ _ _ _ _ WL H) as [NE T].
  assert (W : forall et s, In s front -> md_nodup et s)
    by (intros et s Hs; apply wf_md_nodup, WF, Hs).
  assert (HM : exists m, s_metadata leaf = Some m).
  { rewrite call_chain_app in H. apply is_nil_false in NE. rewrite NE in H.
    apply bind_ok in H. destruct H as [x [H _]]. unfold policy_call in H.
    destruct (s_metadata leaf) as [m|]; [eauto | discriminate]. }
  assert (P : forall et, has_type leaf et -> exists md1 md2 l1 l2,
             policy_type O1 front leaf et = Ok (Some md1, l1) /\
             policy_type O2 front leaf et = Ok (Some md2, l2) /\
             forall c, o_eq (dget c md1) (dget c md2)).
  { intros et HT. destruct (proj1 (T et) HT) as [o [l' [P1 _]]].
    destruct HT as [ms [m [E1 E2]]]. unfold policy_type in *.
    apply bind_ok in P1. destruct P1 as [r [G P1]].
    rewrite G. cbn [bind]. rewrite E1, E2 in *.
    apply bind_ok in P1. destruct P1 as [[md1 b] [A P1]].
    destruct (gather_cong O1 O2 front et r (W et) G) as [r' [G' E]].
    rewrite G'. cbn [bind].
    assert (ND : NoDup (dkeys m)).
    { destruct WL as [WL _]. destruct (WL ms E1) as [_ WL']. apply (WL' et m E2). }
    destruct (apply_policy_cong O1 O2 m r r' md1 b ND E A) as [md2 [A' Q]].
    rewrite A, A'. cbn [bind fst snd]. eauto 10. }
  destruct (call_chain_ok O2 front leaf (wf_types_nodup _ WL) NE HM) as [mds2 [ch2 H2]].
  { intros t Ht. destruct (P t Ht) as [md1 [md2 [l1 [l2 [_ [X _]]]]]]. eauto. }
  exists mds2, ch2. split; [exact H2|]. intros et.
  destruct (call_chain_types _ _ _ _ _ WL H2) as [_ T2].
  assert (D : has_type leaf et \/ ~ has_type leaf et).
  { unfold has_type. destruct (s_metadata leaf) as [ms|].
    - destruct (dget et ms) as [m|] eqn:E; [left; exists ms, m; auto|].
      right. intros [a [b [P1 Q]]]. congruence.
    - right. intros [a [b [P1 Q]]]. congruence. }
  destruct D as [D|D].
  - destruct (proj1 (T et) D) as [o1 [x1 [X1 Y1]]].
    destruct (proj1 (T2 et) D) as [o2 [x2 [X2 Y2]]].
    destruct (P et D) as [md1 [md2 [l1 [l2 [Z1 [Z2 Q]]]]]].
    rewrite X1 in Z1. injection Z1 as -> _. rewrite X2 in Z2. injection Z2 as -> _.
    rewrite Y1, Y2. intros c. apply o_eq_same, Q.
  - rewrite (proj2 (T et) D), (proj2 (T2 et) D). exact I.
Qed.

(** the resulting value of a claim depends on its own policy and incoming value only *)
Lemma apply_metadata_policy_local O O' md md' mp mp' r r' c :
  apply_metadata_policy O md mp = Ok r -> apply_metadata_policy O' md' mp' = Ok r' ->
  dget c md = dget c md' -> dget c mp = dget c mp' ->
  same_claim (dget c r) (dget c r').
Proof.
  intros H H' E1 E2.
  assert (S := apply_metadata_policy_spec O md mp). rewrite H in S. specialize (S c).
  assert (S' := apply_metadata_policy_spec O' md' mp'). rewrite H' in S'. specialize (S' c).
  rewrite <- E1, <- E2 in S'. destruct (dget c mp) as [p|].
  - destruct (claim_result_cong O O' p p _ _ _ (cp_eq_refl p) (o_eq_refl _) S) as [x [X1 X2]].
    rewrite S' in X1. injection X1 as <-. apply o_eq_same, X2.
  - rewrite S, S'. apply o_eq_same, o_eq_refl.
Qed.
