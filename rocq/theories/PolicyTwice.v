(** Resolving a chain a second time (C13). *)
From Verif Require Export PolicyOrder2.

Lemma set_eq_trans a b c : set_eq a b -> set_eq b c -> set_eq a c.
Proof.
  intros [A1 [A2 A3]] [B1 [B2 B3]]. split; [exact A1|]. split; [exact B2|].
  intros x Hx. rewrite A3, B3 by exact Hx. reflexivity.
Qed.

Lemma v_eq_trans a b c : v_eq a b -> v_eq b c -> v_eq a c.
Proof.
  intros [->|[l [m [-> [-> S1]]]]] H; [exact H|].
  destruct H as [<-|[l' [m' [E [-> S2]]]]]; [right; eauto|].
  injection E as <-. right. exists l, m'. split; [reflexivity|]. split; [reflexivity|].
  eapply set_eq_trans; eauto.
Qed.

Lemma o_eq_trans a b c : o_eq a b -> o_eq b c -> o_eq a c.
Proof.
  destruct a, b, c; simpl; try tauto. apply v_eq_trans.
Qed.

(** ** one claim *)
Definition flat_add (p : claim_policy) : Prop :=
  forall v, dget "add" p = Some v -> flat_list v.

(** subset_of only meets lists *)
Definition subset_lists (p : claim_policy) (ov : option val) : Prop :=
  forall T, dget "subset_of" p = Some T ->
    lists ov /\ (forall v, dget "default" p = Some v -> is_list v = true).

Lemma tail_subset O p T l l' r :
  dget "subset_of" p = Some T ->
  all_hashable l' ->
  (forall x, hashable x = true ->
     vmem x (elems T) && vmem x l = vmem x (elems T) && vmem x l') ->
  v_tail O p (Some (VList l)) = Ok r ->
  exists r', v_tail O p (Some (VList l')) = Ok r' /\ o_eq r r'.
Proof.
  intros HT Hl' E H. unfold v_tail in *. rewrite HT in *. cbn [opt_op] in *.
  unfold v_subset_of in *. cbn [is_list] in *.
  apply bind_ok in H. destruct H as [o1 [H1 H]].
  apply bind_ok in H1. destruct H1 as [w [H1 H3]].
  apply bind_ok in H1. destruct H1 as [sT [S1 H1]].
  apply bind_ok in H1. destruct H1 as [sl [S2 H1]]. injection H1 as <-.
  destruct (is_nil (iov O (set_inter sT sl))) eqn:N; [discriminate|]. injection H3 as <-.
  rewrite S1. cbn [bind].
  destruct (set_of_list_ok l' Hl') as [sl' S3]. change (py_set (VList l') = Ok sl') in S3.
  rewrite S3. cbn [bind].
  assert (Q : set_eq (iov O (set_inter sT sl)) (iov O (set_inter sT sl'))).
  { split; [apply iov_hashable, set_inter_hashable; eapply py_set_hashable; eauto|].
    split; [apply iov_hashable, set_inter_hashable; eapply py_set_hashable; eauto|].
    intros x Hx. erewrite !inter_mem by eauto. apply E, Hx. }
  rewrite <- (set_eq_nil _ _ Q), N. cbn [bind].
  eapply v_rest_cong; [apply cp_eq_refl | | exact H].
  apply v_eq_sets; exact Q.
Qed.

Lemma flat_list_set A : flat_list A -> exists l s, A = VList l /\ all_hashable l /\
  set_or_single A = Ok s /\ all_hashable s /\ forall x, hashable x = true -> vmem x s = vmem x l.
Proof.
  intros [l [-> H]]. destruct (set_of_list_ok l H) as [s Hs]. exists l, s.
  split; [reflexivity|]. split; [exact H|]. split; [exact Hs|].
  split; [exact (py_set_hashable (VList l) s Hs)|].
  intros x Hx. exact (py_set_mem (VList l) s x Hs Hx).
Qed.

Lemma add_again O A l w :
  A = VList l -> all_hashable l -> all_hashable w ->
  exists u, v_add O A (Some (VList w)) = Ok (Some (VList u)) /\ all_hashable u /\
            forall x, hashable x = true -> vmem x u = vmem x w || vmem x l.
Proof.
  intros -> Hl Hw. unfold v_add.
  destruct (set_of_list_ok w Hw) as [sw Sw]. destruct (set_of_list_ok l Hl) as [sl Sl].
  change (set_or_single (VList w) = Ok sw) in Sw. change (set_or_single (VList l) = Ok sl) in Sl.
  rewrite Sw, Sl. cbn [bind]. eexists; split; [reflexivity|]. split.
  - apply iov_hashable, set_union_hashable.
    + exact (py_set_hashable (VList w) sw Sw).
    + exact (py_set_hashable (VList l) sl Sl).
  - intros x Hx. rewrite iov_mem, set_union_mem by exact Hx.
    rewrite (set_or_single_mem (VList w) sw x Sw Hx), (set_or_single_mem (VList l) sl x Sl Hx).
    reflexivity.
Qed.

(** after the add step of a policy that has one *)
Lemma add_once O A l ov o1 :
  A = VList l -> all_hashable l -> v_add O A ov = Ok o1 ->
  exists u, o1 = Some (VList u) /\ all_hashable u /\
            forall x, hashable x = true -> vmem x l = true -> vmem x u = true.
Proof.
  intros -> Hl H. unfold v_add in H. destruct ov as [v|].
  - apply bind_ok in H. destruct H as [sv [Sv H]].
    apply bind_ok in H. destruct H as [sl [Sl H]]. injection H as <-.
    eexists; split; [reflexivity|].
    destruct (set_or_single_ok _ _ Sv) as [Hv Ev].
    split.
    + apply iov_hashable, set_union_hashable; [rewrite Ev; apply dedup_hashable, Hv|].
      exact (py_set_hashable (VList l) sl Sl).
    + intros x Hx Hm. rewrite iov_mem, set_union_mem by exact Hx.
      rewrite (set_or_single_mem (VList l) sl x Sl Hx). cbn [members]. rewrite Hm.
      apply orb_true_r.
  - injection H as <-. exists l. auto.
Qed.

Lemma v_tail_no_subset O p ov r :
  dget "subset_of" p = None -> v_tail O p ov = Ok r -> r = ov.
Proof.
  intros N H. unfold v_tail in H. rewrite N in H. cbn [opt_op bind] in H.
  apply bind_ok in H. destruct H as [o [H1 H]].
  assert (o = ov).
  { destruct (dget "superset_of" p) as [U|]; cbn [opt_op] in H1; [|congruence].
    destruct ov as [v|]; simpl in H1; [|congruence].
    apply bind_ok in H1. destruct H1 as [d [_ H1]]. destruct d; congruence. }
  subst o. destruct (dget "essential" p) as [e|]; cbn [opt_op] in H; [|congruence].
  destruct ov; simpl in H; [congruence|]. destruct (py_eqb e (VBool true)); congruence.
Qed.

Lemma claim_idem O p ov r :
  flat_add p -> subset_lists p ov ->
  claim_result O p ov = Ok r -> exists r', claim_result O p r = Ok r' /\ o_eq r r'.
Proof.
  intros FA SL H. unfold claim_result in *.
  destruct (dget "value" p) as [v|]; [injection H as <-; eexists; split; [reflexivity|apply v_eq_refl]|].
  apply bind_ok in H. destruct H as [o1 [H1 H]].
  apply bind_ok in H. destruct H as [o2 [H2 H]].
  destruct (dget "add" p) as [A|] eqn:EA; cbn [opt_op] in *.
  - (* add *)
    destruct (FA A EA) as [l [EL Hl]].
    destruct (add_once O A l ov o1 EL Hl H1) as [u [-> [Hu IU]]].
    assert (E2 : forall x, opt_op (dget "default" p) v_default (Some x) = Ok (Some x))
      by (intros x; destruct (dget "default" p); reflexivity).
    rewrite E2 in H2. injection H2 as <-.
    assert (T : forall x, v_one_of O p (Some (VList x)) = v_tail O p (Some (VList x)))
      by (intros x; unfold v_one_of; destruct (dget "one_of" p); reflexivity).
    rewrite T in H.
    destruct (tail_list _ _ _ _ H) as [w [-> [HW _]]].
    assert (Hw : all_hashable w).
    { destruct (dget "subset_of" p); [exact (proj1 HW) | subst w; exact Hu]. }
    destruct (add_again O A l w EL Hl Hw) as [u' [-> [Hu' IU']]]. cbn [bind].
    rewrite E2. cbn [bind]. rewrite T.
    destruct (dget "subset_of" p) as [S|] eqn:ES.
    + destruct HW as [_ HW].
      eapply tail_subset; [exact ES | exact Hu' | | exact H].
      intros x Hx. rewrite IU', HW by exact Hx.
      destruct (vmem x (elems S)); [|reflexivity]. simpl.
      destruct (vmem x u) eqn:EU; [reflexivity|].
      destruct (vmem x l) eqn:Exl; [|reflexivity]. rewrite (IU x Hx Exl) in EU. discriminate.
    + subst w. eapply v_tail_cong; [apply cp_eq_refl | | exact H].
      right. exists u, u'. split; [reflexivity|]. split; [reflexivity|].
      split; [exact Hu|]. split; [exact Hu'|]. intros x Hx. rewrite IU' by exact Hx.
      destruct (vmem x u) eqn:EU; [reflexivity|].
      destruct (vmem x l) eqn:Exl; [|reflexivity]. rewrite (IU x Hx Exl) in EU. discriminate.
  - (* no add *)
    injection H1 as <-. cbn [bind].
    destruct (dget "subset_of" p) as [S|] eqn:ES.
    + destruct (SL S ES) as [L0 LD].
      assert (L2 : lists o2).
      { destruct (dget "default" p) as [d|]; cbn [opt_op] in H2.
        - destruct ov as [v|]; simpl in H2; injection H2 as <-; [exact L0|].
          intros w E; injection E as <-; auto.
        - injection H2 as <-; exact L0. }
      assert (T : forall x, lists x -> v_one_of O p x = v_tail O p x).
      { intros x Lx. unfold v_one_of. destruct (dget "one_of" p) as [U|]; [|reflexivity].
        destruct x as [v|]; [|reflexivity]. rewrite (Lx v eq_refl). reflexivity. }
      rewrite (T _ L2) in H. destruct o2 as [v|].
      * assert (X := L2 v eq_refl). destruct v; try discriminate.
        destruct (tail_list _ _ _ _ H) as [w [-> [HW _]]]. rewrite ES in HW. destruct HW as [Hw HW].
        assert (E2 : opt_op (dget "default" p) v_default (Some (VList w)) = Ok (Some (VList w)))
          by (destruct (dget "default" p); reflexivity).
        rewrite E2. cbn [bind]. rewrite T by (intros x E; injection E as <-; reflexivity).
        eapply tail_subset; [exact ES | exact Hw | | exact H].
        intros x Hx. rewrite HW by exact Hx. destruct (vmem x (elems S)); reflexivity.
      * assert (Z := tail_none _ _ _ H). subst r.
        destruct (dget "default" p) as [d|]; cbn [opt_op bind] in *.
        { destruct ov; simpl in H2; discriminate. }
        rewrite T by (intros x E; discriminate). exists None. split; [exact H | exact I].
    + assert (E : r = o2).
      { unfold v_one_of in H. destruct (dget "one_of" p) as [U|].
        - destruct o2 as [v|]; [|eapply v_tail_no_subset; eauto].
          destruct (is_list v); [eapply v_tail_no_subset; eauto|].
          apply bind_ok in H. destruct H as [b [_ H]]. destruct b; congruence.
        - eapply v_tail_no_subset; eauto. }
      subst r.
      assert (E2 : opt_op (dget "default" p) v_default o2 = Ok o2).
      { destruct (dget "default" p) as [d|]; cbn [opt_op] in *; [|reflexivity].
        destruct ov as [v|]; simpl in H2; injection H2 as <-; reflexivity. }
      rewrite E2. cbn [bind]. exists o2. split; [exact H | apply o_eq_refl].
Qed.

(** ** keys stay unique *)
Lemma op_call_nodup O name claim md pol md' nx :
  op_call O name claim md pol = Ok (md', nx) -> NoDup (dkeys md) -> NoDup (dkeys md').
Proof.
  unfold op_call. intros H ND. apply bind_ok in H. destruct H as [o [_ H]].
  destruct (String.eqb name "value").
  { injection H as <- _. apply NoDup_dset, ND. }
  destruct (String.eqb name "add").
  { unfold op_add in H. destruct (dget claim md).
    - apply bind_ok in H. destruct H as [a [_ H]]. apply bind_ok in H. destruct H as [b [_ H]].
      injection H as <- _. apply NoDup_dset, ND.
    - injection H as <- _. apply NoDup_dset, ND. }
  destruct (String.eqb name "default").
  { unfold op_default in H. destruct (dget claim md); injection H as <- _; [exact ND|].
    apply NoDup_dset, ND. }
  destruct (String.eqb name "one_of").
  { unfold op_one_of in H. destruct (dget claim md) as [v|]; [|congruence].
    destruct (is_list v); [congruence|].
    apply bind_ok in H. destruct H as [b [_ H]]. destruct b; congruence. }
  destruct (String.eqb name "subset_of").
  { unfold op_subset_of in H. destruct (dget claim md) as [v|]; [|congruence].
    apply bind_ok in H. destruct H as [l [_ H]]. destruct (is_nil l); [discriminate|].
    injection H as <- _. apply NoDup_dset, ND. }
  destruct (String.eqb name "superset_of").
  { unfold op_superset_of in H. destruct (dget claim md) as [v|]; [|congruence].
    apply bind_ok in H. destruct H as [d [_ H]]. destruct d; congruence. }
  unfold op_essential in H. destruct (dget claim md) as [v|]; [congruence|].
  destruct (py_eqb o (VBool true)); congruence.
Qed.

Lemma run_ops_nodup fuel : forall O claim pol ops md md',
  run_ops fuel O claim pol ops md = Ok md' -> NoDup (dkeys md) -> NoDup (dkeys md').
Proof.
  induction fuel as [|f IH]; intros O claim pol ops md md' H ND; [discriminate|].
  destruct ops as [|op ops]; [rewrite run_ops_nil in H; congruence|].
  rewrite run_ops_cons in H. destruct (dmem op pol); [|eapply IH; eauto].
  destruct (op_call O op claim md pol) as [[md1 nx]|e] eqn:E; [|discriminate].
  assert (N1 := op_call_nodup _ _ _ _ _ _ _ E ND).
  destruct nx as [nx|]; [|eapply IH; eauto].
  destruct (op_place nx (op :: ops)); [|discriminate]. eapply IH; eauto.
Qed.

Lemma apply_policy_nodup O md r md' b :
  apply_policy O md r = Ok (md', b) -> NoDup (dkeys md) ->
  NoDup (dkeys (r_metadata r)) -> NoDup (dkeys md').
Proof.
  unfold apply_policy. intros H ND NR.
  assert (G : forall m0 : metadata, NoDup (dkeys m0) ->
    (if is_nil (r_policy r) then Ok (m0, is_nil (r_metadata r))
     else let* md' := apply_metadata_policy O m0 (r_policy r) in Ok (md', is_nil (r_metadata r)))
    = Ok (md', b) -> NoDup (dkeys md')).
  { clear H. intros m0 N1 H. destruct (is_nil (r_policy r)); [injection H as <- _; exact N1|].
    apply bind_ok in H. destruct H as [m1 [H E]]. injection E as <- _.
    unfold apply_metadata_policy in H.
    eapply (foldM_inv _ _ _ (fun m => NoDup (dkeys m))); [|exact N1 | exact H].
    intros b1 x b2 _ NB HB. exact (run_ops_nodup _ _ _ _ _ _ _ HB NB). }
  revert H. destruct (is_nil (r_metadata r)); apply G; [exact ND | apply NoDup_dupdate, NR].
Qed.

Lemma apply_policy_in_place O md r md' b :
  apply_policy O md r = Ok (md', b) -> b = is_nil (r_metadata r).
Proof.
  unfold apply_policy. intros H. destruct (is_nil (r_policy r)); [congruence|].
  apply bind_ok in H. destruct H as [x [_ H]]. congruence.
Qed.

(** what the two conditions mean for the combined policy and the incoming value *)
Definition regular (r : rule) (md : metadata) : Prop :=
  forall c p, dget c (r_policy r) = Some p ->
    flat_add p /\ (dget "value" p = None -> subset_lists p (dget c md)).

Lemma apply_policy_again O1 O2 md r r' md1 :
  NoDup (dkeys md) -> rule_eq r r' -> regular r md ->
  apply_policy O1 md r = Ok (md1, true) ->
  exists md2, apply_policy O2 md1 r' = Ok (md2, true) /\
              forall c, o_eq (dget c md1) (dget c md2).
Proof.
  intros ND [E1 E2] REG H.
  assert (B := apply_policy_in_place _ _ _ _ _ H). symmetry in B. apply is_nil_true in B.
  assert (ND1 : NoDup (dkeys md1)).
  { eapply apply_policy_nodup; [exact H | exact ND |]. rewrite B. constructor. }
  assert (S1 := apply_policy_spec O1 md r ND). rewrite H in S1.
  assert (S2 := apply_policy_spec O2 md1 r' ND1). rewrite <- E1 in S2.
  assert (MG : forall c m, merged c m (r_metadata r) = dget c m).
  { intros c m. unfold merged. rewrite B. destruct (dget c m); reflexivity. }
  assert (STEP : forall c p p', dget c (r_policy r) = Some p -> dget c (r_policy r') = Some p' ->
             exists x, claim_result O2 p' (dget c md1) = Ok x /\ o_eq (dget c md1) x).
  { intros c p p' P P'. specialize (S1 c). rewrite P, MG in S1. specialize (E2 c).
    rewrite P, P' in E2. simpl in E2.
    assert (FS := REG c p P). destruct FS as [FA FS].
    assert (X : exists x, claim_result O1 p (dget c md1) = Ok x /\ o_eq (dget c md1) x).
    { destruct (dget "value" p) as [v|] eqn:EV.
      - unfold claim_result in *. rewrite EV in *. injection S1 as S1. rewrite <- S1.
        eexists; split; [reflexivity | apply v_eq_refl].
      - eapply claim_idem; [exact FA | exact (FS eq_refl) | exact S1]. }
    destruct X as [x [X1 X2]].
    destruct (claim_result_cong O1 O2 _ _ _ _ _ E2 (o_eq_refl _) X1) as [y [Y1 Y2]].
    exists y. split; [exact Y1 | eapply o_eq_trans; eauto]. }
  destruct (apply_policy O2 md1 r') as [[md2 b']|e] eqn:H'.
  - assert (B' := apply_policy_in_place _ _ _ _ _ H'). rewrite <- E1, B in B'. subst b'.
    exists md2. split; [reflexivity|]. intros c. specialize (S2 c).
    assert (E2c := E2 c).
    destruct (dget c (r_policy r)) as [p|] eqn:P, (dget c (r_policy r')) as [p'|] eqn:P';
      simpl in E2c; try contradiction.
    + destruct (STEP c p p' P P') as [x [X1 X2]]. rewrite MG in S2. rewrite S2 in X1.
      injection X1 as <-. exact X2.
    + rewrite S2, MG. apply o_eq_refl.
  - exfalso. destruct S2 as [c [p' [P1 P2]]]. specialize (E2 c).
    rewrite P1 in E2. destruct (dget c (r_policy r)) as [p|] eqn:P; simpl in E2; [|contradiction].
    destruct (STEP c p p' P P1) as [x [X1 _]]. rewrite MG in P2. congruence.
Qed.

(** ** the whole chain *)
(** the leaf statement after the call *)
Definition type_md (s : stmt) (t : string) : option metadata :=
  match s_metadata s with Some m => dget t m | None => None end.

Lemma type_md_has s t : has_type s t <-> exists md, type_md s t = Some md.
Proof.
  unfold has_type, type_md. split.
  - intros [ms [m [-> H]]]. eauto.
  - destruct (s_metadata s) as [ms|]; intros [m H]; [eauto | discriminate].
Qed.

Lemma set_type_md s t md t' :
  s_metadata s <> None ->
  type_md (set_type_metadata s t md) t' = if String.eqb t' t then Some md else type_md s t'.
Proof.
  unfold set_type_metadata, type_md. destruct (s_metadata s) as [m|]; [|congruence].
  intros _. simpl. apply dget_dset.
Qed.

(** [policy_type] on a leaf that has the type *)
Lemma policy_type_inv O front lf t md o lf' :
  type_md lf t = Some md -> policy_type O front lf t = Ok (o, lf') ->
  exists r md' b, gather_policies O front t = Ok r /\ apply_policy O md r = Ok (md', b) /\
    o = Some md' /\ lf' = if b then set_type_metadata lf t md' else lf.
Proof.
  unfold type_md, policy_type. intros T H. apply bind_ok in H. destruct H as [r [G H]].
  destruct (s_metadata lf) as [m|]; [|discriminate]. rewrite T in H.
  apply bind_ok in H. destruct H as [[md' b] [A H]]. cbn [fst snd] in H. injection H as <- <-.
  exists r, md', b. auto.
Qed.

Lemma policy_type_intro O front lf t md r md' b :
  type_md lf t = Some md -> gather_policies O front t = Ok r ->
  apply_policy O md r = Ok (md', b) ->
  policy_type O front lf t = Ok (Some md', if b then set_type_metadata lf t md' else lf).
Proof.
  unfold type_md, policy_type. intros T G A. rewrite G. cbn [bind].
  destruct (s_metadata lf) as [m|]; [|discriminate]. rewrite T, A. reflexivity.
Qed.

Lemma set_type_keys s t md ms :
  s_metadata s = Some ms -> dmem t ms = true ->
  exists ms', s_metadata (set_type_metadata s t md) = Some ms' /\ dkeys ms' = dkeys ms.
Proof.
  intros E M. unfold set_type_metadata. rewrite E. simpl. eexists; split; [reflexivity|].
  clear E. induction ms as [|[k v] ms IH]; [discriminate|]. simpl.
  unfold dmem in M. simpl in M. destruct (String.eqb_spec t k) as [->|N]; [reflexivity|].
  simpl. f_equal. apply IH. exact M.
Qed.

Lemma policy_call_leaf O front L : forall mds lf ms r,
  NoDup L -> s_metadata lf = Some ms -> (forall t, In t L -> dmem t ms = true) ->
  foldM (fun acc t => let* r := policy_type O front (snd acc) t in
                      Ok (dset t (fst r) (fst acc), snd r)) L (mds, lf) = Ok r ->
  (exists ms', s_metadata (snd r) = Some ms' /\ dkeys ms' = dkeys ms) /\
  (forall t, ~ In t L -> type_md (snd r) t = type_md lf t) /\
  (forall t md, In t L -> type_md lf t = Some md ->
     exists rl md' b, gather_policies O front t = Ok rl /\ apply_policy O md rl = Ok (md', b) /\
       dget t (fst r) = Some (Some md') /\
       type_md (snd r) t = Some (if b then md' else md)) /\
  (forall t, ~ In t L -> dget t (fst r) = dget t mds).
Proof.
  induction L as [|t L IH]; intros mds lf ms r ND HM MM H; simpl in H.
  - injection H as <-. simpl. split; [eauto|]. split; [auto|]. split; [intros ? ? []|auto].
  - inversion ND as [|? ? Ht ND']; subst.
    destruct (policy_type O front lf t) as [[o lf']|e] eqn:E; cbn [bind fst snd] in H;
      [|discriminate].
    assert (TM : exists md, type_md lf t = Some md).
    { unfold type_md. rewrite HM. apply dmem_some, MM. left; reflexivity. }
    destruct TM as [md TM].
    destruct (policy_type_inv _ _ _ _ _ _ _ TM E) as [rl [md' [b [G [A [-> Elf]]]]]].
    assert (K : exists ms', s_metadata lf' = Some ms' /\ dkeys ms' = dkeys ms).
    { subst lf'. destruct b; [|eauto].
      eapply set_type_keys; [exact HM | apply MM; left; reflexivity]. }
    destruct K as [ms' [HM' K]].
    assert (TY : forall t', t' <> t -> type_md lf' t' = type_md lf t').
    { intros t' N. subst lf'. destruct b; [|reflexivity].
      rewrite set_type_md by congruence. apply String.eqb_neq in N. rewrite N. reflexivity. }
    assert (TT : type_md lf' t = Some (if b then md' else md)).
    { subst lf'. destruct b; [|exact TM].
      rewrite set_type_md by congruence. rewrite String.eqb_refl. reflexivity. }
    assert (MM' : forall t', In t' L -> dmem t' ms' = true).
    { intros t' Ht'. rewrite dmem_true, K, <- dmem_true. apply MM; right; exact Ht'. }
    destruct (IH _ _ _ _ ND' HM' MM' H) as [I1 [I2 [I3 I4]]].
    split; [destruct I1 as [x [X1 X2]]; exists x; split; congruence|].
    split; [|split].
    + intros t' N. rewrite I2 by (intros X; apply N; right; exact X).
      apply TY. intros ->; apply N; left; reflexivity.
    + intros t' md2 [<-|Ht'] TM2.
      * rewrite TM in TM2. injection TM2 as <-. exists rl, md', b.
        split; [exact G|]. split; [exact A|]. rewrite I4 by exact Ht.
        rewrite dget_dset_same. split; [reflexivity|]. rewrite I2 by exact Ht. exact TT.
      * apply I3; [exact Ht'|]. rewrite TY; [exact TM2|]. intros ->; contradiction.
    + intros t' N. rewrite I4 by (intros X; apply N; right; exact X).
      apply dget_dset_other. intros ->; apply N; left; reflexivity.
Qed.

Definition K_rep (has_sub : Prop) (p : claim_policy) : Prop :=
  flat_add p /\
  ((exists T, dget "subset_of" p = Some T) -> has_sub) /\
  (has_sub -> forall v, dget "default" p = Some v -> is_list v = true).

Lemma K_rep_comb O P x y z :
  K_rep P x -> K_rep P y -> combine_claim_policy O x y = Ok z -> K_rep P z.
Proof.
  intros [X1 [X2 X3]] [Y1 [Y2 Y3]] H. split; [|split].
  - intros v Hv. destruct (comb_add_from _ _ _ _ _ H Hv) as [?|[?|[a [b [Ha [Hb E]]]]]]; auto.
    unfold combine_add in E. apply bind_ok in E. destruct E as [sa [Sa E]].
    apply bind_ok in E. destruct E as [sb [Sb E]]. injection E as <-.
    eexists; split; [reflexivity|].
    apply iov_hashable, set_union_hashable.
    + destruct (set_or_single_ok _ _ Sa) as [Q ->]. apply dedup_hashable, Q.
    + destruct (set_or_single_ok _ _ Sb) as [Q ->]. apply dedup_hashable, Q.
  - intros [T HT]. assert (K : known "subset_of") by auto with known.
    destruct (comb_from _ _ _ _ _ _ K H HT) as [?|[?|[[a [b [Ha _]]]|[? _]]]]; eauto; discriminate.
  - intros HP v Hv. destruct (comb_default_from _ _ _ _ _ H Hv); eauto.
Qed.

Lemma repeat_resolution O1 O2 front leaf mds1 ch1 :
  wf_chain front leaf ->
  (forall et c, has_type leaf et -> repeatable_claim front leaf et c) ->
  policy_call_chain O1 (front ++ [leaf]) = Ok (ByType mds1, ch1) ->
  exists mds2 ch2, policy_call_chain O2 ch1 = Ok (ByType mds2, ch2) /\ same_metadata mds1 mds2.
Proof.
  intros [WL WF] REP H.
  assert (W : forall et s, In s front -> md_nodup et s)
    by (intros et s Hs; apply wf_md_nodup, WF, Hs).
  rewrite call_chain_app in H. destruct (is_nil front) eqn:NE.
  { apply bind_ok in H. destruct H as [m [_ H]]. apply bind_ok in H.
    destruct H as [md [_ H]]. discriminate. }
  apply is_nil_false in NE.
  apply bind_ok in H. destruct H as [r [H1 H2]]. injection H2 as <- <-.
  unfold policy_call in H1. destruct (s_metadata leaf) as [ms|] eqn:EM; [|discriminate].
  destruct WL as [WL _]. destruct (WL ms EM) as [ND WM].
  destruct (policy_call_leaf O1 front (dkeys ms) [] leaf ms r ND EM
              (fun t Ht => proj2 (dmem_true _ t ms) Ht) H1) as [[ms' [EM' K]] [T1 [T2 T3]]].
  set (leaf' := snd r) in *.
  assert (TN : types_nodup leaf').
  { intros x X. rewrite EM' in X. injection X as <-. rewrite K. exact ND. }
  assert (HT : forall et, has_type leaf' et <-> In et (dkeys ms)).
  { intros et. rewrite type_md_has. unfold type_md. rewrite EM', <- K, <- dmem_true, dmem_some.
    reflexivity. }
  assert (ALL : forall et, In et (dkeys ms) -> exists md1 md2 l',
            dget et (fst r) = Some (Some md1) /\
            policy_type O2 front leaf' et = Ok (Some md2, l') /\
            forall c, o_eq (dget c md1) (dget c md2)).
  { intros et Het. destruct (key_In_dget _ et ms Het) as [m Hm].
    assert (TM : type_md leaf et = Some m) by (unfold type_md; rewrite EM; exact Hm).
    destruct (T2 et m Het TM) as [rl [md1 [b [G [A [D TT]]]]]].
    destruct (WM et m Hm) as [NDm _].
    destruct (gather_cong O1 O2 front et rl (W et) G) as [rl' [G' E]].
    assert (X : exists md2, apply_policy O2 (if b then md1 else m) rl' = Ok (md2, b) /\
                            forall c, o_eq (dget c md1) (dget c md2)).
    { destruct b; [|eapply apply_policy_cong; eauto].
      eapply apply_policy_again; eauto.
      intros c p Hp.
      assert (HTL : has_type leaf et) by (apply type_md_has; eauto).
      destruct (REP et c HTL) as [R1 R2].
      destruct front as [|first rest]; [congruence|].
      destruct (gather_spec O1 et first rest rl (fun s Hs => W et s (or_intror Hs)) G c)
        as [F1 [F2 _]].
      set (P := exists s T, In s (first :: rest) /\ policy_says s et c "subset_of" T) in *.
      assert (KR : K_rep P p).
      { apply (chain_all O1 (K_rep P) et c first rest (dget c (r_policy rl)) (K_rep_comb O1 P));
          [|exact F1 | exact Hp].
        intros s q Hs Hq. split; [|split].
        - intros v Hv. eapply R1; [exact Hs | eapply cpol_says; eauto].
        - intros [T Q]. exists s, T. split; [exact Hs | eapply cpol_says; eauto].
        - intros HP v Hv. destruct (R2 HP) as [_ [_ L3]].
          eapply L3; [exact Hs | eapply cpol_says; eauto]. }
      destruct KR as [K1 [K2 K3]]. split; [exact K1|].
      intros _ T HTs. assert (HP : P) by (apply K2; eauto). split; [|exact (K3 HP)].
      destruct (R2 HP) as [L1 _]. intros v Hv. apply (L1 leaf v (or_introl eq_refl)).
      exists ms, m. auto. }
    destruct X as [md2 [A2 Q]].
    exists md1, md2. eexists. split; [exact D|]. split; [|exact Q].
    eapply policy_type_intro; [exact TT | exact G' | exact A2]. }
  destruct (call_chain_ok O2 front leaf' TN NE) as [mds2 [ch2 R]].
  { eauto. }
  { intros t Ht. apply HT in Ht. destruct (ALL t Ht) as [md1 [md2 [l' [_ [X _]]]]]. eauto. }
  exists mds2, ch2. split; [exact R|].
  destruct (call_chain_types0 _ _ _ _ _ TN R) as [_ T].
  intros et. destruct (in_dec string_dec et (dkeys ms)) as [D|D].
  - destruct (ALL et D) as [md1 [md2 [l' [X1 [X2 X3]]]]]. rewrite X1.
    destruct (proj1 (T et) (proj2 (HT et) D)) as [o [l2 [Y1 Y2]]].
    rewrite Y2. rewrite X2 in Y1. injection Y1 as <- _. intros c. apply o_eq_same, X3.
  - rewrite T3 by exact D. rewrite (proj2 (T et)); [exact I|].
    intros X; apply D, HT, X.
Qed.
