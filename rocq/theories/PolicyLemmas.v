(** From the outcome of policy resolution to the combined policy of one claim. *)
From Verif Require Export CombineFacts PolicySpec.

(** ** policy_says and metadata_says in terms of the model *)
Lemma cpol_says et c s p op v :
  cpol et c s = Some p -> dget op p = Some v -> policy_says s et c op v.
Proof.
  unfold cpol, stmt_rule; simpl. intros H Hv.
  destruct (s_policy s) as [ps|] eqn:E1; [|discriminate].
  destruct (dget et ps) as [mp|] eqn:E2; [|discriminate].
  exists ps, mp, p; auto.
Qed.

Lemma says_cpol et c s op v :
  policy_says s et c op v -> exists p, cpol et c s = Some p /\ dget op p = Some v.
Proof.
  intros [ps [mp [cp [H1 [H2 [H3 H4]]]]]]. exists cp. split; [|exact H4].
  unfold cpol, stmt_rule; simpl. rewrite H1, H2; exact H3.
Qed.

Lemma about_cpol et c s : policy_about s et c <-> exists p, cpol et c s = Some p.
Proof.
  split.
  - intros [ps [mp [cp [H1 [H2 H3]]]]]. exists cp.
    unfold cpol, stmt_rule; simpl. rewrite H1, H2; exact H3.
  - intros [p H]. unfold cpol, stmt_rule in H; simpl in H.
    destruct (s_policy s) as [ps|] eqn:E1; [|discriminate].
    destruct (dget et ps) as [mp|] eqn:E2; [|discriminate].
    exists ps, mp, p; auto.
Qed.

Lemma cmd_says et c s v : cmd et c s = Some v <-> metadata_says s et c v.
Proof.
  unfold cmd, stmt_rule, metadata_says; simpl. split.
  - intros H. destruct (s_metadata s) as [ms|] eqn:E1; [|discriminate].
    destruct (dget et ms) as [m|] eqn:E2; [|discriminate]. exists ms, m; auto.
  - intros [ms [m [H1 [H2 H3]]]]. rewrite H1, H2; exact H3.
Qed.

Lemma wf_md_nodup et s : wf_stmt s -> md_nodup et s.
Proof.
  intros [W _]. unfold md_nodup, stmt_rule; simpl.
  destruct (s_metadata s) as [ms|]; [|constructor].
  destruct (dget et ms) as [m|] eqn:E; [|constructor].
  destruct (W ms eq_refl) as [_ W']. apply (W' et m E).
Qed.

(** ** the call for all entity types *)
Lemma policy_call_fold O front L : forall mds lf r,
  NoDup L ->
  (forall t, In t L -> exists m, s_metadata lf = Some m /\ dmem t m = true) ->
  foldM (fun acc t => let* r := policy_type O front (snd acc) t in
                      Ok (dset t (fst r) (fst acc), snd r)) L (mds, lf) = Ok r ->
  (forall t, In t L -> exists o l', policy_type O front lf t = Ok (o, l') /\
                                    dget t (fst r) = Some o) /\
  (forall t, ~ In t L -> dget t (fst r) = dget t mds).
Proof.
  induction L as [|t L IH]; intros mds lf r ND HM H; simpl in H.
  - injection H as <-. split; [intros t []|reflexivity].
  - inversion ND as [|? ? Ht ND']; subst.
    destruct (policy_type O front lf t) as [[o lf']|e] eqn:E; cbn [bind fst snd] in H;
      [|discriminate].
    destruct (HM t (or_introl eq_refl)) as [m [Hm Hmem]].
    assert (SM : exists m', s_metadata lf' = Some m' /\
                            forall t', t' <> t -> dget t' m' = dget t' m).
    { unfold policy_type in E. apply bind_ok in E. destruct E as [comb [_ E]].
      rewrite Hm in E. destruct (dget t m) as [md|].
      - apply bind_ok in E. destruct E as [[md' b] [_ E]]. simpl in E. injection E as <- <-.
        destruct b.
        + unfold set_type_metadata; rewrite Hm; simpl. eexists; split; [reflexivity|].
          intros t' Hne; apply dget_dset_other, Hne.
        + exists m; auto.
      - injection E as <- <-. exists m; auto. }
    destruct SM as [m' [Hm' Hsame]].
    assert (PT : forall t', In t' L -> forall o l1, policy_type O front lf' t' = Ok (o, l1) ->
                 exists l2, policy_type O front lf t' = Ok (o, l2)).
    { intros t' Ht' o' l1 P. unfold policy_type in *.
      apply bind_ok in P. destruct P as [comb [G P]]. rewrite G. cbn [bind].
      rewrite Hm. rewrite Hm' in P. rewrite Hsame in P by (intros ->; contradiction).
      destruct (dget t' m) as [md|].
      - apply bind_ok in P. destruct P as [[md' b] [A P]]. rewrite A. cbn [bind fst snd] in *.
        injection P as <- _. eauto.
      - injection P as <- _. eauto. }
    assert (HM' : forall t, In t L -> exists m, s_metadata lf' = Some m /\ dmem t m = true).
    { intros t' Ht'. exists m'. split; [exact Hm'|].
      rewrite dmem_get, Hsame by (intros ->; contradiction).
      destruct (HM t' (or_intror Ht')) as [m2 [Q1 Q2]]. rewrite Hm in Q1. injection Q1 as <-.
      exact Q2. }
    destruct (IH _ lf' _ ND' HM' H) as [I1 I2].
    split.
    + intros t' [<-|Ht'].
      * exists o, lf'. split; [exact E|]. rewrite I2 by exact Ht. apply dget_dset_same.
      * destruct (I1 t' Ht') as [o' [l' [P1 P2]]]. destruct (PT t' Ht' _ _ P1) as [l2 P3]. eauto.
    + intros t' Ht'. rewrite I2 by (intros X; apply Ht'; right; exact X).
      apply dget_dset_other. intros ->; apply Ht'; left; reflexivity.
Qed.

Lemma call_chain_app O front leaf :
  policy_call_chain O (front ++ [leaf]) =
  if is_nil front then
    let* m := match s_metadata leaf with Some m => Ok m | None => Err KeyError end in
    let* md := dindex "" m in
    Ok (Flat md, front ++ [leaf])
  else
    let* r := policy_call O front leaf in
    Ok (ByType (fst r), front ++ [snd r]).
Proof.
  unfold policy_call_chain. rewrite rev_app_distr. cbn [rev app].
  assert (N : is_nil (rev front) = is_nil front).
  { destruct front as [|s f]; [reflexivity|]. simpl. destruct (rev f); reflexivity. }
  rewrite N, rev_involutive. reflexivity.
Qed.

Definition types_nodup (s : stmt) : Prop := forall ms, s_metadata s = Some ms -> NoDup (dkeys ms).

Lemma wf_types_nodup s : wf_stmt s -> types_nodup s.
Proof. intros [W _] ms H. exact (proj1 (W ms H)). Qed.

Lemma call_chain_types0 O front leaf mds ch :
  types_nodup leaf ->
  policy_call_chain O (front ++ [leaf]) = Ok (ByType mds, ch) ->
  front <> [] /\
  forall et, (has_type leaf et -> exists o l', policy_type O front leaf et = Ok (o, l') /\
                                         dget et mds = Some o) /\
             (~ has_type leaf et -> dget et mds = None).
Proof.
  intros W H. rewrite call_chain_app in H.
  destruct (is_nil front) eqn:N.
  - apply bind_ok in H. destruct H as [m [_ H]]. apply bind_ok in H.
    destruct H as [md [_ H]]. discriminate.
  - apply is_nil_false in N. split; [exact N|]. intros et.
    apply bind_ok in H. destruct H as [r [H1 H2]]. injection H2 as <- _.
    unfold policy_call in H1.
    destruct (s_metadata leaf) as [m|] eqn:E; [|discriminate].
    assert (ND := W m E).
    assert (HM : forall t, In t (dkeys m) -> exists m, s_metadata leaf = Some m /\ dmem t m = true).
    { intros t Ht. exists m; split; [exact E|]. apply dmem_true; exact Ht. }
    destruct (policy_call_fold O front (dkeys m) [] leaf r ND HM H1) as [I1 I2].
    split.
    + intros [ms [md [E1 E2]]]. rewrite E in E1. injection E1 as <-.
      apply I1. eapply dget_In_key; eauto.
    + intros X. rewrite I2; [reflexivity|]. intros Y. apply X.
      apply key_In_dget in Y. destruct Y as [md Y]. exists m, md; auto.
Qed.

Lemma call_chain_types O front leaf mds ch :
  wf_stmt leaf ->
  policy_call_chain O (front ++ [leaf]) = Ok (ByType mds, ch) ->
  front <> [] /\
  forall et, (has_type leaf et -> exists o l', policy_type O front leaf et = Ok (o, l') /\
                                         dget et mds = Some o) /\
             (~ has_type leaf et -> dget et mds = None).
Proof. intros W. apply call_chain_types0, wf_types_nodup, W. Qed.

Lemma resolves_inv O front leaf et md :
  wf_stmt leaf ->
  resolves O front leaf et md ->
  exists first rest lms lmd r b,
    front = first :: rest /\ s_metadata leaf = Some lms /\ dget et lms = Some lmd /\
    NoDup (dkeys lmd) /\
    gather_policies O front et = Ok r /\ apply_policy O lmd r = Ok (md, b).
Proof.
  intros W [mds [ch [H1 H2]]].
  destruct (call_chain_types _ _ _ _ _ W H1) as [NE T]. specialize (T et).
  destruct front as [|first rest]; [congruence|].
  destruct (s_metadata leaf) as [lms|] eqn:E1.
  2:{ destruct T as [_ T]. rewrite T in H2; [discriminate|].
      intros [ms [m [X _]]]; congruence. }
  destruct (dget et lms) as [lmd|] eqn:E2.
  2:{ destruct T as [_ T]. rewrite T in H2; [discriminate|].
      intros [ms [m [X Y]]]; congruence. }
  destruct T as [T _]. destruct T as [o [l' [P1 P2]]]; [exists lms, lmd; auto|].
  rewrite H2 in P2. injection P2 as <-.
  unfold policy_type in P1. apply bind_ok in P1. destruct P1 as [r [G P1]].
  rewrite E1, E2 in P1. apply bind_ok in P1. destruct P1 as [[md' b] [A P1]].
  simpl in P1. injection P1 as <- _.
  destruct W as [W _]. destruct (W lms E1) as [_ W']. destruct (W' et lmd E2) as [ND _].
  exists first, rest, lms, lmd, r, b. auto 10.
Qed.

(** what resolution does to one claim: [a] accumulates the policies, [m] the metadata *)
Lemma resolves_claim O front leaf et md c :
  wf_chain front leaf ->
  resolves O front leaf et md ->
  exists first rest a m,
    front = first :: rest /\ has_type leaf et /\
    foldM (fun a s => ocombine O a (cpol et c s)) rest (cpol et c first) = Ok a /\
    foldM (fun a s => omerge a (cmd et c s)) rest (cmd et c first) = Ok m /\
    (forall s, In s rest -> cpol et c s <> None -> cmd et c s = None) /\
    let ov := match cmd et c leaf with Some v => Some v | None => m end in
    match a with
    | Some p => claim_result O p ov = Ok (dget c md)
    | None => dget c md = ov
    end.
Proof.
  intros [WL WF] H.
  destruct (resolves_inv _ _ _ _ _ WL H)
    as [first [rest [lms [lmd [r [b [-> [E1 [E2 [ND [G A]]]]]]]]]]].
  assert (W : forall s, In s rest -> md_nodup et s)
    by (intros s Hs; apply wf_md_nodup, WF; right; exact Hs).
  destruct (gather_spec O et first rest r W G c) as [F1 [F2 F3]].
  exists first, rest, (dget c (r_policy r)), (dget c (r_metadata r)).
  split; [reflexivity|]. split; [exists lms, lmd; auto|]. split; [exact F1|]. split; [exact F2|]. split; [exact F3|].
  assert (S := apply_policy_spec O lmd r ND). rewrite A in S. specialize (S c).
  unfold merged in S. unfold cmd, stmt_rule; simpl. rewrite E1, E2. exact S.
Qed.

(** ** metadata of superiors *)
Lemma omerge_from (f : stmt -> option val) rest : forall a v,
  foldM (fun a s => omerge a (f s)) rest a = Ok (Some v) ->
  a = Some v \/ exists s, In s rest /\ f s = Some v.
Proof.
  induction rest as [|s rest IH]; intros a v H; simpl in H.
  - injection H as <-. left; reflexivity.
  - destruct (omerge a (f s)) as [a'|e] eqn:E; [|discriminate].
    destruct (IH _ _ H) as [->|[s' [H1 H2]]].
    + unfold omerge in E. destruct a as [x|].
      * destruct (f s) as [y|] eqn:F.
        -- destruct (py_eqb x y); [|discriminate]. injection E as ->.
           right. exists s; split; [left; reflexivity | exact F].
        -- injection E as ->. left; reflexivity.
      * injection E as E. right. exists s; split; [left; reflexivity | exact E].
    + right. exists s'. split; [right; exact H1 | exact H2].
Qed.

Lemma omerge_none (f : stmt -> option val) rest : forall a,
  foldM (fun a s => omerge a (f s)) rest a = Ok None ->
  a = None /\ forall s, In s rest -> f s = None.
Proof.
  induction rest as [|s rest IH]; intros a H; simpl in H.
  - injection H as <-. split; [reflexivity | intros s []].
  - destruct (omerge a (f s)) as [a'|e] eqn:E; [|discriminate].
    destruct (IH _ H) as [-> I]. unfold omerge in E.
    destruct a as [x|].
    + destruct (f s) as [y|]; [destruct (py_eqb x y)|]; discriminate.
    + injection E as E. split; [reflexivity|]. intros s' [<-|Hs]; auto.
Qed.

Definition incoming (leaf_v : option val) (m : option val) : option val :=
  match leaf_v with Some v => Some v | None => m end.

(** where the value of a claim comes from before the policies are applied *)
Lemma incoming_from et c leaf first rest m v :
  foldM (fun a s => omerge a (cmd et c s)) rest (cmd et c first) = Ok m ->
  incoming (cmd et c leaf) m = Some v ->
  exists s, In s (leaf :: first :: rest) /\ metadata_says s et c v.
Proof.
  intros F H. unfold incoming in H. destruct (cmd et c leaf) as [w|] eqn:E.
  - injection H as ->. exists leaf; split; [left; reflexivity|]. apply cmd_says; exact E.
  - subst m. destruct (omerge_from _ _ _ _ F) as [X|[s [X Y]]].
    + exists first; split; [right; left; reflexivity | apply cmd_says; exact X].
    + exists s; split; [right; right; exact X | apply cmd_says; exact Y].
Qed.

(** ** combination, operator by operator *)
Lemma comb_value_l O a b c v :
  combine_claim_policy O a b = Ok c -> dget "value" a = Some v -> dget "value" c = Some v.
Proof.
  intros H Hv. destruct (combine_claim_cases _ _ _ _ H) as
    [w H1 H2 ->|w e H1 H2 H3 ->|w w' H1 H2 H3 H4 ->|H1 H2]; try congruence.
  rewrite Hv in H1; injection H1 as <-; reflexivity.
Qed.

Lemma comb_value_r O a b c w :
  combine_claim_policy O a b = Ok c -> dget "value" b = Some w ->
  exists v, dget "value" c = Some v /\
            (dget "value" a = Some v /\ py_eqb w v = true \/ dget "value" a = None /\ v = w).
Proof.
  intros H Hw. destruct (combine_claim_cases _ _ _ _ H) as
    [v H1 H2 ->|v e H1 H2 H3 ->|v w' H1 H2 H3 H4 ->|H1 H2].
  - rewrite H2 in Hw by auto with known. discriminate.
  - rewrite H3 in Hw; [discriminate | auto with known | discriminate].
  - rewrite Hw in H2; injection H2 as <-. eauto.
  - assert (S := combine_no_value_spec _ _ _ _ H2 "value" known_value).
    rewrite H1, Hw in S. destruct S as [v [S1 S2]].
    unfold do_policy in S1. simpl in S1. unfold do_value in S1. rewrite H1, Hw in S1.
    injection S1 as <-. exists w; auto.
Qed.

Lemma comb_no_value O a b c :
  combine_claim_policy O a b = Ok c -> dget "value" c = None ->
  dget "value" a = None /\ dget "value" b = None /\ combine_no_value O a b = Ok c.
Proof.
  intros H Hn. destruct (dget "value" a) as [v|] eqn:Ea.
  { rewrite (comb_value_l _ _ _ _ _ H Ea) in Hn; discriminate. }
  destruct (dget "value" b) as [w|] eqn:Eb.
  { destruct (comb_value_r _ _ _ _ _ H Eb) as [v [X _]]. congruence. }
  split; [reflexivity|]. split; [reflexivity|].
  destruct (combine_claim_cases _ _ _ _ H); congruence.
Qed.

Lemma do_policy_set O p sup child :
  In p ["subset_of"; "superset_of"; "one_of"; "add"] ->
  do_policy O p sup child = do_sub_one_super_add O sup child p.
Proof. intros [<-|[<-|[<-|[<-|[]]]]]; reflexivity. Qed.

(** where an operand of a combined policy comes from *)
Lemma comb_from O a b c p v :
  known p -> combine_claim_policy O a b = Ok c -> dget p c = Some v ->
  dget p a = Some v \/ dget p b = Some v \/
  (exists x y, dget p a = Some x /\ dget p b = Some y /\ op2func O p x y = Ok v) \/
  (p = "essential" /\ v = VBool true /\ exists y, dget p b = Some y /\ truthy y = true).
Proof.
  intros K H Hv. destruct (combine_claim_cases _ _ _ _ H) as
    [w H1 H2 ->|w e H1 H2 H3 ->|w w' H1 H2 H3 H4 ->|H1 H2]; auto.
  - simpl in Hv. destruct (String.eqb p "value") eqn:E1.
    + apply String.eqb_eq in E1; subst. left; congruence.
    + destruct (String.eqb p "essential") eqn:E2; [|discriminate].
      apply String.eqb_eq in E2; subst. right; left; congruence.
  - assert (S := combine_no_value_spec _ _ _ _ H2 p K).
    destruct (dget p a) as [x|] eqn:Ea, (dget p b) as [y|] eqn:Eb;
      try (rewrite S in Hv; discriminate);
      destruct S as [u [S1 S2]]; rewrite Hv in S2; injection S2 as <-;
      unfold known, policy_functions in K; simpl in K;
      decompose [or] K; try contradiction; subst p;
      unfold do_policy in S1; simpl in S1;
      unfold do_sub_one_super_add, do_value, do_default, do_essential in S1;
      rewrite Ea, Eb in S1; simpl in S1;
      try (injection S1 as <-; tauto);
      try (apply bind_ok in S1; destruct S1 as [w [S1 S2]];
           destruct (truthy w); [|discriminate]; injection S2 as <-;
           right; right; left; exists x, y; auto).
    + destruct (py_eqb x y); [|discriminate]. injection S1 as <-; auto.
    + destruct (py_eqb x y); [|discriminate]. injection S1 as <-; auto.
    + destruct (truthy y) eqn:T; [|rewrite andb_false_r in S1; injection S1 as <-; auto].
      destruct (truthy x); simpl in S1; injection S1 as <-; [auto|].
      right; right; right. eauto.
Qed.

(** set operators without value *)
Lemma comb_set_op O a b c p :
  In p ["subset_of"; "superset_of"; "one_of"; "add"] ->
  combine_no_value O a b = Ok c ->
  match dget p a, dget p b with
  | None, None => dget p c = None
  | Some x, None => dget p c = Some x
  | None, Some y => dget p c = Some y
  | Some x, Some y => exists v, op2func O p x y = Ok v /\ truthy v = true /\ dget p c = Some v
  end.
Proof.
  intros HP H.
  assert (K : known p) by (unfold known, policy_functions; simpl in *; tauto).
  assert (S := combine_no_value_spec _ _ _ _ H p K).
  rewrite do_policy_set in S by exact HP. unfold do_sub_one_super_add in S.
  destruct (dget p a) as [x|], (dget p b) as [y|]; auto.
  - destruct S as [v [S1 S2]]. apply bind_ok in S1. destruct S1 as [w [S1 S3]].
    destruct (truthy w) eqn:T; [|discriminate]. injection S3 as <-. eauto.
  - destruct S as [v [S1 S2]]. congruence.
  - destruct S as [v [S1 S2]]. congruence.
Qed.

Lemma inter_op O p x y v :
  In p ["subset_of"; "superset_of"; "one_of"] -> op2func O p x y = Ok v ->
  exists sx sy, py_set x = Ok sx /\ py_set y = Ok sy /\ v = VList (iov O (set_inter sx sy)).
Proof.
  intros HP H.
  assert (E : op2func O p = combine_subset_of O) by (destruct HP as [<-|[<-|[<-|[]]]]; reflexivity).
  rewrite E in H. unfold combine_subset_of in H.
  apply bind_ok in H. destruct H as [sx [H1 H]].
  apply bind_ok in H. destruct H as [sy [H2 H]]. injection H as <-. eauto.
Qed.

Lemma inter_mem O x y sx sy e :
  py_set x = Ok sx -> py_set y = Ok sy -> hashable e = true ->
  vmem e (iov O (set_inter sx sy)) = vmem e (elems x) && vmem e (elems y).
Proof.
  intros H1 H2 He. rewrite iov_mem.
  rewrite set_inter_mem by (auto; eapply py_set_hashable; eauto).
  rewrite (py_set_mem _ _ _ H1), (py_set_mem _ _ _ H2) by exact He. reflexivity.
Qed.

(** an operand of a set operator that contains no element (of hashable type) outside [S] *)
Definition op_within (S : list val) (T : val) : Prop :=
  forall e, hashable e = true -> vmem e (elems T) = true -> vmem e S = true.
Definition op_contains (S : list val) (T : val) : Prop :=
  forall e, hashable e = true -> vmem e S = true -> vmem e (elems T) = true.
