(** Defaults, additions, frame, superior metadata, diff2policy, entity types. *)
From Verif Require Export PolicyOps.

(** ** failure *)
Lemma ok_resolves O front leaf et r :
  wf_stmt leaf -> front <> [] -> has_type leaf et ->
  policy_call_chain O (front ++ [leaf]) = Ok r ->
  exists md, resolves O front leaf et md.
Proof.
  intros W NE HT H.
  assert (E : exists mds ch, r = (ByType mds, ch)).
  { rewrite call_chain_app in H. apply is_nil_false in NE. rewrite NE in H.
    apply bind_ok in H. destruct H as [x [_ H]]. injection H as <-. eauto. }
  destruct E as [mds [ch ->]].
  destruct (call_chain_types _ _ _ _ _ W H) as [_ T]. destruct (T et) as [T1 _].
  destruct (T1 HT) as [o [l' [P1 P2]]].
  destruct HT as [ms [m [E1 E2]]].
  unfold policy_type in P1. apply bind_ok in P1. destruct P1 as [g [_ P1]].
  rewrite E1, E2 in P1. apply bind_ok in P1. destruct P1 as [q [_ P1]]. injection P1 as <- _.
  exists (fst q). exists mds, ch. auto.
Qed.

Lemma rejects_intro O front leaf et :
  wf_stmt leaf -> front <> [] -> has_type leaf et ->
  (forall md, ~ resolves O front leaf et md) -> rejects O front leaf.
Proof.
  intros W NE HT H. unfold rejects.
  destruct (policy_call_chain O (front ++ [leaf])) as [r|e] eqn:E; [|eauto].
  destruct (ok_resolves _ _ _ _ _ W NE HT E) as [md R]. destruct (H md R).
Qed.

(** ** C06 default *)
Definition no_op (op : string) (p : claim_policy) : Prop := dget op p = None.

Lemma no_op_comb O op x y z :
  known op -> op <> "essential" ->
  no_op op x -> no_op op y -> combine_claim_policy O x y = Ok z -> no_op op z.
Proof.
  unfold no_op. intros K NE X Y H. destruct (dget op z) as [v|] eqn:E; [|reflexivity].
  destruct (comb_from _ _ _ _ _ _ K H E) as [?|[?|[[a [b [? _]]]|[? _]]]]; congruence.
Qed.

Lemma not_says_no_op front et c op s p :
  (forall s v, In s front -> ~ policy_says s et c op v) ->
  In s front -> cpol et c s = Some p -> no_op op p.
Proof.
  intros N Hs Hp. unfold no_op. destruct (dget op p) as [v|] eqn:E; [|reflexivity].
  exfalso. eapply N; [exact Hs | eapply cpol_says; eauto].
Qed.

Definition K_def (p : claim_policy) : Prop :=
  no_op "value" p /\ no_op "add" p /\ no_op "one_of" p /\ no_op "subset_of" p /\
  no_op "superset_of" p.

Lemma K_def_comb O x y z : K_def x -> K_def y -> combine_claim_policy O x y = Ok z -> K_def z.
Proof.
  intros [X1 [X2 [X3 [X4 X5]]]] [Y1 [Y2 [Y3 [Y4 Y5]]]] H. unfold K_def.
  repeat split; (eapply no_op_comb; [| | | | exact H]); auto with known; discriminate.
Qed.

Lemma K_def_result O p v r : K_def p -> claim_result O p (Some v) = Ok r -> r = Some v.
Proof.
  intros [X1 [X2 [X3 [X4 X5]]]]. unfold no_op in *. unfold claim_result.
  rewrite X1, X2. cbn [opt_op bind].
  assert (E : opt_op (dget "default" p) v_default (Some v) = Ok (Some v))
    by (destruct (dget "default" p); reflexivity).
  rewrite E. cbn [bind]. unfold v_one_of, v_tail. rewrite X3, X4, X5. cbn [opt_op bind].
  destruct (dget "essential" p); cbn [opt_op v_essential]; congruence.
Qed.

(** agreement of the metadata of superiors *)
Lemma omerge_all (f : stmt -> option val) rest : forall a m,
  (forall v, a = Some v -> wf_val v) ->
  (forall s v, In s rest -> f s = Some v -> wf_val v) ->
  foldM (fun a s => omerge a (f s)) rest a = Ok m ->
  (forall v, a = Some v -> exists w, m = Some w /\ wf_val w /\ py_eqb v w = true) /\
  (forall s v, In s rest -> f s = Some v -> exists w, m = Some w /\ wf_val w /\ py_eqb v w = true).
Proof.
  induction rest as [|s rest IH]; intros a m Wa Wf H; simpl in H.
  - injection H as <-. split; [|intros s v []].
    intros v ->. exists v. split; [reflexivity|]. split; [auto|]. apply py_eqb_refl; auto.
  - destruct (omerge a (f s)) as [a'|e] eqn:E; [|discriminate].
    assert (Wa' : forall v, a' = Some v -> wf_val v).
    { intros v ->. unfold omerge in E. destruct a as [x|].
      - destruct (f s) as [y|] eqn:F.
        + destruct (py_eqb x y); [|discriminate]. injection E as <-.
          eapply Wf; [left; reflexivity | exact F].
        + injection E as <-. auto.
      - injection E as E. eapply Wf; [left; reflexivity | exact E]. }
    destruct (IH a' m Wa') with (2 := H) as [I1 I2].
    { intros s' v Hs; apply Wf; right; exact Hs. }
    split.
    + intros v ->. unfold omerge in E. destruct (f s) as [y|] eqn:F.
      * destruct (py_eqb v y) eqn:Q; [|discriminate]. injection E as <-.
        destruct (I1 y eq_refl) as [w [M [Ww Q2]]]. exists w. split; [exact M|]. split; [exact Ww|].
        assert (wf_val y) by (eapply Wf; [left; reflexivity | exact F]).
        eapply py_eqb_trans with (b := y); auto.
      * injection E as <-. auto.
    + intros s' v [<-|Hs] F; [|eauto].
      unfold omerge in E. rewrite F in E. destruct a as [x|].
      * destruct (py_eqb x v); [|discriminate]. injection E as <-. auto.
      * injection E as <-. auto.
Qed.

Lemma wf_says_md s et c v : wf_stmt s -> metadata_says s et c v -> wf_val v.
Proof.
  intros [W _] [ms [m [E1 [E2 E3]]]]. destruct (W ms E1) as [_ W'].
  destruct (W' et m E2) as [_ W'']. eauto.
Qed.

Lemma superior_md front leaf et c first rest m s v :
  wf_chain front leaf -> front = first :: rest ->
  foldM (fun a s => omerge a (cmd et c s)) rest (cmd et c first) = Ok m ->
  In s front -> metadata_says s et c v ->
  exists w, m = Some w /\ wf_val w /\ py_eqb v w = true.
Proof.
  intros [_ W] -> F Hs Hv.
  destruct (omerge_all (cmd et c) rest (cmd et c first) m) with (3 := F) as [I1 I2].
  - intros u Hu. apply cmd_says in Hu. eapply wf_says_md; [apply W; left; reflexivity | exact Hu].
  - intros s' u Hs' Hu. apply cmd_says in Hu.
    eapply wf_says_md; [apply W; right; exact Hs' | exact Hu].
  - apply cmd_says in Hv. destruct Hs as [<-|Hs]; eauto.
Qed.

Lemma supplies_incoming front leaf et c first rest m v :
  wf_chain front leaf -> front = first :: rest ->
  foldM (fun a s => omerge a (cmd et c s)) rest (cmd et c first) = Ok m ->
  supplies front leaf et c v ->
  exists w, incoming (cmd et c leaf) m = Some w /\ py_eqb v w = true /\
            (metadata_says leaf et c v -> w = v).
Proof.
  intros W E F [H|[H1 [s [H2 H3]]]].
  - assert (X := H). apply cmd_says in X. unfold incoming. rewrite X.
    exists v. split; [reflexivity|]. split; [|auto].
    apply py_eqb_refl. destruct W as [W _]. eapply wf_says_md; eauto.
  - destruct (superior_md _ _ _ _ _ _ _ _ _ W E F H2 H3) as [w [-> [_ Q]]].
    exists w. unfold incoming. destruct (cmd et c leaf) as [u|] eqn:X.
    + apply cmd_says in X. destruct (H1 u X).
    + split; [reflexivity|]. split; [exact Q|]. intros Y; destruct (H1 v Y).
Qed.

Lemma nobody_incoming front leaf et c first rest m :
  front = first :: rest ->
  foldM (fun a s => omerge a (cmd et c s)) rest (cmd et c first) = Ok m ->
  (forall s v, In s (leaf :: front) -> ~ metadata_says s et c v) ->
  incoming (cmd et c leaf) m = None.
Proof.
  intros -> F N. destruct (incoming (cmd et c leaf) m) as [v|] eqn:E; [|reflexivity].
  destruct (incoming_from _ _ _ _ _ _ _ F E) as [s [Hs Hm]]. destruct (N s v Hs Hm).
Qed.

Lemma default_keeps_supplied O front leaf et c v md :
  wf_chain front leaf ->
  resolves O front leaf et md ->
  (forall s op w, In s front -> policy_says s et c op w -> op = "default" \/ op = "essential") ->
  supplies front leaf et c v ->
  exists w, dget c md = Some w /\ py_eqb v w = true /\ (metadata_says leaf et c v -> w = v).
Proof.
  intros W R N HS.
  destruct (resolves_claim _ _ _ _ _ c W R) as [first [rest [a [m [E [_ [F1 [F2 [_ A]]]]]]]]].
  destruct (supplies_incoming _ _ _ _ _ _ _ _ W E F2 HS) as [w [Hi [Q1 Q2]]].
  cbn zeta in A.
  change (match cmd et c leaf with Some v => Some v | None => m end)
    with (incoming (cmd et c leaf) m) in A. rewrite Hi in A.
  destruct a as [p|].
  - assert (K : K_def p).
    { eapply (chain_all O K_def et c first rest (Some p)); [| |exact F1|reflexivity].
      - intros x y z; apply K_def_comb.
      - intros s q Hs Hq. rewrite <- E in Hs. unfold K_def, no_op.
        assert (X : forall op, op <> "default" -> op <> "essential" -> dget op q = None).
        { intros op N1 N2. destruct (dget op q) as [u|] eqn:G; [|reflexivity].
          exfalso. destruct (N s op u Hs (cpol_says _ _ _ _ _ _ Hq G)); congruence. }
        repeat split; apply X; discriminate. }
    apply (K_def_result _ _ _ _ K) in A. exists w. auto.
  - exists w. auto.
Qed.

(** the operand of default does not matter for a claim that is present *)
Lemma claim_default_irrelevant O p d d' v :
  claim_result O (dset "default" d p) (Some v) = claim_result O (dset "default" d' p) (Some v).
Proof.
  assert (G : forall op, op <> "default" -> dget op (dset "default" d p) = dget op (dset "default" d' p)).
  { intros op N. rewrite !dget_dset_other by exact N. reflexivity. }
  assert (V : forall operand ov, v_subset_of O (dset "default" d p) operand ov
                                 = v_subset_of O (dset "default" d' p) operand ov).
  { intros operand ov. unfold v_subset_of. destruct ov as [u|]; [|reflexivity].
    destruct (is_list u); [reflexivity|]. f_equal.
    assert (X : py_in u (VDict (dset "default" d p)) = py_in u (VDict (dset "default" d' p))).
    { destruct u; try reflexivity. simpl. f_equal. rewrite !dmem_get.
      destruct (String.eqb_spec s "default") as [->|NE].
      - rewrite !dget_dset_same. reflexivity.
      - rewrite G by exact NE. reflexivity. }
    rewrite X. reflexivity. }
  assert (T : forall ov, v_tail O (dset "default" d p) ov = v_tail O (dset "default" d' p) ov).
  { intros ov. unfold v_tail. rewrite !(G "subset_of"), !(G "superset_of"), !(G "essential")
      by discriminate.
    assert (X : opt_op (dget "subset_of" (dset "default" d' p)) (v_subset_of O (dset "default" d p)) ov
              = opt_op (dget "subset_of" (dset "default" d' p)) (v_subset_of O (dset "default" d' p)) ov).
    { destruct (dget "subset_of" (dset "default" d' p)); [apply V | reflexivity]. }
    rewrite X. reflexivity. }
  unfold claim_result.
  rewrite (G "value"), (G "add") by discriminate.
  destruct (dget "value" _); [reflexivity|].
  assert (A : forall o1, opt_op (dget "add" (dset "default" d' p)) (v_add O) (Some v) = Ok o1 ->
              exists u, o1 = Some u).
  { intros o1. destruct (dget "add" _) as [x|]; cbn [opt_op].
    - unfold v_add. intros H. apply bind_ok in H. destruct H as [? [_ H]].
      apply bind_ok in H. destruct H as [? [_ H]]. injection H as <-. eauto.
    - intros H; injection H as <-; eauto. }
  destruct (opt_op (dget "add" (dset "default" d' p)) (v_add O) (Some v)) as [o1|e];
    cbn [bind]; [|reflexivity].
  destruct (A o1 eq_refl) as [u ->]. rewrite !dget_dset_same. cbn [opt_op v_default bind].
  unfold v_one_of. rewrite (G "one_of") by discriminate. rewrite T. reflexivity.
Qed.

Lemma default_operand_irrelevant O md mp c p d d' v md1 md2 :
  dget c md = Some v ->
  apply_metadata_policy O md (dset c (dset "default" d p) mp) = Ok md1 ->
  apply_metadata_policy O md (dset c (dset "default" d' p) mp) = Ok md2 ->
  forall c', dget c' md1 = dget c' md2.
Proof.
  intros Hv H1 H2 c'.
  assert (S1 := apply_metadata_policy_spec O md (dset c (dset "default" d p) mp)).
  assert (S2 := apply_metadata_policy_spec O md (dset c (dset "default" d' p) mp)).
  rewrite H1 in S1. rewrite H2 in S2. specialize (S1 c'). specialize (S2 c').
  destruct (String.eqb_spec c' c) as [->|N].
  - rewrite dget_dset_same in S1, S2. rewrite Hv in S1, S2.
    rewrite (claim_default_irrelevant O p d d' v) in S1. congruence.
  - rewrite dget_dset_other in S1, S2 by exact N.
    destruct (dget c' mp); congruence.
Qed.

Definition K_fill (p : claim_policy) : Prop :=
  no_op "value" p /\ no_op "add" p /\ no_op "subset_of" p /\
  (forall v, dget "default" p = Some v -> wf_val v).

Lemma K_fill_comb O x y z : K_fill x -> K_fill y -> combine_claim_policy O x y = Ok z -> K_fill z.
Proof.
  intros [X1 [X2 [X3 X4]]] [Y1 [Y2 [Y3 Y4]]] H. unfold K_fill.
  split; [|split; [|split]].
  - eapply no_op_comb; [| | | | exact H]; auto with known; discriminate.
  - eapply no_op_comb; [| | | | exact H]; auto with known; discriminate.
  - eapply no_op_comb; [| | | | exact H]; auto with known; discriminate.
  - intros v Hv. destruct (comb_default_from _ _ _ _ _ H Hv); auto.
Qed.

Definition K_nov (p : claim_policy) : Prop :=
  no_op "value" p /\ (forall v, dget "default" p = Some v -> wf_val v).

Lemma K_nov_comb O x y z : K_nov x -> K_nov y -> combine_claim_policy O x y = Ok z -> K_nov z.
Proof.
  intros [X1 X4] [Y1 Y4] H. split.
  - eapply no_op_comb; [| | | | exact H]; auto with known; discriminate.
  - intros v Hv. destruct (comb_default_from _ _ _ _ _ H Hv); auto.
Qed.

Definition I_def (d : val) (p : claim_policy) : Prop :=
  exists w, dget "default" p = Some w /\ py_eqb d w = true.

Lemma comb_default O x y z :
  combine_no_value O x y = Ok z ->
  match dget "default" x, dget "default" y with
  | None, None => dget "default" z = None
  | Some a, None => dget "default" z = Some a
  | None, Some b => dget "default" z = Some b
  | Some a, Some b => dget "default" z = Some a /\ py_eqb a b = true
  end.
Proof.
  intros H. assert (S := combine_no_value_spec _ _ _ _ H "default" known_default).
  change (do_policy O "default" x y) with (do_default x y "default") in S.
  unfold do_default in S.
  destruct (dget "default" x) as [a|], (dget "default" y) as [b|]; auto;
    destruct S as [v [S1 S2]]; try congruence.
  destruct (py_eqb a b); [|discriminate]. split; congruence.
Qed.

Lemma I_def_l O d x y z :
  K_nov x -> K_nov y -> I_def d x -> combine_claim_policy O x y = Ok z -> I_def d z.
Proof.
  intros Kx Ky [w [E Q]] H.
  destruct (K_nov_comb _ _ _ _ Kx Ky H) as [N _].
  destruct (comb_no_value _ _ _ _ H N) as [_ [_ C]].
  assert (X := comb_default _ _ _ _ C). rewrite E in X.
  exists w. split; [|exact Q]. destruct (dget "default" y); tauto.
Qed.

Lemma I_def_r O d x y z :
  wf_val d ->
  K_nov x -> K_nov y -> I_def d y -> combine_claim_policy O x y = Ok z -> I_def d z.
Proof.
  intros Wd Kx Ky [w [E Q]] H.
  destruct (K_nov_comb _ _ _ _ Kx Ky H) as [N _].
  destruct (comb_no_value _ _ _ _ H N) as [_ [_ C]].
  assert (X := comb_default _ _ _ _ C). rewrite E in X.
  destruct Kx as [_ Kx], Ky as [_ Ky].
  destruct (dget "default" x) as [a|] eqn:F.
  - destruct X as [X1 X2]. exists a. split; [exact X1|].
    eapply py_eqb_trans with (b := w); auto. apply py_eqb_sym_true; auto.
  - exists w. auto.
Qed.

Lemma chain_default O front leaf et c first rest a s d :
  wf_chain front leaf -> front = first :: rest ->
  foldM (fun a s => ocombine O a (cpol et c s)) rest (cpol et c first) = Ok a ->
  (forall s v, In s front -> ~ policy_says s et c "value" v) ->
  In s front -> policy_says s et c "default" d ->
  exists p, a = Some p /\ I_def d p /\ K_nov p.
Proof.
  intros [_ W] -> F N Hs Hsay.
  assert (Wd : wf_val d) by (destruct (W s Hs) as [_ P]; eauto).
  destruct (says_cpol _ _ _ _ _ Hsay) as [p0 [Hp0 HS]].
  apply (chain_some O K_nov (I_def d) et c first rest a s p0); auto.
  - intros x y z; apply K_nov_comb.
  - intros x y z; apply I_def_l.
  - intros x y z; apply I_def_r; exact Wd.
  - intros s' p Hs' Hp'. split; [eapply not_says_no_op; eauto|].
    intros v Hv. destruct (W s' Hs') as [_ P]. eapply P, cpol_says; eauto.
  - exists d. split; [exact HS|]. apply py_eqb_refl; exact Wd.
Qed.

Lemma default_fills O front leaf et c s d md :
  wf_chain front leaf ->
  resolves O front leaf et md ->
  (forall s v, In s (leaf :: front) -> ~ metadata_says s et c v) ->
  (forall s op v, In s front -> policy_says s et c op v ->
     op <> "value" /\ op <> "add" /\ op <> "subset_of") ->
  In s front -> policy_says s et c "default" d ->
  exists w, dget c md = Some w /\ py_eqb d w = true.
Proof.
  intros W R NS NO Hs Hsay.
  destruct (resolves_claim _ _ _ _ _ c W R) as [first [rest [a [m [E [_ [F1 [F2 [_ A]]]]]]]]].
  assert (Hi := nobody_incoming _ _ _ _ _ _ _ E F2 NS).
  cbn zeta in A.
  change (match cmd et c leaf with Some v => Some v | None => m end)
    with (incoming (cmd et c leaf) m) in A. rewrite Hi in A.
  assert (NV : forall s v, In s front -> ~ policy_says s et c "value" v).
  { intros s' v Hs' X. destruct (NO s' _ v Hs' X) as [Y _]; congruence. }
  destruct (chain_default O _ _ _ _ _ _ _ _ _ W E F1 NV Hs Hsay) as [p [-> [[w [D Q]] _]]].
  assert (K : K_fill p).
  { eapply (chain_all O K_fill et c first rest (Some p)); [| |exact F1|reflexivity].
    - intros x y z; apply K_fill_comb.
    - intros s' q Hs' Hq. rewrite <- E in Hs'. unfold K_fill.
      split; [|split; [|split]].
      + eapply not_says_no_op; [|exact Hs'|exact Hq]; auto.
      + eapply not_says_no_op; [|exact Hs'|exact Hq].
        intros s2 v H2 X. destruct (NO s2 _ v H2 X) as [_ [Y _]]; congruence.
      + eapply not_says_no_op; [|exact Hs'|exact Hq].
        intros s2 v H2 X. destruct (NO s2 _ v H2 X) as [_ [_ Y]]; congruence.
      + intros v Hv. destruct W as [_ W]. destruct (W s' Hs') as [_ P].
        eapply P, cpol_says; eauto. }
  destruct K as [K1 [K2 [K3 _]]]. unfold no_op in *.
  unfold claim_result in A. rewrite K1, K2, D in A. cbn [opt_op bind v_default] in A.
  assert (T : forall r, v_tail O p (Some w) = Ok r -> r = Some w).
  { intros r HT. unfold v_tail in HT. rewrite K3 in HT. cbn [opt_op bind] in HT.
    apply bind_ok in HT. destruct HT as [o [HT1 HT2]].
    assert (o = Some w).
    { destruct (dget "superset_of" p) as [U|]; cbn [opt_op] in HT1; [|congruence].
      unfold v_superset_of in HT1. apply bind_ok in HT1. destruct HT1 as [b [_ HT1]].
      destruct b; congruence. }
    subst o. destruct (dget "essential" p); cbn [opt_op v_essential] in HT2; congruence. }
  exists w. split; [|exact Q].
  unfold v_one_of in A. destruct (dget "one_of" p) as [U|]; [|apply T; exact A].
  destruct (is_list w); [apply T; exact A|].
  apply bind_ok in A. destruct A as [b [_ A]]. destruct b; congruence.
Qed.

Lemma different_defaults O front leaf et c s1 d1 s2 d2 :
  wf_chain front leaf -> has_type leaf et ->
  (forall s v, In s front -> ~ policy_says s et c "value" v) ->
  In s1 front -> policy_says s1 et c "default" d1 ->
  In s2 front -> policy_says s2 et c "default" d2 ->
  py_eqb d1 d2 = false ->
  rejects O front leaf.
Proof.
  intros W HT NV H1 S1 H2 S2 Q.
  apply (rejects_intro O front leaf et).
  - exact (proj1 W).
  - intros ->; destruct H1.
  - exact HT.
  - intros md R.
    destruct (resolves_claim _ _ _ _ _ c W R) as [first [rest [a [m [E [_ [F1 _]]]]]]].
    destruct (chain_default O _ _ _ _ _ _ _ _ _ W E F1 NV H1 S1) as [p [-> [[w [D Q1]] K]]].
    destruct (chain_default O _ _ _ _ _ _ _ _ _ W E F1 NV H2 S2) as [p' [P [[w' [D' Q2]] _]]].
    injection P as <-. rewrite D in D'. injection D' as <-.
    destruct K as [_ K]. assert (Ww := K w D).
    destruct W as [_ W].
    assert (W1 : wf_val d1) by (destruct (W s1 H1) as [_ P]; eauto).
    assert (W2 : wf_val d2) by (destruct (W s2 H2) as [_ P]; eauto).
    rewrite (py_eqb_trans d1 w d2) in Q; auto; [discriminate|].
    apply py_eqb_sym_true; auto.
Qed.

(** ** C07 add *)
Definition K_add (x : val) (p : claim_policy) : Prop :=
  (forall v, dget "value" p = Some v -> vmem x (members v) = true) /\
  (forall v, dget "add" p = Some v -> is_list v = true) /\
  (forall T, dget "subset_of" p = Some T -> vmem x (elems T) = true).

Lemma K_add_comb O e x y z :
  hashable e = true ->
  K_add e x -> K_add e y -> combine_claim_policy O x y = Ok z -> K_add e z.
Proof.
  intros He [X1 [X2 X4]] [Y1 [Y2 Y4]] H. split; [|split]; intros v Hv.
  - destruct (comb_value_from _ _ _ _ _ H Hv); auto.
  - destruct (comb_add_from _ _ _ _ _ H Hv) as [?|[?|[a [b [_ [_ E]]]]]]; auto.
    eapply add_is_list; exact E.
  - destruct (comb_from _ _ _ _ _ _ known_subset_of H Hv)
      as [?|[?|[[a [b [E1 [E2 E]]]]|[E _]]]]; auto; [|discriminate].
    destruct (inter_op O "subset_of" a b v) as [sx [sy [P1 [P2 ->]]]]; simpl; auto.
    rewrite (inter_mem _ _ _ _ _ _ P1 P2 He). rewrite X4, Y4 by assumption. reflexivity.
Qed.

Definition I_add (x : val) (p : claim_policy) : Prop :=
  has_value p \/ exists A, dget "add" p = Some A /\ vmem x (members A) = true.

Lemma combine_add_mem O a b v x :
  hashable x = true -> combine_add O a b = Ok v ->
  vmem x (members v) = vmem x (members a) || vmem x (members b).
Proof.
  intros Hx H. unfold combine_add in H.
  apply bind_ok in H. destruct H as [sa [H1 H]].
  apply bind_ok in H. destruct H as [sb [H2 H]]. injection H as <-. cbn [members].
  rewrite iov_mem, set_union_mem by exact Hx.
  rewrite (set_or_single_mem _ _ _ H1), (set_or_single_mem _ _ _ H2) by exact Hx. reflexivity.
Qed.

Lemma I_add_l O e x y z :
  hashable e = true -> I_add e x -> combine_claim_policy O x y = Ok z -> I_add e z.
Proof.
  intros He [HV|[A [HA M]]] H; [left; eapply has_value_comb_l; eauto|].
  destruct (has_value_dec z) as [|N]; [left; assumption|]. right.
  destruct (comb_no_value _ _ _ _ H N) as [_ [_ C]].
  assert (X := comb_set_op _ _ _ _ "add" ltac:(simpl; auto) C). rewrite HA in X.
  destruct (dget "add" y) as [B|]; [|eauto].
  destruct X as [v [E [_ X]]]. exists v. split; [exact X|].
  rewrite (combine_add_mem _ _ _ _ _ He E), M. reflexivity.
Qed.

Lemma I_add_r O e x y z :
  hashable e = true -> I_add e y -> combine_claim_policy O x y = Ok z -> I_add e z.
Proof.
  intros He [HV|[A [HA M]]] H; [left; eapply has_value_comb_r; eauto|].
  destruct (has_value_dec z) as [|N]; [left; assumption|]. right.
  destruct (comb_no_value _ _ _ _ H N) as [_ [_ C]].
  assert (X := comb_set_op _ _ _ _ "add" ltac:(simpl; auto) C). rewrite HA in X.
  destruct (dget "add" x) as [B|]; [|eauto].
  destruct X as [v [E [_ X]]]. exists v. split; [exact X|].
  rewrite (combine_add_mem _ _ _ _ _ He E), M. apply orb_true_r.
Qed.

Lemma claim_add O p ov r A x :
  hashable x = true ->
  dget "value" p = None -> dget "add" p = Some (VList A) -> vmem x A = true ->
  (forall T, dget "subset_of" p = Some T -> vmem x (elems T) = true) ->
  claim_result O p ov = Ok r ->
  exists l, r = Some (VList l) /\ vmem x l = true.
Proof.
  intros Hx HV HA HM HS H. unfold claim_result in H. rewrite HV, HA in H. cbn [opt_op] in H.
  apply bind_ok in H. destruct H as [o1 [H1 H]].
  assert (E1 : exists l, o1 = Some (VList l) /\ vmem x l = true).
  { destruct ov as [v|]; cbn [v_add] in H1.
    - apply bind_ok in H1. destruct H1 as [s1 [P1 H1]].
      apply bind_ok in H1. destruct H1 as [s2 [P2 H1]]. injection H1 as <-.
      eexists; split; [reflexivity|]. rewrite iov_mem, set_union_mem by exact Hx.
      rewrite (set_or_single_mem _ _ _ P2) by exact Hx. cbn [members]. rewrite HM.
      apply orb_true_r.
    - injection H1 as <-. eauto. }
  destruct E1 as [l [-> Hl]].
  assert (E2 : opt_op (dget "default" p) v_default (Some (VList l)) = Ok (Some (VList l)))
    by (destruct (dget "default" p); reflexivity).
  rewrite E2 in H. cbn [bind] in H.
  assert (T : v_tail O p (Some (VList l)) = Ok r).
  { unfold v_one_of in H. destruct (dget "one_of" p); exact H. }
  destruct (tail_list _ _ _ _ T) as [w [-> [M _]]]. exists w. split; [reflexivity|].
  destruct (dget "subset_of" p) as [U|]; [|subst w; exact Hl].
  destruct M as [_ M]. rewrite M by exact Hx. rewrite HS, Hl by reflexivity. reflexivity.
Qed.

Lemma add_reaches O front leaf et c s A x md :
  wf_chain front leaf ->
  resolves O front leaf et md ->
  In s front -> policy_says s et c "add" (VList A) -> In_eq x A -> hashable x = true ->
  (forall s v, In s front -> policy_says s et c "add" v -> is_list v = true) ->
  (forall s v, In s front -> policy_says s et c "subset_of" v ->
     exists l, v = VList l /\ In_eq x l) ->
  (forall s v, In s front -> policy_says s et c "value" v ->
     exists l, v = VList l /\ In_eq x l) ->
  exists l, dget c md = Some (VList l) /\ In_eq x l.
Proof.
  intros W R Hs Hsay Hin Hx HA HT HV.
  destruct (resolves_claim _ _ _ _ _ c W R) as [first [rest [a [m [-> [_ [F1 [_ [_ B]]]]]]]]].
  destruct (says_cpol _ _ _ _ _ Hsay) as [p0 [Hp0 HS]].
  destruct (chain_some O (fun p => K_add x p /\ forall v, dget "value" p = Some v -> is_list v = true)
              (I_add x) et c first rest a s p0) as [p [-> [I [K KV]]]]; auto.
  - intros a1 a2 a3 [K1 V1] [K2 V2] H. split; [exact (K_add_comb O x a1 a2 a3 Hx K1 K2 H)|].
    cbn beta.    intros v Hv. destruct (comb_value_from _ _ _ _ _ H Hv); auto.
  - intros a1 a2 a3 _ _; apply I_add_l; exact Hx.
  - intros a1 a2 a3 _ _; apply I_add_r; exact Hx.
  - intros s' p Hs' Hp'. split; [split; [|split]|]; intros w Hw.
    + destruct (HV s' w Hs') as [l [E M]]; [eapply cpol_says; eauto|]. subst w.
      apply In_eq_vmem; exact M.
    + eapply HA; [exact Hs' | eapply cpol_says; eauto].
    + destruct (HT s' w Hs') as [l [E M]]; [eapply cpol_says; eauto|]. subst w.
      apply In_eq_vmem; exact M.
    + destruct (HV s' w Hs') as [l [E M]]; [eapply cpol_says; eauto|]. subst w. reflexivity.
  - right. exists (VList A). split; [exact HS|]. apply In_eq_vmem; exact Hin.
  - destruct K as [K1 [K2 K3]]. cbn zeta in B.
    destruct (has_value_dec p) as [[w Hw]|N].
    + unfold claim_result in B. rewrite Hw in B. injection B as B.
      assert (M := K1 w Hw). assert (L := KV w Hw). destruct w as [| | | |l|]; try discriminate.
      exists l. split; [congruence|]. apply In_eq_vmem; exact M.
    + destruct I as [[w Hw]|[A' [HA' M]]]; [congruence|].
      assert (L := K2 A' HA'). destruct A' as [| | | |A'|]; try discriminate.
      destruct (claim_add _ _ _ _ A' x Hx N HA' M K3 B) as [l [E Ml]].
      exists l. split; [exact E|]. apply In_eq_vmem; exact Ml.
Qed.

(** ** C08 frame, C09 *)
Lemma untouched_claim O front leaf et c md :
  wf_chain front leaf ->
  resolves O front leaf et md ->
  (forall s, In s front -> ~ policy_about s et c) ->
  (forall v, metadata_says leaf et c v -> dget c md = Some v) /\
  (forall s v, (forall w, ~ metadata_says leaf et c w) -> In s front -> metadata_says s et c v ->
     exists w, dget c md = Some w /\ py_eqb v w = true) /\
  ((forall s v, In s (leaf :: front) -> ~ metadata_says s et c v) -> dget c md = None).
Proof.
  intros W R N.
  destruct (resolves_claim _ _ _ _ _ c W R) as [first [rest [a [m [E [_ [F1 [F2 [_ A]]]]]]]]].
  assert (a = None).
  { destruct a as [p|]; [|reflexivity]. exfalso.
    eapply (chain_all O (fun _ => False) et c first rest (Some p)); [| |exact F1|reflexivity].
    - tauto.
    - intros s q Hs Hq. rewrite <- E in Hs. apply (N s Hs). apply about_cpol; eauto. }
  subst a. cbn zeta in A.
  change (match cmd et c leaf with Some v => Some v | None => m end)
    with (incoming (cmd et c leaf) m) in A.
  split; [|split].
  - intros v Hv. apply cmd_says in Hv. unfold incoming in A. rewrite Hv in A. exact A.
  - intros s v NL Hs Hm.
    destruct (supplies_incoming _ _ _ _ _ _ _ v W E F2) as [w [Hi [Q1 _]]].
    + right. split; [exact NL|]. eauto.
    + exists w. split; [congruence | exact Q1].
  - intros NS. rewrite A. eapply nobody_incoming; eauto.
Qed.

(** ** C10 *)
Lemma superior_metadata_agree O front leaf et c s1 v1 s2 v2 :
  wf_chain front leaf -> has_type leaf et ->
  In s1 front -> metadata_says s1 et c v1 ->
  In s2 front -> metadata_says s2 et c v2 ->
  py_eqb v1 v2 = false ->
  rejects O front leaf.
Proof.
  intros W HT H1 S1 H2 S2 Q.
  apply (rejects_intro O front leaf et).
  - exact (proj1 W).
  - intros ->; destruct H1.
  - exact HT.
  - intros md R.
    destruct (resolves_claim _ _ _ _ _ c W R) as [first [rest [a [m [E [_ [_ [F2 _]]]]]]]].
    destruct (superior_md _ _ _ _ _ _ _ _ _ W E F2 H1 S1) as [w [-> [Ww Q1]]].
    destruct (superior_md _ _ _ _ _ _ _ _ _ W E F2 H2 S2) as [w' [P [_ Q2]]].
    injection P as <-.
    destruct W as [_ W].
    assert (W1 : wf_val v1) by (eapply wf_says_md; [apply W, H1 | exact S1]).
    assert (W2 : wf_val v2) by (eapply wf_says_md; [apply W, H2 | exact S2]).
    rewrite (py_eqb_trans v1 w v2) in Q; auto; [discriminate|].
    apply py_eqb_sym_true; auto.
Qed.

(** ** C11 *)
Lemma overlap_rejected O first rest leaf et c s v :
  wf_chain (first :: rest) leaf -> has_type leaf et ->
  In s rest -> policy_about s et c -> metadata_says s et c v ->
  rejects O (first :: rest) leaf.
Proof.
  intros W HT Hs HP HM.
  apply (rejects_intro O (first :: rest) leaf et).
  - exact (proj1 W).
  - discriminate.
  - exact HT.
  - intros md R.
    destruct (resolves_claim _ _ _ _ _ c W R) as [f' [r' [a [m [E [_ [_ [_ [F3 _]]]]]]]]].
    injection E as <- <-. apply about_cpol in HP. destruct HP as [p HP].
    apply cmd_says in HM. rewrite F3 in HM; [discriminate | exact Hs | congruence].
Qed.

(** ** C15 *)
Lemma fold_dset_spec (f : string -> option claim_policy) L : forall acc,
  NoDup L ->
  let r := fold_left (fun acc k => match f k with Some p => dset k p acc | None => acc end) L acc in
  (forall k, In k L -> dget k r = match f k with Some p => Some p | None => dget k acc end) /\
  (forall k, ~ In k L -> dget k r = dget k acc).
Proof.
  induction L as [|q L IH]; intros acc ND; cbn zeta; simpl.
  - split; [intros k [] | reflexivity].
  - inversion ND as [|? ? Hq ND']; subst.
    destruct (IH (match f q with Some p => dset q p acc | None => acc end) ND') as [I1 I2].
    cbn zeta in I1, I2. split.
    + intros k [<-|Hk].
      * rewrite I2 by exact Hq. destruct (f q); [apply dget_dset_same | reflexivity].
      * rewrite I1 by exact Hk. destruct (f k); [reflexivity|].
        assert (k <> q) by (intros ->; contradiction).
        destruct (f q); [apply dget_dset_other; assumption | reflexivity].
    + intros k Hk. rewrite I2 by tauto.
      assert (k <> q) by (intros ->; tauto).
      destruct (f q); [apply dget_dset_other; assumption | reflexivity].
Qed.

Lemma fold_left_ext A B (f g : A -> B -> A) l a :
  (forall a b, f a b = g a b) -> fold_left f l a = fold_left g l a.
Proof.
  intros E. revert a. induction l as [|x l IH]; intros a; simpl; [reflexivity|].
  rewrite E. apply IH.
Qed.

Lemma diff2policy_get O new old c :
  dget c (diff2policy O new old) =
  match dget c new, dget c old with
  | Some a, Some b => if py_eqb a b then None else Some [("value", a)]
  | Some a, None => Some (if String.eqb c "contacts" then [("add", a)] else [("value", a)])
  | None, _ => None
  end.
Proof.
  unfold diff2policy.
  set (L1 := ios O (filter (fun k => dmem k old) _)).
  set (L2 := ios O (filter (fun k => negb (dmem k old)) _)).
  assert (N1 : NoDup L1) by apply ios_NoDup, NoDup_filter, NoDup_nodup.
  assert (N2 : NoDup L2) by apply ios_NoDup, NoDup_filter, NoDup_nodup.
  assert (I1 : In c L1 <-> In c (dkeys new) /\ dmem c old = true).
  { unfold L1, string_set. rewrite ios_In, filter_In, nodup_In. reflexivity. }
  assert (I2 : In c L2 <-> In c (dkeys new) /\ dmem c old = false).
  { unfold L2, string_set. rewrite ios_In, filter_In, nodup_In, negb_true_iff. reflexivity. }
  set (f1 := fun k => match dget k new, dget k old with
                      | Some a, Some b => if py_eqb a b then None else Some [("value", a)]
                      | _, _ => None end).
  set (f2 := fun k => match dget k new with
                      | Some a => Some (if String.eqb k "contacts" then [("add", a)]
                                        else [("value", a)])
                      | None => None end).
  rewrite (fold_left_ext _ _ _ (fun acc k => match f1 k with Some p => dset k p acc | None => acc end)
             L1 []).
  2:{ intros acc k. unfold f1. destruct (dget k new), (dget k old); try reflexivity.
      destruct (py_eqb _ _); reflexivity. }
  rewrite (fold_left_ext _ _ _ (fun acc k => match f2 k with Some p => dset k p acc | None => acc end)
             L2).
  2:{ intros acc k. unfold f2. destruct (dget k new); [|reflexivity].
      destruct (String.eqb k "contacts"); reflexivity. }
  set (r1 := fold_left (fun acc k => match f1 k with Some p => dset k p acc | None => acc end) L1
               ([] : mpolicy)).
  destruct (fold_dset_spec f1 L1 [] N1) as [A1 B1]. fold r1 in A1, B1.
  destruct (fold_dset_spec f2 L2 r1 N2) as [A2 B2]. cbn zeta in *. fold r1 in A1, B1.
  destruct (dget c new) as [a|] eqn:En.
  - assert (K := dget_In_key _ _ _ _ En). rewrite dmem_get in I1, I2.
    destruct (dget c old) as [b|] eqn:Eo.
    + rewrite B2, A1; [|tauto|].
      * unfold f1. rewrite En, Eo. destruct (py_eqb a b); reflexivity.
      * rewrite I2. intros [_ X]; discriminate.
    + rewrite A2 by tauto. unfold f2. rewrite En. reflexivity.
  - apply dget_None_key in En. rewrite B2, B1; tauto.
Qed.

Lemma diff2policy_applies O new old :
  (forall c v, dget c new = Some v -> wf_val v) ->
  exists md, apply_metadata_policy O old (diff2policy O new old) = Ok md /\
    (forall c v, dget c new = Some v -> exists w, dget c md = Some w /\ py_eqb v w = true) /\
    (forall c, dget c new = None -> dget c md = dget c old).
Proof.
  intros W. assert (S := apply_metadata_policy_spec O old (diff2policy O new old)).
  assert (D := diff2policy_get O new old).
  destruct (apply_metadata_policy O old (diff2policy O new old)) as [md|e].
  - exists md. split; [reflexivity|]. split.
    + intros c v Hv. specialize (S c). rewrite D, Hv in S.
      destruct (dget c old) as [b|] eqn:Eo.
      * destruct (py_eqb v b) eqn:Q; [rewrite S; eauto|].
        unfold claim_result in S. simpl in S. injection S as S. exists v.
        split; [congruence|]. apply py_eqb_refl; eauto.
      * assert (dget c md = Some v).
        { destruct (String.eqb c "contacts"); 
            unfold claim_result, v_one_of, v_tail in S; simpl in S; congruence. }
        exists v. split; [assumption|]. apply py_eqb_refl; eauto.
    + intros c Hc. specialize (S c). rewrite D, Hc in S. exact S.
  - exfalso. destruct S as [c [p [E1 E2]]]. rewrite D in E1.
    destruct (dget c new) as [a|]; [|discriminate].
    destruct (dget c old) as [b|] eqn:Eo.
    + destruct (py_eqb a b); [discriminate|]. injection E1 as <-. discriminate.
    + injection E1 as <-. destruct (String.eqb c "contacts"); discriminate.
Qed.

(** ** C16 *)
Lemma stmt_rule_part s t et : type_part s et = type_part t et -> stmt_rule s et = stmt_rule t et.
Proof.
  unfold type_part, stmt_rule. intros H. injection H as H1 H2.
  f_equal.
  - destruct (s_policy s), (s_policy t); try rewrite H1; try rewrite <- H1; reflexivity.
  - destruct (s_metadata s), (s_metadata t); try rewrite H2; try rewrite <- H2; reflexivity.
Qed.

Lemma gather_part O et f1 f2 :
  Forall2 (fun s t => type_part s et = type_part t et) f1 f2 ->
  gather_policies O f1 et = gather_policies O f2 et.
Proof.
  intros H. destruct H as [|s t f1 f2 Hst H]; [reflexivity|].
  unfold gather_policies. rewrite (stmt_rule_part _ _ _ Hst).
  generalize (stmt_rule t et). induction H as [|s' t' f1 f2 Hst' H IH]; intros acc; [reflexivity|].
  cbn [foldM]. rewrite (stmt_rule_part _ _ _ Hst').
  match goal with |- match ?x with _ => _ end = _ => destruct x end; [apply IH | reflexivity].
Qed.

Lemma types_independent O f1 l1 f2 l2 et md1 md2 :
  wf_stmt l1 -> wf_stmt l2 ->
  Forall2 (fun s t => type_part s et = type_part t et) f1 f2 ->
  type_part l1 et = type_part l2 et ->
  resolves O f1 l1 et md1 -> resolves O f2 l2 et md2 -> md1 = md2.
Proof.
  intros W1 W2 HF HL R1 R2.
  destruct (resolves_inv _ _ _ _ _ W1 R1)
    as [a1 [b1 [ms1 [m1 [r1 [x1 [-> [E1 [G1 [_ [C1 A1]]]]]]]]]]].
  destruct (resolves_inv _ _ _ _ _ W2 R2)
    as [a2 [b2 [ms2 [m2 [r2 [x2 [-> [E2 [G2 [_ [C2 A2]]]]]]]]]]].
  rewrite (gather_part _ _ _ _ HF) in C1. rewrite C1 in C2. injection C2 as <-.
  unfold type_part in HL. injection HL as _ HL. rewrite E1, E2, G1, G2 in HL.
  injection HL as <-. congruence.
Qed.

Lemma resolved_types O front leaf mds ch et :
  wf_stmt leaf ->
  policy_call_chain O (front ++ [leaf]) = Ok (ByType mds, ch) ->
  (has_type leaf et <-> exists o, dget et mds = Some o) /\
  (forall o, dget et mds = Some o -> exists md, o = Some md).
Proof.
  intros W H. assert (T := call_chain_types _ _ _ _ _ W H). destruct T as [_ T].
  destruct (T et) as [T1 T2].
  assert (D : has_type leaf et \/ ~ has_type leaf et).
  { unfold has_type. destruct (s_metadata leaf) as [ms|].
    - destruct (dget et ms) as [m|] eqn:E; [left; exists ms, m; auto|].
      right. intros [a [b [P Q]]]. congruence.
    - right. intros [a [b [P Q]]]. congruence. }
  split.
  - split.
    + intros X. destruct (T1 X) as [o [l' [_ P]]]. eauto.
    + intros [o P]. destruct D as [D|D]; [exact D|]. rewrite T2 in P by exact D. discriminate.
  - intros o P. destruct D as [D|D]; [|rewrite T2 in P by exact D; discriminate].
    destruct (T1 D) as [o' [l' [Q1 Q2]]]. rewrite P in Q2. injection Q2 as <-.
    destruct D as [ms [m [E1 E2]]]. unfold policy_type in Q1.
    apply bind_ok in Q1. destruct Q1 as [r [_ Q1]]. rewrite E1, E2 in Q1.
    apply bind_ok in Q1. destruct Q1 as [q [_ Q1]]. injection Q1 as <- _. eauto.
Qed.
