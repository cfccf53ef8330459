(** Facts about combining the policies of a chain. *)
From Verif Require Export PolicyFacts.

(** ** one claim *)
Lemma known_ops_In p q :
  In q (known_ops p) <-> In q policy_functions /\ exists v, dget q p = Some v.
Proof.
  unfold known_ops. rewrite nodup_In, filter_In, smem_In.
  split; intros [H1 H2]; split; auto.
  - apply key_In_dget; exact H1.
  - destruct H2 as [v Hv]; eapply dget_In_key; eauto.
Qed.

Definition known (p : string) : Prop := In p policy_functions.

Lemma known_ops_mem p q :
  known q -> smem q (known_ops p) = dmem q p.
Proof.
  intros H. destruct (dmem q p) eqn:E.
  - apply smem_In, known_ops_In. split; [exact H|]. apply dmem_some; exact E.
  - apply smem_false. rewrite known_ops_In. intros [_ [v Hv]].
    apply dmem_false in E. congruence.
Qed.

Lemma NoDup_known_ops p : NoDup (known_ops p).
Proof. apply NoDup_nodup. Qed.

Lemma foldM_dset_spec A (f : string -> res A) L : forall acc r,
  NoDup L ->
  foldM (fun acc p => let* v := f p in Ok (dset p v acc)) L acc = Ok r ->
  (forall p, In p L -> exists v, f p = Ok v /\ dget p r = Some v) /\
  (forall p, ~ In p L -> dget p r = dget p acc).
Proof.
  induction L as [|q L IH]; intros acc r ND H; simpl in H.
  - injection H as <-. split; [intros p []|auto].
  - inversion ND as [|? ? Hq ND']; subst.
    destruct (f q) as [v|e] eqn:E; cbn [bind] in H; [|discriminate].
    destruct (IH _ _ ND' H) as [I1 I2]. split.
    + intros p [<-|Hp]; [|auto].
      exists v; split; [exact E|]. rewrite I2 by exact Hq. apply dget_dset_same.
    + intros p Hp. rewrite I2 by (intros X; apply Hp; right; exact X).
      apply dget_dset_other. intros ->; apply Hp; left; reflexivity.
Qed.

Lemma combine_no_value_spec O sup child r :
  combine_no_value O sup child = Ok r ->
  forall p, known p ->
  match dget p sup, dget p child with
  | None, None => dget p r = None
  | _, _ => exists v, do_policy O p sup child = Ok v /\ dget p r = Some v
  end.
Proof.
  unfold combine_no_value. intros H p Hp.
  apply bind_ok in H. destruct H as [u [_ H]].
  destruct (_ && _); [discriminate|].
  apply bind_ok in H. destruct H as [rule [Hr H]].
  apply bind_ok in H. destruct H as [u' [_ H]]. injection H as <-.
  set (comb := nodup string_dec (known_ops sup ++ known_ops child)) in Hr.
  assert (ND : NoDup (ios O comb)) by apply ios_NoDup, NoDup_nodup.
  destruct (foldM_dset_spec _ (fun p => do_policy O p sup child) _ _ _ ND Hr) as [H1 H2].
  assert (IN : forall p, In p (ios O comb) <-> In p (known_ops sup) \/ In p (known_ops child)).
  { intros q. rewrite ios_In. unfold comb. rewrite nodup_In, in_app_iff. reflexivity. }
  destruct (dget p sup) as [a|] eqn:Ea; [|destruct (dget p child) as [b|] eqn:Eb].
  - apply H1, IN. left. apply known_ops_In; split; [exact Hp | eauto].
  - apply H1, IN. right. apply known_ops_In; split; [exact Hp | eauto].
  - rewrite H2; [reflexivity|]. rewrite IN, !known_ops_In.
    intros [[_ [v Hv]]|[_ [v Hv]]]; congruence.
Qed.

(** the checks made when no superior fixes the value *)
Lemma combine_no_value_one_of O sup child r :
  combine_no_value O sup child = Ok r ->
  forall v, dget "one_of" r = Some v ->
  dget "subset_of" r = None /\ dget "superset_of" r = None.
Proof.
  intros H v Hv.
  assert (S := combine_no_value_spec _ _ _ _ H).
  unfold combine_no_value in H.
  apply bind_ok in H. destruct H as [u [_ H]].
  destruct (_ && _) eqn:C; [discriminate|]. clear H.
  set (comb := nodup string_dec (known_ops sup ++ known_ops child)) in C.
  assert (IN : forall p, known p -> smem p comb = dmem p sup || dmem p child).
  { intros p Hp. destruct (dmem p sup || dmem p child) eqn:E.
    - apply smem_In. unfold comb. rewrite nodup_In, in_app_iff.
      apply orb_true_iff in E. rewrite <- !known_ops_mem in E by exact Hp.
      rewrite !smem_In in E. exact E.
    - apply smem_false. unfold comb. rewrite nodup_In, in_app_iff.
      apply orb_false_iff in E. rewrite <- !known_ops_mem in E by exact Hp.
      rewrite !smem_false in E. tauto. }
  assert (R : forall p, known p -> dmem p r = dmem p sup || dmem p child).
  { intros p Hp. specialize (S p Hp). rewrite !dmem_get.
    destruct (dget p sup), (dget p child); simpl;
      [destruct S as [w [_ ->]]; reflexivity .. | rewrite S; reflexivity]. }
  assert (K1 : known "one_of") by (unfold known; simpl; tauto).
  assert (K2 : known "subset_of") by (unfold known; simpl; tauto).
  assert (K3 : known "superset_of") by (unfold known; simpl; tauto).
  rewrite !IN in C by assumption. rewrite <- !R in C by assumption.
  rewrite (dmem_get "one_of"), Hv in C. simpl in C.
  apply orb_false_iff in C. destruct C as [C1 C2].
  split; apply dmem_false; assumption.
Qed.

Inductive combined (O : iter_order) (sup child r : claim_policy) : Prop :=
| comb_keep v : dget "value" sup = Some v ->
    (forall p, known p -> dget p child = None) -> r = sup -> combined O sup child r
| comb_ess v e : dget "value" sup = Some v -> dget "essential" child = Some e ->
    (forall p, known p -> p <> "essential" -> dget p child = None) ->
    r = [("value", v); ("essential", e)] -> combined O sup child r
| comb_same v w : dget "value" sup = Some v -> dget "value" child = Some w ->
    py_eqb w v = true -> dget "essential" child = None -> r = sup -> combined O sup child r
| comb_new : dget "value" sup = None -> combine_no_value O sup child = Ok r ->
    combined O sup child r.

Lemma known_value : known "value". Proof. unfold known; simpl; tauto. Qed.
Lemma known_essential : known "essential". Proof. unfold known; simpl; tauto. Qed.
Lemma known_default : known "default". Proof. unfold known; simpl; tauto. Qed.
Lemma known_add : known "add". Proof. unfold known; simpl; tauto. Qed.
Lemma known_one_of : known "one_of". Proof. unfold known; simpl; tauto. Qed.
Lemma known_subset_of : known "subset_of". Proof. unfold known; simpl; tauto. Qed.
Lemma known_superset_of : known "superset_of". Proof. unfold known; simpl; tauto. Qed.
#[export] Hint Resolve known_value known_essential known_default known_add known_one_of
  known_subset_of known_superset_of : known.

Lemma combine_claim_cases O sup child r :
  combine_claim_policy O sup child = Ok r -> combined O sup child r.
Proof.
  unfold combine_claim_policy. intros H.
  rewrite !known_ops_mem in H by auto with known.
  destruct (dmem "value" sup) eqn:V.
  - apply dmem_some in V. destruct V as [v V].
    destruct (is_nil (known_ops child)) eqn:N; cbn [negb] in H.
    + injection H as <-. eapply comb_keep; eauto.
      intros p Hp. destruct (dget p child) eqn:E; [|reflexivity].
      apply is_nil_true in N.
      assert (X : In p (known_ops child)) by (apply known_ops_In; split; eauto).
      rewrite N in X; contradiction.
    + destruct (dmem "essential" child) eqn:E.
      * destruct (Nat.eqb (length (known_ops child)) 1) eqn:L; [|discriminate].
        apply dmem_some in E. destruct E as [e E].
        unfold dindex in H. rewrite V, E in H. cbn [bind] in H. injection H as <-.
        eapply comb_ess; eauto.
        intros p Hp Hne. destruct (dget p child) eqn:F; [|reflexivity].
        apply Nat.eqb_eq in L.
        assert (X : In p (known_ops child)) by (apply known_ops_In; split; eauto).
        assert (Y : In "essential" (known_ops child))
          by (apply known_ops_In; split; [exact known_essential | eauto]).
        destruct (known_ops child) as [|q [|? ?]]; simpl in L; try lia.
        destruct X as [X|[]], Y as [Y|[]]; congruence.
      * apply dmem_false in E.
        destruct (dmem "value" child) eqn:W; [|discriminate].
        apply dmem_some in W. destruct W as [w W].
        unfold dindex in H. rewrite V, W in H. cbn [bind] in H.
        destruct (py_eqb w v) eqn:Q; cbn [negb] in H; [|discriminate].
        injection H as <-. eapply comb_same; eauto.
  - apply dmem_false in V. apply comb_new; assumption.
Qed.

(** ** rules *)
Definition ocombine (O : iter_order) (a b : option claim_policy) : res (option claim_policy) :=
  match a, b with
  | Some x, Some y => let* c := combine_claim_policy O x y in Ok (Some c)
  | Some x, None => Ok (Some x)
  | None, _ => Ok b
  end.

Definition omerge (a b : option val) : res (option val) :=
  match a, b with
  | Some x, Some y => if py_eqb x y then Ok (Some y) else Err PolicyError
  | Some x, None => Ok (Some x)
  | None, _ => Ok b
  end.

Lemma combine_metadata_spec sup sub r c :
  NoDup (dkeys sub) ->
  combine_metadata sup sub = Ok r ->
  omerge (dget c sup) (dget c sub) = Ok (dget c r).
Proof.
  unfold combine_metadata. intros ND H.
  destruct (is_nil sub) eqn:N.
  - apply is_nil_true in N; subst. injection H as <-. simpl. destruct (dget c sup); reflexivity.
  - destruct (forallb _ _) eqn:F; [|discriminate]. injection H as <-.
    rewrite dget_dupdate by exact ND. rewrite forallb_forall in F.
    destruct (dget c sub) as [b|] eqn:Eb.
    + specialize (F c (dget_In_key _ _ _ _ Eb)). rewrite Eb in F.
      destruct (dget c sup) as [a|]; simpl; [rewrite F|]; reflexivity.
    + destruct (dget c sup); reflexivity.
Qed.

Lemma dupdate_nil A (d e : dict A) : dupdate d e = [] -> d = [].
Proof.
  unfold dupdate. revert d. induction e as [|[k v] e IH]; simpl; intros d H; [exact H|].
  apply IH in H. destruct d as [|[k' v'] d]; [reflexivity|].
  simpl in H. destruct (String.eqb k k'); discriminate.
Qed.

Lemma foldM_dset_dom A (f : string -> res A) L : forall acc r,
  foldM (fun acc p => let* v := f p in Ok (dset p v acc)) L acc = Ok r ->
  forall p, ~ In p L -> dget p r = dget p acc.
Proof.
  induction L as [|q L IH]; intros acc r H p Hp; simpl in H.
  - injection H as <-; reflexivity.
  - destruct (f q) as [v|e]; cbn [bind] in H; [|discriminate].
    rewrite (IH _ _ H) by (intros X; apply Hp; right; exact X).
    apply dget_dset_other. intros ->; apply Hp; left; reflexivity.
Qed.

Lemma foldM_ext A B (f g : B -> A -> res B) l b :
  (forall b x, f b x = g b x) -> foldM f l b = foldM g l b.
Proof.
  intros E. revert b. induction l as [|x l IH]; intros b; simpl; [reflexivity|].
  rewrite E. destruct (g b x); [apply IH | reflexivity].
Qed.

Lemma combine_spec O sup sub r :
  NoDup (dkeys (r_metadata sub)) ->
  combine O sup sub = Ok r ->
  forall c, ocombine O (dget c (r_policy sup)) (dget c (r_policy sub)) = Ok (dget c (r_policy r))
            /\ omerge (dget c (r_metadata sup)) (dget c (r_metadata sub))
               = Ok (dget c (r_metadata r)).
Proof.
  unfold combine. intros ND H c.
  apply bind_ok in H. destruct H as [md [Hmd H]].
  set (md' := if is_nil md then r_metadata sup else md) in H.
  assert (M : omerge (dget c (r_metadata sup)) (dget c (r_metadata sub)) = Ok (dget c md')).
  { unfold md'. destruct (is_nil md) eqn:N.
    - apply is_nil_true in N; subst md.
      unfold combine_metadata in Hmd.
      destruct (is_nil (r_metadata sub)) eqn:E.
      + apply is_nil_true in E. rewrite E. simpl. destruct (dget c (r_metadata sup)); reflexivity.
      + destruct (forallb _ _); [|discriminate]. injection Hmd as Hmd.
        assert (X := dupdate_nil _ _ _ Hmd). exfalso.
        rewrite X in Hmd. destruct (r_metadata sub) as [|[k v] l]; [discriminate|].
        assert (Y : dget k (dupdate [] ((k, v) :: l)) = Some v).
        { rewrite dget_dupdate by exact ND. simpl. rewrite String.eqb_refl. reflexivity. }
        rewrite Hmd in Y. discriminate.
    - apply combine_metadata_spec; assumption. }
  destruct (is_nil (r_policy sub)) eqn:N.
  - apply is_nil_true in N. injection H as <-. simpl. rewrite N. simpl.
    split; [destruct (dget c (r_policy sup)); reflexivity | exact M].
  - apply bind_ok in H. destruct H as [both [H1 H]].
    apply bind_ok in H. destruct H as [withsup [H2 H]].
    apply bind_ok in H. destruct H as [all [H3 H]]. injection H as <-. simpl.
    split; [|exact M].
    set (L1 := ios O _) in H1. set (L2 := ios O _) in H2. set (L3 := ios O _) in H3.
    assert (N1 : NoDup L1) by apply ios_NoDup, NoDup_filter, NoDup_nodup.
    assert (N2 : NoDup L2) by apply ios_NoDup, NoDup_filter, NoDup_nodup.
    assert (N3 : NoDup L3) by apply ios_NoDup, NoDup_filter, NoDup_nodup.
    rewrite (foldM_ext _ _ _ (fun acc claim =>
      let* v := (let* a := dindex claim (r_policy sup) in
                 let* b := dindex claim (r_policy sub) in combine_claim_policy O a b) in
      Ok (dset claim v acc))) in H1.
    2:{ intros b x. destruct (dindex x (r_policy sup)); simpl; [|reflexivity].
        destruct (dindex x (r_policy sub)); reflexivity. }
    destruct (foldM_dset_spec _ _ _ _ _ N1 H1) as [A1 B1].
    destruct (foldM_dset_spec _ _ _ _ _ N2 H2) as [A2 B2].
    destruct (foldM_dset_spec _ _ _ _ _ N3 H3) as [A3 B3].
    assert (I1 : In c L1 <-> In c (dkeys (r_policy sup)) /\ In c (dkeys (r_policy sub))).
    { unfold L1, string_set. rewrite ios_In, filter_In, smem_In, !nodup_In. reflexivity. }
    assert (I2 : In c L2 <-> In c (dkeys (r_policy sup)) /\ ~ In c (dkeys (r_policy sub))).
    { unfold L2, string_set. rewrite ios_In, filter_In, negb_true_iff, smem_false, !nodup_In.
      reflexivity. }
    assert (I3 : In c L3 <-> In c (dkeys (r_policy sub)) /\ ~ In c (dkeys (r_policy sup))).
    { unfold L3, string_set. rewrite ios_In, filter_In, negb_true_iff, smem_false, !nodup_In.
      reflexivity. }
    unfold ocombine.
    destruct (dget c (r_policy sup)) as [a|] eqn:Ea, (dget c (r_policy sub)) as [b|] eqn:Eb.
    + assert (K1 := dget_In_key _ _ _ _ Ea). assert (K2 := dget_In_key _ _ _ _ Eb).
      destruct (A1 c (proj2 I1 (conj K1 K2))) as [v [V1 V2]].
      unfold dindex in V1. rewrite Ea, Eb in V1. cbn [bind] in V1. rewrite V1. cbn [bind].
      rewrite B3, B2, V2; [reflexivity | tauto | tauto].
    + assert (K1 := dget_In_key _ _ _ _ Ea). apply dget_None_key in Eb.
      destruct (A2 c (proj2 I2 (conj K1 Eb))) as [v [V1 V2]].
      unfold dindex in V1. rewrite Ea in V1. injection V1 as <-.
      rewrite B3, V2; [reflexivity | tauto].
    + assert (K1 := dget_In_key _ _ _ _ Eb). apply dget_None_key in Ea.
      destruct (A3 c (proj2 I3 (conj K1 Ea))) as [v [V1 V2]].
      unfold dindex in V1. rewrite Eb in V1. injection V1 as <-. rewrite V2; reflexivity.
    + apply dget_None_key in Ea, Eb.
      rewrite B3, B2, B1; [reflexivity | tauto | tauto | tauto].
Qed.

(** ** chains *)
Definition cpol (et c : string) (s : stmt) : option claim_policy :=
  dget c (r_policy (stmt_rule s et)).
Definition cmd (et c : string) (s : stmt) : option val :=
  dget c (r_metadata (stmt_rule s et)).

Definition md_nodup (et : string) (s : stmt) : Prop :=
  NoDup (dkeys (r_metadata (stmt_rule s et))).

Definition gstep (O : iter_order) (et : string) (acc : rule) (es : stmt) : res rule :=
  let sub := stmt_rule es et in
  if is_nil (r_policy sub) && is_nil (r_metadata sub) then Ok acc
  else if existsb (fun k => dmem k (r_metadata sub)) (dkeys (r_policy sub))
  then Err PolicyError
  else combine O acc sub.

Lemma gather_fold O et rest : forall acc r,
  (forall s, In s rest -> md_nodup et s) ->
  foldM (gstep O et) rest acc = Ok r ->
  forall c,
  foldM (fun a s => ocombine O a (cpol et c s)) rest (dget c (r_policy acc))
    = Ok (dget c (r_policy r)) /\
  foldM (fun a s => omerge a (cmd et c s)) rest (dget c (r_metadata acc))
    = Ok (dget c (r_metadata r)) /\
  (forall s, In s rest -> cpol et c s <> None -> cmd et c s = None).
Proof.
  induction rest as [|s rest IH]; intros acc r W H c; cbn [foldM] in H |- *.
  - injection H as <-. split; [reflexivity|]. split; [reflexivity | intros s []].
  - assert (W1 : md_nodup et s) by (apply W; left; reflexivity).
    assert (W2 : forall s, In s rest -> md_nodup et s) by (intros; apply W; right; assumption).
    unfold gstep at 1 in H. cbn zeta in H. unfold cpol at 1 3, cmd at 1 3.
    destruct (is_nil (r_policy (stmt_rule s et)) && is_nil (r_metadata (stmt_rule s et))) eqn:N.
    + apply andb_true_iff in N. destruct N as [N1 N2]. apply is_nil_true in N1, N2.
      rewrite N1, N2. cbn [dget].
      destruct (IH _ _ W2 H c) as [I1 [I2 I3]]. split; [|split].
      * destruct (dget c (r_policy acc)); exact I1.
      * destruct (dget c (r_metadata acc)); exact I2.
      * intros s' [<-|Hs]; [|apply I3; exact Hs].
        intros X. unfold cmd. rewrite N2. reflexivity.
    + destruct (existsb _ _) eqn:X; [discriminate|].
      destruct (combine O acc (stmt_rule s et)) as [acc'|e] eqn:E; [|discriminate].
      destruct (combine_spec _ _ _ _ W1 E c) as [C1 C2]. rewrite C1, C2.
      destruct (IH _ _ W2 H c) as [I1 [I2 I3]]. split; [exact I1|]. split; [exact I2|].
      intros s' [<-|Hs]; [|apply I3; exact Hs].
      unfold cpol, cmd. intros Y. destruct (dget c (r_policy (stmt_rule s et))) as [p|] eqn:P; [|congruence].
      destruct (dget c (r_metadata (stmt_rule s et))) as [v|] eqn:Q; [|reflexivity].
      exfalso. assert (Z := proj2 (existsb_exists (fun k => dmem k (r_metadata (stmt_rule s et)))
        (dkeys (r_policy (stmt_rule s et))))).
      rewrite X in Z. discriminate Z. exists c. split; [eapply dget_In_key; eauto|].
      apply dmem_some; eauto.
Qed.

Lemma gather_spec O et first rest r :
  (forall s, In s rest -> md_nodup et s) ->
  gather_policies O (first :: rest) et = Ok r ->
  forall c,
  foldM (fun a s => ocombine O a (cpol et c s)) rest (cpol et c first)
    = Ok (dget c (r_policy r)) /\
  foldM (fun a s => omerge a (cmd et c s)) rest (cmd et c first)
    = Ok (dget c (r_metadata r)) /\
  (forall s, In s rest -> cpol et c s <> None -> cmd et c s = None).
Proof. intros W H c. exact (gather_fold O et rest _ r W H c). Qed.

(** an invariant of all claim policies of a chain *)
Lemma ofold_all O (K : claim_policy -> Prop) (f : stmt -> option claim_policy) rest :
  (forall a b c, K a -> K b -> combine_claim_policy O a b = Ok c -> K c) ->
  (forall s p, In s rest -> f s = Some p -> K p) ->
  forall a r, (forall p, a = Some p -> K p) ->
  foldM (fun a s => ocombine O a (f s)) rest a = Ok r ->
  forall p, r = Some p -> K p.
Proof.
  intros KC. induction rest as [|s rest IH]; intros KE a r Ka H; simpl in H.
  - injection H as <-. exact Ka.
  - destruct (ocombine O a (f s)) as [a'|e] eqn:E; [|discriminate].
    apply (IH (fun s' p Hs => KE s' p (or_intror Hs)) a' r); [|exact H].
    intros p ->. unfold ocombine in E.
    destruct a as [x|].
    + destruct (f s) as [y|] eqn:F.
      * apply bind_ok in E. destruct E as [c [E1 E2]]. injection E2 as <-.
        eapply KC; [apply Ka | eapply KE; [left|] | ]; eauto.
      * injection E as <-. apply Ka; reflexivity.
    + injection E as E. eapply KE; [left; reflexivity | exact E].
Qed.

(** a property one statement establishes and combination keeps *)
Lemma ofold_some O (K I : claim_policy -> Prop) (f : stmt -> option claim_policy) rest :
  (forall a b c, K a -> K b -> combine_claim_policy O a b = Ok c -> K c) ->
  (forall a b c, K a -> K b -> I a -> combine_claim_policy O a b = Ok c -> I c) ->
  (forall a b c, K a -> K b -> I b -> combine_claim_policy O a b = Ok c -> I c) ->
  (forall s p, In s rest -> f s = Some p -> K p) ->
  forall a r, (forall p, a = Some p -> K p) ->
  foldM (fun a s => ocombine O a (f s)) rest a = Ok r ->
  ((exists p, a = Some p /\ I p) \/ exists s p, In s rest /\ f s = Some p /\ I p) ->
  exists p, r = Some p /\ I p /\ K p.
Proof.
  intros KC I1 I2. induction rest as [|s rest IH]; intros KE a r Ka H EX; simpl in H.
  - injection H as <-. destruct EX as [[p [E Hp]]|[s [p [[] _]]]].
    exists p; auto.
  - destruct (ocombine O a (f s)) as [a'|e] eqn:E; [|discriminate].
    assert (KE' : forall s p, In s rest -> f s = Some p -> K p)
      by (intros s' p Hs; apply KE; right; exact Hs).
    assert (KS : forall p, f s = Some p -> K p) by (intros p; apply KE; left; reflexivity).
    apply (IH KE' a' r); [| exact H |].
    + intros p ->. unfold ocombine in E. destruct a as [x|].
      * destruct (f s) as [y|] eqn:F.
        -- apply bind_ok in E. destruct E as [c [E1 E2]]. injection E2 as <-.
           exact (KC x y c (Ka _ eq_refl) (KS _ eq_refl) E1).
        -- injection E as <-. apply Ka; reflexivity.
      * injection E as E. apply KS; exact E.
    + destruct EX as [[p [-> Hp]]|[s' [p [[->|Hs] [F Hp]]]]].
      * left. unfold ocombine in E. destruct (f s) as [y|] eqn:F.
        -- apply bind_ok in E. destruct E as [c [E1 E2]]. injection E2 as <-.
           exists c; split; [reflexivity|].
           exact (I1 p y c (Ka _ eq_refl) (KS _ eq_refl) Hp E1).
        -- injection E as <-. eauto.
      * left. unfold ocombine in E. rewrite F in E. destruct a as [x|].
        -- apply bind_ok in E. destruct E as [c [E1 E2]]. injection E2 as <-.
           exists c; split; [reflexivity|].
           exact (I2 x p c (Ka _ eq_refl) (KS _ F) Hp E1).
        -- injection E as <-. eauto.
      * right. eauto.
Qed.
