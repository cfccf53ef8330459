(** Facts about policy application: one claim at a time. *)
From Verif Require Export PyFacts PolicyModel.

(** ** The operators on the value of one claim *)
Definition v_add (O : iter_order) (operand : val) (ov : option val) : res (option val) :=
  match ov with
  | Some v => let* base := set_or_single v in let* ext := set_or_single operand in
              Ok (Some (VList (iov O (set_union base ext))))
  | None => Ok (Some operand)
  end.

Definition v_default (operand : val) (ov : option val) : res (option val) :=
  match ov with Some v => Ok (Some v) | None => Ok (Some operand) end.

Definition v_subset_of (O : iter_order) (pol : claim_policy) (operand : val) (ov : option val)
  : res (option val) :=
  match ov with
  | None => Ok None
  | Some v =>
      let* l :=
        (if is_list v then
           let* a := py_set operand in let* b := py_set v in Ok (iov O (set_inter a b))
         else
           let* b := py_in v (VDict pol) in
           if b then (if truthy v then py_list v else Ok []) else Err PolicyError) in
      if is_nil l then Err PolicyError else Ok (Some (VList l))
  end.

Definition v_superset_of (operand : val) (ov : option val) : res (option val) :=
  match ov with
  | None => Ok None
  | Some v => let* d := differs operand v in if d then Err PolicyError else Ok (Some v)
  end.

Definition v_essential (operand : val) (ov : option val) : res (option val) :=
  match ov with
  | Some v => Ok (Some v)
  | None => if py_eqb operand (VBool true) then Err PolicyError else Ok None
  end.

Definition opt_op (op : option val) (f : val -> option val -> res (option val)) (ov : option val)
  : res (option val) :=
  match op with Some operand => f operand ov | None => Ok ov end.

Definition v_tail (O : iter_order) (pol : claim_policy) (ov : option val) : res (option val) :=
  let* ov := opt_op (dget "subset_of" pol) (v_subset_of O pol) ov in
  let* ov := opt_op (dget "superset_of" pol) v_superset_of ov in
  opt_op (dget "essential" pol) v_essential ov.

(** one_of on a present scalar ends the evaluation *)
Definition v_one_of (O : iter_order) (pol : claim_policy) (ov : option val) : res (option val) :=
  match dget "one_of" pol, ov with
  | Some operand, Some v =>
      if is_list v then v_tail O pol ov
      else let* b := py_in v operand in if b then Ok ov else Err PolicyError
  | _, _ => v_tail O pol ov
  end.

(** what the operators make of the value of a claim *)
Definition claim_result (O : iter_order) (pol : claim_policy) (ov : option val)
  : res (option val) :=
  match dget "value" pol with
  | Some v => Ok (Some v)
  | None =>
      let* ov := opt_op (dget "add" pol) (v_add O) ov in
      let* ov := opt_op (dget "default" pol) v_default ov in
      v_one_of O pol ov
  end.

(** a run on the metadata that does to [claim] what [r] says and nothing else *)
Definition agrees (claim : string) (md : metadata) (r : res (option val)) (m : res metadata)
  : Prop :=
  match r, m with
  | Ok ov, Ok md' => dget claim md' = ov /\ forall k, k <> claim -> dget k md' = dget k md
  | Err e, Err e' => e = e'
  | _, _ => False
  end.

Lemma agrees_bind claim md r f m g :
  agrees claim md r m ->
  (forall ov md', r = Ok ov -> dget claim md' = ov -> m = Ok md' ->
     agrees claim md' (f ov) (g md')) ->
  agrees claim md (let* ov := r in f ov) (let* md' := m in g md').
Proof.
  destruct r as [ov|e], m as [md'|e']; simpl; try tauto.
  intros [H1 H2] H. specialize (H ov md' eq_refl H1 eq_refl).
  unfold agrees in *. destruct (f ov), (g md'); try tauto.
  destruct H as [H3 H4]. split; [exact H3|].
  intros k Hk. rewrite H4, H2 by exact Hk; reflexivity.
Qed.

Lemma agrees_ret claim md : agrees claim md (Ok (dget claim md)) (Ok md).
Proof. simpl; split; [reflexivity | auto]. Qed.

Lemma agrees_set claim md v : agrees claim md (Ok (Some v)) (Ok (dset claim v md)).
Proof.
  simpl; split; [apply dget_dset_same|]. intros k Hk; apply dget_dset_other, Hk.
Qed.

Lemma run_ops_cons fuel O claim pol op ops md :
  run_ops (S fuel) O claim pol (op :: ops) md =
  if dmem op pol then
    match op_call O op claim md pol with
    | Err e => Err e
    | Ok (md', None) => run_ops fuel O claim pol ops md'
    | Ok (md', Some next) =>
        match op_place next (op :: ops) with
        | None => Err TypeError
        | Some ops'' => run_ops fuel O claim pol ops'' md'
        end
    end
  else run_ops fuel O claim pol ops md.
Proof. reflexivity. Qed.

Lemma run_ops_nil fuel O claim pol md : run_ops (S fuel) O claim pol [] md = Ok md.
Proof. reflexivity. Qed.

Definition dget_dec {A} k (d : dict A) : {v | dget k d = Some v} + {dget k d = None}.
Proof. destruct (dget k d); eauto. Defined.

Lemma dmem_get {A} k (d : dict A) :
  dmem k d = match dget k d with Some _ => true | None => false end.
Proof. reflexivity. Qed.

Lemma agrees_essential fuel O claim pol md :
  agrees claim md
    (opt_op (dget "essential" pol) v_essential (dget claim md))
    (run_ops (S (S fuel)) O claim pol ["essential"] md).
Proof.
  rewrite run_ops_cons, dmem_get.
  destruct (dget "essential" pol) as [e|] eqn:E; simpl.
  - unfold op_call, dindex; rewrite E; simpl. unfold op_essential, v_essential.
    destruct (dget claim md) eqn:F; simpl.
    + rewrite <- F; apply (agrees_ret claim md).
    + destruct (py_eqb e (VBool true)); simpl; [reflexivity|].
      rewrite <- F; apply (agrees_ret claim md).
  - apply (agrees_ret claim md).
Qed.

Lemma agrees_superset fuel O claim pol md :
  agrees claim md
    (let* ov := opt_op (dget "superset_of" pol) v_superset_of (dget claim md) in
     opt_op (dget "essential" pol) v_essential ov)
    (run_ops (S (S (S fuel))) O claim pol ["superset_of"; "essential"] md).
Proof.
  rewrite run_ops_cons, dmem_get.
  destruct (dget "superset_of" pol) as [e|] eqn:E.
  - unfold op_call, dindex; rewrite E.
    cbn [bind opt_op]. change (String.eqb "superset_of" "value") with false.
    cbn [String.eqb Ascii.eqb Bool.eqb].
    unfold op_superset_of, v_superset_of.
    destruct (dget claim md) as [v|] eqn:F.
    + destruct (differs e v) as [d|x]; cbn [bind]; [|simpl; reflexivity].
      destruct d; cbn [bind]; [simpl; reflexivity|].
      rewrite <- F; apply agrees_essential.
    + cbn [bind]. rewrite <- F; apply agrees_essential.
  - cbn [bind opt_op]. apply agrees_essential.
Qed.

Lemma agrees_subset fuel O claim pol md :
  agrees claim md (v_tail O pol (dget claim md))
    (run_ops (S (S (S (S fuel)))) O claim pol ["subset_of"; "superset_of"; "essential"] md).
Proof.
  rewrite run_ops_cons, dmem_get. unfold v_tail.
  destruct (dget "subset_of" pol) as [e|] eqn:E.
  - unfold op_call, dindex; rewrite E.
    cbn [bind opt_op]. cbn [String.eqb Ascii.eqb Bool.eqb].
    unfold op_subset_of, v_subset_of.
    destruct (dget claim md) as [v|] eqn:F.
    + set (R := if is_list v then _ else _ : res (list val)).
      destruct R as [l|x]; cbn [bind]; [|simpl; reflexivity].
      destruct (is_nil l); cbn [bind]; [simpl; reflexivity|].
      assert (A := agrees_superset fuel O claim pol (dset claim (VList l) md)).
      rewrite dget_dset_same in A.
      unfold agrees in *. destruct (run_ops _ _ _ _ _ _); [|exact A].
      match goal with |- context [bind ?R ?f] => destruct (bind R f) end; [|exact A].
      destruct A as [A1 A2]; split; [exact A1|].
      intros k Hk; rewrite A2 by exact Hk; apply dget_dset_other, Hk.
    + cbn [bind]. rewrite <- F; apply agrees_superset.
  - cbn [bind opt_op]. apply agrees_superset.
Qed.

Lemma agrees_one_of fuel O claim pol md :
  agrees claim md (v_one_of O pol (dget claim md))
    (run_ops (S (S (S (S (S fuel))))) O claim pol
       ["one_of"; "subset_of"; "superset_of"; "essential"] md).
Proof.
  rewrite run_ops_cons, dmem_get. unfold v_one_of.
  destruct (dget "one_of" pol) as [e|] eqn:E.
  - unfold op_call, dindex; rewrite E.
    cbn [bind]. cbn [String.eqb Ascii.eqb Bool.eqb].
    unfold op_one_of.
    destruct (dget claim md) as [v|] eqn:F.
    + destruct (is_list v) eqn:L.
      * rewrite <- F; apply agrees_subset.
      * destruct (py_in v e) as [b|x]; cbn [bind]; [|simpl; reflexivity].
        destruct b; [|simpl; reflexivity].
        cbn [op_place String.eqb Ascii.eqb Bool.eqb].
        assert (A := agrees_essential (S (S fuel)) O claim pol md).
        rewrite F in A. unfold agrees in *.
        destruct (dget "essential" pol); cbn [opt_op v_essential] in A; exact A.
    + rewrite <- F; apply agrees_subset.
  - apply agrees_subset.
Qed.

Lemma agrees_trans claim md md1 r m :
  (forall k, k <> claim -> dget k md1 = dget k md) ->
  agrees claim md1 r m -> agrees claim md r m.
Proof.
  unfold agrees; destruct r, m; try tauto. intros H [A1 A2]; split; [exact A1|].
  intros k Hk; rewrite A2, H by exact Hk; reflexivity.
Qed.

Lemma agrees_default fuel O claim pol md :
  agrees claim md
    (let* ov := opt_op (dget "default" pol) v_default (dget claim md) in v_one_of O pol ov)
    (run_ops (S (S (S (S (S (S fuel)))))) O claim pol
       ["default"; "one_of"; "subset_of"; "superset_of"; "essential"] md).
Proof.
  rewrite run_ops_cons, dmem_get.
  destruct (dget "default" pol) as [e|] eqn:E.
  - unfold op_call, dindex; rewrite E.
    cbn [bind opt_op]. cbn [String.eqb Ascii.eqb Bool.eqb].
    unfold op_default, v_default.
    destruct (dget claim md) as [v|] eqn:F; cbn [bind].
    + rewrite <- F; apply agrees_one_of.
    + apply agrees_trans with (md1 := dset claim e md).
      * intros k Hk; apply dget_dset_other, Hk.
      * assert (A := agrees_one_of fuel O claim pol (dset claim e md)).
        rewrite dget_dset_same in A; exact A.
  - cbn [bind opt_op]. apply agrees_one_of.
Qed.

Lemma agrees_add fuel O claim pol md :
  agrees claim md
    (let* ov := opt_op (dget "add" pol) (v_add O) (dget claim md) in
     let* ov := opt_op (dget "default" pol) v_default ov in v_one_of O pol ov)
    (run_ops (S (S (S (S (S (S (S fuel))))))) O claim pol
       ["add"; "default"; "one_of"; "subset_of"; "superset_of"; "essential"] md).
Proof.
  rewrite run_ops_cons, dmem_get.
  destruct (dget "add" pol) as [e|] eqn:E.
  - unfold op_call, dindex; rewrite E.
    cbn [bind opt_op]. cbn [String.eqb Ascii.eqb Bool.eqb].
    unfold op_add, v_add.
    destruct (dget claim md) as [v|] eqn:F; cbn [bind].
    + destruct (set_or_single v) as [b|x]; cbn [bind]; [|simpl; reflexivity].
      destruct (set_or_single e) as [c|x]; cbn [bind]; [|simpl; reflexivity].
      set (w := VList (iov O (set_union b c))).
      apply agrees_trans with (md1 := dset claim w md).
      * intros k Hk; apply dget_dset_other, Hk.
      * assert (A := agrees_default fuel O claim pol (dset claim w md)).
        rewrite dget_dset_same in A; exact A.
    + apply agrees_trans with (md1 := dset claim e md).
      * intros k Hk; apply dget_dset_other, Hk.
      * assert (A := agrees_default fuel O claim pol (dset claim e md)).
        rewrite dget_dset_same in A; exact A.
  - cbn [bind opt_op]. apply agrees_default.
Qed.

(** the while loop for one claim terminates within its fuel, changes only this claim and does
    to it what [claim_result] says *)
Lemma apply_claim_agrees O claim pol md :
  agrees claim md (claim_result O pol (dget claim md)) (apply_claim O claim pol md).
Proof.
  unfold apply_claim, operators, claim_result. cbn [length Nat.mul Nat.add].
  rewrite run_ops_cons, dmem_get.
  destruct (dget "value" pol) as [e|] eqn:E.
  - unfold op_call, dindex; rewrite E.
    cbn [bind opt_op]. cbn [String.eqb Ascii.eqb Bool.eqb].
    unfold op_value. cbn [op_place String.eqb Ascii.eqb Bool.eqb].
    apply agrees_trans with (md1 := dset claim e md).
    * intros k Hk; apply dget_dset_other, Hk.
    * assert (A := agrees_essential 11 O claim pol (dset claim e md)).
      rewrite dget_dset_same in A. unfold agrees in *.
      destruct (dget "essential" pol); simpl in A; exact A.
  - apply agrees_add.
Qed.

(** ** The whole metadata *)
Definition policy_of (c : string) (mp : mpolicy) : claim_policy :=
  match dget c mp with Some p => p | None => [] end.

Lemma apply_list_spec O mp L : forall md,
  NoDup L ->
  match foldM (fun md claim => apply_claim O claim (policy_of claim mp) md) L md with
  | Ok md' =>
      (forall c, In c L -> claim_result O (policy_of c mp) (dget c md) = Ok (dget c md')) /\
      (forall c, ~ In c L -> dget c md' = dget c md)
  | Err e => exists c, In c L /\ claim_result O (policy_of c mp) (dget c md) = Err e
  end.
Proof.
  induction L as [|c L IH]; intros md ND; simpl.
  - split; [tauto | auto].
  - inversion ND as [|? ? Hc ND']; subst.
    assert (A := apply_claim_agrees O c (policy_of c mp) md). unfold agrees in A.
    destruct (apply_claim O c (policy_of c mp) md) as [md1|e].
    + destruct (claim_result O (policy_of c mp) (dget c md)) as [ov|e] eqn:E; [|contradiction].
      destruct A as [A1 A2].
      specialize (IH md1 ND').
      destruct (foldM _ L md1) as [md'|e].
      * destruct IH as [I1 I2]. split.
        -- intros c' [<-|H].
           ++ rewrite E, I2, A1 by exact Hc. reflexivity.
           ++ rewrite <- I1 by exact H. rewrite A2; [reflexivity|]. intros ->; contradiction.
        -- intros c' H. rewrite I2, A2; [reflexivity | |]; intros X; apply H; auto.
      * destruct IH as [c' [H I]]. exists c'; split; [auto|].
        rewrite <- A2; [exact I|]. intros ->; contradiction.
    + destruct (claim_result O (policy_of c mp) (dget c md)) as [ov|e'] eqn:E; [contradiction|].
      exists c; split; [auto | congruence].
Qed.

Lemma apply_metadata_policy_spec O md mp :
  match apply_metadata_policy O md mp with
  | Ok md' =>
      forall c, match dget c mp with
                | Some p => claim_result O p (dget c md) = Ok (dget c md')
                | None => dget c md' = dget c md
                end
  | Err e => exists c p, dget c mp = Some p /\ claim_result O p (dget c md) = Err e
  end.
Proof.
  unfold apply_metadata_policy.
  assert (ND : NoDup (ios O (string_set (dkeys mp)))) by apply ios_NoDup, NoDup_nodup.
  assert (H := apply_list_spec O mp _ md ND). unfold policy_of in H.
  assert (IN : forall c, In c (ios O (string_set (dkeys mp))) <-> In c (dkeys mp)).
  { intros c. rewrite ios_In. unfold string_set. apply nodup_In. }
  destruct (foldM _ _ md) as [md'|e].
  - destruct H as [H1 H2]. intros c. destruct (dget c mp) as [p|] eqn:E.
    + assert (Hc : In c (dkeys mp)) by (eapply dget_In_key; eauto).
      apply IN in Hc. specialize (H1 c Hc). rewrite E in H1; exact H1.
    + apply dget_None_key in E. apply H2. rewrite IN; exact E.
  - destruct H as [c [H1 H2]]. apply IN in H1. apply key_In_dget in H1.
    destruct H1 as [p E]. exists c, p; split; [exact E|]. rewrite E in H2; exact H2.
Qed.

(** ** apply_policy *)
Definition merged (c : string) (leaf sup : metadata) : option val :=
  match dget c leaf with Some v => Some v | None => dget c sup end.

Lemma apply_policy_spec O md r :
  NoDup (dkeys md) ->
  match apply_policy O md r with
  | Ok (md', _) =>
      forall c, match dget c (r_policy r) with
                | Some p => claim_result O p (merged c md (r_metadata r)) = Ok (dget c md')
                | None => dget c md' = merged c md (r_metadata r)
                end
  | Err e => exists c p, dget c (r_policy r) = Some p /\
                         claim_result O p (merged c md (r_metadata r)) = Err e
  end.
Proof.
  intros ND. unfold apply_policy.
  set (md1 := if is_nil (r_metadata r) then md else dupdate (r_metadata r) md).
  assert (G : forall c, dget c md1 = merged c md (r_metadata r)).
  { intros c; unfold md1, merged. destruct (is_nil (r_metadata r)) eqn:E.
    - apply is_nil_true in E; rewrite E; simpl. destruct (dget c md); reflexivity.
    - rewrite dget_dupdate by exact ND. reflexivity. }
  destruct (is_nil (r_policy r)) eqn:E.
  - apply is_nil_true in E; rewrite E; simpl. exact G.
  - assert (H := apply_metadata_policy_spec O md1 (r_policy r)).
    change (apply_metadata_policy O _ (r_policy r))
      with (apply_metadata_policy O md1 (r_policy r)).
    destruct (apply_metadata_policy O md1 (r_policy r)) as [md'|e]; cbn [bind fst].
    + intros c; specialize (H c). destruct (dget c (r_policy r)); rewrite <- G; exact H.
    + destruct H as [c [p [H1 H2]]]. exists c, p. rewrite <- G; auto.
Qed.
