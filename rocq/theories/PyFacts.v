(** Facts about Python values, dictionaries and sets. *)
From Verif Require Export Py.
From Coq Require Export Lia.

(** ** Results *)
Lemma bind_ok A B (r : res A) (f : A -> res B) b :
  bind r f = Ok b <-> exists a, r = Ok a /\ f a = Ok b.
Proof.
  split.
  - destruct r as [a|e]; simpl; [eauto | discriminate].
  - intros [a [-> H]]; exact H.
Qed.

Lemma foldM_app A B (f : B -> A -> res B) l1 l2 b :
  foldM f (l1 ++ l2) b = let* b' := foldM f l1 b in foldM f l2 b'.
Proof.
  revert b; induction l1 as [|x l1 IH]; intros b; simpl; [reflexivity|].
  destruct (f b x); simpl; [apply IH | reflexivity].
Qed.

Lemma foldM_inv A B (f : B -> A -> res B) (I : B -> Prop) l b b' :
  (forall b x b', In x l -> I b -> f b x = Ok b' -> I b') ->
  I b -> foldM f l b = Ok b' -> I b'.
Proof.
  revert b; induction l as [|x l IH]; intros b Hs Hb H; simpl in H.
  - congruence.
  - destruct (f b x) as [b1|e] eqn:E; [|discriminate].
    eapply IH; [| |exact H].
    + intros; eapply Hs; eauto; right; assumption.
    + eapply Hs; eauto; left; reflexivity.
Qed.

(** ** Dictionaries *)
Lemma dget_dset_same A k (v : A) d : dget k (dset k v d) = Some v.
Proof.
  induction d as [|[k' v'] d IH]; simpl; [rewrite String.eqb_refl; reflexivity|].
  destruct (String.eqb_spec k k') as [->|N]; simpl; [rewrite String.eqb_refl; reflexivity|].
  apply String.eqb_neq in N; rewrite N; exact IH.
Qed.

Lemma dget_dset_other A k k' (v : A) d : k <> k' -> dget k (dset k' v d) = dget k d.
Proof.
  intros N; induction d as [|[k0 v0] d IH]; simpl.
  - apply String.eqb_neq in N; rewrite N; reflexivity.
  - destruct (String.eqb_spec k' k0) as [->|N0]; simpl.
    + apply String.eqb_neq in N; rewrite N; reflexivity.
    + destruct (String.eqb k k0); [reflexivity | exact IH].
Qed.

Lemma dget_dset A k k' (v : A) d :
  dget k (dset k' v d) = if String.eqb k k' then Some v else dget k d.
Proof.
  destruct (String.eqb_spec k k') as [->|N]; [apply dget_dset_same | apply dget_dset_other; auto].
Qed.

Lemma dget_ddel_same A k (d : dict A) : dget k (ddel k d) = None.
Proof.
  induction d as [|[k' v'] d IH]; simpl; [reflexivity|].
  destruct (String.eqb k k') eqn:E; [exact IH|]. simpl; rewrite E; exact IH.
Qed.

Lemma dget_ddel_other A k k' (d : dict A) : k <> k' -> dget k (ddel k' d) = dget k d.
Proof.
  intros N; induction d as [|[k0 v0] d IH]; simpl; [reflexivity|].
  destruct (String.eqb_spec k' k0) as [->|N0]; simpl.
  - apply String.eqb_neq in N; rewrite N; exact IH.
  - destruct (String.eqb k k0); [reflexivity | exact IH].
Qed.

Lemma dget_In A k (v : A) d : dget k d = Some v -> In (k, v) d.
Proof.
  induction d as [|[k' v'] d IH]; simpl; [discriminate|].
  destruct (String.eqb_spec k k') as [->|N]; [intros [= ->]; auto | auto].
Qed.

Lemma dget_In_key A k (v : A) d : dget k d = Some v -> In k (dkeys d).
Proof. intros H; apply dget_In in H; apply (in_map fst) in H; exact H. Qed.

Lemma dget_None_key A k (d : dict A) : dget k d = None <-> ~ In k (dkeys d).
Proof.
  induction d as [|[k' v'] d IH]; simpl; [tauto|].
  destruct (String.eqb_spec k k') as [->|N].
  - split; [discriminate | intros H; exfalso; apply H; auto].
  - rewrite IH; split; [intros H [E|E]; [congruence|auto] | intros H E; apply H; auto].
Qed.

Lemma key_In_dget A k (d : dict A) : In k (dkeys d) -> exists v, dget k d = Some v.
Proof.
  intros H; destruct (dget k d) eqn:E; [eauto|].
  apply dget_None_key in E; tauto.
Qed.

Lemma dmem_true A k (d : dict A) : dmem k d = true <-> In k (dkeys d).
Proof.
  unfold dmem; destruct (dget k d) eqn:E.
  - split; [intros _; eapply dget_In_key; eauto | auto].
  - split; [discriminate | apply dget_None_key in E; tauto].
Qed.

Lemma dmem_false A k (d : dict A) : dmem k d = false <-> dget k d = None.
Proof. unfold dmem; destruct (dget k d); split; congruence. Qed.

Lemma dmem_some A k (d : dict A) : dmem k d = true <-> exists v, dget k d = Some v.
Proof.
  unfold dmem; destruct (dget k d); split; intros H; try congruence; eauto.
  destruct H; congruence.
Qed.

Lemma In_dget_nodup A k (v : A) d : NoDup (dkeys d) -> In (k, v) d -> dget k d = Some v.
Proof.
  induction d as [|[k' v'] d IH]; simpl; [tauto|].
  intros ND [E|H].
  - inversion E; subst; rewrite String.eqb_refl; reflexivity.
  - inversion ND as [|? ? Hn ND']; subst.
    destruct (String.eqb_spec k k') as [->|N]; [|auto].
    exfalso; apply Hn; apply (in_map fst) in H; exact H.
Qed.

Lemma dkeys_dset_in A k k' (v : A) d :
  In k (dkeys (dset k' v d)) <-> k = k' \/ In k (dkeys d).
Proof.
  destruct (string_dec k k') as [->|N].
  - split; [auto|]. intros _; eapply dget_In_key; apply dget_dset_same.
  - assert (H := dget_dset_other A k k' v d N).
    destruct (dget k d) eqn:E.
    + split; intros _; [right; eapply dget_In_key; eauto|].
      eapply dget_In_key; rewrite H; reflexivity.
    + apply dget_None_key in E; apply dget_None_key in H; tauto.
Qed.

Lemma NoDup_dset A k (v : A) d : NoDup (dkeys d) -> NoDup (dkeys (dset k v d)).
Proof.
  induction d as [|[k' v'] d IH]; simpl; intros ND.
  - constructor; [simpl; tauto | constructor].
  - inversion ND as [|? ? Hn ND']; subst.
    destruct (String.eqb_spec k k') as [->|N]; simpl; [constructor; auto|].
    constructor; [|auto].
    intros H; apply dkeys_dset_in in H; destruct H; [congruence | tauto].
Qed.

Lemma dget_dupdate A k (d e : dict A) :
  NoDup (dkeys e) ->
  dget k (dupdate d e) = match dget k e with Some v => Some v | None => dget k d end.
Proof.
  unfold dupdate; revert d; induction e as [|[k' v'] e IH]; intros d ND; simpl; [reflexivity|].
  inversion ND as [|? ? Hn ND']; subst.
  rewrite IH by assumption.
  destruct (String.eqb_spec k k') as [->|N].
  - assert (dget k' e = None) as -> by (apply dget_None_key; exact Hn).
    rewrite dget_dset_same; reflexivity.
  - destruct (dget k e); [reflexivity | apply dget_dset_other; exact N].
Qed.

Lemma NoDup_dupdate A (d e : dict A) : NoDup (dkeys d) -> NoDup (dkeys (dupdate d e)).
Proof.
  unfold dupdate; revert d; induction e as [|[k' v'] e IH]; intros d ND; simpl; [exact ND|].
  apply IH; apply NoDup_dset; exact ND.
Qed.

Lemma dindex_ok A k (d : dict A) v : dindex k d = Ok v <-> dget k d = Some v.
Proof. unfold dindex; destruct (dget k d); split; congruence. Qed.

Lemma is_nil_true A (l : list A) : is_nil l = true <-> l = [].
Proof. destruct l; split; simpl; congruence. Qed.

Lemma is_nil_false A (l : list A) : is_nil l = false <-> l <> [].
Proof. destruct l; split; simpl; congruence. Qed.

Lemma smem_In x l : smem x l = true <-> In x l.
Proof.
  unfold smem; rewrite existsb_exists; split.
  - intros [y [Hy E]]; apply String.eqb_eq in E; subst; exact Hy.
  - intros H; exists x; split; [exact H | apply String.eqb_refl].
Qed.

Lemma smem_false x l : smem x l = false <-> ~ In x l.
Proof. rewrite <- smem_In; destruct (smem x l); split; congruence. Qed.

(** ** Induction on values *)
Section ValInd.
  Context (P : val -> Prop).
  Context (Hnull : P VNull) (Hbool : forall b, P (VBool b)) (Hint : forall z, P (VInt z))
          (Hstr : forall s, P (VStr s))
          (Hlist : forall l, Forall P l -> P (VList l))
          (Hdict : forall d, Forall (fun kv => P (snd kv)) d -> P (VDict d)).
  Fixpoint val_ind' (v : val) : P v :=
    match v with
    | VNull => Hnull
    | VBool b => Hbool b
    | VInt z => Hint z
    | VStr s => Hstr s
    | VList l =>
        Hlist l ((fix go (l : list val) : Forall P l :=
                    match l with
                    | [] => Forall_nil _
                    | x :: l' => Forall_cons _ (val_ind' x) (go l')
                    end) l)
    | VDict d =>
        Hdict d ((fix go (d : list (string * val)) : Forall (fun kv => P (snd kv)) d :=
                    match d with
                    | [] => Forall_nil _
                    | kv :: d' => Forall_cons kv (val_ind' (snd kv)) (go d')
                    end) d)
    end.
End ValInd.

(** well-formed: dictionaries have no duplicate keys (always so in Python) *)
Inductive wf_val : val -> Prop :=
| wf_null : wf_val VNull
| wf_bool b : wf_val (VBool b)
| wf_int z : wf_val (VInt z)
| wf_str s : wf_val (VStr s)
| wf_list l : Forall wf_val l -> wf_val (VList l)
| wf_dict d : NoDup (map fst d) -> Forall (fun kv => wf_val (snd kv)) d -> wf_val (VDict d).

Fixpoint list_eqb (l1 l2 : list val) : bool :=
  match l1, l2 with
  | [], [] => true
  | x :: l1', y :: l2' => py_eqb x y && list_eqb l1' l2'
  | _, _ => false
  end.

Definition entry_eqb (d2 : list (string * val)) (kv : string * val) : bool :=
  match dget (fst kv) d2 with Some w => py_eqb (snd kv) w | None => false end.

Lemma py_eqb_list l1 l2 : py_eqb (VList l1) (VList l2) = list_eqb l1 l2.
Proof.
  simpl. revert l2; induction l1 as [|x l1 IH]; intros [|y l2]; simpl; try reflexivity.
Qed.

Lemma py_eqb_dict d1 d2 :
  py_eqb (VDict d1) (VDict d2) = Nat.eqb (length d1) (length d2) && forallb (entry_eqb d2) d1.
Proof.
  simpl. f_equal. induction d1 as [|[k v] d1 IH]; simpl; [reflexivity|].
  unfold entry_eqb at 1; simpl. rewrite IH; reflexivity.
Qed.

Lemma py_eqb_refl v : wf_val v -> py_eqb v v = true.
Proof.
  induction v as [| b | z | s | l IH | d IH] using val_ind'; intros W.
  - reflexivity.
  - destruct b; reflexivity.
  - apply Z.eqb_refl.
  - apply String.eqb_refl.
  - rewrite py_eqb_list. inversion W as [| | | | l0 Wl |]; subst. clear W.
    induction l as [|x l IHl]; simpl; [reflexivity|].
    inversion IH; inversion Wl; subst. rewrite IHl by assumption.
    rewrite H1 by assumption; reflexivity.
  - rewrite py_eqb_dict, Nat.eqb_refl; simpl.
    inversion W as [| | | | | d0 ND Wd]; subst.
    apply forallb_forall. intros [k v] Hin. unfold entry_eqb; simpl.
    rewrite (In_dget_nodup _ k v d ND Hin).
    rewrite Forall_forall in IH, Wd. apply (IH (k, v) Hin). apply (Wd (k, v) Hin).
Qed.

Lemma dict_same_keys (d1 d2 : list (string * val)) :
  NoDup (map fst d1) -> NoDup (map fst d2) ->
  length d1 = length d2 -> forallb (entry_eqb d2) d1 = true ->
  forall k, In k (map fst d2) -> In k (map fst d1).
Proof.
  intros N1 N2 L F. apply NoDup_length_incl; [exact N1 | rewrite !map_length; lia |].
  intros k Hk. apply in_map_iff in Hk; destruct Hk as [[k' v] [<- Hin]].
  rewrite forallb_forall in F. specialize (F _ Hin). unfold entry_eqb in F; simpl in *.
  destruct (dget k' d2) eqn:E; [|discriminate]. eapply dget_In_key; exact E.
Qed.

Lemma py_eqb_sym_true a b : wf_val a -> wf_val b -> py_eqb a b = true -> py_eqb b a = true.
Proof.
  revert b; induction a as [| x | z | s | l IH | d IH] using val_ind'; intros b Wa Wb H;
    destruct b as [| y | z' | s' | l' | d']; try discriminate H.
  - reflexivity.
  - destruct x, y; simpl in *; congruence.
  - simpl in *; apply Z.eqb_eq in H; apply Z.eqb_eq; congruence.
  - simpl in *; apply Z.eqb_eq in H; apply Z.eqb_eq; congruence.
  - simpl in *; apply Z.eqb_eq in H; apply Z.eqb_eq; congruence.
  - simpl in *; apply String.eqb_eq in H; apply String.eqb_eq; congruence.
  - rewrite py_eqb_list in *. inversion Wa as [| | | | ? Wl |]; inversion Wb as [| | | | ? Wl' |]; subst.
    clear Wa Wb. revert l' Wl' H; induction l as [|x l IHl]; intros [|y l'] Wl' H; simpl in *;
      try discriminate; [reflexivity|].
    apply andb_true_iff in H; destruct H as [H1 H2].
    inversion IH; inversion Wl; inversion Wl'; subst.
    rewrite IHl by assumption. rewrite H3 by assumption. reflexivity.
  - rewrite py_eqb_dict in *. apply andb_true_iff in H; destruct H as [L F].
    apply Nat.eqb_eq in L.
    inversion Wa as [| | | | | ? ND Wd]; inversion Wb as [| | | | | ? ND' Wd']; subst.
    rewrite L, Nat.eqb_refl; simpl.
    apply forallb_forall. intros [k w] Hin. unfold entry_eqb; simpl.
    assert (Hk : In k (map fst d)).
    { eapply dict_same_keys; eauto. apply (in_map fst) in Hin; exact Hin. }
    apply key_In_dget in Hk; destruct Hk as [v Hv]; rewrite Hv.
    assert (Hv' := dget_In _ _ _ _ Hv).
    rewrite forallb_forall in F; specialize (F _ Hv'); unfold entry_eqb in F; simpl in F.
    rewrite (In_dget_nodup _ k w d' ND' Hin) in F.
    rewrite Forall_forall in IH, Wd, Wd'.
    apply (IH _ Hv'); [apply (Wd _ Hv') | apply (Wd' _ Hin) | exact F].
Qed.

Lemma py_eqb_sym a b : wf_val a -> wf_val b -> py_eqb a b = py_eqb b a.
Proof.
  intros Wa Wb. destruct (py_eqb a b) eqn:E.
  - symmetry; apply py_eqb_sym_true; assumption.
  - destruct (py_eqb b a) eqn:E'; [|reflexivity].
    apply py_eqb_sym_true in E'; congruence.
Qed.

Lemma py_eqb_trans a b c :
  wf_val a -> wf_val b -> wf_val c ->
  py_eqb a b = true -> py_eqb b c = true -> py_eqb a c = true.
Proof.
  revert b c; induction a as [| x | z | s | l IH | d IH] using val_ind'; intros b c Wa Wb Wc H1 H2;
    destruct b as [| y | z' | s' | l' | d']; try discriminate H1;
    destruct c as [| y'' | z'' | s'' | l'' | d'']; try discriminate H2;
    try (simpl in *;
         repeat match goal with
                | H : Z.eqb _ _ = true |- _ => apply Z.eqb_eq in H
                | H : String.eqb _ _ = true |- _ => apply String.eqb_eq in H
                | H : Bool.eqb _ _ = true |- _ => apply Bool.eqb_prop in H
                end; subst;
         repeat match goal with b : bool |- _ => destruct b end; simpl in *;
         try reflexivity; try discriminate; try apply Z.eqb_refl; try apply String.eqb_refl;
         try (apply Z.eqb_eq; congruence); fail).
  - rewrite py_eqb_list in *.
    inversion Wa as [| | | | ? Wl |]; inversion Wb as [| | | | ? Wl' |];
      inversion Wc as [| | | | ? Wl'' |]; subst.
    clear Wa Wb Wc.
    revert l' l'' Wl' Wl'' H1 H2; induction l as [|x l IHl]; intros [|y l'] [|y' l''] Wl' Wl'' H1 H2;
      simpl in *; try discriminate; [reflexivity|].
    apply andb_true_iff in H1; apply andb_true_iff in H2.
    destruct H1 as [H1 H1'], H2 as [H2 H2'].
    inversion IH as [|? ? IHx IHxs]; inversion Wl; inversion Wl'; inversion Wl''; subst.
    rewrite (IHx y y') by assumption. apply (IHl IHxs) with (l' := l'); assumption.
  - rewrite py_eqb_dict in *.
    apply andb_true_iff in H1; apply andb_true_iff in H2.
    destruct H1 as [L1 F1], H2 as [L2 F2]. apply Nat.eqb_eq in L1, L2.
    rewrite L1, L2, Nat.eqb_refl; simpl.
    inversion Wa as [| | | | | ? ND Wd]; inversion Wb as [| | | | | ? ND' Wd'];
      inversion Wc as [| | | | | ? ND'' Wd'']; subst.
    apply forallb_forall. intros [k v] Hin.
    rewrite forallb_forall in F1, F2. specialize (F1 _ Hin). unfold entry_eqb in *; simpl in *.
    destruct (dget k d') as [w|] eqn:E; [|discriminate].
    assert (Hw := dget_In _ _ _ _ E). specialize (F2 _ Hw); simpl in F2.
    destruct (dget k d'') as [u|] eqn:E'; [|discriminate].
    assert (Hu := dget_In _ _ _ _ E').
    rewrite Forall_forall in IH, Wd, Wd', Wd''.
    exact (IH _ Hin w u (Wd _ Hin) (Wd' _ Hw) (Wd'' _ Hu) F1 F2).
Qed.

(** hashable values are well-formed *)
Lemma hashable_wf v : hashable v = true -> wf_val v.
Proof. destruct v; simpl; try discriminate; constructor. Qed.

Lemma py_eqb_hashable a b : py_eqb a b = true -> hashable a = hashable b.
Proof. destruct a, b; simpl; try discriminate; reflexivity. Qed.

(** ** Membership *)
Lemma vmem_true x l : vmem x l = true <-> exists y, In y l /\ py_eqb x y = true.
Proof. unfold vmem; apply existsb_exists. Qed.

Lemma vmem_perm x l l' : Permutation l l' -> vmem x l = vmem x l'.
Proof.
  intros P. destruct (vmem x l) eqn:E; symmetry.
  - apply vmem_true in E; destruct E as [y [Hy E]]. apply vmem_true.
    exists y; split; [eapply Permutation_in; eauto | exact E].
  - destruct (vmem x l') eqn:E'; [|reflexivity].
    apply vmem_true in E'; destruct E' as [y [Hy E']].
    assert (vmem x l = true) as C; [|congruence].
    apply vmem_true; exists y; split; [|exact E'].
    eapply Permutation_in; [apply Permutation_sym; exact P | exact Hy].
Qed.

Lemma vmem_app x l l' : vmem x (l ++ l') = vmem x l || vmem x l'.
Proof. unfold vmem; apply existsb_app. Qed.

Definition all_hashable (l : list val) : Prop := forall x, In x l -> hashable x = true.

Lemma forallb_hashable l : forallb hashable l = true <-> all_hashable l.
Proof. apply forallb_forall. Qed.

(** for a hashable [x] equality is an equivalence against all values *)
Lemma py_eqb_sym_h a b : hashable a = true -> py_eqb a b = true -> py_eqb b a = true.
Proof.
  intros H E. assert (H' := py_eqb_hashable _ _ E).
  apply py_eqb_sym_true; [apply hashable_wf; congruence ..| exact E].
Qed.

Lemma py_eqb_trans_h a b c :
  hashable a = true -> py_eqb a b = true -> py_eqb b c = true -> py_eqb a c = true.
Proof.
  intros H E1 E2. assert (H1 := py_eqb_hashable _ _ E1). assert (H2 := py_eqb_hashable _ _ E2).
  eapply py_eqb_trans; [| | |exact E1|exact E2]; apply hashable_wf; congruence.
Qed.

Lemma py_eqb_refl_h a : hashable a = true -> py_eqb a a = true.
Proof. intros H; apply py_eqb_refl, hashable_wf, H. Qed.

Lemma vmem_eq x y l : hashable x = true -> py_eqb x y = true -> vmem x l = vmem y l.
Proof.
  intros H E.
  assert (Hy : hashable y = true) by (rewrite <- (py_eqb_hashable _ _ E); exact H).
  assert (E' := py_eqb_sym_h _ _ H E).
  unfold vmem; induction l as [|z l IH]; simpl; [reflexivity|]. rewrite IH; f_equal.
  destruct (py_eqb x z) eqn:F, (py_eqb y z) eqn:G; try reflexivity.
  - rewrite (py_eqb_trans_h y x z Hy E' F) in G; discriminate.
  - rewrite (py_eqb_trans_h x y z H E G) in F; discriminate.
Qed.

Lemma In_vmem x l : hashable x = true -> In x l -> vmem x l = true.
Proof. intros H Hin; apply vmem_true; exists x; split; [exact Hin | apply py_eqb_refl_h, H]. Qed.

Lemma vmem_filter_neq x y l :
  hashable x = true -> hashable y = true ->
  vmem x (filter (fun z => negb (py_eqb y z)) l) = vmem x l && negb (py_eqb y x).
Proof.
  intros Hx Hy. induction l as [|z l IH]; simpl; [reflexivity|].
  destruct (py_eqb y z) eqn:E; simpl.
  - rewrite IH. destruct (py_eqb x z) eqn:F; simpl; [|reflexivity].
    assert (Hz := py_eqb_sym_h _ _ Hx F).
    rewrite (py_eqb_trans_h y z x Hy E Hz); simpl. rewrite andb_false_r; reflexivity.
  - rewrite IH. destruct (py_eqb x z) eqn:F; simpl; [|reflexivity].
    destruct (py_eqb y x) eqn:G; simpl; [|reflexivity].
    rewrite (py_eqb_trans_h y x z Hy G F) in E; discriminate.
Qed.

Lemma dedup_In x l : In x (dedup l) -> In x l.
Proof.
  induction l as [|y l IH]; simpl; [tauto|]. intros [->|H]; [auto|].
  apply filter_In in H; right; apply IH; tauto.
Qed.

Lemma dedup_hashable l : all_hashable l -> all_hashable (dedup l).
Proof. intros H x Hx; apply H, dedup_In, Hx. Qed.

Lemma vmem_dedup x l : hashable x = true -> all_hashable l -> vmem x (dedup l) = vmem x l.
Proof.
  intros Hx; induction l as [|y l IH]; intros Hl; simpl; [reflexivity|].
  assert (Hy : hashable y = true) by (apply Hl; left; reflexivity).
  assert (Hl' : all_hashable l) by (intros z Hz; apply Hl; right; exact Hz).
  rewrite vmem_filter_neq by assumption. rewrite IH by exact Hl'. unfold vmem.
  destruct (py_eqb x y) eqn:E; simpl; [reflexivity|].
  destruct (py_eqb y x) eqn:F; simpl; [|rewrite andb_true_r; reflexivity].
  rewrite (py_eqb_sym_h y x Hy F) in E; discriminate.
Qed.

Lemma chars_hashable s : all_hashable (chars s).
Proof. induction s as [|c s IH]; intros x H; [destruct H|]. destruct H as [<-|H]; auto. Qed.

Lemma keys_hashable (l : list string) : all_hashable (map (fun k => VStr k) l).
Proof. intros x H; apply in_map_iff in H; destruct H as [k [<- _]]; reflexivity. Qed.

(** the elements Python iterates over *)
Definition elems (v : val) : list val :=
  match v with
  | VList l => l
  | VStr s => chars s
  | VDict d => map (fun k => VStr k) (dkeys d)
  | _ => []
  end.

Lemma py_set_ok v s :
  py_set v = Ok s -> all_hashable (elems v) /\ s = dedup (elems v).
Proof.
  destruct v as [| | |str|l|d]; simpl; try discriminate.
  - intros [= <-]; split; [apply chars_hashable | reflexivity].
  - unfold set_of_list; destruct (forallb hashable l) eqn:E; [|discriminate].
    intros [= <-]; split; [apply forallb_hashable, E | reflexivity].
  - intros [= <-]; split; [apply keys_hashable | reflexivity].
Qed.

Lemma py_set_hashable v s : py_set v = Ok s -> all_hashable s.
Proof. intros H; apply py_set_ok in H; destruct H as [H ->]; apply dedup_hashable, H. Qed.

Lemma py_set_mem v s x : py_set v = Ok s -> hashable x = true -> vmem x s = vmem x (elems v).
Proof. intros H Hx; apply py_set_ok in H; destruct H as [H ->]; apply vmem_dedup; assumption. Qed.

(** elements of a value read as a set of values: a list stands for its elements, any other
    value for itself *)
Definition members (v : val) : list val := match v with VList l => l | _ => [v] end.

Lemma set_or_single_ok v s :
  set_or_single v = Ok s -> all_hashable (members v) /\ s = dedup (members v).
Proof.
  destruct v; simpl; unfold set_of_list;
    try (intros [= <-]; split; [intros x [<-|[]]; reflexivity | reflexivity]); try discriminate.
  destruct (forallb hashable l) eqn:E; [|discriminate].
  intros [= <-]; split; [apply forallb_hashable, E | reflexivity].
Qed.

Lemma set_or_single_mem v s x :
  set_or_single v = Ok s -> hashable x = true -> vmem x s = vmem x (members v).
Proof.
  intros H Hx; apply set_or_single_ok in H; destruct H as [H ->]; apply vmem_dedup; assumption.
Qed.

Lemma vmem_filter x f l :
  hashable x = true ->
  (forall y, In y l -> py_eqb x y = true -> f y = f x) ->
  vmem x (filter f l) = vmem x l && f x.
Proof.
  intros Hx; induction l as [|y l IH]; intros Hf; simpl; [reflexivity|].
  assert (Hf' : forall z, In z l -> py_eqb x z = true -> f z = f x)
    by (intros z Hz; apply Hf; right; exact Hz).
  destruct (py_eqb x y) eqn:E.
  - assert (F : f y = f x) by (apply Hf; [left; reflexivity | exact E]).
    rewrite F. destruct (f x) eqn:G; simpl.
    + rewrite E; reflexivity.
    + rewrite IH by exact Hf'. apply andb_false_r.
  - destruct (f y) eqn:F; simpl; [rewrite E; simpl|]; apply IH; exact Hf'.
Qed.

Lemma set_inter_mem x s t :
  hashable x = true -> vmem x (set_inter s t) = vmem x s && vmem x t.
Proof.
  intros Hx; unfold set_inter. rewrite vmem_filter; [reflexivity | exact Hx |].
  intros y _ E; symmetry; apply vmem_eq; assumption.
Qed.

Lemma set_diff_mem x s t :
  hashable x = true -> vmem x (set_diff s t) = vmem x s && negb (vmem x t).
Proof.
  intros Hx; unfold set_diff. rewrite vmem_filter; [reflexivity | exact Hx |].
  intros y _ E; f_equal; symmetry; apply vmem_eq; assumption.
Qed.

Lemma set_union_mem x s t :
  hashable x = true -> vmem x (set_union s t) = vmem x s || vmem x t.
Proof.
  intros Hx; unfold set_union. rewrite vmem_app, set_diff_mem by exact Hx.
  destruct (vmem x s), (vmem x t); reflexivity.
Qed.

Lemma set_diff_nil s t :
  all_hashable s -> (set_diff s t = [] <-> forall x, In x s -> vmem x t = true).
Proof.
  intros Hs; unfold set_diff; split.
  - intros E x Hx. destruct (vmem x t) eqn:F; [reflexivity|].
    assert (In x (filter (fun z => negb (vmem z t)) s)) as C.
    { apply filter_In; split; [exact Hx | rewrite F; reflexivity]. }
    rewrite E in C; destruct C.
  - intros H. induction s as [|y s IH]; simpl; [reflexivity|].
    rewrite H by (left; reflexivity); simpl. apply IH.
    + intros z Hz; apply Hs; right; exact Hz.
    + intros z Hz; apply H; right; exact Hz.
Qed.

Lemma iov_mem O x l : vmem x (iov O l) = vmem x l.
Proof. apply vmem_perm, iov_perm. Qed.

Lemma iov_In O x l : In x (iov O l) <-> In x l.
Proof.
  split; apply Permutation_in; [apply iov_perm | apply Permutation_sym, iov_perm].
Qed.

Lemma ios_In O x l : In x (ios O l) <-> In x l.
Proof.
  split; apply Permutation_in; [apply ios_perm | apply Permutation_sym, ios_perm].
Qed.

Lemma ios_NoDup O l : NoDup l -> NoDup (ios O l).
Proof. intros H; eapply Permutation_NoDup; [apply Permutation_sym, ios_perm | exact H]. Qed.

Lemma iov_nil O l : iov O l = [] <-> l = [].
Proof.
  split; intros H.
  - apply Permutation_nil. rewrite <- H. apply iov_perm.
  - subst; apply Permutation_nil. apply Permutation_sym, iov_perm.
Qed.

Lemma iov_hashable O l : all_hashable l -> all_hashable (iov O l).
Proof. intros H x Hx; apply H, (iov_In O), Hx. Qed.

Lemma set_inter_hashable s t : all_hashable s -> all_hashable (set_inter s t).
Proof. intros H x Hx; unfold set_inter in Hx; apply filter_In in Hx; apply H; tauto. Qed.

Lemma set_union_hashable s t : all_hashable s -> all_hashable t -> all_hashable (set_union s t).
Proof.
  intros Hs Ht x Hx; unfold set_union, set_diff in Hx; apply in_app_or in Hx.
  destruct Hx as [Hx|Hx]; [auto | apply filter_In in Hx; apply Ht; tauto].
Qed.

(** identity and reversal are iteration orders *)
Definition id_order : iter_order :=
  {| iov := fun l => l; ios := fun l => l;
     iov_perm := fun l => Permutation_refl l; ios_perm := fun l => Permutation_refl l |}.

Definition rev_order : iter_order :=
  {| iov := @rev val; ios := @rev string;
     iov_perm := fun l => Permutation_sym (Permutation_rev l);
     ios_perm := fun l => Permutation_sym (Permutation_rev l) |}.
