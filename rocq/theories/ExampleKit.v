(** Concrete statements for the examples beside the theorems, and a checker for the
    well-formedness hypotheses. *)
From Verif Require Export PolicySpec PyFacts PolicyLemmas.

Fixpoint nodupb (l : list string) : bool :=
  match l with [] => true | x :: l' => negb (smem x l') && nodupb l' end.

Lemma nodupb_sound l : nodupb l = true -> NoDup l.
Proof.
  induction l as [|x l IH]; simpl; intros H; constructor.
  - apply andb_true_iff in H. destruct H as [H _]. apply negb_true_iff, smem_false in H. exact H.
  - apply IH. apply andb_true_iff in H; tauto.
Qed.

Fixpoint wf_valb (v : val) : bool :=
  match v with
  | VList l => (fix go l := match l with [] => true | x :: l' => wf_valb x && go l' end) l
  | VDict d => nodupb (map fst d) &&
      (fix go d := match d with [] => true | (_, x) :: d' => wf_valb x && go d' end) d
  | _ => true
  end.

Lemma wf_valb_sound v : wf_valb v = true -> wf_val v.
Proof.
  induction v as [| b | z | s | l IH | d IH] using val_ind'; intros H; try constructor.
  - induction l as [|x l IHl]; [constructor|]. simpl in H. apply andb_true_iff in H.
    inversion IH; subst. constructor; [tauto|]. apply IHl; tauto.
  - simpl in H. apply andb_true_iff in H. destruct H as [H _]. apply nodupb_sound, H.
  - simpl in H. apply andb_true_iff in H. destruct H as [_ H].
    induction d as [|[k x] d IHd]; [constructor|]. apply andb_true_iff in H.
    inversion IH; subst. constructor; [simpl in *; tauto|]. apply IHd; tauto.
Qed.

Definition wf_mdb (m : metadata) : bool :=
  nodupb (dkeys m) && forallb (fun kv => wf_valb (snd kv)) m.

Definition wf_stmtb (s : stmt) : bool :=
  match s_metadata s with
  | None => true
  | Some ms => nodupb (dkeys ms) && forallb (fun kv => wf_mdb (snd kv)) ms
  end &&
  match s_policy s with
  | None => true
  | Some ps =>
      forallb (fun e => forallb (fun c => forallb (fun o => wf_valb (snd o)) (snd c)) (snd e)) ps
  end.

Lemma wf_stmtb_sound s : wf_stmtb s = true -> wf_stmt s.
Proof.
  unfold wf_stmtb. intros H. apply andb_true_iff in H. destruct H as [H1 H2]. split.
  - intros ms E. rewrite E in H1. apply andb_true_iff in H1. destruct H1 as [N F].
    split; [apply nodupb_sound, N|]. intros et m G. apply dget_In in G.
    rewrite forallb_forall in F. specialize (F _ G). simpl in F.
    apply andb_true_iff in F. destruct F as [N2 F2]. split; [apply nodupb_sound, N2|].
    intros c v Gc. apply dget_In in Gc. rewrite forallb_forall in F2.
    apply wf_valb_sound, (F2 _ Gc).
  - intros et c op v [ps [mp [cp [E [G1 [G2 G3]]]]]]. rewrite E in H2.
    apply dget_In in G1, G2, G3.
    rewrite forallb_forall in H2. specialize (H2 _ G1). simpl in H2.
    rewrite forallb_forall in H2. specialize (H2 _ G2). simpl in H2.
    rewrite forallb_forall in H2. exact (wf_valb_sound _ (H2 _ G3)).
Qed.

Lemma wf_chainb_sound front leaf :
  wf_stmtb leaf = true -> forallb wf_stmtb front = true -> wf_chain front leaf.
Proof.
  intros H1 H2. split; [apply wf_stmtb_sound, H1|].
  intros s Hs. rewrite forallb_forall in H2. apply wf_stmtb_sound, H2, Hs.
Qed.

(** statement with metadata and policies for the entity type "rp" *)
Definition ex_stmt (iss sub : string) (md : option metadata) (pol : option mpolicy) : stmt :=
  mkStmt iss sub (Some 1000%Z) (Some [1%nat])
    (match md with Some m => Some [("rp", m)] | None => None end)
    (match pol with Some p => Some [("rp", p)] | None => None end) None None.

Definition VS (l : list string) : val := VList (map VStr l).

Lemma ex_policy_says iss sub md pol et c op v :
  policy_says (ex_stmt iss sub md pol) et c op v ->
  et = "rp" /\ exists p cp, pol = Some p /\ dget c p = Some cp /\ dget op cp = Some v.
Proof.
  intros [ps [mp [cp [E [G1 [G2 G3]]]]]]. simpl in E. destruct pol as [p|]; [|discriminate].
  injection E as <-. simpl in G1. destruct (String.eqb_spec et "rp"); [|discriminate].
  injection G1 as <-. split; [assumption|]. eauto.
Qed.

Lemma ex_metadata_says iss sub md pol et c v :
  metadata_says (ex_stmt iss sub md pol) et c v ->
  et = "rp" /\ exists m, md = Some m /\ dget c m = Some v.
Proof.
  intros [ms [m [E [G1 G2]]]]. simpl in E. destruct md as [m'|]; [|discriminate].
  injection E as <-. simpl in G1. destruct (String.eqb_spec et "rp"); [|discriminate].
  injection G1 as <-. split; [assumption|]. eauto.
Qed.
