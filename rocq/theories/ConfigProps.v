(** References to files in configurations (C58). *)
From Verif Require Import PyFacts ConstraintsModel ConstraintsFacts ConfigModel.
From Coq Require Import Lia.

(** ** Vocabulary *)

(** the string refers to the file *)
Definition refers (s path : string) : Prop := s = ("file:" ++ path)%string.
Definition is_ref (s : string) : Prop := exists path, refers s path.

(** what the reference stands for: nothing if there is no such file, the JSON document or the
    text of the file otherwise *)
Inductive stands_for (fs : string -> option string) (json : string -> res val) (s : string) : val -> Prop :=
| SF_none path : refers s path -> fs path = None -> stands_for fs json s VNull
| SF_json path text base v : refers s path -> fs path = Some text -> s = (base ++ ".json")%string ->
    json text = Ok v -> stands_for fs json s v
| SF_py path text base : refers s path -> fs path = Some text -> s = (base ++ ".py")%string ->
    stands_for fs json s (VStr text).

(** every reference replaced, all else as it was *)
Inductive resolved (fs : string -> option string) (json : string -> res val) : val -> val -> Prop :=
| R_ref s v : stands_for fs json s v -> resolved fs json (VStr s) v
| R_str s : ~ is_ref s -> resolved fs json (VStr s) (VStr s)
| R_null : resolved fs json VNull VNull
| R_bool b : resolved fs json (VBool b) (VBool b)
| R_int z : resolved fs json (VInt z) (VInt z)
| R_list l l' : Forall2 (resolved fs json) l l' -> resolved fs json (VList l) (VList l')
| R_dict d d' : Forall2 (fun a b => fst a = fst b /\ resolved fs json (snd a) (snd b)) d d' ->
    resolved fs json (VDict d) (VDict d').

(** some references replaced, all else as it was *)
Inductive touched (fs : string -> option string) (json : string -> res val) : val -> val -> Prop :=
| T_ref s v : stands_for fs json s v -> touched fs json (VStr s) v
| T_same v : touched fs json v v
| T_list l l' : Forall2 (touched fs json) l l' -> touched fs json (VList l) (VList l')
| T_dict d d' : Forall2 (fun a b => fst a = fst b /\ touched fs json (snd a) (snd b)) d d' ->
    touched fs json (VDict d) (VDict d').

(** ** Places in a configuration *)
Inductive step := Key (k : string) | Item (n : nat).

Fixpoint at_path (v : val) (p : list step) : option val :=
  match p with
  | [] => Some v
  | Key k :: p' => match v with
                   | VDict d => match dget k d with Some w => at_path w p' | None => None end
                   | _ => None
                   end
  | Item n :: p' => match v with
                    | VList l => match nth_error l n with Some w => at_path w p' | None => None end
                    | _ => None
                    end
  end.

(** a value of a dictionary, with no list directly inside a list on the way to it *)
Fixpoint in_reach (p : list step) : Prop :=
  match p with
  | [] => False
  | [Key _] => True
  | Key _ :: Item _ :: p' => in_reach p'
  | Key _ :: p' => in_reach p'
  | Item _ :: _ => False
  end.

(** no list of the configuration holds a reference or a list with references as an item *)
Inductive ref_free : val -> Prop :=
| F_null : ref_free VNull
| F_bool b : ref_free (VBool b)
| F_int z : ref_free (VInt z)
| F_str s : ~ is_ref s -> ref_free (VStr s)
| F_list l : Forall ref_free l -> ref_free (VList l)
| F_dict d : Forall (fun kv => ref_free (snd kv)) d -> ref_free (VDict d).

Definition is_dict (v : val) : Prop := match v with VDict _ => True | _ => False end.

Inductive plain : val -> Prop :=
| P_dict d : Forall (fun kv => plain_value (snd kv)) d -> plain (VDict d)
with plain_value : val -> Prop :=
| PV_dict d : plain (VDict d) -> plain_value (VDict d)
| PV_list l : Forall plain_item l -> plain_value (VList l)
| PV_null : plain_value VNull
| PV_bool b : plain_value (VBool b)
| PV_int z : plain_value (VInt z)
| PV_str s : plain_value (VStr s)
with plain_item : val -> Prop :=
| PI_dict d : plain (VDict d) -> plain_item (VDict d)
| PI_free v : ~ is_dict v -> ref_free v -> plain_item v.

(** ** The function, entry by entry *)
Section Facts.
  Context (fs : string -> option string) (json : string -> res val).

  Definition load_item (x : val) : res val := match x with VDict _ => load fs json x | _ => Ok x end.
  Definition load_value (v : val) : res val :=
    match v with
    | VStr s => if String.prefix "file:" s then import_file fs json s else Ok (VStr s)
    | VDict _ => load fs json v
    | VList l => let* l' := mapM load_item l in Ok (VList l')
    | _ => Ok v
    end.

  Lemma load_dict d : load fs json (VDict d) =
    let* d' := mapM (fun kv => let* w := load_value (snd kv) in Ok (fst kv, w)) d in Ok (VDict d').
  Proof.
    unfold load at 1; fold (load fs json).
    f_equal. induction d as [|[k v] d IH]; [reflexivity|].
    cbn [mapM fst snd]. rewrite IH. clear IH.
    assert (E : match v with
        | VStr s => if String.prefix "file:" s then import_file fs json s else Ok (VStr s)
        | VDict _ => load fs json v
        | VList l => let* l' := (fix items (l : list val) : res (list val) :=
              match l with
              | [] => Ok []
              | x :: l' => let* y := match x with VDict _ => load fs json x | _ => Ok x end in
                           let* ys := items l' in Ok (y :: ys)
              end) l in Ok (VList l')
        | _ => Ok v end = load_value v).
    { destruct v; try reflexivity. cbn [load_value]. f_equal.
      induction l as [|x l IH]; [reflexivity|]. cbn [mapM]. unfold load_item at 1.
      destruct (match x with VDict _ => load fs json x | _ => Ok x end); cbn [bind]; [|reflexivity].
      rewrite IH. destruct (mapM load_item l); reflexivity. }
    rewrite E. destruct (load_value v); cbn [bind]; [|reflexivity].
    destruct (mapM _ d); reflexivity.
  Qed.

  Lemma mapM_Forall2 {A B} (f : A -> res B) l l' :
    mapM f l = Ok l' <-> Forall2 (fun a b => f a = Ok b) l l'.
  Proof.
    revert l'; induction l as [|x l IH]; intros l'; simpl.
    - split; intros H; [injection H as <-; constructor | inversion H; reflexivity].
    - destruct (f x) as [y|] eqn:E.
      + destruct (mapM f l) as [ys|] eqn:E2.
        * split; intros H.
          -- injection H as <-. constructor; [exact E | apply IH; reflexivity].
          -- inversion H as [|a b la lb H1 H2]; subst. apply IH in H2.
             rewrite E in H1; injection H1 as ->. injection H2 as ->. reflexivity.
        * split; intros H; [discriminate|].
          inversion H as [|a b la lb H1 H2]; subst. apply IH in H2. discriminate.
      + split; intros H; [discriminate|]. inversion H; congruence.
  Qed.

  Lemma load_dict_ok d v : load fs json (VDict d) = Ok v <->
    exists d', v = VDict d' /\ Forall2 (fun a b => fst a = fst b /\ load_value (snd a) = Ok (snd b)) d d'.
  Proof.
    rewrite load_dict. split.
    - intros H. destruct (mapM _ d) as [d'|] eqn:E; [|discriminate]. cbn [bind] in H. injection H as <-.
      exists d'; split; [reflexivity|]. apply mapM_Forall2 in E.
      induction E as [|[k a] [k' b] l l' H HF IH]; constructor; [|exact IH].
      cbn [fst snd] in *. destruct (load_value a) as [w|]; [|discriminate]. cbn [bind] in H. injection H as -> ->.
      split; reflexivity.
    - intros [d' [-> H]]. 
      assert (E : mapM (fun kv : string * val => let* w := load_value (snd kv) in Ok (fst kv, w)) d = Ok d').
      { apply mapM_Forall2. induction H as [|[k a] [k' b] l l' [H1 H2] HF IH]; constructor; [|exact IH].
        cbn [fst snd] in *. rewrite H2. subst k'. reflexivity. }
      rewrite E. reflexivity.
  Qed.

  Lemma load_only_dict v w : load fs json v = Ok w -> exists d, v = VDict d.
  Proof. destruct v; try discriminate. intros _; eexists; reflexivity. Qed.

  Lemma prefix_ref s : String.prefix "file:" s = true <-> is_ref s.
  Proof.
    split.
    - intros H. exists (str_drop 5 s). exact (prefix_drop "file:" s H).
    - intros [p ->]. apply prefix_app.
  Qed.

  Lemma str_drop_app a b : str_drop (String.length a) (a ++ b)%string = b.
  Proof. induction a; [reflexivity | exact IHa]. Qed.
  Lemma str_drop_split n s : exists a, s = (a ++ str_drop n s)%string.
  Proof.
    revert s; induction n; intros s; [exists ""; destruct s; reflexivity|].
    destruct s as [|c s]; [exists ""; reflexivity|].
    destruct (IHn s) as [a E]. exists (String c a). simpl. rewrite <- E. reflexivity.
  Qed.
  Lemma string_app_length a b : String.length (a ++ b) = String.length a + String.length b.
  Proof. induction a; simpl; [reflexivity | rewrite IHa; reflexivity]. Qed.

  Lemma endswith_spec e s : endswith e s = true <-> exists b, s = (b ++ e)%string.
  Proof.
    unfold endswith. rewrite String.eqb_eq. split.
    - intros H. destruct (str_drop_split (String.length s - String.length e) s) as [a E].
      rewrite H in E. exists a; exact E.
    - intros [b ->]. rewrite string_app_length.
      replace (String.length b + String.length e - String.length e) with (String.length b) by lia.
      apply str_drop_app.
  Qed.

  Lemma string_app_inj_l a b c : (a ++ b = a ++ c -> b = c)%string.
  Proof. induction a; simpl; [auto|]. intros H; injection H as H; auto. Qed.

  Lemma json_not_py b c : (b ++ ".json" <> c ++ ".py")%string.
  Proof.
    revert c; induction b as [|x b IH]; intros c H; destruct c as [|y c]; simpl in H; try discriminate.
    - do 5 (destruct c as [|? c]; [discriminate|]; simpl in H). discriminate.
    - injection H as _ H. destruct b as [|? b]; [discriminate|]. destruct b as [|? b]; [discriminate|].
      destruct b; discriminate.
    - injection H as _ H. exact (IH _ H).
  Qed.

  Lemma import_spec s v : is_ref s -> (import_file fs json s = Ok v <-> stands_for fs json s v).
  Proof.
    intros [p R]. unfold refers in R.
    assert (D : str_drop 5 s = p) by (subst s; apply (str_drop_app "file:")).
    unfold import_file. rewrite D. split.
    - destruct (fs p) as [t|] eqn:F.
      + destruct (endswith ".json" s) eqn:EJ.
        * intros H. apply endswith_spec in EJ as [b E]. eapply SF_json; eauto.
        * destruct (endswith ".py" s) eqn:EP; [|discriminate].
          intros H. injection H as <-. apply endswith_spec in EP as [b E]. eapply SF_py; eauto.
      + intros H. injection H as <-. eapply SF_none; eauto.
    - intros [q Q F | q t b w Q F E J | q t b Q F E]; unfold refers in Q;
        assert (q = p) by (eapply (string_app_inj_l "file:"); congruence); subst q; rewrite F.
      + reflexivity.
      + assert (EJ : endswith ".json" s = true) by (apply endswith_spec; eauto). rewrite EJ. exact J.
      + destruct (endswith ".json" s) eqn:EJ.
        * apply endswith_spec in EJ as [b' E']. rewrite E' in E. destruct (json_not_py _ _ E).
        * assert (EP : endswith ".py" s = true) by (apply endswith_spec; eauto). rewrite EP. reflexivity.
  Qed.

  Lemma load_str s v : load_value (VStr s) = Ok v <->
    (is_ref s /\ stands_for fs json s v) \/ (~ is_ref s /\ v = VStr s).
  Proof.
    cbn [load_value]. destruct (String.prefix "file:" s) eqn:E.
    - apply prefix_ref in E. rewrite (import_spec s v E). tauto.
    - assert (N : ~ is_ref s) by (rewrite <- prefix_ref, E; discriminate).
      split; [intros H; injection H as <-; tauto | intros [[? ?]|[_ ->]]; [contradiction|reflexivity]].
  Qed.

  Lemma load_list l v : load_value (VList l) = Ok v <->
    exists l', v = VList l' /\ Forall2 (fun a b => load_item a = Ok b) l l'.
  Proof.
    cbn [load_value]. destruct (mapM load_item l) as [l'|] eqn:E; cbn [bind].
    - apply mapM_Forall2 in E as E'. split.
      + intros H; injection H as <-. eauto.
      + intros [l2 [-> H]]. apply mapM_Forall2 in H. rewrite E in H. injection H as ->. reflexivity.
    - split; [discriminate|]. intros [l2 [-> H]]. apply mapM_Forall2 in H. congruence.
  Qed.

  Lemma Forall2_impl_l {A B} (P : A -> Prop) (R S : A -> B -> Prop) l l' :
    Forall P l -> (forall a b, P a -> R a b -> S a b) -> Forall2 R l l' -> Forall2 S l l'.
  Proof.
    intros HP HI H. induction H; constructor; inversion HP; subst; auto.
  Qed.

  Lemma load_touched v : (forall w, load_value v = Ok w -> touched fs json v w) /\
                         (forall w, load_item v = Ok w -> touched fs json v w).
  Proof.
    induction v as [| b | z | s | l IH | d IH] using val_ind';
      try (split; intros w H; injection H as <-; apply T_same).
    - split; intros w H; [|injection H as <-; apply T_same].
      apply load_str in H as [[_ H]|[_ ->]]; [apply T_ref; exact H | apply T_same].
    - split; intros w H; [|injection H as <-; apply T_same].
      apply load_list in H as [l' [-> H]]. apply T_list.
      eapply Forall2_impl_l; [exact IH | | exact H]. cbn beta. intros a b [_ Ha]; auto.
    - assert (G : forall w, load fs json (VDict d) = Ok w -> touched fs json (VDict d) w).
      { intros w H. apply load_dict_ok in H as [d' [-> H]]. apply T_dict.
        eapply Forall2_impl_l; [exact IH | | exact H]. cbn beta. intros a b [Ha _] [? ?]; auto. }
      split; exact G.
  Qed.

  Lemma free_resolved v : ref_free v -> resolved fs json v v.
  Proof.
    induction v as [| b | z | s | l IH | d IH] using val_ind'; intros H; inversion H as [| | |? HS|? HL|? HD]; subst.
    - constructor.
    - constructor.
    - constructor.
    - apply R_str; auto.
    - apply R_list. clear H. induction l; constructor; inversion IH; inversion HL; subst; auto.
    - apply R_dict. clear H. induction d; constructor; inversion IH; inversion HD; subst; auto.
  Qed.

  Lemma item_free v : plain_item v -> ~ is_dict v -> ref_free v.
  Proof. intros [d _|w _ F] N; [destruct N; exact I | exact F]. Qed.

  Lemma load_resolved v : (forall w, plain_value v -> load_value v = Ok w -> resolved fs json v w) /\
    (forall w, plain_item v -> load_item v = Ok w -> resolved fs json v w).
  Proof.
    induction v as [| b | z | s | l IH | d IH] using val_ind';
      try (split; intros w _ H; injection H as <-; constructor).
    - split; intros w P H.
      + apply load_str in H as [[_ H]|[N ->]]; [apply R_ref; exact H | apply R_str; exact N].
      + injection H as <-. apply free_resolved, item_free; [exact P | intros []].
    - split; intros w P H; [|injection H as <-; apply free_resolved, item_free; [exact P | intros []]].
      apply load_list in H as [l' [-> H]]. apply R_list.
      inversion P as [|l0 P'| | | |]; subst. clear P.
      induction H as [|a b l l' H HF IHF]; constructor; inversion IH as [|? ? Ha Hl]; inversion P'; subst; auto.
      destruct Ha as [_ Ha]. apply Ha; assumption.
    - assert (G : forall w, plain (VDict d) -> load fs json (VDict d) = Ok w -> resolved fs json (VDict d) w).
      { intros w P H. apply load_dict_ok in H as [d' [-> H]]. apply R_dict.
        inversion P as [d0 P']; subst. clear P.
        induction H as [|a b l l' [H1 H2] HF IHF]; constructor; inversion IH as [|? ? Ha Hl]; inversion P'; subst; auto.
        split; [exact H1|]. destruct Ha as [Ha _]. apply Ha; assumption. }
      split; intros w P H; apply G; try exact H.
      + inversion P; assumption.
      + inversion P as [|v N _]; subst; [assumption | destruct N; exact I].
  Qed.

  (** ** By places *)
  Lemma Forall2_dget {A B} (R : A -> B -> Prop) k d d' :
    Forall2 (fun a b => fst a = fst b /\ R (snd a) (snd b)) d d' ->
    match dget k d with
    | Some v => exists w, dget k d' = Some w /\ R v w
    | None => dget k d' = None
    end.
  Proof.
    intros H. induction H as [|[k1 a] [k2 b] l l' [H1 H2] HF IHF]; [reflexivity|].
    cbn [fst snd] in *. subst k2. simpl. destruct (String.eqb k k1); eauto.
  Qed.

  Lemma Forall2_nth {A B} (R : A -> B -> Prop) n l l' :
    Forall2 R l l' ->
    match nth_error l n with
    | Some v => exists w, nth_error l' n = Some w /\ R v w
    | None => nth_error l' n = None
    end.
  Proof.
    intros H. revert n; induction H; intros [|n]; simpl; eauto.
    specialize (IHForall2 n). exact IHForall2.
  Qed.

  Definition after (reach : Prop) (s : string) (o : option val) : Prop :=
    (reach -> exists v, o = Some v /\ stands_for fs json s v) /\ (~ reach -> o = Some (VStr s)).

  Lemma load_at n : forall p, length p <= n -> forall d w s,
    load fs json (VDict d) = Ok w -> at_path (VDict d) p = Some (VStr s) -> is_ref s ->
    after (in_reach p) s (at_path w p).
  Proof.
    induction n; intros p L d w s H A R.
    { destruct p; [discriminate A | simpl in L; lia]. }
    destruct p as [|[k|i] p]; try discriminate A.
    apply load_dict_ok in H as [d' [-> H]]. simpl in A.
    pose proof (Forall2_dget (fun a b => load_value a = Ok b) k d d' H) as G. destruct (dget k d) as [v|] eqn:E; [|discriminate].
    destruct G as [v' [G1 G2]]. simpl in L.
    simpl at_path. rewrite G1. destruct p as [|[k2|i] p].
    - simpl in A. injection A as ->. split; [intros _ | intros C; destruct C; exact I].
      apply load_str in G2 as [[_ G2]|[N _]]; [|contradiction]. exists v'. split; [reflexivity|exact G2].
    - assert (X : exists d2, v = VDict d2) by (destruct v; try discriminate A; eauto).
      destruct X as [d2 ->]. cbn [in_reach]. cbn [load_value] in G2.
      exact (IHn (Key k2 :: p) ltac:(simpl in *; lia) d2 v' s G2 A R).
    - assert (X : exists l, v = VList l) by (destruct v; try discriminate A; eauto).
      destruct X as [l ->]. cbn [in_reach].
      apply load_list in G2 as [l' [-> G2]]. simpl in A |- *.
      pose proof (Forall2_nth _ i l l' G2) as G3. destruct (nth_error l i) as [x|] eqn:EN; [|discriminate].
      destruct G3 as [y [G4 G5]]. rewrite G4.
      destruct x; cbn [load_item] in G5; try (injection G5 as <-).
      + destruct p as [|[]]; discriminate A.
      + destruct p as [|[]]; discriminate A.
      + destruct p as [|[]]; discriminate A.
      + destruct p as [|[]]; try discriminate A. injection A as ->. split; [intros [] | reflexivity].
      + destruct p as [|[]]; try discriminate A. split; [intros [] | intros _; exact A].
      + exact (IHn p ltac:(simpl in *; lia) _ y s G5 A R).
  Qed.

  (** ** When the call succeeds *)
  Definition readable (s : string) : Prop := exists v, stands_for fs json s v.

  Lemma load_succeeds v :
    (forall p s, at_path v p = Some (VStr s) -> is_ref s -> readable s) ->
    wf_val v ->
    (exists w, load_value v = Ok w) /\ (exists w, load_item v = Ok w).
  Proof.
    induction v as [| b | z | s | l IH | d IH] using val_ind'; intros A W;
      try (split; eexists; reflexivity).
    - split; [|eexists; reflexivity].
      cbn [load_value]. destruct (String.prefix "file:" s) eqn:E; [|eauto].
      apply prefix_ref in E. destruct (A [] s eq_refl E) as [v HV]. exists v. apply import_spec; assumption.
    - split; [|eexists; reflexivity].
      assert (X : exists l', Forall2 (fun a b => load_item a = Ok b) l l').
      { inversion W as [| | | |l0 WL|]; subst. clear W.
        assert (A' : forall n x p s, nth_error l n = Some x -> at_path x p = Some (VStr s) -> is_ref s -> readable s).
        { intros n x p s N P. apply (A (Item n :: p)). simpl. rewrite N. exact P. }
        clear A. induction l as [|x l IHl]; [exists []; constructor|].
        inversion IH as [|? ? Hx Hl]; inversion WL as [|? ? Wx Wl]; subst.
        destruct (Hx (fun p s => A' 0 x p s eq_refl) Wx) as [_ [y Hy]].
        destruct (IHl Hl Wl (fun n => A' (S n))) as [l' H']. exists (y :: l'). constructor; assumption. }
      destruct X as [l' X]. exists (VList l'). apply load_list. eauto.
    - assert (X : exists w, load fs json (VDict d) = Ok w).
      { inversion W as [| | | | |d0 WN WD]; subst. clear W.
        assert (A' : forall k x p s, In (k, x) d -> at_path x p = Some (VStr s) -> is_ref s -> readable s).
        { intros k x p s N P. apply (A (Key k :: p)). simpl. rewrite (In_dget_nodup val k x d WN N). exact P. }
        clear A WN.
        assert (Y : exists d', Forall2 (fun a b => fst a = fst b /\ load_value (snd a) = Ok (snd b)) d d').
        { induction d as [|[k x] d IHd]; [exists []; constructor|].
          inversion IH as [|? ? Hx Hl]; inversion WD as [|? ? Wx Wl]; subst.
          destruct (Hx (fun p s => A' k x p s (or_introl eq_refl)) Wx) as [[y Hy] _].
          destruct (IHd Hl Wl (fun k x p s HI => A' k x p s (or_intror HI))) as [d' H'].
          exists ((k, y) :: d'). constructor; [split; [reflexivity|exact Hy] | exact H']. }
        destruct Y as [d' Y]. exists (VDict d'). apply load_dict_ok. eauto. }
      split; exact X.
  Qed.
End Facts.

(** ** C58 *)

(** full statement: all references, wherever they are, and nothing else *)
Definition C58_full : Prop := forall fs json d w, load fs json (VDict d) = Ok w -> resolved fs json (VDict d) w.

Definition ex_fs (p : string) : option string :=
  if String.eqb p "keys.json" then Some "[1]" else if String.eqb p "hook.py" then Some "pass" else None.
Definition ex_json (t : string) : res val :=
  if String.eqb t "[1]" then Ok (VList [VInt 1]) else Err ValueError.

(** a list of references stays as it is *)
Theorem C58_references_refuted : ~ C58_full.
Proof.
  intros F.
  specialize (F ex_fs ex_json [("jwks", VList [VStr "file:keys.json"])]
                (VDict [("jwks", VList [VStr "file:keys.json"])]) eq_refl).
  inversion F as [| | | | | |d d' H]; subst. inversion H as [|a b l l' [_ H1] _]; subst. cbn [snd] in H1.
  inversion H1 as [| | | | |l1 l2 H2|]; subst. inversion H2 as [|a b l l' H3 _]; subst.
  inversion H3 as [s v S|s N| | | | |]; subst.
  - inversion S as [q R Q|q t b v R Q E J|q t b R Q E]; subst;
      unfold refers in R; apply (string_app_inj_l "file:" "keys.json") in R; subst q;
      vm_compute in Q; try discriminate; injection Q as <-.
    vm_compute in J. discriminate.
  - apply N. exists "keys.json". reflexivity.
Qed.

(** Missing from the full statement: configurations that have references as items of lists (or
    deeper inside lists of lists). *)
Theorem C58_references_partial : forall fs json d w,
  plain (VDict d) -> load fs json (VDict d) = Ok w -> resolved fs json (VDict d) w.
Proof. intros fs json d w P H. apply (load_resolved fs json (VDict d)); [constructor; exact P | exact H]. Qed.

(** for each reference: replaced at the places within reach, kept at the others *)
Theorem C58_places : forall fs json d w p s,
  load fs json (VDict d) = Ok w -> at_path (VDict d) p = Some (VStr s) -> is_ref s ->
  (in_reach p -> exists v, at_path w p = Some v /\ stands_for fs json s v) /\
  (~ in_reach p -> at_path w p = Some (VStr s)).
Proof. intros fs json d w p s H A R. exact (load_at fs json (length p) p (le_n _) d w s H A R). Qed.

(** in every configuration nothing but references is changed, and those only to what they stand for *)
Theorem C58_nothing_else : forall fs json d w,
  load fs json (VDict d) = Ok w -> touched fs json (VDict d) w.
Proof. intros fs json d w H. apply (load_touched fs json (VDict d)). exact H. Qed.

(** if all references can be read there is no exception *)
Theorem C58_succeeds : forall fs json d,
  wf_val (VDict d) ->
  (forall p s, at_path (VDict d) p = Some (VStr s) -> is_ref s -> exists v, stands_for fs json s v) ->
  exists w, load fs json (VDict d) = Ok w.
Proof. intros fs json d W A. exact (proj1 (load_succeeds fs json (VDict d) A W)). Qed.

Definition ex_conf : list (string * val) :=
  [("name", VStr "op"); ("keys", VStr "file:keys.json"); ("gone", VStr "file:nowhere.json");
   ("services", VList [VDict [("hook", VStr "file:hook.py"); ("n", VInt 3)]; VBool true]);
   ("deep", VDict [("er", VDict [("keys", VStr "file:keys.json")])])].

Example C58_ex : load ex_fs ex_json (VDict ex_conf) = Ok (VDict
  [("name", VStr "op"); ("keys", VList [VInt 1]); ("gone", VNull);
   ("services", VList [VDict [("hook", VStr "pass"); ("n", VInt 3)]; VBool true]);
   ("deep", VDict [("er", VDict [("keys", VList [VInt 1])])])]).
Proof. vm_compute. reflexivity. Qed.

Example C58_ex_plain : plain (VDict ex_conf).
Proof.
  constructor.
  constructor; [constructor|]. constructor; [constructor|]. constructor; [constructor|].
  constructor; [|constructor; [|constructor]]; cbn [snd].
  - constructor. constructor; [repeat constructor|]. constructor; [|constructor].
    apply PI_free; [intros [] | constructor].
  - repeat constructor.
Qed.

Print Assumptions C58_references_refuted.
Print Assumptions C58_references_partial.
Print Assumptions C58_places.
Print Assumptions C58_nothing_else.
Print Assumptions C58_succeeds.
