(** Properties C01-C16: metadata policies.

    A property that does not hold in full is stated as a definition [Cnn_full], refuted by
    [Cnn_..._refuted], and followed by the part that holds, [Cnn_..._partial]. *)
From Verif Require Import PolicyModel PolicySpec PolicyFacts PolicyOps PolicyOps2 PolicyOrder2
  PolicyTwice PolicyStrict ExampleKit.

Ltac chain_cases :=
  repeat match goal with
  | H : In _ (_ :: _) |- _ => destruct H as [<-|H]
  | H : In _ [] |- _ => destruct H
  end.

(** all the ways a concrete statement can say something *)
Ltac read_says :=
  repeat match goal with
  | H : policy_says _ _ _ _ _ |- _ =>
      apply ex_policy_says in H;
      let p := fresh "p" in let cp := fresh "cp" in
      let E1 := fresh in let E2 := fresh in let E3 := fresh in let E := fresh in
      destruct H as [E [p [cp [E1 [E2 E3]]]]];
      (discriminate E1 || (injection E1 as <-; simpl in E2;
        (discriminate E2 || (injection E2 as <-; simpl in E3;
          (discriminate E3 || injection E3 as <- || idtac)))))
  | H : metadata_says _ _ _ _ |- _ =>
      apply ex_metadata_says in H;
      let m := fresh "m" in let E := fresh in let E1 := fresh in let E2 := fresh in
      destruct H as [E [m [E1 E2]]];
      (discriminate E1 || (injection E1 as <-; simpl in E2;
        (discriminate E2 || injection E2 as <- || idtac)))
  end.

Ltac concrete := unfold not; intros; chain_cases; read_says.

Ltac says := do 3 eexists; split; [reflexivity | split; [reflexivity | split; reflexivity]].
Ltac mdsays := do 2 eexists; split; [reflexivity | split; reflexivity].
Ltac wf := apply wf_chainb_sound; vm_compute; reflexivity.
Ltac run := do 2 eexists; split; [vm_compute; reflexivity | reflexivity].

(** ** the chain most examples use *)
Definition ex_ta : stmt := ex_stmt "ta" "im" None
  (Some [("scopes", [("subset_of", VS ["a"; "b"; "c"])]);
         ("auth", [("one_of", VS ["x"; "y"])])]).
Definition ex_im : stmt := ex_stmt "im" "leaf" None
  (Some [("scopes", [("subset_of", VS ["b"; "c"; "d"]); ("superset_of", VS ["b"]);
                     ("essential", VBool true)]);
         ("contacts", [("add", VS ["ops@im"])]);
         ("org", [("value", VStr "Org")])]).
Definition ex_leaf : stmt := ex_stmt "leaf" "leaf"
  (Some [("scopes", VS ["b"; "c"; "e"]); ("auth", VStr "y"); ("contacts", VS ["me@leaf"]);
         ("name", VStr "n")]) None.
Definition ex_md : metadata :=
  [("scopes", VS ["b"; "c"]); ("auth", VStr "y"); ("contacts", VS ["me@leaf"; "ops@im"]);
   ("name", VStr "n"); ("org", VStr "Org")].

Example ex_resolves : wf_chain [ex_ta; ex_im] ex_leaf /\
  resolves id_order [ex_ta; ex_im] ex_leaf "rp" ex_md.
Proof. split; [wf | run]. Qed.

(** ** C01 subset_of *)
Definition C01_full : Prop := forall O front leaf et c s S md v,
  wf_chain front leaf -> resolves O front leaf et md ->
  In s front -> policy_says s et c "subset_of" (VList S) ->
  dget c md = Some v -> list_within v S.

Theorem C01_subset_of_refuted : ~ C01_full.
Proof.
  intros H.
  assert (X := H id_order
    [ex_stmt "ta" "im" None (Some [("scopes", [("subset_of", VS ["a"])])]);
     ex_stmt "im" "leaf" None (Some [("scopes", [("value", VS ["z"])])])]
    (ex_stmt "leaf" "leaf" (Some []) None) "rp" "scopes"
    (ex_stmt "ta" "im" None (Some [("scopes", [("subset_of", VS ["a"])])])) [VStr "a"]
    [("scopes", VS ["z"])] (VS ["z"])).
  destruct X as [l [E L]]; [wf | run | left; reflexivity | says | reflexivity |].
  injection E as <-. destruct (L (VStr "z") (or_introl eq_refl)) as [y [[<-|[]] Y]]. discriminate.
Qed.
Print Assumptions C01_subset_of_refuted.

(** missing: claims somebody supplies as a scalar, and a value operator (at another level)
    outside S *)
Theorem C01_subset_of_partial : forall O front leaf et c s S md v,
  wf_chain front leaf -> resolves O front leaf et md ->
  In s front -> policy_says s et c "subset_of" (VList S) ->
  list_claim front leaf et c ->
  (forall s' w, In s' front -> policy_says s' et c "value" w -> list_within w S) ->
  dget c md = Some v -> list_within v S.
Proof. exact subset_of_binds. Qed.
Print Assumptions C01_subset_of_partial.

Example C01_example : list_within (VS ["b"; "c"]) [VStr "b"; VStr "c"; VStr "d"].
Proof.
  destruct ex_resolves as [W R].
  apply (C01_subset_of_partial id_order [ex_ta; ex_im] ex_leaf "rp" "scopes" ex_im _ ex_md _ W R);
    [right; left; reflexivity | says | | | reflexivity].
  - split; [|split]; concrete; reflexivity.
  - concrete.
Qed.

(** ** C02 one_of *)
Definition C02_full : Prop := forall O front leaf et c s S md v,
  wf_chain front leaf -> resolves O front leaf et md ->
  In s front -> policy_says s et c "one_of" (VList S) ->
  dget c md = Some v -> In_eq v S.

Theorem C02_one_of_refuted : ~ C02_full.
Proof.
  intros H.
  set (ta := ex_stmt "ta" "leaf" None (Some [("auth", [("one_of", VS ["x"])])])).
  assert (X := H id_order [ta] (ex_stmt "leaf" "leaf" (Some [("auth", VS ["z"])]) None)
    "rp" "auth" ta [VStr "x"] [("auth", VS ["z"])] (VS ["z"])).
  destruct X as [y [[<-|[]] Y]]; [wf | run | left; reflexivity | says | reflexivity | discriminate].
Qed.
Print Assumptions C02_one_of_refuted.

(** missing: claims somebody supplies as a list, and a value operator outside S *)
Theorem C02_one_of_partial : forall O front leaf et c s S md v,
  wf_chain front leaf -> resolves O front leaf et md ->
  In s front -> policy_says s et c "one_of" (VList S) ->
  scalar_claim front leaf et c ->
  (forall s' w, In s' front -> policy_says s' et c "value" w -> In_eq w S) ->
  dget c md = Some v -> In_eq v S.
Proof. exact one_of_binds. Qed.
Print Assumptions C02_one_of_partial.

Example C02_example : In_eq (VStr "y") [VStr "x"; VStr "y"].
Proof.
  destruct ex_resolves as [W R].
  apply (C02_one_of_partial id_order [ex_ta; ex_im] ex_leaf "rp" "auth" ex_ta _ ex_md _ W R);
    [left; reflexivity | says | | | reflexivity].
  - split; [|split]; concrete; reflexivity.
  - concrete.
Qed.

(** ** C03 superset_of *)
Definition C03_full : Prop := forall O front leaf et c s S md v x,
  wf_chain front leaf -> resolves O front leaf et md ->
  In s front -> policy_says s et c "superset_of" (VList S) -> In x S ->
  dget c md = Some v -> exists l, v = VList l /\ In_eq x l.

Theorem C03_superset_of_refuted : ~ C03_full.
Proof.
  intros H.
  set (ta := ex_stmt "ta" "im" None (Some [("scopes", [("superset_of", VS ["a"; "b"])])])).
  set (im := ex_stmt "im" "leaf" None (Some [("scopes", [("superset_of", VS ["b"; "c"])])])).
  assert (X := H id_order [ta; im] (ex_stmt "leaf" "leaf" (Some [("scopes", VS ["b"])]) None)
    "rp" "scopes" ta [VStr "a"; VStr "b"] [("scopes", VS ["b"])] (VS ["b"]) (VStr "a")).
  destruct X as [l [E [y [Hy Y]]]];
    [wf | run | left; reflexivity | says | left; reflexivity | reflexivity |].
  injection E as <-. destruct Hy as [<-|[]]. discriminate.
Qed.
Print Assumptions C03_superset_of_refuted.

(** missing: an element that not every superset_of policy of the chain requires (superset_of
    policies are combined by intersection), scalar claims, a value operator without the element *)
Theorem C03_superset_of_partial : forall O front leaf et c s T x md v,
  wf_chain front leaf -> resolves O front leaf et md ->
  In s front -> policy_says s et c "superset_of" T ->
  list_claim front leaf et c -> hashable x = true ->
  (forall s' U, In s' front -> policy_says s' et c "superset_of" U ->
     exists l, U = VList l /\ In_eq x l) ->
  (forall s' w, In s' front -> policy_says s' et c "value" w ->
     exists l, w = VList l /\ In_eq x l) ->
  dget c md = Some v -> exists l, v = VList l /\ In_eq x l.
Proof. exact superset_of_binds. Qed.
Print Assumptions C03_superset_of_partial.

Example C03_example : exists l, VS ["b"; "c"] = VList l /\ In_eq (VStr "b") l.
Proof.
  destruct ex_resolves as [W R].
  apply (C03_superset_of_partial id_order [ex_ta; ex_im] ex_leaf "rp" "scopes" ex_im
           (VS ["b"]) (VStr "b") ex_md _ W R);
    [right; left; reflexivity | says | | reflexivity | | | reflexivity].
  - split; [|split]; concrete; reflexivity.
  - concrete. eexists; split; [reflexivity|]. exists (VStr "b"); split; [left|]; reflexivity.
  - concrete.
Qed.

(** ** C04 essential *)
(** [bool_essential] operands: the JSON type of essential is boolean *)
Theorem C04_essential_present : forall O front leaf et c s md,
  wf_chain front leaf -> resolves O front leaf et md ->
  In s front -> policy_says s et c "essential" (VBool true) ->
  (forall s' e, In s' front -> policy_says s' et c "essential" e -> exists b, e = VBool b) ->
  exists v, dget c md = Some v.
Proof. exact essential_binds. Qed.
Print Assumptions C04_essential_present.

Example C04_example : exists v, dget "scopes" ex_md = Some v.
Proof.
  destruct ex_resolves as [W R].
  apply (C04_essential_present id_order [ex_ta; ex_im] ex_leaf "rp" "scopes" ex_im ex_md W R);
    [right; left; reflexivity | says |].
  concrete. eauto.
Qed.

(** ** C05 value *)
Theorem C05_value_is_resolved : forall O front leaf et c s v md,
  wf_chain front leaf -> resolves O front leaf et md ->
  In s front -> policy_says s et c "value" v ->
  exists w, dget c md = Some w /\ py_eqb v w = true.
Proof. exact value_binds. Qed.
Print Assumptions C05_value_is_resolved.

Example C05_example : exists w, dget "org" ex_md = Some w /\ py_eqb (VStr "Org") w = true.
Proof.
  destruct ex_resolves as [W R].
  apply (C05_value_is_resolved id_order [ex_ta; ex_im] ex_leaf "rp" "org" ex_im _ ex_md W R);
    [right; left; reflexivity | says].
Qed.

(** ** C06 default *)
(** a supplied claim policed by default (and essential) only keeps its value *)
Theorem C06_default_keeps_supplied : forall O front leaf et c v md,
  wf_chain front leaf -> resolves O front leaf et md ->
  (forall s op w, In s front -> policy_says s et c op w -> op = "default" \/ op = "essential") ->
  supplies front leaf et c v ->
  exists w, dget c md = Some w /\ py_eqb v w = true /\ (metadata_says leaf et c v -> w = v).
Proof. exact default_keeps_supplied. Qed.
Print Assumptions C06_default_keeps_supplied.

(** whatever the other operators: the operand of default does not matter for a present claim *)
Theorem C06_default_operand_irrelevant : forall O md mp c p d d' v md1 md2,
  dget c md = Some v ->
  apply_metadata_policy O md (dset c (dset "default" d p) mp) = Ok md1 ->
  apply_metadata_policy O md (dset c (dset "default" d' p) mp) = Ok md2 ->
  forall c', dget c' md1 = dget c' md2.
Proof. exact default_operand_irrelevant. Qed.
Print Assumptions C06_default_operand_irrelevant.

(** nobody supplies the claim and no operator that changes values is used *)
Theorem C06_default_fills : forall O front leaf et c s d md,
  wf_chain front leaf -> resolves O front leaf et md ->
  (forall s v, In s (leaf :: front) -> ~ metadata_says s et c v) ->
  (forall s op v, In s front -> policy_says s et c op v ->
     op <> "value" /\ op <> "add" /\ op <> "subset_of") ->
  In s front -> policy_says s et c "default" d ->
  exists w, dget c md = Some w /\ py_eqb d w = true.
Proof. exact default_fills. Qed.
Print Assumptions C06_default_fills.

Theorem C06_different_defaults_rejected : forall O front leaf et c s1 d1 s2 d2,
  wf_chain front leaf -> has_type leaf et ->
  (forall s v, In s front -> ~ policy_says s et c "value" v) ->
  In s1 front -> policy_says s1 et c "default" d1 ->
  In s2 front -> policy_says s2 et c "default" d2 ->
  py_eqb d1 d2 = false ->
  rejects O front leaf.
Proof. exact different_defaults. Qed.
Print Assumptions C06_different_defaults_rejected.

Definition ex_def (iss sub d : string) : stmt :=
  ex_stmt iss sub None (Some [("auth", [("default", VStr d)])]).

Example C06_example_keeps :
  exists w, dget "auth" [("auth", VStr "k")] = Some w /\ py_eqb (VStr "k") w = true /\
    (metadata_says (ex_stmt "leaf" "leaf" (Some [("auth", VStr "k")]) None) "rp" "auth" (VStr "k")
     -> w = VStr "k").
Proof.
  apply (C06_default_keeps_supplied id_order [ex_def "ta" "im" "d"; ex_def "im" "leaf" "d"]
          (ex_stmt "leaf" "leaf" (Some [("auth", VStr "k")]) None) "rp"); [wf | run | |].
  - concrete;
      (destruct (string_dec op "default"); [auto|];
       exfalso; simpl in *;
       match goal with H : (if _ then _ else _) = _ |- _ =>
         destruct (String.eqb_spec op "default"); [contradiction | discriminate] end).
  - left. mdsays.
Qed.

Example C06_example_fills : exists w, dget "auth" [("auth", VStr "d")] = Some w /\
  py_eqb (VStr "d") w = true.
Proof.
  apply (C06_default_fills id_order [ex_def "ta" "im" "d"] (ex_stmt "leaf" "leaf" (Some []) None)
           "rp" "auth" (ex_def "ta" "im" "d")); [wf | run | | | left; reflexivity | says].
  - concrete.
  - concrete. repeat split; intros ->; discriminate.
Qed.

Example C06_example_rejected :
  rejects rev_order [ex_def "ta" "im" "d"; ex_def "im" "leaf" "e"]
    (ex_stmt "leaf" "leaf" (Some [("auth", VStr "k")]) None).
Proof.
  apply C06_different_defaults_rejected with (et := "rp") (c := "auth") (s1 := ex_def "ta" "im" "d")
    (d1 := VStr "d") (s2 := ex_def "im" "leaf" "e") (d2 := VStr "e");
    [wf | do 2 eexists; split; reflexivity | | left; reflexivity | says
     | right; left; reflexivity | says | reflexivity].
  concrete.
Qed.

(** ** C07 add *)
Definition C07_full : Prop := forall O front leaf et c s A x md,
  wf_chain front leaf -> resolves O front leaf et md ->
  In s front -> policy_says s et c "add" (VList A) -> In x A ->
  exists l, dget c md = Some (VList l) /\ In_eq x l.

Theorem C07_add_refuted : ~ C07_full.
Proof.
  intros H.
  set (ta := ex_stmt "ta" "leaf" None (Some [("scopes", [("subset_of", VS ["a"]);
                                                          ("add", VS ["b"])])])).
  assert (X := H id_order [ta] (ex_stmt "leaf" "leaf" (Some [("scopes", VS ["a"])]) None)
    "rp" "scopes" ta [VStr "b"] (VStr "b") [("scopes", VS ["a"])]).
  destruct X as [l [E [y [Hy Y]]]]; [wf | run | left; reflexivity | says | left; reflexivity |].
  injection E as <-. destruct Hy as [<-|[]]. discriminate.
Qed.
Print Assumptions C07_add_refuted.

(** missing: a subset_of policy that excludes the added value, a value operator, scalar operands *)
Theorem C07_add_partial : forall O front leaf et c s A x md,
  wf_chain front leaf -> resolves O front leaf et md ->
  In s front -> policy_says s et c "add" (VList A) -> In_eq x A -> hashable x = true ->
  (forall s v, In s front -> policy_says s et c "add" v -> is_list v = true) ->
  (forall s v, In s front -> policy_says s et c "subset_of" v ->
     exists l, v = VList l /\ In_eq x l) ->
  (forall s v, In s front -> policy_says s et c "value" v ->
     exists l, v = VList l /\ In_eq x l) ->
  exists l, dget c md = Some (VList l) /\ In_eq x l.
Proof. exact add_reaches. Qed.
Print Assumptions C07_add_partial.

Example C07_example : exists l, dget "contacts" ex_md = Some (VList l) /\ In_eq (VStr "ops@im") l.
Proof.
  destruct ex_resolves as [W R].
  apply (C07_add_partial id_order [ex_ta; ex_im] ex_leaf "rp" "contacts" ex_im [VStr "ops@im"] _
           ex_md W R); [right; left; reflexivity | says | | reflexivity | | |].
  - eexists; split; [left; reflexivity | reflexivity].
  - concrete; reflexivity.
  - concrete.
  - concrete.
Qed.

(** ** C08 frame *)
Theorem C08_untouched_claim : forall O front leaf et c md,
  wf_chain front leaf -> resolves O front leaf et md ->
  (forall s, In s front -> ~ policy_about s et c) ->
  (forall v, metadata_says leaf et c v -> dget c md = Some v) /\
  (forall s v, (forall w, ~ metadata_says leaf et c w) -> In s front -> metadata_says s et c v ->
     exists w, dget c md = Some w /\ py_eqb v w = true) /\
  ((forall s v, In s (leaf :: front) -> ~ metadata_says s et c v) -> dget c md = None).
Proof. exact untouched_claim. Qed.
Print Assumptions C08_untouched_claim.

(** the value of a claim depends on the policy of that claim and the incoming value only *)
Theorem C08_claims_independent : forall O O' md md' mp mp' r r' c,
  apply_metadata_policy O md mp = Ok r -> apply_metadata_policy O' md' mp' = Ok r' ->
  dget c md = dget c md' -> dget c mp = dget c mp' ->
  same_claim (dget c r) (dget c r').
Proof.
  exact apply_metadata_policy_local.
Qed.
Print Assumptions C08_claims_independent.

Example C08_example : dget "name" ex_md = Some (VStr "n").
Proof.
  destruct ex_resolves as [W R].
  apply (C08_untouched_claim id_order [ex_ta; ex_im] ex_leaf "rp" "name" ex_md W R); [|mdsays].
  intros s Hs [ps [mp [cp [E [G1 G2]]]]]. chain_cases; simpl in E; injection E as <-;
    simpl in G1; injection G1 as <-; simpl in G2; discriminate.
Qed.

(** ** C09 superior metadata *)
Definition C09_full : Prop := forall O front leaf et c s v md,
  wf_chain front leaf -> resolves O front leaf et md ->
  (forall s', In s' front -> ~ policy_about s' et c) ->
  In s front -> metadata_says s et c v ->
  exists w, dget c md = Some w /\ py_eqb v w = true.

Definition ex_sup : stmt := ex_stmt "ta" "leaf" (Some [("org", VStr "TA says")]) None.

Theorem C09_superior_metadata_refuted : ~ C09_full.
Proof.
  intros H.
  assert (X := H id_order [ex_sup] (ex_stmt "leaf" "leaf" (Some [("org", VStr "I say")]) None)
     "rp" "org" ex_sup (VStr "TA says") [("org", VStr "I say")]).
  destruct X as [w [E1 E2]]; [wf | run | | left; reflexivity | mdsays |].
  - intros s Hs [ps [mp [cp [E _]]]]. chain_cases. discriminate.
  - injection E1 as <-. discriminate.
Qed.
Print Assumptions C09_superior_metadata_refuted.

(** missing: the leaf states the claim itself, which then wins *)
Theorem C09_superior_metadata_partial : forall O front leaf et c s v md,
  wf_chain front leaf -> resolves O front leaf et md ->
  (forall s', In s' front -> ~ policy_about s' et c) ->
  (forall w, ~ metadata_says leaf et c w) ->
  In s front -> metadata_says s et c v ->
  exists w, dget c md = Some w /\ py_eqb v w = true.
Proof.
  exact (fun O front leaf et c s v md W R P N Hs Hv =>
    proj1 (proj2 (untouched_claim O front leaf et c md W R P)) s v N Hs Hv).
Qed.
Print Assumptions C09_superior_metadata_partial.

Example C09_example : exists w, dget "org" [("org", VStr "TA says")] = Some w /\
  py_eqb (VStr "TA says") w = true.
Proof.
  apply (C09_superior_metadata_partial id_order [ex_sup] (ex_stmt "leaf" "leaf" (Some []) None)
           "rp" "org" ex_sup); [wf | run | | | left; reflexivity | mdsays].
  - intros s Hs [ps [mp [cp [E _]]]]. chain_cases. discriminate.
  - intros w Q. read_says.
Qed.

(** ** C10 contradicting superior metadata *)
Theorem C10_superior_metadata_agree : forall O front leaf et c s1 v1 s2 v2,
  wf_chain front leaf -> has_type leaf et ->
  In s1 front -> metadata_says s1 et c v1 ->
  In s2 front -> metadata_says s2 et c v2 ->
  py_eqb v1 v2 = false ->
  rejects O front leaf.
Proof. exact superior_metadata_agree. Qed.
Print Assumptions C10_superior_metadata_agree.

Example C10_example :
  rejects id_order [ex_sup; ex_ta; ex_stmt "im" "leaf" (Some [("org", VStr "IM says")]) None] ex_leaf.
Proof.
  apply C10_superior_metadata_agree with (et := "rp") (c := "org") (s1 := ex_sup)
    (v1 := VStr "TA says") (s2 := ex_stmt "im" "leaf" (Some [("org", VStr "IM says")]) None)
    (v2 := VStr "IM says");
   [wf | do 2 eexists; split; reflexivity | left; reflexivity | mdsays
    | right; right; left; reflexivity | mdsays | reflexivity].
Qed.

(** ** C11 a statement may not both fix and police a claim *)
Definition C11_full : Prop := forall O front leaf et c s v,
  wf_chain front leaf -> has_type leaf et ->
  In s front -> policy_about s et c -> metadata_says s et c v ->
  rejects O front leaf.

Definition ex_both : stmt := ex_stmt "ta" "leaf" (Some [("org", VStr "x")])
  (Some [("org", [("essential", VBool true)])]).

Theorem C11_overlap_refuted : ~ C11_full.
Proof.
  intros H.
  destruct (H id_order [ex_both] ex_leaf "rp" "org" ex_both (VStr "x")) as [e E];
    [wf | do 2 eexists; split; reflexivity | left; reflexivity
     | do 3 eexists; split; [|split]; reflexivity | mdsays |].
  vm_compute in E. discriminate.
Qed.
Print Assumptions C11_overlap_refuted.

(** missing: the first (topmost) statement of the chain is not checked *)
Theorem C11_overlap_partial : forall O first rest leaf et c s v,
  wf_chain (first :: rest) leaf -> has_type leaf et ->
  In s rest -> policy_about s et c -> metadata_says s et c v ->
  rejects O (first :: rest) leaf.
Proof. exact overlap_rejected. Qed.
Print Assumptions C11_overlap_partial.

Example C11_example : rejects id_order [ex_ta; ex_both] ex_leaf.
Proof.
  apply C11_overlap_partial with (et := "rp") (c := "org") (s := ex_both) (v := VStr "x");
    [wf | do 2 eexists; split; reflexivity | left; reflexivity
     | do 3 eexists; split; [|split]; reflexivity | mdsays].
Qed.

(** ** C12 combining never loosens *)
Definition C12_full : Prop := forall O sup child c ov,
  combine_claim_policy O sup child = Ok c -> bool_essential sup -> bool_essential child ->
  meets c ov -> meets_superset c ov -> meets sup ov /\ meets_superset sup ov.

Theorem C12_combine_refuted : ~ C12_full.
Proof.
  intros H.
  destruct (H id_order [("superset_of", VS ["a"; "b"])] [("superset_of", VS ["b"; "c"])]
              [("superset_of", VS ["b"])] (Some (VS ["b"]))) as [_ X].
  - reflexivity.
  - intros e E; discriminate.
  - intros e E; discriminate.
  - split; [|split; [|split]]; discriminate.
  - intros S w E1 E2. injection E1 as <-. injection E2 as <-. eexists; split; [reflexivity|].
    intros x [<-|[]]. eexists; split; [left; reflexivity | reflexivity].
  - destruct (X [VStr "a"; VStr "b"] (VS ["b"]) eq_refl eq_refl) as [l [E L]].
    injection E as <-. destruct (L (VStr "a") (or_introl eq_refl)) as [y [[<-|[]] Y]]. discriminate.
Qed.
Print Assumptions C12_combine_refuted.

(** missing: superset_of when the subordinate has one as well *)
Theorem C12_combine_strict_partial : forall O sup child c ov,
  combine_claim_policy O sup child = Ok c -> dget "value" sup = None ->
  bool_essential sup -> bool_essential child ->
  meets c ov ->
  meets sup ov /\ meets child ov /\
  (dget "superset_of" child = None -> meets_superset c ov -> meets_superset sup ov).
Proof.
  exact (fun O sup child c ov H N B1 B2 M =>
    let R := combine_strict O sup child c ov H N B1 B2 M in
    conj (proj1 R) (conj (proj2 R) (combine_superset O sup child c ov H N))).
Qed.
Print Assumptions C12_combine_strict_partial.

Theorem C12_value_kept : forall O sup child c v,
  combine_claim_policy O sup child = Ok c -> dget "value" sup = Some v -> dget "value" c = Some v.
Proof. exact combine_value_fixed. Qed.
Print Assumptions C12_value_kept.

Theorem C12_default_kept : forall O sup child c d,
  combine_claim_policy O sup child = Ok c -> dget "value" sup = None ->
  dget "default" sup = Some d -> dget "default" c = Some d.
Proof. exact combine_keeps_default. Qed.
Print Assumptions C12_default_kept.

Theorem C12_add_kept : forall O sup child c A x,
  combine_claim_policy O sup child = Ok c -> dget "value" sup = None ->
  dget "add" sup = Some A -> has_element A x ->
  exists B, dget "add" c = Some B /\ has_element B x.
Proof. exact combine_keeps_add. Qed.
Print Assumptions C12_add_kept.

Example C12_example :
  let sup := [("subset_of", VS ["a"; "b"]); ("add", VS ["a"]); ("essential", VBool true);
              ("default", VS ["b"])] in
  let child := [("subset_of", VS ["b"; "a"; "c"]); ("add", VS ["b"]); ("essential", VBool true)] in
  exists c, combine_claim_policy rev_order sup child = Ok c /\ dget "value" sup = None /\
    bool_essential sup /\ bool_essential child /\ meets c (Some (VS ["a"])) /\
    meets sup (Some (VS ["a"])).
Proof.
  cbv zeta. eexists. split; [vm_compute; reflexivity|]. split; [reflexivity|].
  assert (B1 : bool_essential [("subset_of", VS ["a"; "b"]); ("add", VS ["a"]);
     ("essential", VBool true); ("default", VS ["b"])])
    by (intros e E; injection E as <-; eauto).
  assert (B2 : bool_essential [("subset_of", VS ["b"; "a"; "c"]); ("add", VS ["b"]);
     ("essential", VBool true)]) by (intros e E; injection E as <-; eauto).
  split; [exact B1|]. split; [exact B2|].
  match goal with |- ?M /\ _ => assert (HM : M) end.
  { split; [discriminate|]. split; [|split; [discriminate | discriminate]].
    intros S w E1 E2. injection E1 as <-. injection E2 as <-. eexists; split; [reflexivity|].
    intros x [<-|[]]. exists (VStr "a"). split; [simpl; auto | reflexivity]. }
  split; [exact HM|].
  refine (proj1 (C12_combine_strict_partial rev_order _ _ _ _ _ _ B1 B2 HM));
    vm_compute; reflexivity.
Qed.

(** ** C13 resolving twice *)
Definition C13_full : Prop := forall O1 O2 front leaf mds1 ch1,
  wf_chain front leaf ->
  policy_call_chain O1 (front ++ [leaf]) = Ok (ByType mds1, ch1) ->
  exists mds2 ch2, policy_call_chain O2 ch1 = Ok (ByType mds2, ch2) /\ same_metadata mds1 mds2.

Theorem C13_twice_refuted : ~ C13_full.
Proof.
  intros H.
  set (ta := ex_stmt "ta" "leaf" None (Some [("org", [("add", VStr "x")])])).
  set (leaf := ex_stmt "leaf" "leaf" (Some []) None).
  set (r := match policy_call_chain id_order [ta; leaf] with
            | Ok (ByType m, ch) => (m, ch) | _ => ([], []) end).
  destruct (H id_order id_order [ta] leaf (fst r) (snd r)) as [mds2 [ch2 [E S]]];
    [wf | vm_compute; reflexivity|].
  vm_compute in E. injection E as <- <-. specialize (S "rp"). vm_compute in S.
  specialize (S "org"). vm_compute in S.
  destruct S as [S|[l [m [S _]]]]; discriminate.
Qed.
Print Assumptions C13_twice_refuted.

(** missing: add with a scalar operand (which turns into a list the second time), subset_of on a
    claim supplied as a scalar *)
Theorem C13_twice_partial : forall O1 O2 front leaf mds1 ch1,
  wf_chain front leaf ->
  (forall et c, has_type leaf et -> repeatable_claim front leaf et c) ->
  policy_call_chain O1 (front ++ [leaf]) = Ok (ByType mds1, ch1) ->
  exists mds2 ch2, policy_call_chain O2 ch1 = Ok (ByType mds2, ch2) /\ same_metadata mds1 mds2.
Proof. exact repeat_resolution. Qed.
Print Assumptions C13_twice_partial.

Example C13_example : exists mds1 ch1 mds2 ch2,
  policy_call_chain id_order [ex_ta; ex_im; ex_leaf] = Ok (ByType mds1, ch1) /\
  policy_call_chain rev_order ch1 = Ok (ByType mds2, ch2) /\ same_metadata mds1 mds2 /\
  ch1 <> [ex_ta; ex_im; ex_leaf].
Proof.
  set (r := match policy_call_chain id_order [ex_ta; ex_im; ex_leaf] with
            | Ok (ByType m, ch) => (m, ch) | _ => ([], []) end).
  assert (E : policy_call_chain id_order ([ex_ta; ex_im] ++ [ex_leaf]) = Ok (ByType (fst r), snd r))
    by (vm_compute; reflexivity).
  destruct (C13_twice_partial id_order rev_order [ex_ta; ex_im] ex_leaf (fst r) (snd r)) as
    [mds2 [ch2 [E2 S]]]; [wf | | exact E |].
  - intros et c HT. split.
    + intros s v Hs HP.
      destruct Hs as [<-|[<-|[]]]; apply ex_policy_says in HP;
        destruct HP as [_ [p [cp [E1 [E2 E3]]]]]; injection E1 as <-; simpl in E2;
        repeat match type of E2 with (if ?b then _ else _) = _ => destruct b end;
        try discriminate; injection E2 as <-; simpl in E3; try discriminate.
      injection E3 as <-. eexists; split; [reflexivity|]. intros x [<-|[]]; reflexivity.
    + intros [s [T [Hs HP]]].
      assert (C : c = "scopes" /\ et = "rp").
      { destruct Hs as [<-|[<-|[]]]; apply ex_policy_says in HP;
          destruct HP as [-> [p [cp [E1 [E2 E3]]]]]; injection E1 as <-; simpl in E2;
          (destruct (String.eqb_spec c "scopes"); [auto|]);
          [destruct (String.eqb c "auth")|destruct (String.eqb c "contacts");
          [|destruct (String.eqb c "org")]]; try discriminate; injection E2 as <-; discriminate. }
      destruct C as [-> ->]. split; [|split]; concrete; reflexivity.
  - exists (fst r), (snd r), mds2, ch2. split; [exact E|]. split; [exact E2|].
    split; [exact S|]. vm_compute. discriminate.
Qed.

(** ** C14 set iteration order *)
Theorem C14_order_independent : forall O1 O2 front leaf mds1 ch1,
  wf_chain front leaf ->
  policy_call_chain O1 (front ++ [leaf]) = Ok (ByType mds1, ch1) ->
  exists mds2 ch2, policy_call_chain O2 (front ++ [leaf]) = Ok (ByType mds2, ch2) /\
                   same_metadata mds1 mds2.
Proof. exact order_independent. Qed.
Print Assumptions C14_order_independent.

Example C14_example : exists mds1 ch1 mds2 ch2,
  policy_call_chain id_order [ex_ta; ex_im; ex_leaf] = Ok (ByType mds1, ch1) /\
  policy_call_chain rev_order [ex_ta; ex_im; ex_leaf] = Ok (ByType mds2, ch2) /\
  mds1 <> mds2 /\ same_metadata mds1 mds2.
Proof.
  set (r := match policy_call_chain id_order [ex_ta; ex_im; ex_leaf] with
            | Ok (ByType m, ch) => (m, ch) | _ => ([], []) end).
  assert (E : policy_call_chain id_order ([ex_ta; ex_im] ++ [ex_leaf]) = Ok (ByType (fst r), snd r))
    by (vm_compute; reflexivity).
  destruct (C14_order_independent id_order rev_order [ex_ta; ex_im] ex_leaf (fst r) (snd r)) as
    [mds2 [ch2 [E2 S]]]; [wf | exact E |].
  exists (fst r), (snd r), mds2, ch2. split; [exact E|]. split; [exact E2|].
  split; [|exact S]. vm_compute in E2. injection E2 as <- _. vm_compute. discriminate.
Qed.

(** ** C15 diff2policy *)
Theorem C15_diff2policy : forall O new old,
  (forall c v, dget c new = Some v -> wf_val v) ->
  exists md, apply_metadata_policy O old (diff2policy O new old) = Ok md /\
    (forall c v, dget c new = Some v -> exists w, dget c md = Some w /\ py_eqb v w = true) /\
    (forall c, dget c new = None -> dget c md = dget c old).
Proof. exact diff2policy_applies. Qed.
Print Assumptions C15_diff2policy.

Example C15_example :
  let new := [("contacts", VS ["a"]); ("org", VStr "new"); ("same", VInt 1)] in
  let old := [("org", VStr "old"); ("same", VInt 1); ("gone", VStr "kept")] in
  (forall c v, dget c new = Some v -> wf_val v) /\
  apply_metadata_policy id_order old (diff2policy id_order new old) =
    Ok [("org", VStr "new"); ("same", VInt 1); ("gone", VStr "kept"); ("contacts", VS ["a"])].
Proof.
  cbv zeta. split; [|vm_compute; reflexivity].
  intros c v H. simpl in H.
  destruct (String.eqb c "contacts"); [|destruct (String.eqb c "org");
    [|destruct (String.eqb c "same")]]; try discriminate; injection H as <-;
    apply wf_valb_sound; reflexivity.
Qed.

(** ** C16 entity types *)
Theorem C16_resolved_types : forall O front leaf mds ch et,
  wf_stmt leaf ->
  policy_call_chain O (front ++ [leaf]) = Ok (ByType mds, ch) ->
  (has_type leaf et <-> exists o, dget et mds = Some o) /\
  (forall o, dget et mds = Some o -> exists md, o = Some md).
Proof. exact resolved_types. Qed.
Print Assumptions C16_resolved_types.

Theorem C16_types_independent : forall O f1 l1 f2 l2 et md1 md2,
  wf_stmt l1 -> wf_stmt l2 ->
  Forall2 (fun s t => type_part s et = type_part t et) f1 f2 ->
  type_part l1 et = type_part l2 et ->
  resolves O f1 l1 et md1 -> resolves O f2 l2 et md2 -> md1 = md2.
Proof. exact types_independent. Qed.
Print Assumptions C16_types_independent.

Example C16_example :
  let other := mkStmt "leaf" "leaf" None None
     (Some [("op", [("x", VInt 1)]);
            ("rp", [("scopes", VS ["b"; "c"; "e"]); ("auth", VStr "y");
                    ("contacts", VS ["me@leaf"]); ("name", VStr "n")])]) None None None in
  wf_stmt other /\ type_part ex_leaf "rp" = type_part other "rp" /\
  resolves id_order [ex_ta; ex_im] other "rp" ex_md /\
  resolves id_order [ex_ta; ex_im] other "op" [("x", VInt 1)].
Proof.
  cbv zeta. split; [apply wf_stmtb_sound; reflexivity|]. split; [reflexivity|]. split; run.
Qed.
