(** Critical extensions (C53) and critical policy operators (C72). *)
From Verif Require Import PyFacts MessageModel.

(** ** Vocabulary *)
Definition standard_claim (k : string) : Prop :=
  In k ["iss"; "sub"; "aud"; "exp"; "nbf"; "iat"; "jti"; "jwks"; "authority_hints"; "metadata"; "metadata_policy";
        "constraints"; "crit"; "policy_language_crit"; "trust_marks"; "trust_anchor_id"].
Definition standard_verb (k : string) : Prop :=
  In k ["subset_of"; "one_of"; "superset_of"; "add"; "value"; "default"; "essential"].

Definition listed (x : string) (o : option (list string)) : Prop := exists l, o = Some l /\ In x l.

(** an extension claim of the statement *)
Definition extension (m : statement) (k : string) : Prop := (exists v, dget k (st_claims m) = Some v) /\ ~ standard_claim k.
(** an operator of the statement's policy that the specification does not define *)
Definition policy_extension (m : statement) (op : string) : Prop :=
  exists mp t p c ops v, st_policy m = Some mp /\ In (t, p) mp /\ In (c, ops) p /\ dget op ops = Some v /\ ~ standard_verb op.

(** ** Lemmas *)
Lemma extra_In known d k : In k (extra known d) <-> In k (dkeys d) /\ ~ In k known.
Proof.
  unfold extra. rewrite filter_In, negb_true_iff, smem_false. reflexivity.
Qed.

Lemma key_dget {A} k (d : dict A) : In k (dkeys d) <-> exists v, dget k d = Some v.
Proof. split; [apply key_In_dget | intros [v H]; eapply dget_In_key, H]. Qed.

Lemma subset_s_spec a b : subset_s a b = true <-> forall x, In x a -> In x b.
Proof.
  unfold subset_s. rewrite forallb_forall. split; intros H x I.
  - apply smem_In, H, I.
  - apply smem_In, H, I.
Qed.

Lemma set_inter_s_spec x a b : In x (set_inter_s a b) <-> In x a /\ In x b.
Proof. unfold set_inter_s. rewrite filter_In, smem_In. reflexivity. Qed.

(** when the test passes *)
Lemma check_ok ex c k : check_critical ex c k = Ok tt <->
  ex = [] \/ c = None \/
  ((exists x, listed x c) /\ (exists x, listed x k) /\ forall x, In x ex -> listed x c -> listed x k).
Proof.
  unfold check_critical. destruct ex as [|e ex]; [simpl; tauto|]. cbn [is_nil].
  assert (NE : e :: ex <> []) by discriminate. generalize dependent (e :: ex). clear e ex. intros ex NE.
  destruct c as [[|c0 c]|]; [|  |tauto].
  - split; [discriminate|]. intros [A|[A|[[x [l [A B]]] _]]]; [contradiction | discriminate | injection A as <-; destruct B].
  - destruct k as [[|k0 k]|].
    + split; [discriminate|]. intros [A|[A|[_ [[x [l [A B]]] _]]]]; [contradiction | discriminate | injection A as <-; destruct B].
    + destruct (subset_s _ _) eqn:E.
      * split; [|reflexivity]. intros _. right. right. split; [|split].
        -- exists c0, (c0 :: c). split; [reflexivity | left; reflexivity].
        -- exists k0, (k0 :: k). split; [reflexivity | left; reflexivity].
        -- intros x A [l [B C]]. injection B as <-. exists (k0 :: k). split; [reflexivity|].
           apply (proj1 (subset_s_spec _ _) E). apply set_inter_s_spec. split; assumption.
      * split; [discriminate|]. intros [A|[A|[_ [_ A]]]]; [contradiction | discriminate|].
        assert (T : subset_s (set_inter_s (c0 :: c) ex) (k0 :: k) = true).
        { apply subset_s_spec. intros x B. apply set_inter_s_spec in B as [B1 B2].
          destruct (A x B2) as [l [C1 C2]]; [exists (c0 :: c); split; [reflexivity | exact B1]|].
          injection C1 as <-. exact C2. }
        congruence.
    + split; [discriminate|]. intros [A|[A|[_ [[x [l [A _]]] _]]]]; [contradiction | discriminate | discriminate].
Qed.

Lemma check_err ex c k e : check_critical ex c k = Err e -> e = ValueError \/ e = UnknownCriticalExtension.
Proof.
  unfold check_critical. destruct (is_nil ex); [discriminate|].
  destruct c as [[|]|]; [intros H; injection H as <-; tauto | | discriminate].
  destruct k as [[|]|]; [intros H; injection H as <-; tauto | | intros H; injection H as <-; tauto].
  destruct (subset_s _ _); [discriminate | intros H; injection H as <-; tauto].
Qed.

Lemma foldM_unit {A} (f : A -> res unit) l : foldM (fun _ x => f x) l tt = Ok tt <-> forall x, In x l -> f x = Ok tt.
Proof.
  induction l as [|x l IH]; simpl; [split; [intros _ y [] | reflexivity]|].
  destruct (f x) as [[]|] eqn:E.
  - rewrite IH. split; [intros H y [<- |I]; auto | intros H y I; apply H; right; exact I].
  - split; [discriminate|]. intros H. specialize (H x (or_introl eq_refl)). congruence.
Qed.

Lemma mp_ok mp c k : metadata_policy_verify mp c k = Ok tt <->
  forall t p cl ops, In (t, p) mp -> In (cl, ops) p -> check_critical (extra policy_verbs ops) c k = Ok tt.
Proof.
  unfold metadata_policy_verify.
  rewrite (foldM_unit (fun tp : string * mpolicy => foldM (fun _ (cp : string * claim_policy) => policy_verify (snd cp) c k) (snd tp) tt)).
  split.
  - intros H t p cl ops I1 I2. specialize (H (t, p) I1). cbn [snd] in H.
    rewrite (foldM_unit (fun cp : string * claim_policy => policy_verify (snd cp) c k)) in H. exact (H (cl, ops) I2).
  - intros H [t p] I1. cbn [snd]. rewrite (foldM_unit (fun cp : string * claim_policy => policy_verify (snd cp) c k)).
    intros [cl ops] I2. exact (H t p cl ops I1 I2).
Qed.

Lemma foldM_unit_err {A} (f : A -> res unit) l e : foldM (fun _ x => f x) l tt = Err e -> exists x, In x l /\ f x = Err e.
Proof.
  induction l as [|x l IH]; simpl; [discriminate|]. destruct (f x) as [[]|e'] eqn:E.
  - intros H. destruct (IH H) as [y [I F]]. exists y. split; [right; exact I | exact F].
  - intros H. injection H as ->. exists x. split; [left; reflexivity | exact E].
Qed.

Lemma mp_err mp c k e : metadata_policy_verify mp c k = Err e -> e = ValueError \/ e = UnknownCriticalExtension.
Proof.
  unfold metadata_policy_verify. intros H.
  apply (foldM_unit_err (fun tp : string * mpolicy => foldM (fun _ (cp : string * claim_policy) => policy_verify (snd cp) c k) (snd tp) tt)) in H.
  destruct H as [tp [_ H]].
  apply (foldM_unit_err (fun cp : string * claim_policy => policy_verify (snd cp) c k)) in H. destruct H as [cp [_ H]].
  eapply check_err, H.
Qed.

Definition policy_part (m : statement) (kp : option (list string)) : res unit :=
  match st_policy m, st_policy_crit m with
  | Some ((_ :: _) as mp), Some ((_ :: _) as c) => metadata_policy_verify mp (Some c) kp
  | _, _ => Ok tt
  end.

Lemma verify_ok schema m k kp : statement_verify schema m k kp = Ok tt <->
  schema m = Ok tt /\ check_critical (extra statement_claims (st_claims m)) (st_crit m) k = Ok tt /\ policy_part m kp = Ok tt.
Proof.
  unfold statement_verify. fold (policy_part m kp). destruct (schema m) as [[]|]; cbn [bind].
  - destruct (check_critical _ _ _) as [[]|]; cbn [bind]; [tauto|]. split; [discriminate | intros [_ [A _]]; discriminate].
  - split; [discriminate | intros [A _]; discriminate].
Qed.

Lemma extension_extra m x : extension m x <-> In x (extra statement_claims (st_claims m)).
Proof. rewrite extra_In, key_dget. unfold extension, standard_claim. reflexivity. Qed.

(** ** C53 *)

(** full statement: with an acceptable schema, no policy operators at stake and a crit claim that is not an empty list, a
    statement is accepted exactly if each critical extension is known *)
Definition C53_full : Prop := forall schema m known kp,
  schema m = Ok tt -> st_policy_crit m = None -> st_crit m <> Some [] ->
  (statement_verify schema m known kp = Ok tt <-> forall x, extension m x -> listed x (st_crit m) -> listed x known).

Definition ex_ext : statement := mkStatement
  [("iss", VStr "ta"); ("sub", VStr "op"); ("crit", VList [VStr "jti"]); ("foo", VStr "bar")] (Some ["jti"]) None None.

(** foo is not critical, still the statement is rejected: no extension is known *)
Theorem C53_crit_refuted : ~ C53_full.
Proof.
  intros F.
  assert (H : statement_verify (fun _ => Ok tt) ex_ext None None = Ok tt).
  { apply F; [reflexivity | reflexivity | discriminate|].
    intros x [[v E] N] [l [L I]]. simpl in L. injection L as <-. destruct I as [<- |[]].
    destruct N. unfold standard_claim. simpl. tauto. }
  vm_compute in H. discriminate.
Qed.

(** accepted statements have no unknown critical extension *)
Theorem C53_no_unknown_critical : forall schema m known kp x,
  statement_verify schema m known kp = Ok tt ->
  extension m x -> listed x (st_crit m) -> listed x known.
Proof.
  intros schema m known kp x H E L. apply verify_ok in H as [_ [H _]]. apply extension_extra in E.
  apply check_ok in H as [H|[H|[_ [_ H]]]].
  - rewrite H in E. destruct E.
  - destruct L as [l [L _]]. congruence.
  - apply H; assumption.
Qed.

(** Missing from the full statement: callers that know no extension at all reject every statement with a crit
    claim and an extension claim. *)
Theorem C53_crit_partial : forall schema m known kp,
  schema m = Ok tt -> st_policy_crit m = None -> st_crit m <> Some [] -> (exists x, listed x known) ->
  (statement_verify schema m known kp = Ok tt <-> forall x, extension m x -> listed x (st_crit m) -> listed x known).
Proof.
  intros schema m known kp S P C K. split.
  - intros H x. apply (C53_no_unknown_critical schema m known kp x H).
  - intros H. apply verify_ok. split; [exact S|]. split.
    + apply check_ok. destruct (st_crit m) as [[|c0 c]|] eqn:EC; [contradiction| |tauto]. right. right.
      split; [exists c0, (c0 :: c); split; [reflexivity | left; reflexivity]|]. split; [exact K|].
      intros x I. apply H. apply extension_extra, I.
    + unfold policy_part. rewrite P. destruct (st_policy m) as [[|]|]; reflexivity.
Qed.

(** a statement without extension claims, or without crit claim, passes this test whatever the caller knows *)
Theorem C53_nothing_critical : forall schema m known kp,
  schema m = Ok tt -> st_policy_crit m = None -> (st_crit m = None \/ forall x, ~ extension m x) ->
  statement_verify schema m known kp = Ok tt.
Proof.
  intros schema m known kp S P H. apply verify_ok. split; [exact S|]. split.
  - apply check_ok. destruct H as [H|H]; [right; left; exact H|]. left.
    destruct (extra statement_claims (st_claims m)) as [|x l] eqn:E; [reflexivity|].
    destruct (H x). apply extension_extra. rewrite E. left. reflexivity.
  - unfold policy_part. rewrite P. destruct (st_policy m) as [[|]|]; reflexivity.
Qed.

Definition ex_crit : statement := mkStatement
  [("iss", VStr "ta"); ("crit", VList [VStr "foo"]); ("foo", VStr "bar"); ("xyz", VInt 1)] (Some ["foo"]) None None.
Example C53_ex : statement_verify (fun _ => Ok tt) ex_crit (Some ["foo"; "other"]) None = Ok tt /\
                 statement_verify (fun _ => Ok tt) ex_crit (Some ["xyz"]) None = Err UnknownCriticalExtension /\
                 extension ex_crit "foo" /\ listed "foo" (st_crit ex_crit).
Proof.
  split; [vm_compute; reflexivity|]. split; [vm_compute; reflexivity|]. split.
  - split; [exists (VStr "bar"); reflexivity|]. unfold standard_claim. simpl. intuition discriminate.
  - exists ["foo"]. split; [reflexivity | left; reflexivity].
Qed.

(** ** C72: critical policy operators *)

(** full statement: a statement that passes the other checks is accepted exactly if each critical policy operator
    is known *)
Definition C72_full : Prop := forall schema m known kp,
  schema m = Ok tt -> st_crit m = None -> 
  (statement_verify schema m known kp = Ok tt <-> forall op, policy_extension m op -> listed op (st_policy_crit m) -> listed op kp).

Definition ex_pol : statement := mkStatement [("iss", VStr "ta")] None
  (Some [("openid_provider", [("scope", [("regexp", VStr ".*")])])]) (Some ["intersects"]).

Theorem C72_policy_crit_refuted : ~ C72_full.
Proof.
  intros F.
  assert (H : statement_verify (fun _ => Ok tt) ex_pol None None = Ok tt).
  { apply F; [reflexivity | reflexivity|].
    intros op (mp & t & p & c & ops & v & E & I1 & I2 & D & N) [l [L I]]. simpl in L. injection L as <-. destruct I as [<- |[]].
    simpl in E. injection E as <-. destruct I1 as [I1|[]]. injection I1 as <- <-. destruct I2 as [I2|[]]. injection I2 as <- <-.
    discriminate. }
  vm_compute in H. discriminate.
Qed.

Lemma policy_extension_extra m op : policy_extension m op <->
  exists mp t p c ops, st_policy m = Some mp /\ In (t, p) mp /\ In (c, ops) p /\ In op (extra policy_verbs ops).
Proof.
  split.
  - intros (mp & t & p & c & ops & v & E & I1 & I2 & D & N). exists mp, t, p, c, ops.
    split; [exact E|]. split; [exact I1|]. split; [exact I2|]. apply extra_In. split; [eapply dget_In_key, D | exact N].
  - intros (mp & t & p & c & ops & E & I1 & I2 & X). apply extra_In in X as [X N]. apply key_In_dget in X as [v D].
    exists mp, t, p, c, ops, v. split; [exact E|]. split; [exact I1|]. split; [exact I2|]. split; [exact D | exact N].
Qed.

(** accepted statements have no unknown critical operator *)
Theorem C72_no_unknown_operator : forall schema m known kp op,
  statement_verify schema m known kp = Ok tt ->
  policy_extension m op -> listed op (st_policy_crit m) -> listed op kp.
Proof.
  intros schema m known kp op H E L. apply verify_ok in H as [_ [_ H]].
  apply policy_extension_extra in E as (mp & t & p & c & ops & E & I1 & I2 & X).
  unfold policy_part in H. rewrite E in H. destruct mp as [|tp mp]; [destruct I1|].
  destruct (st_policy_crit m) as [[|c0 cs]|] eqn:EC.
  - destruct L as [l [L I]]. injection L as <-. destruct I.
  - rewrite mp_ok in H. specialize (H t p c ops I1 I2). apply check_ok in H as [H|[H|[_ [_ H]]]].
    + rewrite H in X. destruct X.
    + discriminate.
    + apply H; assumption.
  - destruct L as [l [L _]]. discriminate.
Qed.

(** Missing from the full statement: callers that know no operator reject every policy with an
    operator outside the specification once there is a list of critical operators. *)
Theorem C72_policy_crit_partial : forall schema m known kp,
  schema m = Ok tt -> st_crit m = None -> (exists x, listed x kp) ->
  (statement_verify schema m known kp = Ok tt <-> forall op, policy_extension m op -> listed op (st_policy_crit m) -> listed op kp).
Proof.
  intros schema m known kp S C K. split.
  - intros H op. apply (C72_no_unknown_operator schema m known kp op H).
  - intros H. apply verify_ok. split; [exact S|]. split; [apply check_ok; right; left; exact C|].
    unfold policy_part. destruct (st_policy m) as [[|tp mp]|] eqn:EP; try reflexivity.
    destruct (st_policy_crit m) as [[|c0 cs]|] eqn:EC; try reflexivity.
    apply mp_ok. intros t p cl ops I1 I2. apply check_ok. right. right.
    split; [exists c0, (c0 :: cs); split; [reflexivity | left; reflexivity]|]. split; [exact K|].
    intros x I. apply H. apply policy_extension_extra. exists (tp :: mp), t, p, cl, ops.
    split; [exact EP|]. split; [exact I1|]. split; assumption.
Qed.

Example C72_ex : statement_verify (fun _ => Ok tt) ex_pol None (Some ["regexp"]) = Ok tt /\
  policy_extension ex_pol "regexp" /\
  statement_verify (fun _ => Ok tt) (mkStatement [] None (st_policy ex_pol) (Some ["regexp"])) None (Some ["intersects"])
    = Err UnknownCriticalExtension.
Proof.
  split; [vm_compute; reflexivity|]. split; [|vm_compute; reflexivity].
  apply policy_extension_extra. do 5 eexists. split; [reflexivity|]. split; [left; reflexivity|]. split; [left; reflexivity|].
  vm_compute. left. reflexivity.
Qed.

(** the only other exceptions are those of the schema check, and ValueError for an empty list *)
Theorem C53_exceptions : forall schema m known kp e,
  statement_verify schema m known kp = Err e ->
  schema m = Err e \/ e = UnknownCriticalExtension \/ (e = ValueError /\ st_crit m = Some []).
Proof.
  intros schema m known kp e H. unfold statement_verify in H. fold (policy_part m kp) in H.
  destruct (schema m) as [[]|e'] eqn:S; cbn [bind] in H; [|injection H as ->; tauto].
  destruct (check_critical _ _ _) as [[]|e'] eqn:C; cbn [bind] in H.
  - unfold policy_part in H. destruct (st_policy m) as [[|]|]; try discriminate.
    destruct (st_policy_crit m) as [[|c0 cs]|] eqn:EC; try discriminate.
    right. left. unfold metadata_policy_verify in H.
    apply (foldM_unit_err (fun tp : string * mpolicy => foldM (fun _ (cp : string * claim_policy) => policy_verify (snd cp) (Some (c0 :: cs)) kp) (snd tp) tt)) in H.
    destruct H as [tp [_ H]].
    apply (foldM_unit_err (fun cp : string * claim_policy => policy_verify (snd cp) (Some (c0 :: cs)) kp)) in H. destruct H as [cp [_ H]].
    unfold policy_verify, check_critical in H. destruct (is_nil _); [discriminate|].
    destruct kp as [[|]|]; try (injection H as <-; reflexivity). destruct (subset_s _ _); [discriminate | injection H as <-; reflexivity].
  - injection H as ->. unfold check_critical in C. destruct (is_nil _); [discriminate|].
    destruct (st_crit m) as [[|]|]; [injection C as <-; tauto | | discriminate].
    destruct known as [[|]|]; try (injection C as <-; tauto). destruct (subset_s _ _); [discriminate | injection C as <-; tauto].
Qed.

Print Assumptions C53_crit_refuted.
Print Assumptions C53_no_unknown_critical.
Print Assumptions C53_crit_partial.
Print Assumptions C53_nothing_critical.
Print Assumptions C53_exceptions.
Print Assumptions C72_policy_crit_refuted.
Print Assumptions C72_no_unknown_operator.
Print Assumptions C72_policy_crit_partial.
