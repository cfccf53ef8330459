(** C152: the parts of an entity work with one federation entity and one key jar. *)
From Verif Require Import UnitsModel PyFacts.

(** the places there are in an entity *)
Inductive within (root : unit_t) : place -> Prop :=
| w_root : within root [root]
| w_part : forall n v u up, within root (u :: up) -> In (n, v) (u_parts u) -> within root (v :: u :: up).

(** an entity: a federation entity on its own, or a combo with one as its part of that name; there is no other
    federation entity and no other combo in it *)
Inductive is_entity (root : unit_t) : place -> Prop :=
| e_alone : u_kind root = UFederation ->
    (forall u up, within root (u :: up) -> u_kind u = UFederation -> u :: up = [root]) ->
    (forall u up, within root (u :: up) -> u_kind u <> UCombo) ->
    is_entity root [root]
| e_combo : forall f, u_kind root = UCombo -> part "federation_entity" (u_parts root) = Some f ->
    u_kind f = UFederation ->
    (forall u up, within root (u :: up) -> u_kind u = UFederation -> u :: up = [f; root]) ->
    (forall u up, within root (u :: up) -> u_kind u = UCombo -> u :: up = [root]) ->
    is_entity root [f; root].

(** a unit has the keys [j] or none of its own; classes of fedservice always have the attribute *)
Definition own_keys (u : unit_t) (j : val) : Prop := dget "keyjar" (u_attrs u) = Some j /\ truthy j = true.
Definition no_keys (u : unit_t) : Prop :=
  match dget "keyjar" (u_attrs u) with
  | Some v => truthy v = false
  | None => u_kind u = UOther \/ u_kind u = UServer
  end.

(** whoever has keys is the federation entity or the combo *)
Definition keys_on_top (root : unit_t) (f : place) : Prop :=
  forall u up, within root (u :: up) -> u :: up <> f -> u :: up <> [root] -> no_keys u.

Definition one_jar (root : unit_t) : Prop :=
  exists j, truthy j = true /\
    forall u up, within root (u :: up) ->
      federation_jar (u :: up) = Ok j /\ direct_jar (u :: up) = Ok j /\ (up <> [] -> upstream_jar up = Ok j).

Definition C152_full : Prop := forall root f u up, is_entity root f -> keys_on_top root f ->
  (exists v j, In v (root :: match f with [] => [] | w :: _ => [w] end) /\ own_keys v j) ->
  within root (u :: up) ->
  get_federation_entity (u :: up) = Ok (Some f) /\ one_jar root.

(** every part, however deep, finds the federation entity *)
Theorem C152_reach_partial : forall root f u up, is_entity root f -> within root (u :: up) ->
  get_federation_entity (u :: up) = Ok (Some f).
Proof.
  intros root f u up He. remember (u :: up) as p eqn:Ep. intros W. revert u up Ep.
  induction W as [|n v u' up' W IH Hin]; intros u up Ep.
  - inversion Ep; subst u up. destruct He as [K _ _|f K P Kf _ _]; cbn [get_federation_entity]; unfold is_federation; rewrite K.
    + reflexivity.
    + rewrite P. reflexivity.
  - inversion Ep; subst u up. specialize (IH _ _ eq_refl).
    cbn [get_federation_entity]. unfold is_federation. destruct (u_kind v) eqn:Kv; try exact IH.
    assert (W2 : within root (v :: u' :: up')) by (econstructor; eassumption).
    destruct He as [K H1 _|f K P Kf H1 _]; rewrite (H1 _ _ W2 Kv); reflexivity.
Qed.
Print Assumptions C152_reach_partial.

Lemma topmost_within : forall root p, within root p -> topmost_unit p = Some root.
Proof.
  intros root p W. induction W as [|n v u up W IH Hin]; [reflexivity|]. cbn [topmost_unit] in *. exact IH.
Qed.

(** the part that endpoints take from the topmost unit by name is the federation entity they get otherwise *)
Theorem C152_topmost_partial : forall root f w u up, is_entity root [f; w] -> within root (u :: up) ->
  exists t, topmost_unit (u :: up) = Some t /\ part "federation_entity" (u_parts t) = Some f /\
            get_federation_entity (u :: up) = Ok (Some [f; t]).
Proof.
  intros root f w u up He W. exists root. split; [apply topmost_within; exact W|].
  assert (E : [f; w] = [f; root] /\ part "federation_entity" (u_parts root) = Some f).
  { inversion He; subst; auto. }
  destruct E as [E P]. split; [exact P|]. rewrite <- E. apply (C152_reach_partial root); assumption.
Qed.
Print Assumptions C152_topmost_partial.

(** keys at the federation entity: everyone uses them *)
Theorem C152_keys_partial : forall root f rest j, is_entity root (f :: rest) -> keys_on_top root (f :: rest) ->
  own_keys f j -> (rest = [] \/ no_keys root) -> one_jar root.
Proof.
  intros root f rest j He Hk [Hj Tj] Hr. exists j. split; [exact Tj|].
  assert (A : forall p, within root p -> get_attribute p "keyjar" = Ok j).
  { intros p W. induction W as [|n v u up W IH Hin].
    - inversion He as [K H1 H2|f0 K P Kf H1 H2]; subst; cbn [get_attribute]; rewrite K.
      + rewrite Hj, Tj. reflexivity.
      + destruct Hr as [Hr|Hr]; [discriminate|]. unfold no_keys in Hr.
        destruct (dget "keyjar" (u_attrs root)) as [x|]; [rewrite Hr|];
          change (String.eqb "keyjar" "keyjar") with true; cbv iota; rewrite P, Hj; reflexivity.
    - assert (W2 : within root (v :: u :: up)) by (econstructor; eassumption).
      destruct (u_kind v) eqn:Kv.
      + exfalso. inversion He as [K H1 H2|f0 K P Kf H1 H2]; subst.
        * exact (H2 _ _ W2 Kv).
        * specialize (H2 _ _ W2 Kv). discriminate.
      + assert (Ev : v = f).
        { inversion He as [K H1 H2|f0 K P Kf H1 H2]; subst; specialize (H1 _ _ W2 Kv); congruence. }
        subst v. cbn [get_attribute]. rewrite Kv, Hj, Tj. reflexivity.
      + assert (N : no_keys v).
        { apply (Hk _ _ W2); [|discriminate]. intros E. inversion E; subst.
          inversion He; subst; congruence. }
        cbn [get_attribute] in *. rewrite Kv. unfold no_keys in N.
        destruct (dget "keyjar" (u_attrs v)) as [x|]; [|destruct N; congruence]. rewrite N. exact IH.
      + assert (N : no_keys v).
        { apply (Hk _ _ W2); [|discriminate]. intros E. inversion E; subst.
          inversion He; subst; congruence. }
        cbn [get_attribute] in *. rewrite Kv. unfold no_keys in N.
        destruct (dget "keyjar" (u_attrs v)) as [x|]; [rewrite N|]; exact IH.
      + assert (N : no_keys v).
        { apply (Hk _ _ W2); [|discriminate]. intros E. inversion E; subst.
          inversion He; subst; congruence. }
        cbn [get_attribute] in *. rewrite Kv. unfold no_keys in N.
        destruct (dget "keyjar" (u_attrs v)) as [x|]; [rewrite N|]; exact IH. }
  intros u up W. pose proof (C152_reach_partial root _ u up He W) as R.
  split; [|split].
  - unfold federation_jar. rewrite R. cbn [bind]. apply A.
    inversion He as [K H1 H2|f0 K P Kf H1 H2]; subst; [constructor|].
    eapply w_part; [constructor|].
    clear -P. induction (u_parts root) as [|[n x] l IH]; [discriminate|]. cbn [part] in P.
    destruct (String.eqb "federation_entity" n) eqn:E; [inversion P; subst; apply String.eqb_eq in E; subst n; left; reflexivity|].
    right. apply IH; exact P.
  - unfold direct_jar. rewrite R. cbn [bind]. rewrite Hj. reflexivity.
  - intros Hup. unfold upstream_jar. destruct up as [|u' up']; [congruence|]. apply A.
    inversion W; subst. assumption.
Qed.
Print Assumptions C152_keys_partial.

(** a combo with a federation entity, of which the three parts are there, and a trust mark issuer; [jf] and [jc] are the
    keys of the federation entity and of the combo *)
Definition ex_fed (jf : val) : unit_t :=
  mkUnit UFederation [("keyjar", jf)]
    [("client", mkUnit UFedPart [("keyjar", VNull)] []);
     ("server", mkUnit UFedPart [("keyjar", VNull)] []);
     ("function", mkUnit UOther [] [("verifier", mkUnit UOther [] [])])].

Definition ex_marks : unit_t := mkUnit UOther [("keyjar", VNull)] [].

Definition ex_root (jf jc : val) : unit_t :=
  mkUnit UCombo [("keyjar", jc)] [("federation_entity", ex_fed jf); ("trust_mark_entity", ex_marks)].

Lemma ex_places : forall jf jc p, within (ex_root jf jc) p ->
  In p [[ex_root jf jc];
        [ex_fed jf; ex_root jf jc];
        [ex_marks; ex_root jf jc];
        [mkUnit UFedPart [("keyjar", VNull)] []; ex_fed jf; ex_root jf jc];
        [mkUnit UOther [] [("verifier", mkUnit UOther [] [])]; ex_fed jf; ex_root jf jc];
        [mkUnit UOther [] []; mkUnit UOther [] [("verifier", mkUnit UOther [] [])]; ex_fed jf; ex_root jf jc]].
Proof.
  intros jf jc p W. induction W as [|n v u up W IH Hin]; [left; reflexivity|].
  cbn [In] in IH. destruct IH as [E|[E|[E|[E|[E|[E|[]]]]]]]; inversion E; subst; cbn [u_parts ex_root ex_fed ex_marks In] in Hin.
  - destruct Hin as [H|[H|[]]]; inversion H; subst; cbn [In]; auto.
  - destruct Hin as [H|[H|[H|[]]]]; inversion H; subst; cbn [In]; auto 10.
  - destruct Hin.
  - destruct Hin.
  - destruct Hin as [H|[]]; inversion H; subst; cbn [In]; auto 10.
  - destruct Hin.
Qed.

Lemma ex_entity : forall jf jc, is_entity (ex_root jf jc) [ex_fed jf; ex_root jf jc].
Proof.
  intros jf jc. apply e_combo; try reflexivity; intros u up W K; apply ex_places in W; cbn [In] in W;
    destruct W as [E|[E|[E|[E|[E|[E|[]]]]]]]; inversion E; subst; try reflexivity; discriminate.
Qed.

Lemma ex_on_top : forall jf jc, keys_on_top (ex_root jf jc) [ex_fed jf; ex_root jf jc].
Proof.
  intros jf jc u up W N1 N2. apply ex_places in W; cbn [In] in W;
    destruct W as [E|[E|[E|[E|[E|[E|[]]]]]]]; inversion E; subst; try congruence; try reflexivity; left; reflexivity.
Qed.

Definition ex_j1 : val := VDict [("", VInt 1)].
Definition ex_j2 : val := VDict [("", VInt 2)].

(** with keys at both, a trust mark is signed with those of the federation entity and read with those of the combo *)
Theorem C152_refuted : ~ C152_full.
Proof.
  intros H. destruct (H _ _ _ _ (ex_entity ex_j1 ex_j2) (ex_on_top ex_j1 ex_j2)
    (ex_intro _ (ex_root ex_j1 ex_j2) (ex_intro _ ex_j2 (conj (or_introl eq_refl) (conj eq_refl eq_refl))))
    (w_root (ex_root ex_j1 ex_j2))) as [_ [j [_ A]]].
  destruct (A ex_marks [ex_root ex_j1 ex_j2]) as (_ & B & C).
  - eapply (w_part _ "trust_mark_entity"); [constructor|]. right; left; reflexivity.
  - specialize (C ltac:(discriminate)). revert B C. vm_compute. intros B C. rewrite <- B in C. discriminate.
Qed.
Print Assumptions C152_refuted.

(** keys at the combo only: those who ask for the attribute get them, those who take that of the federation entity
    get none *)
Theorem C152_combo : forall root f w j, is_entity root [f; w] -> own_keys root j ->
  (forall v, dget "keyjar" (u_attrs f) = Some v -> truthy v = false) ->
  forall u up, within root (u :: up) ->
    federation_jar (u :: up) = Ok j /\ forall v, direct_jar (u :: up) = Ok v -> truthy v = false.
Proof.
  intros root f w j He [Hj Tj] Hf u up W.
  pose proof (C152_reach_partial root _ u up He W) as R.
  inversion He as [|f0 K P Kf H1 H2]; subst. split.
  - unfold federation_jar. rewrite R. cbn [bind get_attribute]. rewrite Kf, K, Hj, Tj.
    destruct (dget "keyjar" (u_attrs f)) as [x|] eqn:E; [rewrite (Hf _ eq_refl)|]; reflexivity.
  - intros v. unfold direct_jar. rewrite R. cbn [bind].
    destruct (dget "keyjar" (u_attrs f)) as [x|] eqn:E; [|discriminate].
    intros Hv; inversion Hv; subst. apply Hf; reflexivity.
Qed.
Print Assumptions C152_combo.

Example C152_ex :
  one_jar (ex_root ex_j1 VNull) /\
  get_federation_entity [mkUnit UOther [] []; mkUnit UOther [] [("verifier", mkUnit UOther [] [])]; ex_fed ex_j1; ex_root ex_j1 VNull]
    = Ok (Some [ex_fed ex_j1; ex_root ex_j1 VNull]) /\
  direct_jar [ex_marks; ex_root VNull ex_j2] = Ok VNull /\
  federation_jar [ex_marks; ex_root VNull ex_j2] = Ok ex_j2.
Proof.
  split.
  - apply (C152_keys_partial _ _ _ ex_j1 (ex_entity ex_j1 VNull) (ex_on_top ex_j1 VNull)).
    + split; reflexivity.
    + right. reflexivity.
  - repeat split.
Qed.
