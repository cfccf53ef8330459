(** The list endpoint (C52, C71). *)
From Verif Require Import PyFacts ListModel.

(** ** Vocabulary *)

Definition ids_of (r : list_response) : list string :=
  match r with LIds l => l | LConfs d => dkeys d end.

(** the filters of a request *)
Definition wants_intermediates (q : dict val) : Prop := exists v, dget "intermediate" q = Some v /\ truthy v = true.
Definition wants_type (q : dict val) (t : string) : Prop := dget "entity_type" q = Some (VStr t).
Definition wants_marked (q : dict val) : Prop := exists v, dget "trust_marked" q = Some v /\ truthy v = true.
Definition wants_mark (q : dict val) (m : string) : Prop := dget "trust_mark_id" q = Some (VStr m) /\ m <> "".

(** the entity configuration published by an entity *)
Definition publishes (V : list_env) (e : string) (c : dict val) : Prop := exists k, li_ec V e = Ok (ECJws k c).

(** what the filters ask of a subordinate *)
Definition intermediate (item : dict val) : Prop := exists v, dget "intermediate" item = Some v /\ truthy v = true.
Definition of_type (t : string) (item : dict val) : Prop :=
  exists ts, dget "entity_type" item = Some (VList ts) /\ In (VStr t) ts.
Definition marked (V : list_env) (e : string) : Prop := exists c v, publishes V e c /\ dget "trust_marks" c = Some v.
Definition has_trust_mark (V : list_env) (m e : string) : Prop :=
  exists c marks d, publishes V e c /\ dget "trust_marks" c = Some (VList marks) /\ In (VDict d) marks /\
                    dget "id" d = Some (VStr m).

Definition satisfies (V : list_env) (q : dict val) (e : string) (item : dict val) : Prop :=
  (wants_intermediates q -> intermediate item) /\
  (forall t, wants_type q t -> of_type t item) /\
  (wants_marked q -> marked V e) /\
  (forall m, wants_mark q m -> has_trust_mark V m e).

(** registrations have lists of entity types, configurations lists of trust marks *)
Definition typed (V : list_env) (db : dict (dict val)) : Prop :=
  NoDup (dkeys db) /\
  (forall e item ts, dget e db = Some item -> dget "entity_type" item = Some ts -> exists l, ts = VList l) /\
  (forall e c ms, publishes V e c -> dget "trust_marks" c = Some ms -> exists l, ms = VList l).

(** the filters are given in the form the client of the library gives them (entity/client/list.py:49-53) *)
Definition proper_request (q : dict val) : Prop :=
  (forall v, dget "intermediate" q = Some v -> truthy v = true) /\
  (forall v, dget "entity_type" q = Some v -> exists t, v = VStr t /\ t <> "") /\
  (forall v, dget "trust_marked" q = Some v -> truthy v = true) /\
  (forall v, dget "trust_mark_id" q = Some v -> exists m, v = VStr m /\ m <> "").

Definition given (k : string) (q : dict val) : Prop := exists v, dget k q = Some v.

(** exactly one kind of filter: intermediates, a type, or trust marks *)
Definition one_kind (q : dict val) : Prop :=
  (given "intermediate" q /\ ~ given "entity_type" q /\ ~ given "trust_marked" q /\ ~ given "trust_mark_id" q) \/
  (~ given "intermediate" q /\ given "entity_type" q /\ ~ given "trust_marked" q /\ ~ given "trust_mark_id" q) \/
  (~ given "intermediate" q /\ ~ given "entity_type" q /\ (given "trust_marked" q \/ given "trust_mark_id" q)).

(** ** Lemmas *)
Lemma sadd_In x y s : In x (sadd y s) <-> In x s \/ x = y.
Proof.
  unfold sadd. destruct (smem y s) eqn:E.
  - apply smem_In in E. split; [tauto | intros [H | ->]; assumption].
  - rewrite in_app_iff. simpl. intuition congruence.
Qed.

Lemma sadd_NoDup y s : NoDup s -> NoDup (sadd y s).
Proof.
  unfold sadd. destruct (smem y s) eqn:E; [tauto|]. apply smem_false in E.
  intros N. apply (Permutation_NoDup (l := y :: s)); [apply Permutation_cons_append | constructor; assumption].
Qed.

Lemma sadds_In x l s : In x (fold_left (fun acc x => sadd x acc) l s) <-> In x s \/ In x l.
Proof.
  revert s; induction l as [|y l IH]; intros s; simpl; [tauto|].
  rewrite IH, sadd_In. intuition congruence.
Qed.

Lemma sadds_NoDup l s : NoDup s -> NoDup (fold_left (fun acc x => sadd x acc) l s).
Proof. revert s; induction l as [|y l IH]; intros s N; simpl; [exact N|]. apply IH, sadd_NoDup, N. Qed.

(** registered data that match *)
Definition known (q item : dict val) : Prop :=
  (wants_intermediates q /\ intermediate item) \/
  (exists t ts, dget "entity_type" q = Some t /\ dget "entity_type" item = Some ts /\ py_in t ts = Ok true).

Lemma set_and_true_spec k d : set_and_true k d = true <-> exists v, dget k d = Some v /\ truthy v = true.
Proof.
  unfold set_and_true. destruct (dget k d) as [v|]; split; intros H; try discriminate.
  - exists v; split; [reflexivity | exact H].
  - destruct H as [w [E H]]. injection E as ->. exact H.
  - destruct H as [w [E H]]. discriminate.
Qed.

Lemma known_match_ok q s id item s' : known_match q s (id, item) = Ok s' ->
  (known q item -> s' = sadd id s) /\ (~ known q item -> s' = s) /\ (known q item \/ ~ known q item).
Proof.
  unfold known_match. intros H.
  destruct (set_and_true "intermediate" q && set_and_true "intermediate" item) eqn:E.
  - injection H as <-. apply andb_true_iff in E as [E1 E2].
    apply set_and_true_spec in E1, E2. assert (K : known q item) by (left; split; assumption).
    split; [reflexivity|]. split; [intros N; contradiction | left; exact K].
  - assert (NI : ~ (wants_intermediates q /\ intermediate item)).
    { intros [A B]. apply set_and_true_spec in A, B. rewrite A, B in E. discriminate. }
    destruct (dget "entity_type" q) as [t|] eqn:ET.
    + destruct (dindex "entity_type" item) as [ts|] eqn:EI; [|discriminate]. cbn [bind] in H.
      apply dindex_ok in EI. destruct (py_in t ts) as [b|] eqn:EP; [|discriminate]. cbn [bind] in H. injection H as <-.
      destruct b.
      * assert (K : known q item) by (right; exists t, ts; split; [exact ET | split; assumption]).
        split; [reflexivity|]. split; [intros N; contradiction | left; exact K].
      * assert (K : ~ known q item).
        { intros [A | [t' [ts' [A [B C]]]]]; [exact (NI A)|].
          rewrite ET in A. injection A as <-. rewrite EI in B. injection B as <-. rewrite EP in C. discriminate. }
        split; [intros A; contradiction|]. split; [reflexivity | right; exact K].
    + injection H as <-.
      assert (K : ~ known q item).
      { intros [A | [t' [ts' [A _]]]]; [exact (NI A)|]. rewrite ET in A. discriminate. }
      split; [intros A; contradiction|]. split; [reflexivity | right; exact K].
Qed.

Lemma known_fold q db : forall s0 s, foldM (known_match q) db s0 = Ok s ->
  (NoDup s0 -> NoDup s) /\
  (forall e, In e s <-> In e s0 \/ exists item, In (e, item) db /\ known q item).
Proof.
  induction db as [|[id item] db IH]; intros s0 s H; cbn [foldM] in H.
  - injection H as <-. split; [tauto|]. intros e. split; [tauto|]. intros [H|[i [[] _]]]; exact H.
  - destruct (known_match q s0 (id, item)) as [s1|] eqn:E; [|discriminate].
    apply known_match_ok in E as [E1 [E2 E3]]. destruct (IH _ _ H) as [H1 H2]. split.
    + intros N. apply H1. destruct E3 as [K|K]; [rewrite (E1 K); apply sadd_NoDup, N | rewrite (E2 K); exact N].
    + intros e. rewrite H2. destruct E3 as [K|K].
      * rewrite (E1 K), sadd_In. split.
        -- intros [[A | ->]|[i [A B]]]; [tauto | right; exists item; split; [left; reflexivity | exact K]
                                        | right; exists i; split; [right; exact A | exact B]].
        -- intros [A|[i [[A|A] B]]]; [tauto | injection A as -> ->; tauto | right; exists i; split; assumption].
      * rewrite (E2 K). split.
        -- intros [A|[i [A B]]]; [tauto | right; exists i; split; [right; exact A | exact B]].
        -- intros [A|[i [[A|A] B]]]; [tauto | injection A as -> ->; contradiction | right; exists i; split; assumption].
Qed.

(** the collected configurations *)
Definition step (V : list_env) (st : keyjar * dict (dict val)) (e : string * dict val) : res (keyjar * dict (dict val)) :=
  let (kj, sub) := st in
  let (id, conf) := e in
  let* t := li_ec V id in
  let* jwks := dindex "jwks" conf in
  let* ks := li_jwks V jwks in
  let kj := dset id (keys_of kj id ++ ks) kj in
  let* ec := unpack V kj t in
  Ok (kj, dset id ec sub).

(** the keys registered for a subordinate *)
Definition registered_key (V : list_env) (db : dict (dict val)) (e : string) (k : key) : Prop :=
  exists item jwks ks, In (e, item) db /\ dget "jwks" item = Some jwks /\ li_jwks V jwks = Ok ks /\ In k ks.

Lemma kmem_In k l : kmem k l = true <-> In k l.
Proof.
  unfold kmem. rewrite existsb_exists. split.
  - intros [x [H E]]. apply PeanoNat.Nat.eqb_eq in E. subst; exact H.
  - intros H. exists k. split; [exact H | apply PeanoNat.Nat.eqb_refl].
Qed.

Lemma unpack_ok V kj t c : unpack V kj t = Ok c ->
  exists signer iss, t = ECJws signer c /\ dget "iss" c = Some (VStr iss) /\ In signer (keys_of kj iss).
Proof.
  destruct t as [|signer claims]; [discriminate|]. unfold unpack.
  destruct (dget "iss" claims) as [[]|] eqn:EI; try discriminate.
  destruct (filter _ _) as [|k ks] eqn:EF; [discriminate|].
  destruct (kmem signer (k :: ks)) eqn:EK; [|discriminate]. destruct (li_valid V claims); [|discriminate].
  intros H. injection H as <-. exists signer, s. split; [reflexivity|]. split; [exact EI|].
  apply kmem_In in EK. rewrite <- EF in EK. apply filter_In in EK. tauto.
Qed.

Lemma collect_fold V db : forall done st st',
  (forall e k, In k (keys_of (fst st) e) -> registered_key V done e k) ->
  foldM (step V) db st = Ok st' ->
  (forall e k, In k (keys_of (fst st') e) -> registered_key V (done ++ db) e k) /\
  (forall e c, dget e (snd st') = Some c ->
     dget e (snd st) = Some c \/
     (In e (dkeys db) /\ exists k iss, li_ec V e = Ok (ECJws k c) /\ dget "iss" c = Some (VStr iss) /\
                                  registered_key V (done ++ db) iss k)) /\
  (forall e, (In e (dkeys db) \/ dmem e (snd st) = true) -> exists c, dget e (snd st') = Some c).
Proof.
  induction db as [|[id conf] db IH]; intros done [kj sub] st' HK H; cbn [foldM] in H.
  - injection H as <-. split; [|split].
    + intros e k A. rewrite app_nil_r. apply HK, A.
    + intros e c A. left; exact A.
    + intros e [[]|A]. apply dmem_some in A. exact A.
  - destruct (step V (kj, sub) (id, conf)) as [st1|] eqn:E; [|discriminate].
    unfold step in E. destruct (li_ec V id) as [t|] eqn:ET; [|discriminate].
    destruct (dindex "jwks" conf) as [jw|] eqn:EJ; [|discriminate]. apply dindex_ok in EJ.
    cbn [bind] in E. destruct (li_jwks V jw) as [ks|] eqn:EK; [|discriminate]. cbn [bind] in E.
    destruct (unpack V _ t) as [ec|] eqn:EU; [|discriminate]. cbn [bind] in E. injection E as <-.
    apply unpack_ok in EU as [signer [iss [-> [EI ES]]]].
    assert (R : forall e k, In k (keys_of (dset id (keys_of kj id ++ ks) kj) e) ->
                            registered_key V (done ++ [(id, conf)]) e k).
    { intros e k A. unfold keys_of in A. rewrite dget_dset in A. destruct (String.eqb e id) eqn:EE.
      - apply String.eqb_eq in EE. subst e. apply in_app_or in A as [A|A].
        + destruct (HK id k A) as [i [j [l [B1 B2]]]]. exists i, j, l. split; [apply in_or_app; left; exact B1 | exact B2].
        + exists conf, jw, ks. split; [apply in_or_app; right; left; reflexivity|]. split; [exact EJ|]. split; assumption.
      - destruct (HK e k A) as [i [j [l [B1 B2]]]]. exists i, j, l. split; [apply in_or_app; left; exact B1 | exact B2]. }
    destruct (IH (done ++ [(id, conf)]) (dset id (keys_of kj id ++ ks) kj, dset id ec sub) st' R H) as [I1 [I2 I3]].
    rewrite <- app_assoc in I1, I2. cbn [app] in I1, I2. cbn [snd fst] in *.
    split; [exact I1|]. split.
    + intros e c A. destruct (I2 e c A) as [B|[B1 B2]].
      * rewrite dget_dset in B. destruct (String.eqb e id) eqn:EE.
        -- apply String.eqb_eq in EE. subst e. injection B as <-. right. split; [left; reflexivity|].
           exists signer, iss. split; [exact ET|]. split; [exact EI|].
           destruct (R iss signer ES) as [i [j [l [B1 B2]]]]. exists i, j, l. split; [|exact B2].
           apply in_app_or in B1. apply in_or_app. destruct B1 as [B1|[B1|[]]]; [left; exact B1 | right; left; exact B1].
        -- left; exact B.
      * right. split; [right; exact B1 | exact B2].
    + intros e A. apply I3. destruct A as [[A|A]|A].
      * subst e. right. apply dmem_some. exists ec. cbn [fst snd] in *. rewrite dget_dset, String.eqb_refl. reflexivity.
      * left; exact A.
      * right. apply dmem_some in A as [c A]. apply dmem_some. rewrite dget_dset.
        destruct (String.eqb e id); [exists ec | exists c]; [reflexivity | exact A].
Qed.

Lemma collect_ok V db sub : collect_subordinates V db = Ok sub ->
  (forall e c, dget e sub = Some c -> In e (dkeys db) /\
     exists k iss, li_ec V e = Ok (ECJws k c) /\ dget "iss" c = Some (VStr iss) /\ registered_key V db iss k) /\
  (forall e, In e (dkeys db) -> exists c, dget e sub = Some c) /\
  (NoDup (dkeys sub)).
Proof.
  unfold collect_subordinates. change (fun st e => _) with (step V).
  intros H. destruct (foldM (step V) db ([], [])) as [st|] eqn:E; [|discriminate]. cbn [bind] in H. injection H as <-.
  destruct (collect_fold V db [] ([], []) st) as [_ [A B]]; [intros e k [] | exact E|].
  cbn [app snd dmem dget] in A, B. split; [|split].
  - intros e c D. destruct (A e c D) as [D'|D']; [discriminate | exact D'].
  - intros e D. apply B. left; exact D.
  - apply (foldM_inv _ _ (step V) (fun st => NoDup (dkeys (snd st))) db ([], []) st); [|constructor | exact E].
    intros [kj s] [id conf] st'. unfold step. intros _ N S.
    destruct (li_ec V id); [|discriminate]. cbn [bind] in S.
    destruct (dindex "jwks" conf); [|discriminate]. cbn [bind] in S.
    destruct (li_jwks V a0); [|discriminate]. cbn [bind] in S.
    destruct (unpack V _ _); [|discriminate]. cbn [bind] in S. injection S as <-. apply NoDup_dset. exact N.
Qed.

Lemma filter_fold q sub : forall acc found,
  foldM (fun (acc : list string) (e : string * dict val) =>
           let* m := matches q (snd e) in Ok (if m then acc ++ [fst e] else acc)) sub acc = Ok found ->
  forall e, In e found <-> In e acc \/ exists c, In (e, c) sub /\ matches q c = Ok true.
Proof.
  induction sub as [|[id c] sub IH]; intros acc found H e; cbn [foldM fst snd] in H.
  - injection H as <-. split; [tauto | intros [A|[c [[] _]]]; exact A].
  - destruct (matches q c) as [m|] eqn:E; [|discriminate]. cbn [bind] in H.
    rewrite (IH _ _ H e). destruct m.
    + rewrite in_app_iff. cbn [In]. split.
      * intros [[A|[<-|[]]]|[c' [A B]]]; [left; exact A | right; exists c; split; [left; reflexivity | exact E]
                                        | right; exists c'; split; [right; exact A | exact B]].
      * intros [A|[c' [[A|A] B]]]; [tauto | injection A as -> ->; tauto | right; exists c'; split; assumption].
    + split.
      * intros [A|[c' [A B]]]; [left; exact A | right; exists c'; split; [right; exact A | exact B]].
      * intros [A|[c' [[A|A] B]]]; [left; exact A | injection A as -> ->; congruence | right; exists c'; split; assumption].
Qed.

Lemma filter_all_ok q sub : forall acc found,
  foldM (fun (acc : list string) (e : string * dict val) =>
           let* m := matches q (snd e) in Ok (if m then acc ++ [fst e] else acc)) sub acc = Ok found ->
  forall e c, In (e, c) sub -> exists b, matches q c = Ok b.
Proof.
  induction sub as [|[id c0] sub IH]; intros acc found H e c I; [destruct I|]. cbn [foldM fst snd] in H.
  destruct (matches q c0) as [m|] eqn:E; [|discriminate]. cbn [bind] in H.
  destruct I as [I|I]; [injection I as <- <-; eauto | exact (IH _ _ H e c I)].
Qed.

Lemma mapM_dkeys {A} (d : dict A) l r : mapM (fun id => let* c := dindex id d in Ok (id, c)) l = Ok r -> dkeys r = l.
Proof.
  revert r; induction l as [|x l IH]; intros r H; cbn [mapM] in H.
  - injection H as <-. reflexivity.
  - destruct (dindex x d) as [c|]; [|discriminate]. cbn [bind] in H.
    destruct (mapM _ l) as [r'|] eqn:E; [|discriminate]. injection H as <-. cbn [dkeys map fst].
    f_equal. apply IH. reflexivity.
Qed.

Definition only_caller (q : dict val) : Prop := forall k, In k (dkeys q) -> k = "client_id" \/ k = "authenticated".

Lemma only_caller_spec q : forallb (fun k => smem k ["client_id"; "authenticated"]) (dkeys q) = true <-> only_caller q.
Proof.
  rewrite forallb_forall. unfold only_caller. split; intros H k A.
  - apply H, smem_In in A. simpl in A. intuition.
  - apply smem_In. destruct (H k A) as [-> | ->]; simpl; tauto.
Qed.

(** the answer to a request with other parameters: whoever matches one way or the other *)
Definition via_config (V : list_env) (q : dict val) (e : string) : Prop :=
  (given "trust_marked" q \/ given "trust_mark_id" q) /\
  exists c, publishes V e c /\ matches q c = Ok true.

Lemma given_dmem k (q : dict val) : dmem k q = true <-> given k q.
Proof. apply dmem_some. Qed.

Lemma process_any O V q db r : NoDup (dkeys db) -> ~ only_caller q -> process O V q db = Ok r ->
  NoDup (ids_of r) /\
  (forall e, In e (ids_of r) <-> exists item, dget e db = Some item /\ (known q item \/ via_config V q e)) /\
  ((given "trust_marked" q \/ given "trust_mark_id" q) -> forall e item, dget e db = Some item ->
     exists c b, publishes V e c /\ matches q c = Ok b).
Proof.
  intros ND NC H. unfold process in H.
  destruct (forallb _ (dkeys q)) eqn:EF; [apply only_caller_spec in EF; contradiction|]. clear EF.
  destruct (foldM (known_match q) db []) as [s|] eqn:EK; [|discriminate]. cbn [bind] in H.
  apply known_fold in EK as [K1 K2]. specialize (K1 (NoDup_nil _)).
  assert (K3 : forall e, In e s <-> exists item, dget e db = Some item /\ known q item).
  { intros e. rewrite K2. split.
    - intros [[]|[i [A B]]]. exists i. split; [apply In_dget_nodup; assumption | exact B].
    - intros [i [A B]]. right. exists i. split; [apply dget_In, A | exact B]. }
  destruct (dmem "trust_marked" q || dmem "trust_mark_id" q) eqn:ET.
  - assert (G : given "trust_marked" q \/ given "trust_mark_id" q).
    { apply orb_true_iff in ET. rewrite !given_dmem in ET. exact ET. }
    destruct (collect_subordinates V db) as [sub|] eqn:EC; [|discriminate]. cbn [bind] in H.
    destruct (filter_subs q sub) as [found|] eqn:EF; [|discriminate]. cbn [bind] in H.
    apply collect_ok in EC as [C1 [C2 C3]].
    unfold filter_subs in EF. destruct (dmem "subordinates" q || dmem "self" q); [discriminate|].
    pose proof (filter_fold q sub [] found EF) as FF.
    set (s2 := fold_left (fun acc x => sadd x acc) found s) in *.
    assert (I : ids_of r = ios O s2).
    { destruct (li_extended V && negb (is_nil sub)).
      - destruct (mapM _ (ios O s2)) as [l|] eqn:EM; [|discriminate]. cbn [bind] in H. injection H as <-.
        simpl. eapply mapM_dkeys; exact EM.
      - injection H as <-. reflexivity. }
    rewrite I. split; [|split].
    + apply ios_NoDup, sadds_NoDup, K1.
    + intros e. rewrite ios_In. unfold s2. rewrite sadds_In, K3, FF. split.
      * intros [[i [A B]]|[[]|[c [A B]]]]; [exists i; split; [exact A | left; exact B]|].
        apply In_dget_nodup in A; [|exact C3]. destruct (C1 e c A) as [D [k [iss [E1 _]]]].
        destruct (key_In_dget _ e db D) as [i Ei]. exists i. split; [exact Ei|]. right.
        split; [exact G|]. exists c. split; [exists k; exact E1 | exact B].
      * intros [i [A [B|[_ [c [[k E1] B]]]]]]; [left; exists i; split; assumption|]. right. right.
        destruct (C2 e (dget_In_key _ _ _ _ A)) as [c' E2]. destruct (C1 e c' E2) as [_ [k' [iss [E3 _]]]].
        rewrite E1 in E3. injection E3 as -> ->. exists c'. split; [apply dget_In, E2 | exact B].
    + intros _ e item A. destruct (C2 e (dget_In_key _ _ _ _ A)) as [c E2]. destruct (C1 e c E2) as [_ [k [iss [E3 _]]]].
      assert (B : exists b, matches q c = Ok b).
      { exact (filter_all_ok q sub [] found EF e c (dget_In _ _ _ _ E2)). }
      destruct B as [b B]. exists c, b. split; [exists k; exact E3 | exact B].
  - injection H as <-. simpl ids_of. apply orb_false_iff in ET as [ET1 ET2].
    assert (G : ~ (given "trust_marked" q \/ given "trust_mark_id" q)).
    { intros [[v A]|[v A]]; apply dmem_false in ET1, ET2; congruence. }
    split; [apply ios_NoDup, K1|]. split; [|intros A; contradiction].
    intros e. rewrite ios_In, K3. split.
    + intros [i [A B]]. exists i. split; [exact A | left; exact B].
    + intros [i [A [B|[B _]]]]; [exists i; split; assumption | contradiction].
Qed.

Lemma has_mark_ok m : forall l b0 b,
  foldM (fun (b : bool) (x : val) =>
           match x with
           | VDict d => let* i := dindex "id" d in Ok (if py_eqb i (VStr m) then true else b)
           | _ => Err TypeError
           end) l b0 = Ok b ->
  (b = true <-> b0 = true \/ exists d, In (VDict d) l /\ dget "id" d = Some (VStr m)).
Proof.
  induction l as [|x l IH]; intros b0 b H; cbn [foldM] in H.
  - injection H as <-. split; [tauto | intros [A|[d [[] _]]]; exact A].
  - destruct x as [| | | | |d]; try discriminate.
    destruct (dindex "id" d) as [i|] eqn:EI; [|discriminate]. cbn [bind] in H. apply dindex_ok in EI.
    rewrite (IH _ _ H). destruct (py_eqb i (VStr m)) eqn:EE.
    + assert (i = VStr m).
      { destruct i; try discriminate. simpl in EE. apply String.eqb_eq in EE. congruence. }
      subst i. split; [intros _; right; exists d; split; [left; reflexivity | exact EI] | tauto].
    + split.
      * intros [A|[d' [A B]]]; [tauto | right; exists d'; split; [right; exact A | exact B]].
      * intros [A|[d' [[A|A] B]]]; [tauto | | right; exists d'; split; assumption].
        injection A as ->. rewrite EI in B. injection B as ->. simpl in EE. rewrite String.eqb_refl in EE. discriminate.
Qed.

Lemma In_vmem_str t ts : vmem (VStr t) ts = true <-> In (VStr t) ts.
Proof.
  rewrite vmem_true. split.
  - intros [y [A B]]. destruct y; try discriminate. simpl in B. apply String.eqb_eq in B. subst. exact A.
  - intros A. exists (VStr t). split; [exact A|]. simpl. apply String.eqb_refl.
Qed.

(** ** C52 *)

(** full statement *)
Definition C52_full : Prop := forall O V q db r,
  typed V db -> process O V q db = Ok r ->
  NoDup (ids_of r) /\
  forall e, In e (ids_of r) <-> exists item, dget e db = Some item /\ satisfies V q e item.

Definition ex_env : list_env := mkListEnv
  (fun e => if String.eqb e "op"
            then Ok (ECJws 2 [("iss", VStr "op"); ("sub", VStr "op");
                              ("metadata", VDict [("openid_provider", VDict [])]);
                              ("trust_marks", VList [VDict [("id", VStr "tm1"); ("trust_mark", VStr "jws")]])])
            else if String.eqb e "im"
            then Ok (ECJws 1 [("iss", VStr "im"); ("sub", VStr "im");
                              ("metadata", VDict [("federation_entity", VDict [])]);
                              ("trust_marks", VList [])])
            else if String.eqb e "rp"
            then Ok (ECJws 3 [("iss", VStr "rp"); ("sub", VStr "rp"); ("trust_marks", VList []);
                              ("metadata", VDict [("openid_relying_party", VDict [])])])
            else Err UnknownEntity)
  (fun v => match v with VList l => Ok (flat_map (fun x => match x with VInt z => [Z.to_nat z] | _ => [] end) l) | _ => Err ValueError end)
  (fun _ _ => true) (fun _ => true) false.

Definition ex_db : dict (dict val) :=
  [("im", [("jwks", VList [VInt 1]); ("intermediate", VBool true); ("entity_type", VList [VStr "federation_entity"])]);
   ("op", [("jwks", VList [VInt 2]); ("entity_type", VList [VStr "federation_entity"; VStr "openid_provider"])]);
   ("rp", [("jwks", VList [VInt 3]); ("entity_type", VList [VStr "openid_relying_party"])])].

Lemma ex_typed : typed ex_env ex_db.
Proof.
  split; [|split].
  - repeat (constructor; [simpl; intuition discriminate|]). constructor.
  - intros e item ts A B. apply dget_In in A. simpl in A.
    repeat destruct A as [A|A]; try contradiction; injection A as <- <-; simpl in B; injection B as <-; eauto.
  - intros e c ms [k A] B. simpl in A.
    destruct (String.eqb e "op"); [injection A as <- <-; simpl in B; injection B as <-; eauto|].
    destruct (String.eqb e "im"); [injection A as <- <-; simpl in B; injection B as <-; eauto|].
    destruct (String.eqb e "rp"); [injection A as <- <-; simpl in B; injection B as <-; eauto|]. discriminate.
Qed.

(** the filters are alternatives: op is listed though it is not an intermediate *)
Theorem C52_all_filters_refuted : ~ C52_full.
Proof.
  intros F.
  destruct (F id_order ex_env [("intermediate", VBool true); ("entity_type", VStr "openid_provider")] ex_db
              (LIds ["im"; "op"]) ex_typed eq_refl) as [_ A].
  destruct (proj1 (A "op") (or_intror (or_introl eq_refl))) as [item [E [I _]]].
  simpl in E. injection E as <-.
  destruct I as [v [H _]]; [exists (VBool true); split; reflexivity|]. discriminate.
Qed.

(** with a filter on trust marks the filter on the type is dropped *)
Example C52_type_dropped : exists e,
  process id_order ex_env [("entity_type", VStr "no_such_type"); ("trust_mark_id", VStr "tm1")] ex_db = Ok (LIds [e]).
Proof. exists "op". vm_compute. reflexivity. Qed.

(** A subordinate registered the way the fetch endpoint reads it (fetch.py:59, "entity_types") cannot be found
    by type: the whole request fails. *)
Definition C52_types_full : Prop := forall O V t db,
  (forall e item, dget e db = Some item -> exists l, dget "entity_types" item = Some (VList l)) ->
  exists r, process O V [("entity_type", VStr t)] db = Ok r.

Theorem C52_entity_types_refuted : ~ C52_types_full.
Proof.
  intros F.
  destruct (F id_order ex_env "openid_provider" [("op", [("jwks", VList [VInt 2]); ("entity_types", VList [VStr "openid_provider"])])]) as [r H].
  - intros e item A. apply dget_In in A. destruct A as [A|[]]. injection A as <- <-. simpl. eauto.
  - vm_compute in H. discriminate.
Qed.

(** no filter: every subordinate, each once *)
Theorem C52_no_filter : forall O V q db, NoDup (dkeys db) -> only_caller q ->
  exists l, process O V q db = Ok (LIds l) /\ NoDup l /\ forall e, In e l <-> exists item, dget e db = Some item.
Proof.
  intros O V q db N C. exists (dkeys db). split; [|split].
  - unfold process. apply only_caller_spec in C. rewrite C. reflexivity.
  - exact N.
  - intros e. split; [apply key_In_dget | intros [i A]; eapply dget_In_key, A].
Qed.

(** Missing from the full statement: requests with filters of more than one kind (the answer is then the union), with
    filters that are switched off, and with none of the known parameters. *)
Theorem C52_matching_partial : forall O V q db r,
  typed V db -> proper_request q -> one_kind q -> process O V q db = Ok r ->
  NoDup (ids_of r) /\
  forall e, In e (ids_of r) <-> exists item, dget e db = Some item /\ satisfies V q e item.
Proof.
  intros O V q db r [ND [T1 T2]] [P1 [P2 [P3 P4]]] K H.
  assert (NC : ~ only_caller q).
  { intros C. assert (X : forall k, given k q -> k = "client_id" \/ k = "authenticated").
    { intros k [v A]. apply C. eapply dget_In_key, A. }
    destruct K as [[A _]|[[_ [A _]]|[_ [_ [A|A]]]]]; destruct (X _ A); discriminate. }
  destruct (process_any O V q db r ND NC H) as [A1 [A2 A3]]. split; [exact A1|].
  intros e. rewrite A2. clear A1 A2 NC H.
  destruct K as [[G1 [G2 [G3 G4]]]|[[G1 [G2 [G3 G4]]]|[G1 [G2 G3]]]].
  - (* intermediates *)
    split; intros [item [D X]]; exists item; (split; [exact D|]).
    + destruct X as [[[_ X]|[t [ts [X _]]]]|[[X|X] _]]; [| destruct G2; eexists; exact X | contradiction | contradiction].
      split; [intros _; exact X|]. split; [intros t B; destruct G2; eexists; exact B|].
      split; [intros [v [B _]]; destruct G3; eexists; exact B | intros m [B _]; destruct G4; eexists; exact B].
    + destruct X as [X _]. left. left. destruct G1 as [v G1].
      assert (W : wants_intermediates q) by (exists v; split; [exact G1 | apply P1, G1]).
      split; [exact W | apply X, W].
  - (* a type *)
    destruct G2 as [tv G2]. destruct (P2 _ G2) as [t [-> Ht]].
    split; intros [item [D X]]; exists item; (split; [exact D|]).
    + destruct X as [[[[v [B _]] _]|[t' [ts [X1 [X2 X3]]]]]|[[X|X] _]]; [destruct G1; eexists; exact B | | contradiction | contradiction].
      rewrite G2 in X1. injection X1 as <-. destruct (T1 e item ts D X2) as [l ->]. simpl in X3. injection X3 as X3.
      apply In_vmem_str in X3.
      split; [intros [v [B _]]; destruct G1; eexists; exact B|]. split.
      { intros t2 B. unfold wants_type in B. rewrite G2 in B. injection B as <-. exists l. split; assumption. }
      split; [intros [v [B _]]; destruct G3; eexists; exact B | intros m [B _]; destruct G4; eexists; exact B].
    + destruct X as [_ [X _]]. destruct (X t G2) as [ts [X1 X2]]. left. right. exists (VStr t), (VList ts).
      split; [exact G2|]. split; [exact X1|]. simpl. f_equal. apply In_vmem_str, X2.
  - (* trust marks *)
    assert (ET : dget "entity_type" q = None).
    { destruct (dget "entity_type" q) eqn:B; [destruct G2; eexists; exact B | reflexivity]. }
    assert (NK : forall item, ~ known q item).
    { intros item [[[v [B _]] _]|[t [ts [B _]]]]; [destruct G1; eexists; exact B | congruence]. }
    assert (SAT : forall item, (wants_marked q -> marked V e) -> (forall m, wants_mark q m -> has_trust_mark V m e) ->
                               satisfies V q e item).
    { intros item B1 B2. split; [intros [v [B _]]; destruct G1; eexists; exact B|].
      split; [intros t B; unfold wants_type in B; congruence | split; assumption]. }
    assert (M : forall c, matches q c = Ok true -> publishes V e c ->
                  (wants_marked q -> marked V e) /\ (forall m, wants_mark q m -> has_trust_mark V m e)).
    { intros c HM HP. unfold matches in HM. rewrite ET in HM. simpl truthy at 1 in HM. cbn [bind] in HM.
      destruct (dget "trust_mark_id" q) as [mv|] eqn:EM.
      - destruct (P4 _ eq_refl) as [m [-> Hm]].
        assert (TT : truthy (VStr m) = true) by (simpl; destruct (String.eqb_spec m ""); [contradiction | reflexivity]).
        rewrite TT in HM. destruct (dget "trust_marks" c) as [ms|] eqn:EMS; [|discriminate].
        destruct (T2 e c ms HP EMS) as [l ->]. unfold has_mark in HM. cbn [py_list bind] in HM.
        apply has_mark_ok in HM. destruct (proj1 HM eq_refl) as [B|[d [B1 B2]]]; [discriminate|].
        split; [intros _; exists c, (VList l); split; assumption|].
        intros m' [B _]. rewrite EM in B. injection B as <-.
        exists c, l, d. split; [exact HP|]. split; [exact EMS|]. split; assumption.
      - simpl truthy at 2 in HM. split; [|intros m [B _]; congruence].
        intros [v [B1 B2]]. rewrite B1, B2 in HM. simpl in HM. injection HM as HM. apply dmem_some in HM as [ms HM].
        exists c, ms. split; assumption. }
    assert (PF : forall c c', publishes V e c -> publishes V e c' -> c = c').
    { intros c c' [k A] [k' B]. congruence. }
    split; intros [item [D X]]; exists item; (split; [exact D|]).
    + destruct X as [X|[_ [c [X1 X2]]]]; [destruct (NK _ X)|]. destruct (M c X2 X1) as [B1 B2]. apply SAT; assumption.
    + destruct X as [_ [_ [X1 X2]]]. right. split; [exact G3|]. destruct (A3 G3 e item D) as [c [b [HP HM]]].
      exists c. split; [exact HP|]. rewrite HM. f_equal.
      unfold matches in HM. rewrite ET in HM. simpl truthy at 1 in HM. cbn [bind] in HM.
      destruct (dget "trust_mark_id" q) as [mv|] eqn:EM.
      * destruct (P4 _ eq_refl) as [m [-> Hm]].
        assert (TT : truthy (VStr m) = true) by (simpl; destruct (String.eqb_spec m ""); [contradiction | reflexivity]).
        rewrite TT in HM. destruct (X2 m (conj EM Hm)) as [c' [ms [d [Q1 [Q2 [Q3 Q4]]]]]].
        rewrite <- (PF c c' HP Q1) in Q2. rewrite Q2 in HM. unfold has_mark in HM. cbn [py_list bind] in HM.
        apply (proj2 (has_mark_ok m _ _ _ HM)). right. exists d. split; assumption.
      * simpl truthy at 2 in HM.
        assert (G : given "trust_marked" q) by (destruct G3 as [G|[v G]]; [exact G | congruence]).
        destruct G as [v G]. rewrite G, (P3 v G) in HM. simpl in HM. injection HM as <-.
        destruct X1 as [c' [ms [Q1 Q2]]]; [exists v; split; [exact G | apply P3, G]|].
        rewrite <- (PF c c' HP Q1) in Q2. apply dmem_some. exists ms; exact Q2.
Qed.

(** every request: exactly those that match the registration data or the trust mark filter *)
Theorem C52_union : forall O V q db r, NoDup (dkeys db) -> ~ only_caller q -> process O V q db = Ok r ->
  NoDup (ids_of r) /\ (forall e, In e (ids_of r) -> exists item, dget e db = Some item) /\
  (forall e item, dget e db = Some item -> wants_intermediates q -> intermediate item -> In e (ids_of r)) /\
  (forall e item t, dget e db = Some item -> wants_type q t -> of_type t item -> In e (ids_of r)).
Proof.
  intros O V q db r N C H. destruct (process_any O V q db r N C H) as [A1 [A2 _]].
  split; [exact A1|]. split; [|split].
  - intros e B. apply A2 in B as [i [B _]]. exists i; exact B.
  - intros e item D W I. apply A2. exists item. split; [exact D|]. left. left. split; assumption.
  - intros e item t D W [ts [B1 B2]]. apply A2. exists item. split; [exact D|]. left. right.
    exists (VStr t), (VList ts). split; [exact W|]. split; [exact B1|]. simpl. f_equal. apply In_vmem_str, B2.
Qed.

Example C52_ex_type :
  process id_order ex_env [("entity_type", VStr "federation_entity"); ("client_id", VStr "x")] ex_db = Ok (LIds ["im"; "op"]).
Proof. vm_compute. reflexivity. Qed.
Example C52_ex_mark :
  process rev_order ex_env [("trust_marked", VBool true); ("trust_mark_id", VStr "tm1")] ex_db = Ok (LIds ["op"]).
Proof. vm_compute. reflexivity. Qed.
Example C52_ex_proper : proper_request [("trust_marked", VBool true); ("trust_mark_id", VStr "tm1")] /\
                        one_kind [("trust_marked", VBool true); ("trust_mark_id", VStr "tm1")].
Proof.
  split.
  - split; [|split; [|split]]; simpl; intros v H; try discriminate; injection H as <-; [reflexivity|].
    exists "tm1". split; [reflexivity | discriminate].
  - right. right. split; [intros [v A]; discriminate|]. split; [intros [v A]; discriminate|]. left. eexists; reflexivity.
Qed.

(** ** C71: whose configurations the trust mark filters rely on *)

(** full statement: the configuration used for a subordinate is signed with a key registered for it *)
Definition C71_full : Prop := forall O V q db r e,
  NoDup (dkeys db) -> (given "trust_marked" q \/ given "trust_mark_id" q) -> process O V q db = Ok r ->
  In e (dkeys db) -> exists k c, li_ec V e = Ok (ECJws k c) /\ registered_key V db e k.

Definition ex_bad_env : list_env := mkListEnv
  (fun e => if String.eqb e "im" then Ok (ECJws 1 [("iss", VStr "im"); ("sub", VStr "im")])
            else Ok (ECJws 1 [("iss", VStr "im"); ("sub", VStr e); ("trust_marks", VList [VDict [("id", VStr "tm1")]])]))
  (li_jwks ex_env) (fun _ _ => true) (fun _ => true) false.

(** op's configuration may be signed by im *)
Theorem C71_own_keys_refuted : ~ C71_full.
Proof.
  intros F.
  destruct (F id_order ex_bad_env [("trust_marked", VBool true)] ex_db (LIds ["op"; "rp"]) "op") as [k [c [A [i [j [ks [B1 [B2 [B3 B4]]]]]]]]].
  - exact (proj1 ex_typed).
  - left; eexists; reflexivity.
  - vm_compute. reflexivity.
  - right; left; reflexivity.
  - simpl in A. injection A as <- <-. simpl in B1.
    destruct B1 as [B1|[B1|[B1|[]]]]; try discriminate. injection B1 as <-. simpl in B2. injection B2 as <-.
    simpl in B3. injection B3 as <-. destruct B4 as [B4|[]]. discriminate.
Qed.

(** Missing from the full statement: the key may belong to another subordinate, the one the configuration names
    as its issuer. *)
Theorem C71_registered_keys_partial : forall O V q db r e,
  (given "trust_marked" q \/ given "trust_mark_id" q) -> process O V q db = Ok r ->
  In e (dkeys db) ->
  exists k c iss, li_ec V e = Ok (ECJws k c) /\ dget "iss" c = Some (VStr iss) /\ registered_key V db iss k.
Proof.
  intros O V q db r e G H D. unfold process in H.
  destruct (forallb _ (dkeys q)) eqn:EF.
  { apply only_caller_spec in EF. destruct G as [[v G]|[v G]]; apply dget_In_key in G; apply EF in G as [G|G]; discriminate. }
  destruct (foldM (known_match q) db []) as [s|]; [|discriminate]. cbn [bind] in H.
  assert (ET : dmem "trust_marked" q || dmem "trust_mark_id" q = true).
  { apply orb_true_iff. rewrite !given_dmem. exact G. }
  rewrite ET in H. destruct (collect_subordinates V db) as [sub|] eqn:EC; [|discriminate].
  apply collect_ok in EC as [C1 [C2 _]]. destruct (C2 e D) as [c A]. destruct (C1 e c A) as [_ [k [iss B]]].
  exists k, c, iss. exact B.
Qed.

(** a configuration that names the subordinate as its issuer is signed with a key registered for it *)
Theorem C71_own_issuer : forall O V q db r e c,
  (given "trust_marked" q \/ given "trust_mark_id" q) -> process O V q db = Ok r ->
  In e (dkeys db) -> publishes V e c -> dget "iss" c = Some (VStr e) ->
  exists k, li_ec V e = Ok (ECJws k c) /\ registered_key V db e k.
Proof.
  intros O V q db r e c G H D [k P] I.
  destruct (C71_registered_keys_partial O V q db r e G H D) as [k' [c' [iss [A [B C]]]]].
  rewrite P in A. injection A as <- <-. rewrite I in B. injection B as <-. exists k. split; assumption.
Qed.

Example C71_ex : exists r, process id_order ex_env [("trust_marked", VBool true)] ex_db = Ok r /\ In "op" (ids_of r).
Proof. eexists. split; [vm_compute; reflexivity | right; left; reflexivity]. Qed.

Print Assumptions C52_all_filters_refuted.
Print Assumptions C52_entity_types_refuted.
Print Assumptions C52_no_filter.
Print Assumptions C52_matching_partial.
Print Assumptions C52_union.
Print Assumptions C71_own_keys_refuted.
Print Assumptions C71_registered_keys_partial.
Print Assumptions C71_own_issuer.
