(** Lemmas about chain verification. *)
From Verif Require Export VerifierSpec.
From Verif Require Import PyFacts ConstraintsFacts.
From Coq Require Import Lia.

Lemma kmem_In : forall k l, kmem k l = true <-> In k l.
Proof.
  intros k l. unfold kmem. rewrite existsb_exists. split.
  - intros (x & Hx & E). apply Nat.eqb_eq in E. subst. exact Hx.
  - intros H. exists k. split; [exact H|apply Nat.eqb_refl].
Qed.

Lemma keys_of_holds : forall kj e k, In k (keys_of kj e) <-> holds kj e k.
Proof.
  intros kj e k. unfold keys_of, holds. destruct (dget e kj) as [l|].
  - split; [eauto|]. intros (l' & E & H). injection E as <-. exact H.
  - split; [intros []|]. intros (l' & E & _). discriminate.
Qed.

Section L.
Context (L : keyjar_lib).

Lemma verify_keys_In : forall kj t e k,
  In k (verify_keys L kj t e) <-> holds kj e k /\ lib_picks L t k = true.
Proof.
  intros kj t e k. unfold verify_keys. rewrite filter_In, keys_of_holds. reflexivity.
Qed.

Lemma holds_add : forall kj s new e k,
  holds (add_keys L kj s new) e k <-> holds kj e k \/ (e = s /\ In k new).
Proof.
  intros kj s new e k. unfold add_keys, holds. destruct (dget s kj) as [old|] eqn:Es.
  - destruct (is_nil (filter _ new)) eqn:En.
    + apply is_nil_true in En. split; [auto|]. intros [H|[-> H]]; [exact H|].
      exists old. split; [exact Es|]. destruct (kmem k old) eqn:Ek; [apply kmem_In; exact Ek|].
      exfalso. assert (Hin : In k (filter (fun k => negb (kmem k old)) new))
        by (apply filter_In; split; [exact H|rewrite Ek; reflexivity]).
      rewrite En in Hin. exact Hin.
    + rewrite dget_dset. destruct (String.eqb_spec e s) as [->|Hne].
      * split.
        -- intros (l & E & H). injection E as <-. apply in_app_or in H. destruct H as [H|H].
           ++ left. eauto.
           ++ right. apply filter_In in H. tauto.
        -- intros [(l & E & H)|[_ H]].
           ++ rewrite Es in E. injection E as <-. eexists. split; [reflexivity|].
              apply in_or_app. left. exact H.
           ++ eexists. split; [reflexivity|]. apply in_or_app.
              destruct (kmem k old) eqn:Ek; [left; apply kmem_In; exact Ek|right].
              apply filter_In. split; [exact H|]. rewrite Ek. reflexivity.
      * split; [auto|]. intros [H|[E _]]; [exact H|contradiction].
  - destruct (lib_raises L || negb (is_nil new)) eqn:En.
    + rewrite dget_dset. destruct (String.eqb_spec e s) as [->|Hne].
      * split.
        -- intros (l & E & H). injection E as <-. right. auto.
        -- intros [(l & E & H)|[_ H]]; [congruence|]. eauto.
      * split; [auto|]. intros [H|[E _]]; [exact H|contradiction].
    + apply orb_false_iff in En. destruct En as [_ En]. destruct new; [|discriminate].
      split; [auto|]. intros [H|[_ []]]. exact H.
Qed.

Lemma add_other : forall kj s new e, e <> s -> dget e (add_keys L kj s new) = dget e kj.
Proof.
  intros kj s new e H. unfold add_keys. destruct (dget s kj) as [old|].
  - destruct (is_nil (filter _ new)); [reflexivity|]. apply dget_dset_other. exact H.
  - destruct (lib_raises L || negb (is_nil new)); [|reflexivity]. apply dget_dset_other. exact H.
Qed.

Lemma known_add : forall kj s new e, known kj e -> known (add_keys L kj s new) e.
Proof.
  intros kj s new e [l H]. destruct (string_dec e s) as [->|Hne].
  - unfold add_keys, known. rewrite H. destruct (is_nil (filter _ new)); [eauto|].
    rewrite dget_dset_same. eauto.
  - unfold known. rewrite add_other by exact Hne. eauto.
Qed.

Lemma jws_app_cases : forall (k : key) (p : stmt) (r pre : list (key * stmt)) k' p' post,
  (k, p) :: r = pre ++ (k', p') :: post ->
  (pre = [] /\ k' = k /\ p' = p /\ post = r) \/
  (exists pre', pre = (k, p) :: pre' /\ r = pre' ++ (k', p') :: post).
Proof.
  intros k p r pre k' p' post E. destruct pre as [|x pre'].
  - injection E as -> -> ->. left. auto.
  - injection E as <- ->. right. eauto.
Qed.

(** ** what one run of the loop does, whatever its outcome *)
Lemma tokens_any : forall ts kj n ves kj' r,
  verify_tokens L kj n ves ts = (kj', r) ->
  exists pre post,
    jws ts = pre ++ post /\ properly_signed kj pre /\
    (forall e k, holds kj' e k <-> holds kj e k \/ vouched pre e k) /\
    (forall e, known kj e -> known kj' e) /\
    (forall e, (forall k p, In (k, p) pre -> s_sub p <> e) -> dget e kj' = dget e kj) /\
    (forall out, r = Ok out -> post = [] /\ out = ves ++ map snd (jws ts)).
Proof.
  induction ts as [|t ts IH]; intros kj n ves kj' r H.
  - cbn [verify_tokens] in H. injection H as <- <-. exists [], []. split; [reflexivity|].
    split; [intros pre k p post E; destruct pre; discriminate|].
    split; [intros e k; split; [auto|intros [H|(k0 & p & jw & [] & _)]; exact H]|].
    split; [auto|]. split; [auto|].
    intros out E. injection E as <-. split; [reflexivity|]. simpl. rewrite app_nil_r. reflexivity.
  - destruct t as [|k p]; [apply (IH _ _ _ _ _ H)|].
    assert (Stop : forall e0, kj' = kj -> r = Err e0 ->
       exists pre post,
         jws (TJws k p :: ts) = pre ++ post /\ properly_signed kj pre /\
         (forall e k1, holds kj' e k1 <-> holds kj e k1 \/ vouched pre e k1) /\
         (forall e, known kj e -> known kj' e) /\
         (forall e, (forall k1 p1, In (k1, p1) pre -> s_sub p1 <> e) -> dget e kj' = dget e kj) /\
         (forall out, r = Ok out -> post = [] /\ out = ves ++ map snd (jws (TJws k p :: ts)))).
    { intros e0 -> ->. exists [], (jws (TJws k p :: ts)). split; [reflexivity|].
      split; [intros pre k1 p1 post E; destruct pre; discriminate|].
      split; [intros e k1; split; [auto|intros [Z|(k2 & p2 & jw & [] & _)]; exact Z]|].
      split; [auto|]. split; [auto|]. discriminate. }
    cbn [verify_tokens] in H.
    destruct (is_nil (verify_keys L kj (TJws k p) (s_iss p)));
      [injection H as <- <-; eapply Stop; reflexivity|].
    destruct (kmem k (verify_keys L kj (TJws k p) (s_iss p))) eqn:Ek;
      [|injection H as <- <-; eapply Stop; reflexivity].
    apply kmem_In in Ek. apply verify_keys_In in Ek. destruct Ek as [Ek _].
    destruct (s_jwks p) as [jw|] eqn:Ej.
    + apply IH in H. destruct H as (pre & post & E & Hps & Hh & Hk & Hd & Ho).
      exists ((k, p) :: pre), post. split; [simpl; rewrite E; reflexivity|].
      split.
      { intros pre1 k1 p1 post1 E1. apply jws_app_cases in E1.
        destruct E1 as [(-> & -> & -> & _)|(pre' & -> & E1)]; [left; exact Ek|].
        destruct (Hps _ _ _ _ E1) as [Hx|(k2 & p2 & jw2 & Hi & Hs2 & Hj2 & Hk2)].
        - apply holds_add in Hx. destruct Hx as [Hx|[Hx1 Hx2]]; [left; exact Hx|right].
          exists k, p, jw. split; [left; reflexivity|]. auto.
        - right. exists k2, p2, jw2. split; [right; exact Hi|]. auto. }
      split.
      { intros e k1. rewrite Hh, holds_add. split.
        - intros [[Hx|[-> Hx2]]|(k2 & p2 & jw2 & Hi & Hr)]; [left; exact Hx| |].
          + right. exists k, p, jw. split; [left; reflexivity|]. auto.
          + right. exists k2, p2, jw2. split; [right; exact Hi|exact Hr].
        - intros [Hx|(k2 & p2 & jw2 & [Hi|Hi] & Hs2 & Hj2 & Hk2)]; [left; left; exact Hx| |].
          + injection Hi as <- <-. left. right. rewrite Ej in Hj2. injection Hj2 as <-. auto.
          + right. exists k2, p2, jw2. auto. }
      split; [intros e Hke; apply Hk; apply known_add; exact Hke|].
      split.
      { intros e Hne. rewrite Hd by (intros k1 p1 Hi; apply (Hne k1 p1); right; exact Hi).
        apply add_other. intros ->. apply (Hne k p); [left; reflexivity|reflexivity]. }
      intros out Eo. destruct (Ho out Eo) as [-> ->]. split; [reflexivity|].
      simpl. rewrite <- app_assoc. reflexivity.
    + destruct (Nat.eqb (length ves) n); [|injection H as <- <-; eapply Stop; reflexivity].
      apply IH in H. destruct H as (pre & post & E & Hps & Hh & Hk & Hd & Ho).
      exists ((k, p) :: pre), post. split; [simpl; rewrite E; reflexivity|].
      split.
      { intros pre1 k1 p1 post1 E1. apply jws_app_cases in E1.
        destruct E1 as [(-> & -> & -> & _)|(pre' & -> & E1)]; [left; exact Ek|].
        destruct (Hps _ _ _ _ E1) as [Hx|(k2 & p2 & jw2 & Hi & Hr)]; [left; exact Hx|].
        right. exists k2, p2, jw2. split; [right; exact Hi|exact Hr]. }
      split.
      { intros e k1. rewrite Hh. split.
        - intros [Hx|(k2 & p2 & jw2 & Hi & Hr)]; [left; exact Hx|].
          right. exists k2, p2, jw2. split; [right; exact Hi|exact Hr].
        - intros [Hx|(k2 & p2 & jw2 & [Hi|Hi] & Hs2 & Hj2 & Hk2)]; [left; exact Hx| |].
          + injection Hi as <- <-. congruence.
          + right. exists k2, p2, jw2. auto. }
      split; [exact Hk|].
      split; [intros e Hne; apply Hd; intros k1 p1 Hi; apply (Hne k1 p1); right; exact Hi|].
      intros out Eo. destruct (Ho out Eo) as [-> ->]. split; [reflexivity|].
      simpl. rewrite <- app_assoc. reflexivity.
Qed.

(** ** exactly when the loop succeeds *)
Lemma signed_cons_add : forall kj k p l jw,
  s_jwks p = Some jw ->
  (properly_signed kj ((k, p) :: l) <->
   holds kj (s_iss p) k /\ properly_signed (add_keys L kj (s_sub p) jw) l).
Proof.
  intros kj k p l jw Ej. split.
  - intros H. split.
    + destruct (H [] k p l eq_refl) as [Hx|(k2 & p2 & jw2 & [] & _)]. exact Hx.
    + intros pre k1 p1 post ->.
      destruct (H ((k, p) :: pre) k1 p1 post eq_refl) as [Hx|(k2 & p2 & jw2 & [Hi|Hi] & Hs & Hj & Hk)].
      * left. apply holds_add. left. exact Hx.
      * injection Hi as <- <-. left. apply holds_add. right. rewrite Ej in Hj. injection Hj as <-. auto.
      * right. exists k2, p2, jw2. auto.
  - intros [H1 H2] pre k1 p1 post E. apply jws_app_cases in E.
    destruct E as [(-> & -> & -> & _)|(pre' & -> & E)]; [left; exact H1|].
    destruct (H2 _ _ _ _ E) as [Hx|(k2 & p2 & jw2 & Hi & Hr)].
    + apply holds_add in Hx. destruct Hx as [Hx|[Hx1 Hx2]]; [left; exact Hx|right].
      exists k, p, jw. split; [left; reflexivity|]. auto.
    + right. exists k2, p2, jw2. split; [right; exact Hi|exact Hr].
Qed.

Lemma signed_cons_none : forall kj k p l,
  s_jwks p = None ->
  (properly_signed kj ((k, p) :: l) <-> holds kj (s_iss p) k /\ properly_signed kj l).
Proof.
  intros kj k p l Ej. split.
  - intros H. split.
    + destruct (H [] k p l eq_refl) as [Hx|(k2 & p2 & jw2 & [] & _)]. exact Hx.
    + intros pre k1 p1 post ->.
      destruct (H ((k, p) :: pre) k1 p1 post eq_refl) as [Hx|(k2 & p2 & jw2 & [Hi|Hi] & Hs & Hj & Hk)].
      * left. exact Hx.
      * injection Hi as <- <-. congruence.
      * right. exists k2, p2, jw2. auto.
  - intros [H1 H2] pre k1 p1 post E. apply jws_app_cases in E.
    destruct E as [(-> & -> & -> & _)|(pre' & -> & E)]; [left; exact H1|].
    destruct (H2 _ _ _ _ E) as [Hx|(k2 & p2 & jw2 & Hi & Hr)]; [left; exact Hx|].
    right. exists k2, p2, jw2. split; [right; exact Hi|exact Hr].
Qed.

Lemma jwks_ok_cons : forall m n k p l,
  jwks_ok m n ((k, p) :: l) <-> (s_jwks p = None -> m = n) /\ jwks_ok (S m) n l.
Proof.
  intros m n k p l. split.
  - intros H. split.
    + intros E. specialize (H [] k p l eq_refl E). simpl in H. lia.
    + intros pre k1 p1 post -> E. specialize (H ((k, p) :: pre) k1 p1 post eq_refl E).
      simpl in H. lia.
  - intros [H1 H2] pre k1 p1 post E Ej. apply jws_app_cases in E.
    destruct E as [(-> & -> & -> & _)|(pre' & -> & E)].
    + simpl. rewrite (H1 Ej). lia.
    + specialize (H2 _ _ _ _ E Ej). simpl. lia.
Qed.

Lemma tokens_ok : forall ts kj n ves,
  (exists kj' out, verify_tokens L kj n ves ts = (kj', Ok out)) <->
  properly_signed kj (jws ts) /\ picked L (jws ts) /\ jwks_ok (length ves) n (jws ts).
Proof.
  induction ts as [|t ts IH]; intros kj n ves.
  - simpl. split; [|eauto]. intros _.
    split; [intros pre k p post E; destruct pre; discriminate|].
    split; [intros k p []|]. intros pre k p post E. destruct pre; discriminate.
  - destruct t as [|k p]; [apply IH|]. cbn [verify_tokens jws].
    destruct (kmem k (verify_keys L kj (TJws k p) (s_iss p))) eqn:Ek.
    + pose proof Ek as Ek'. apply kmem_In in Ek'.
      assert (En : is_nil (verify_keys L kj (TJws k p) (s_iss p)) = false)
        by (destruct (verify_keys L kj (TJws k p) (s_iss p)); [contradiction|reflexivity]).
      rewrite En. apply verify_keys_In in Ek'. destruct Ek' as [Hh Hp].
      assert (Hpick : picked L ((k, p) :: jws ts) <-> picked L (jws ts)).
      { split; intros H k1 p1 Hi; [apply H; right; exact Hi|].
        destruct Hi as [Hi|Hi]; [injection Hi as <- <-; exact Hp|apply H; exact Hi]. }
      rewrite Hpick, jwks_ok_cons.
      destruct (s_jwks p) as [jw|] eqn:Ej.
      * rewrite IH, (signed_cons_add kj k p (jws ts) jw Ej), app_length. simpl.
        replace (length ves + 1) with (S (length ves)) by lia.
        split; [|tauto]. intros (A & B & C). repeat split; auto; discriminate.
      * rewrite (signed_cons_none kj k p (jws ts) Ej).
        destruct (Nat.eqb_spec (length ves) n) as [Hn|Hn].
        -- rewrite IH, app_length. simpl. replace (length ves + 1) with (S (length ves)) by lia.
           split; [|tauto]. intros (A & B & C). repeat split; auto.
        -- split; [intros (kj' & out & H); discriminate|].
           intros (_ & _ & C & _). specialize (C eq_refl). contradiction.
    + split.
      * intros (kj' & out & H). destruct (is_nil _) in H; discriminate.
      * intros (A & B & _). exfalso.
        assert (Hin : In k (verify_keys L kj (TJws k p) (s_iss p))).
        { apply verify_keys_In. split; [|apply B; left; reflexivity].
          destruct (A [] k p (jws ts) eq_refl) as [Hx|(k2 & p2 & jw2 & [] & _)]. exact Hx. }
        apply kmem_In in Hin. congruence.
Qed.

Lemma meets_nonempty : forall l, accepted l -> l <> [].
Proof. intros [|s l] H; [discriminate|discriminate]. Qed.

Lemma verified_iff : forall kj ts ves,
  verified L kj ts ves <->
  (exists k p ts', ts = TJws k p :: ts') /\ ves = map snd (jws ts) /\
  properly_signed kj (jws ts) /\ picked L (jws ts) /\ jwks_ok 0 (length ts - 1) (jws ts) /\
  accepted ves.
Proof.
  intros kj ts ves. unfold verified, verify_trust_chain. split.
  - intros [H Hn]. destruct ts as [|[|k p] ts]; try (simpl in H; discriminate).
    cbn [trusted_anchor] in H. destruct (dmem (s_iss p) kj) eqn:Ed.
    2:{ cbn [snd] in H. injection H as <-. contradiction. }
    destruct (verify_tokens L kj (length (TJws k p :: ts) - 1) [] (TJws k p :: ts))
      as [kj' r] eqn:Ev.
    destruct r as [out|e]; [|discriminate].
    destruct (tokens_any _ _ _ _ _ _ Ev) as (pre0 & post0 & _ & _ & _ & _ & _ & Ho).
    destruct (Ho out eq_refl) as [_ Eo]. cbn [app] in Eo.
    assert (Hok : exists kj'' out', verify_tokens L kj (length (TJws k p :: ts) - 1) []
                                      (TJws k p :: ts) = (kj'', Ok out')) by eauto.
    apply tokens_ok in Hok. destruct Hok as (A & B & C).
    cbn [snd] in H. destruct (is_nil out) eqn:En; [injection H as <-; contradiction|].
    destruct (meets_restrictions out) as [[]|] eqn:Em; cbn [bind] in H; try discriminate.
    + injection H as <-. split; [eauto|]. split; [exact Eo|]. repeat split; assumption.
    + injection H as <-. contradiction.
  - intros ((k & p & ts' & ->) & -> & A & B & C & D).
    split; [|apply meets_nonempty; exact D].
    assert (Ed : dmem (s_iss p) kj = true).
    { destruct (A [] k p (jws ts') eq_refl) as [(l & El & _)|(k2 & p2 & jw2 & [] & _)].
      apply dmem_some. eauto. }
    cbn [trusted_anchor]. rewrite Ed.
    assert (Hok : exists kj'' out', verify_tokens L kj (length (TJws k p :: ts') - 1) []
                                      (TJws k p :: ts') = (kj'', Ok out'))
      by (apply tokens_ok; auto).
    destruct Hok as (kj'' & out' & Ev). rewrite Ev.
    destruct (tokens_any _ _ _ _ _ _ Ev) as (pre0 & post0 & _ & _ & _ & _ & _ & Ho).
    destruct (Ho out' eq_refl) as [_ ->]. cbn [app snd].
    assert (En : is_nil (map snd (jws (TJws k p :: ts'))) = false) by reflexivity.
    rewrite En. unfold accepted in D. rewrite D. reflexivity.
Qed.

(** ** effect of a call on the key jar *)
Lemma verify_effect : forall kj ts,
  exists pre post,
    jws ts = pre ++ post /\ properly_signed kj pre /\
    (forall e k, holds (fst (verify_trust_chain L kj ts)) e k <-> holds kj e k \/ vouched pre e k) /\
    (forall e, known kj e -> known (fst (verify_trust_chain L kj ts)) e) /\
    (forall e, (forall k p, In (k, p) pre -> s_sub p <> e) ->
               dget e (fst (verify_trust_chain L kj ts)) = dget e kj) /\
    (forall ves, verified L kj ts ves -> post = []).
Proof.
  intros kj ts.
  assert (Stay : fst (verify_trust_chain L kj ts) = kj ->
     (forall ves, ~ verified L kj ts ves) ->
     exists pre post,
      jws ts = pre ++ post /\ properly_signed kj pre /\
      (forall e k, holds (fst (verify_trust_chain L kj ts)) e k <-> holds kj e k \/ vouched pre e k) /\
      (forall e, known kj e -> known (fst (verify_trust_chain L kj ts)) e) /\
      (forall e, (forall k p, In (k, p) pre -> s_sub p <> e) ->
                 dget e (fst (verify_trust_chain L kj ts)) = dget e kj) /\
      (forall ves, verified L kj ts ves -> post = [])).
  { intros -> Hn. exists [], (jws ts). split; [reflexivity|].
    split; [intros pre k p post E; destruct pre; discriminate|].
    split; [intros e k; split; [auto|intros [H|(k0 & p & jw & [] & _)]; exact H]|].
    split; [auto|]. split; [auto|]. intros ves H. exfalso. exact (Hn ves H). }
  destruct ts as [|t ts]; [apply Stay; [reflexivity|intros ves [H _]; discriminate]|].
  unfold verify_trust_chain in *.
  destruct (trusted_anchor kj t) as [[]|e] eqn:Et.
  2:{ apply Stay; [reflexivity|]. intros ves [H Hn]. unfold verify_trust_chain in H.
      rewrite Et in H. injection H as <-. contradiction. }
  2:{ apply Stay; [reflexivity|]. intros ves [H Hn]. unfold verify_trust_chain in H.
      rewrite Et in H. discriminate. }
  clear Stay.
  destruct (verify_tokens L kj (length (t :: ts) - 1) [] (t :: ts)) as [kj' r] eqn:Ev.
  pose proof (tokens_any _ _ _ _ _ _ Ev) as (pre & post & E & Hps & Hh & Hk & Hd & Ho).
  exists pre, post. split; [exact E|]. split; [exact Hps|].
  assert (Ef : forall (X : res (list stmt)) Y, fst (match r with Ok ves => (kj', X) | Err e => (kj', Y) end) = kj')
    by (intros; destruct r; reflexivity).
  destruct r as [out|e0]; cbn [fst] in *.
  - split; [exact Hh|]. split; [exact Hk|]. split; [exact Hd|].
    intros ves _. apply (Ho out eq_refl).
  - split; [exact Hh|]. split; [exact Hk|]. split; [exact Hd|].
    intros ves [H _]. unfold verify_trust_chain in H. rewrite Et, Ev in H. discriminate.
Qed.

Lemma call_fst : forall kj ts, fst (verifier_call L kj ts) = fst (verify_trust_chain L kj ts).
Proof.
  intros kj ts. unfold verifier_call.
  destruct (verify_trust_chain L kj ts) as [kj' [[|s ves]|e]]; reflexivity.
Qed.

(** ** histories *)
Lemma holds_after_step : forall kj ts e k,
  holds kj e k -> holds (fst (verifier_call L kj ts)) e k.
Proof.
  intros kj ts e k H. rewrite call_fst.
  destruct (verify_effect kj ts) as (pre & post & _ & _ & Hh & _). apply Hh. left. exact H.
Qed.

Lemma holds_after : forall calls kj e k, holds kj e k -> holds (after_calls L kj calls) e k.
Proof.
  induction calls as [|ts calls IH]; intros kj e k H; [exact H|].
  unfold after_calls. cbn [fold_left]. apply IH. apply holds_after_step. exact H.
Qed.

Lemma known_after : forall calls kj e, known kj e -> known (after_calls L kj calls) e.
Proof.
  induction calls as [|ts calls IH]; intros kj e H; [exact H|].
  unfold after_calls. cbn [fold_left]. apply IH. rewrite call_fst.
  destruct (verify_effect kj ts) as (pre & post & _ & _ & _ & Hk & _). apply Hk. exact H.
Qed.

Lemma traceable_mono : forall kj l l' e k,
  incl l l' -> traceable kj l e k -> traceable kj l' e k.
Proof.
  intros kj l l' e k Hi H. induction H as [e k H|k0 p jw k H1 _ IH H3 H4].
  - apply tr_initial. exact H.
  - eapply tr_vouched; eauto.
Qed.

Lemma traceable_trans : forall kj kj1 l l1 e k,
  (forall e k, holds kj1 e k -> traceable kj l e k) -> incl l1 l ->
  traceable kj1 l1 e k -> traceable kj l e k.
Proof.
  intros kj kj1 l l1 e k Hh Hi H. induction H as [e k H|k0 p jw k H1 _ IH H3 H4].
  - apply Hh. exact H.
  - eapply tr_vouched; eauto.
Qed.

(** keys vouched for in a properly signed list are traceable *)
Lemma signed_traceable : forall kj l,
  properly_signed kj l ->
  (forall k p, In (k, p) l -> traceable kj l (s_iss p) k) /\
  (forall e k, vouched l e k -> traceable kj l e k).
Proof.
  intros kj l H.
  assert (A : forall n pre k p post, length pre <= n -> l = pre ++ (k, p) :: post ->
              traceable kj l (s_iss p) k).
  { induction n as [|n IH]; intros pre k p post Hl E.
    - destruct pre; [|simpl in Hl; lia].
      destruct (H [] k p post E) as [Hx|(k2 & p2 & jw2 & [] & _)]. apply tr_initial. exact Hx.
    - destruct (H pre k p post E) as [Hx|(k2 & p2 & jw2 & Hi & Hs & Hj & Hk)].
      + apply tr_initial. exact Hx.
      + rewrite <- Hs. apply in_split in Hi. destruct Hi as (a & b & ->).
        apply (tr_vouched kj l k2 p2 jw2 k).
        * rewrite E. apply in_or_app. left. apply in_or_app. right. left. reflexivity.
        * apply (IH a k2 p2 (b ++ (k, p) :: post)).
          -- rewrite app_length in Hl. simpl in Hl. lia.
          -- rewrite E, <- app_assoc. reflexivity.
        * exact Hj.
        * exact Hk. }
  assert (B : forall k p, In (k, p) l -> traceable kj l (s_iss p) k).
  { intros k p Hi. apply in_split in Hi. destruct Hi as (a & b & E).
    apply (A (length a) a k p b); [lia|exact E]. }
  split; [exact B|].
  intros e k (k2 & p2 & jw2 & Hi & Hs & Hj & Hk). rewrite <- Hs. eapply tr_vouched; eauto.
Qed.

Lemma history_traceable : forall calls kj e k,
  holds (after_calls L kj calls) e k -> traceable kj (flat_map jws calls) e k.
Proof.
  induction calls as [|ts calls IH]; intros kj e k H.
  - apply tr_initial. exact H.
  - unfold after_calls in H. cbn [fold_left] in H. apply IH in H. cbn [flat_map].
    apply (traceable_trans kj (fst (verifier_call L kj ts)) _ (flat_map jws calls)).
    + intros e1 k1 H1. rewrite call_fst in H1.
      destruct (verify_effect kj ts) as (pre & post & E & Hps & Hh & _).
      apply Hh in H1. destruct H1 as [H1|H1]; [apply tr_initial; exact H1|].
      destruct (signed_traceable _ _ Hps) as [_ Hv].
      apply (traceable_mono kj pre); [|apply Hv; exact H1].
      rewrite E. intros x Hx. apply in_or_app. left. apply in_or_app. left. exact Hx.
    + intros x Hx. apply in_or_app. right. exact Hx.
    + exact H.
Qed.

(** ** the trust chain object *)
Lemma call_ok : forall kj ts r,
  snd (verifier_call L kj ts) = Ok r ->
  match r with
  | None => snd (verify_trust_chain L kj ts) = Ok []
  | Some tc =>
      verified L kj ts (tc_verified tc) /\
      trust_chain_expires_at (tc_verified tc) = Ok (tc_exp tc) /\
      (exists s l, tc_verified tc = s :: l /\ tc_anchor tc = s_iss s) /\
      tc_iss_path tc = rev (map s_iss (tc_verified tc)) /\ tc_chain tc = ts
  end.
Proof.
  intros kj ts r H. unfold verifier_call, verified in *.
  destruct (verify_trust_chain L kj ts) as [kj' [[|s ves]|e]]; cbn [snd] in *.
  - injection H as <-. reflexivity.
  - destruct (trust_chain_expires_at (s :: ves)) as [x|] eqn:Ex; [|discriminate].
    cbn [bind] in H. injection H as <-. cbn [tc_verified tc_exp tc_anchor tc_iss_path tc_chain].
    split; [split; [reflexivity|discriminate]|]. split; [exact Ex|].
    split; [exists s, ves; auto|]. auto.
  - discriminate.
Qed.

Lemma call_none : forall kj ts,
  snd (verifier_call L kj ts) = Ok None <-> snd (verify_trust_chain L kj ts) = Ok [].
Proof.
  intros kj ts. unfold verifier_call.
  destruct (verify_trust_chain L kj ts) as [kj' [[|s ves]|e]]; cbn [snd]; split; try reflexivity;
    intros H; try discriminate.
  destruct (trust_chain_expires_at (s :: ves)); discriminate.
Qed.

Lemma call_some : forall kj ts ves,
  verified L kj ts ves -> (forall s, In s ves -> s_exp s <> None) ->
  exists tc, snd (verifier_call L kj ts) = Ok (Some tc) /\ tc_verified tc = ves.
Proof.
  intros kj ts ves [H Hn] He. unfold verifier_call.
  destruct (verify_trust_chain L kj ts) as [kj' r]. cbn [snd] in H. subst r.
  destruct ves as [|s ves]; [contradiction|]. cbn [snd].
  assert (G : forall l x, (forall s, In s l -> s_exp s <> None) -> exists y, expires_from x l = Ok y).
  { induction l as [|a l IH]; intros x Hl; [exists x; reflexivity|].
    cbn [expires_from]. destruct (s_exp a) as [e|] eqn:Ea.
    - apply IH. intros b Hb. apply Hl. right. exact Hb.
    - exfalso. apply (Hl a (or_introl eq_refl)). exact Ea. }
  unfold trust_chain_expires_at. destruct (G (s :: ves) (-1)%Z He) as [y Ey]. rewrite Ey.
  cbn [bind]. eexists. split; [reflexivity|reflexivity].
Qed.

End L.

(** ** expiry *)
Lemma expires_nonneg : forall chain x m,
  (0 <= x)%Z -> (forall s e, In s chain -> s_exp s = Some e -> (0 <= e)%Z) ->
  expires_from x chain = Ok m ->
  (0 <= m)%Z /\ (m <= x)%Z /\
  (forall s, In s chain -> exists e, s_exp s = Some e /\ (m <= e)%Z) /\
  (m = x \/ exists s, In s chain /\ s_exp s = Some m).
Proof.
  induction chain as [|s chain IH]; intros x m Hx Hc H.
  - injection H as <-. split; [lia|]. split; [lia|]. split; [intros s []|left; reflexivity].
  - cbn [expires_from] in H. destruct (s_exp s) as [e|] eqn:Es; [|discriminate].
    assert (He : (0 <= e)%Z) by (apply (Hc s e (or_introl eq_refl) Es)).
    destruct (Z.leb_spec 0 x); [|lia].
    assert (Hy : (0 <= (if Z.ltb e x then e else x))%Z) by (destruct (Z.ltb e x); lia).
    destruct (IH _ _ Hy (fun t z Ht => Hc t z (or_intror Ht)) H) as (H00 & H1 & H2 & H3).
    split; [exact H00|]. split; [destruct (Z.ltb_spec e x); lia|]. split.
    + intros t [<-|Ht]; [|apply H2; exact Ht]. exists e. split; [exact Es|].
      destruct (Z.ltb_spec e x); lia.
    + destruct H3 as [->|(t & Ht & Et)].
      * destruct (Z.ltb e x); [right; exists s; split; [left; reflexivity|exact Es]|left; reflexivity].
      * right. exists t. split; [right; exact Ht|exact Et].
Qed.

Lemma exps_In : forall chain e, In e (exps chain) <-> exists s, In s chain /\ s_exp s = Some e.
Proof.
  intros chain e. unfold exps. rewrite in_flat_map. split.
  - intros (s & Hs & H). exists s. split; [exact Hs|].
    destruct (s_exp s); [destruct H as [<-|[]]; reflexivity|contradiction].
  - intros (s & Hs & E). exists s. split; [exact Hs|]. rewrite E. left. reflexivity.
Qed.

Lemma expires_minimum : forall chain m,
  chain <> [] -> (forall s e, In s chain -> s_exp s = Some e -> (0 <= e)%Z) ->
  trust_chain_expires_at chain = Ok m ->
  minimum m (exps chain) /\ (forall s, In s chain -> s_exp s <> None).
Proof.
  intros [|s chain] m Hn Hc H; [contradiction|].
  unfold trust_chain_expires_at in H. cbn [expires_from] in H.
  destruct (s_exp s) as [e|] eqn:Es; [|discriminate].
  change (Z.leb 0 (-1)) with false in H. cbn iota in H.
  assert (He : (0 <= e)%Z) by (apply (Hc s e (or_introl eq_refl) Es)).
  destruct (expires_nonneg chain e m He (fun t z Ht => Hc t z (or_intror Ht)) H)
    as (_ & H1 & H2 & H3).
  split.
  - split.
    + apply exps_In. destruct H3 as [->|(t & Ht & Et)];
        [exists s; split; [left; reflexivity|exact Es]|exists t; split; [right; exact Ht|exact Et]].
    + intros x Hx. apply exps_In in Hx. destruct Hx as (t & [<-|Ht] & Et).
      * rewrite Es in Et. injection Et as <-. exact H1.
      * destruct (H2 t Ht) as (y & Ey & Hy). rewrite Et in Ey. injection Ey as <-. exact Hy.
  - intros t [<-|Ht]; [congruence|]. destruct (H2 t Ht) as (y & Ey & _). congruence.
Qed.

Lemma first_unsigned_no_effect : forall L kj ts,
  (forall k p r, jws ts = (k, p) :: r -> ~ holds kj (s_iss p) k) ->
  fst (verify_trust_chain L kj ts) = kj.
Proof.
  intros L kj ts H. unfold verify_trust_chain. destruct ts as [|t ts]; [reflexivity|].
  destruct (trusted_anchor kj t) as [[]|] eqn:Et; try reflexivity.
  destruct t as [|k p]; [discriminate|].
  cbn [verify_tokens]. destruct (is_nil _); [reflexivity|].
  destruct (kmem k _) eqn:Ek; [|reflexivity].
  exfalso. apply kmem_In in Ek. apply verify_keys_In in Ek. destruct Ek as [Ek _].
  apply (H k p (jws ts) eq_refl). exact Ek.
Qed.

Lemma unknown_anchor_no_effect : forall L kj k p ts,
  ~ known kj (s_iss p) -> verify_trust_chain L kj (TJws k p :: ts) = (kj, Ok []).
Proof.
  intros L kj k p ts H. unfold verify_trust_chain. cbn [trusted_anchor].
  destruct (dmem (s_iss p) kj) eqn:Ed; [|reflexivity].
  exfalso. apply H. apply dmem_some in Ed. exact Ed.
Qed.

(** no key of the last statement of an accepted chain comes from nowhere: links *)
Lemma links : forall kj l pre k p post,
  properly_signed kj l -> l = pre ++ (k, p) :: post ->
  known kj (s_iss p) \/ exists k0 q, In (k0, q) pre /\ s_sub q = s_iss p.
Proof.
  intros kj l pre k p post H E.
  destruct (H pre k p post E) as [(ks & Ek & _)|(k2 & p2 & jw2 & Hi & Hs & _)].
  - left. exists ks. exact Ek.
  - right. exists k2, p2. auto.
Qed.
