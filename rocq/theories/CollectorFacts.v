(** Lemmas about the collector. *)
From Verif Require Import PyFacts.
From Verif Require Export CollectorSpec.
From Coq Require Import Lia.

(** ** Cache keys *)
Lemma split_bang a a' r r' :
  clean a -> clean a' -> (a ++ String "!" r)%string = (a' ++ String "!" r')%string -> a = a' /\ r = r'.
Proof.
  revert a'. induction a as [|c a IH]; intros [|c' a'] Ha Ha' H; simpl in H; unfold clean in *.
  - injection H as H. auto.
  - injection H as <- _. discriminate.
  - injection H as -> _. discriminate.
  - injection H as -> H. simpl in Ha, Ha'. apply orb_false_iff in Ha, Ha'.
    destruct (IH a' (proj2 Ha) (proj2 Ha') H) as [-> ->]. auto.
Qed.

Lemma cache_key_inj a e a' e' :
  clean a -> clean a' -> cache_key a e = cache_key a' e' -> a = a' /\ e = e'.
Proof.
  intros Ha Ha' H. apply split_bang in H; [|assumption..]. destruct H as [-> H].
  injection H as ->. auto.
Qed.

Lemma time_key_inj a e a' e' :
  clean a -> clean a' -> time_key a e = time_key a' e' -> a = a' /\ e = e'.
Proof.
  intros Ha Ha' H. apply split_bang in H; [|assumption..]. destruct H as [-> H].
  injection H as ->. auto.
Qed.

Lemma key_kinds a e a' e' : clean a -> clean a' -> cache_key a e <> time_key a' e'.
Proof.
  intros Ha Ha' H. apply split_bang in H; [|assumption..]. destruct H as [-> H]. discriminate.
Qed.

Lemma key_kinds_same a e : cache_key a e <> time_key a e.
Proof.
  unfold cache_key, time_key. intros H. induction a as [|c a IH]; simpl in H.
  - discriminate.
  - injection H as H. exact (IH H).
Qed.

(** ** Triples: the invariant survives, results satisfy Q, and (if R) Python does not run out of stack *)
Definition triple {S A} (R : Prop) (I : S -> Prop) (m : M S A) (Q : A -> Prop) : Prop :=
  forall s, I s ->
    I (fst (m s)) /\
    match snd (m s) with Ok a => Q a | Err e => R -> e <> RecursionError end.

Section Triples.
Context {S : Type} (R : Prop) (I : S -> Prop).

Lemma t_ret A (a : A) (Q : A -> Prop) : Q a -> triple R I (ret a) Q.
Proof. intros H s Hs. split; [exact Hs|exact H]. Qed.

Lemma t_raise A e (Q : A -> Prop) : e <> RecursionError -> triple R I (raise e) Q.
Proof. intros H s Hs. split; [exact Hs|intros _; exact H]. Qed.

Lemma t_lift A (r : res A) (Q : A -> Prop) :
  (forall a, r = Ok a -> Q a) -> (forall e, r = Err e -> e <> RecursionError) -> triple R I (lift r) Q.
Proof.
  intros H1 H2 s Hs. split; [exact Hs|]. simpl. destruct r; [auto|intros _; auto].
Qed.

Lemma t_bind A B (m : M S A) (f : A -> M S B) (P : A -> Prop) (Q : B -> Prop) :
  triple R I m P -> (forall a, P a -> triple R I (f a) Q) -> triple R I (mbind m f) Q.
Proof.
  intros Hm Hf s Hs. destruct (Hm s Hs) as [H1 H2]. unfold mbind.
  destruct (m s) as [s' [a|e]]; simpl in *; [apply (Hf a H2 s' H1)|split; assumption].
Qed.

Lemma t_weaken A (m : M S A) (P Q : A -> Prop) :
  triple R I m P -> (forall a, P a -> Q a) -> triple R I m Q.
Proof.
  intros Hm H s Hs. destruct (Hm s Hs) as [H1 H2]. split; [exact H1|].
  destruct (snd (m s)); auto.
Qed.

Lemma t_mfold A B (f : B -> A -> M S B) l b (P : list A -> B -> Prop) :
  P [] b ->
  (forall l1 x b', In x l -> P l1 b' -> triple R I (f b' x) (P (l1 ++ [x]))) ->
  triple R I (mfold f l b) (P l).
Proof.
  intros H0 Hf.
  assert (G : forall l2 l1 b', l1 ++ l2 = l -> P l1 b' -> triple R I (mfold f l2 b') (P l)).
  { induction l2 as [|x l2 IH]; intros l1 b' E Hb; simpl.
    - apply t_ret. rewrite app_nil_r in E. subst l1. exact Hb.
    - eapply t_bind with (P := P (l1 ++ [x])).
      + apply Hf; [|exact Hb]. subst l. apply in_or_app. right. left. reflexivity.
      + intros b'' Hb''. apply (IH (l1 ++ [x])); [rewrite <- app_assoc; exact E|exact Hb'']. }
  apply (G l []); [reflexivity|exact H0].
Qed.
End Triples.

Section Run.
Context (E : cenv) (s0 : cstate) (K R : Prop).

(** configurations are obtainable; with clean identifiers, statements are where they belong *)
Definition inv (s : cstate) : Prop :=
  st_tick s0 <= st_tick s /\
  (forall id e, dget id (st_cfg s) = Some e -> obtainable E s0 id (ce_stmt e)) /\
  (K -> forall a e v, clean a -> clean e -> dget (cache_key a e) (st_es s) = Some v ->
        said_by E s0 a e v).

Lemma inv_start : inv s0.
Proof.
  split; [lia|]. split.
  - intros id e H. right. exists e. auto.
  - intros _ a e v _ _ H. right. exact H.
Qed.

Notation tri := (triple R inv).

Lemma t_cfg_getitem id :
  tri (cfg_getitem E id) (fun r => forall e, r = Some e -> obtainable E s0 id (ce_stmt e)).
Proof.
  intros s (H1 & H2 & H3). unfold cfg_getitem, cache_getitem.
  destruct (dget id (st_cfg s)) as [e|] eqn:Ee; simpl.
  - assert (Hdel : forall id' e', dget id' (ddel id (st_cfg s)) = Some e' ->
                                  obtainable E s0 id' (ce_stmt e')).
    { intros id' e' H. destruct (string_dec id' id) as [->|N].
      - rewrite dget_ddel_same in H. discriminate.
      - rewrite dget_ddel_other in H by exact N. apply H2, H. }
    destruct (ce_class e); simpl.
    + destruct (s_exp (ce_stmt e)) as [z|]; simpl.
      * destruct (Z.ltb _ _); simpl; (split; [repeat split; assumption|]).
        -- intros e' [= <-]. apply H2, Ee.
        -- discriminate.
      * split; [repeat split; assumption|]. discriminate.
    + split; [repeat split; assumption|]. intros e' [= <-]. apply H2, Ee.
    + split; [repeat split; assumption|]. intros e' [= <-]. apply H2, Ee.
  - split; [repeat split; assumption|]. discriminate.
Qed.

Lemma t_cfg_set id e : obtainable E s0 id (ce_stmt e) -> tri (cfg_set id e) (fun _ => True).
Proof.
  intros He s (H1 & H2 & H3). split; [|exact I]. split; [exact H1|]. split; [|exact H3].
  intros id' e' H. simpl in H. unfold cache_set in H. rewrite dget_dset in H.
  destruct (String.eqb_spec id' id) as [->|N]; [injection H as <-; exact He|apply H2, H].
Qed.

Lemma t_es_getitem k :
  tri (es_getitem E k)
      (fun r => forall v, r = Some v -> K -> forall a e, clean a -> clean e -> k = cache_key a e ->
                said_by E s0 a e v).
Proof.
  intros s (H1 & H2 & H3). unfold es_getitem, cache_getitem.
  destruct (dget k (st_es s)) as [v|] eqn:Ev; simpl; (split; [repeat split; assumption|]).
  - intros v' [= <-] HK a e Ha He ->. apply (H3 HK); assumption.
  - discriminate.
Qed.

Lemma t_es_set_tok a e v :
  (K -> clean a) -> said_by E s0 a e v -> tri (es_set (cache_key a e) v) (fun _ => True).
Proof.
  intros Hc Hs s (H1 & H2 & H3). split; [|exact I]. split; [exact H1|]. split; [exact H2|].
  intros HK a' e' v' Ha He H. simpl in H. unfold cache_set in H. rewrite dget_dset in H.
  destruct (String.eqb_spec (cache_key a' e') (cache_key a e)) as [Ek|N]; [|apply (H3 HK); assumption].
  apply cache_key_inj in Ek; [|exact Ha|apply Hc, HK]. destruct Ek as [-> ->].
  injection H as <-. exact Hs.
Qed.

Lemma t_es_set_time a e z : (K -> clean a) -> tri (es_set (time_key a e) (ESExp z)) (fun _ => True).
Proof.
  intros Hc s (H1 & H2 & H3). split; [|exact I]. split; [exact H1|]. split; [exact H2|].
  intros HK a' e' v' Ha He H. simpl in H. unfold cache_set in H. rewrite dget_dset in H.
  destruct (String.eqb_spec (cache_key a' e') (time_key a e)) as [Ek|N]; [|apply (H3 HK); assumption].
  exfalso. exact (key_kinds _ _ _ _ Ha (Hc HK) Ek).
Qed.

Lemma t_es_del k : tri (es_del k) (fun _ => True).
Proof.
  intros s (H1 & H2 & H3). unfold es_del, cache_delitem. destruct (dmem k (st_es s)); simpl.
  - split; [|exact I]. split; [exact H1|]. split; [exact H2|].
    intros HK a e v Ha He H. simpl in H. destruct (string_dec (cache_key a e) k) as [Ek|N].
    + rewrite Ek, dget_ddel_same in H. discriminate.
    + rewrite dget_ddel_other in H by exact N. apply (H3 HK); assumption.
  - split; [repeat split; assumption|]. discriminate.
Qed.

Lemma t_now : tri (now E) (fun _ => True).
Proof. intros s Hs. split; [exact Hs|exact I]. Qed.

Lemma t_get_document q :
  tri (get_document E q)
      (fun t => exists n, st_tick s0 <= n /\ e_net E n q = RText t).
Proof.
  intros s (H1 & H2 & H3). unfold get_document. simpl. split.
  - split; [simpl; lia|]. split; assumption.
  - destruct (e_net E (st_tick s) q) as [t| | |] eqn:En; try (intros _; discriminate).
    exists (st_tick s). auto.
Qed.

Lemma t_get_entity_configuration id :
  tri (get_entity_configuration E id)
      (fun r => forall t, r = Some t -> exists n, st_tick s0 <= n /\ serves_config E n id t).
Proof.
  intros s Hs. unfold get_entity_configuration.
  destruct (t_get_document (QDoc (e_wk E id)) s Hs) as [H1 H2].
  destruct (get_document E (QDoc (e_wk E id)) s) as [s' [r|e]] eqn:Ed; simpl in *.
  - split; [exact H1|]. intros t ->. destruct H2 as (n & Hn & Hnet). exists n. split; [exact Hn|].
    left. exact Hnet.
  - destruct e; try (split; [exact H1|intros _; discriminate]);
      try (split; [exact H1|exact H2]).
    destruct (String.eqb _ _); [split; [exact H1|intros _; discriminate]|].
    destruct (t_get_document (QDoc (e_tenant E id)) s' H1) as [H3 H4]. split; [exact H3|].
    destruct (snd (get_document E (QDoc (e_tenant E id)) s')) as [r|e]; [|exact H4].
    intros t ->. destruct H4 as (n & Hn & Hnet). exists n. split; [exact Hn|]. right. exact Hnet.
Qed.

Lemma verify_self_signed_ok n t t' p :
  verify_self_signed E n t = Ok (t', p) -> t = Some t' /\ self_signed t' p.
Proof.
  unfold verify_self_signed. destruct t as [[|k q]|]; try discriminate.
  destruct (s_jwks q) as [keys|] eqn:Ek; [|discriminate].
  destruct (kmem k _) eqn:Em; [|discriminate]. destruct (lib_valid _ _ _); [|discriminate].
  intros [= <- <-]. split; [reflexivity|].
  exists k, keys. split; [reflexivity|]. split; [exact Ek|].
  unfold kmem in Em. apply existsb_exists in Em. destruct Em as (x & Hx & Ex).
  apply Nat.eqb_eq in Ex. subst x. apply filter_In in Hx. apply Hx.
Qed.

Lemma verify_self_signed_err n t e : verify_self_signed E n t = Err e -> e <> RecursionError.
Proof.
  unfold verify_self_signed. destruct t as [[|k q]|]; try (intros [= <-]; discriminate).
  destruct (s_jwks q); [|intros [= <-]; discriminate].
  destruct (kmem _ _); [destruct (lib_valid _ _ _); [discriminate|]|]; intros [= <-]; discriminate.
Qed.

Lemma t_open t (P : token * stmt -> Prop) :
  (forall t' p, t = Some t' -> self_signed t' p -> P (t', p)) -> tri (open_self_signed E t) P.
Proof.
  intros H s Hs. unfold open_self_signed. cbn [fst snd]. split; [exact Hs|].
  destruct (verify_self_signed E _ t) as [[t' p]|e] eqn:Ev.
  - apply verify_self_signed_ok in Ev. apply H; apply Ev.
  - intros _. exact (verify_self_signed_err _ _ _ Ev).
Qed.

Lemma get_endpoint_ok c ep : get_endpoint c = Ok ep -> ep <> "" -> endpoint_of c ep.
Proof.
  unfold get_endpoint. destruct (s_metadata c) as [m|] eqn:Em; [|discriminate].
  unfold dindex. destruct (dget "federation_entity" m) as [fe|] eqn:Ef; [|discriminate]. simpl.
  destruct (dget "federation_fetch_endpoint" fe) as [v|] eqn:Ev; [|intros [= <-] N; contradiction].
  destruct v as [|[]|z|s|l|d]; simpl; try discriminate; try (intros [= <-] N; contradiction);
    try (destruct (negb _); [discriminate|intros [= <-] N; contradiction]).
  intros [= <-] _. exists m, fe. auto.
Qed.

Lemma get_endpoint_none c : get_endpoint c = Ok "" -> forall ep, endpoint_of c ep -> ep = "".
Proof.
  intros H ep (m & fe & Em & Ef & Ev). unfold get_endpoint, dindex in H.
  rewrite Em, Ef in H. simpl in H. rewrite Ev in H. injection H as ->. reflexivity.
Qed.

Lemma get_endpoint_err c e : get_endpoint c = Err e -> e <> RecursionError.
Proof.
  unfold get_endpoint, dindex. destruct (s_metadata c) as [m|]; [|intros [= <-]; discriminate].
  destruct (dget _ m) as [fe|]; simpl; [|intros [= <-]; discriminate].
  destruct (dget _ fe) as [v|]; [|discriminate].
  destruct v; simpl; try discriminate;
    try (destruct b); try (destruct (negb _)); try discriminate; intros [= <-]; discriminate.
Qed.

Lemma t_get_federation_fetch_endpoint id :
  tri (get_federation_fetch_endpoint E id)
      (fun ep => exists c, obtainable E s0 id c /\ get_endpoint c = Ok ep).
Proof.
  unfold get_federation_fetch_endpoint.
  eapply t_bind; [apply t_cfg_getitem|]. intros cached Hc.
  eapply t_bind with (P := fun ep => ep <> "" -> exists c, obtainable E s0 id c /\ get_endpoint c = Ok ep).
  - destruct cached as [e|].
    + apply t_lift; [|apply get_endpoint_err]. intros ep He _. exists (ce_stmt e).
      split; [apply Hc; reflexivity|exact He].
    + apply t_ret. intros N; contradiction.
  - intros ep Hep. destruct (String.eqb_spec ep "") as [->|N]; simpl.
    2:{ apply t_ret. apply Hep, N. }
    eapply t_bind; [apply t_get_entity_configuration|]. intros signed Hs.
    eapply t_bind with (P := fun tp => obtainable E s0 id (snd tp)).
    { apply t_open. intros t p -> H. left. exists t.
      destruct (Hs t eq_refl) as (n & Hn & Hserve). exists n. auto. }
    intros tp Htp.
    eapply t_bind with (P := fun ep' => get_endpoint (snd tp) = Ok ep').
    { apply t_lift; [auto|apply get_endpoint_err]. }
    intros ep' Hep'.
    eapply t_bind; [apply t_cfg_set; exact Htp|]. intros _ _.
    apply t_ret. exists (snd tp). auto.
Qed.

Lemma t_get_entity_statement entity authority :
  (K -> clean entity /\ clean authority) ->
  tri (get_entity_statement E entity authority)
      (fun r => match r with
                | Some v => K -> said_by E s0 authority entity v
                | None => exists c, obtainable E s0 authority c /\ get_endpoint c = Ok ""
                end).
Proof.
  intros HK. unfold get_entity_statement.
  eapply t_bind; [apply t_es_getitem|]. intros cached Hc.
  eapply t_bind with
    (P := fun r => forall v, r = Some v -> K -> said_by E s0 authority entity v).
  { destruct cached as [v|]; [|apply t_ret; discriminate].
    eapply t_bind; [apply t_now|]. intros n _.
    eapply t_bind; [apply t_es_getitem|]. intros exp _.
    destruct exp as [[t|z]|]; try (apply t_raise; discriminate).
    destruct (Z.ltb _ _).
    - eapply t_bind; [apply t_es_del|]. intros _ _. eapply t_bind; [apply t_es_del|]. intros _ _.
      apply t_ret. discriminate.
    - apply t_ret. intros v' [= <-] Hk. destruct (HK Hk) as [He Ha].
      apply (Hc v eq_refl Hk); auto. }
  intros usable Hu. destruct usable as [v|].
  { apply t_ret. apply Hu. reflexivity. }
  eapply t_bind; [apply t_get_federation_fetch_endpoint|]. intros ep (c & Ho & Hep).
  destruct (String.eqb_spec ep "") as [->|N].
  { apply t_ret. exists c. auto. }
  eapply t_bind; [apply t_get_document|]. intros signed (n & Hn & Hnet).
  eapply t_bind with (P := fun p => unverified signed = Ok p).
  { apply t_lift; [auto|]. unfold unverified. destruct signed as [[]|]; intros e [= <-]; discriminate. }
  intros p Hp. destruct signed as [t|]; [|discriminate].
  assert (Hsaid : said_by E s0 authority entity (ESTok t)).
  { left. exists n, ep, c, t. repeat split; try assumption. apply get_endpoint_ok; assumption. }
  eapply t_bind; [apply t_es_set_tok; [intros Hk; apply HK, Hk|exact Hsaid]|]. intros _ _.
  destruct (s_exp p) as [z|]; [|apply t_raise; discriminate].
  eapply t_bind; [apply t_es_set_time; intros Hk; apply HK, Hk|]. intros _ _.
  apply t_ret. intros _. exact Hsaid.
Qed.

Lemma dset_new A k (v : A) d : dget k d = None -> dset k v d = d ++ [(k, v)].
Proof.
  induction d as [|[k' v'] d IH]; simpl; [reflexivity|].
  destruct (String.eqb k k'); [discriminate|]. intros H. rewrite IH by exact H. reflexivity.
Qed.

Lemma In_dset A k (v : A) d k' v' : In (k', v') (dset k v d) -> (k', v') = (k, v) \/ In (k', v') d.
Proof.
  induction d as [|[k0 v0] d IH]; simpl; [intros [H|[]]; auto|].
  destruct (String.eqb_spec k k0) as [->|N]; simpl; intros [H|H]; auto.
  destruct (IH H); auto.
Qed.

Context (stop_at : string) (rank : string -> nat).
Context (HK : K -> clean_federation E s0) (HR : R -> acyclic E s0 stop_at rank).

Lemma t_collect_branch rec entity authority :
  (K -> clean entity /\ clean authority) ->
  (forall c, (R -> ~ (authority = entity /\ In entity (e_anchors E))) ->
             obtainable E s0 authority c ->
             tri (rec authority (Some c)) (fun t => K -> grown E s0 stop_at authority c t)) ->
  ((R -> ~ (authority = entity /\ In entity (e_anchors E))) -> tri (rec authority None) (fun _ => False)) ->
  tri (collect_branch E rec entity authority)
      (fun b => K -> grown_branch E s0 stop_at entity authority b).
Proof.
  intros Hcl Hrec Hnone. unfold collect_branch.
  destruct (String.eqb_spec entity authority) as [Hea|Hea]; simpl.
  - destruct (smem entity (e_anchors E)) eqn:Em; simpl.
    { apply t_ret. intros _. apply grown_none. left. split; [exact Hea|apply smem_In, Em]. }
    assert (Hno : ~ (entity = authority /\ In entity (e_anchors E))).
    { intros [_ H]. apply smem_false in Em. contradiction. }
    eapply t_bind; [apply t_get_entity_statement, Hcl|]. intros es Hes.
    destruct es as [v|].
    2:{ apply t_ret. intros _. apply grown_none. right; left. destruct Hes as (c & Ho & He).
        exists c. split; [exact Ho|apply get_endpoint_none, He]. }
    destruct (es_truthy v) eqn:Et.
    2:{ apply t_ret. intros Hk. apply grown_none. right; right. destruct v as [t|z]; [discriminate|].
        destruct (Hes Hk) as [(n & ep & c & t & _ & _ & _ & _ & H)|H]; [discriminate|].
        exists z. exact H. }
    eapply t_bind; [apply t_cfg_getitem|]. intros cfg Hcfg.
    destruct cfg as [e|]; simpl.
    2:{ eapply t_bind; [apply Hnone; intros _ [H1 H2]; apply Hno; auto|intros _ []]. }
    eapply t_bind; [apply Hrec; [intros _ [H1 H2]; apply Hno; auto|apply Hcfg; reflexivity]|].
    intros t Ht. apply t_ret. intros Hk. apply grown_some with (c := ce_stmt e); auto.
  - assert (Hno : ~ (entity = authority /\ In entity (e_anchors E))) by (intros [H _]; contradiction).
    eapply t_bind; [apply t_get_entity_statement, Hcl|]. intros es Hes.
    destruct es as [v|].
    2:{ apply t_ret. intros _. apply grown_none. right; left. destruct Hes as (c & Ho & He).
        exists c. split; [exact Ho|apply get_endpoint_none, He]. }
    destruct (es_truthy v) eqn:Et.
    2:{ apply t_ret. intros Hk. apply grown_none. right; right. destruct v as [t|z]; [discriminate|].
        destruct (Hes Hk) as [(n & ep & c & t & _ & _ & _ & _ & H)|H]; [discriminate|].
        exists z. exact H. }
    eapply t_bind; [apply t_cfg_getitem|]. intros cfg Hcfg.
    destruct cfg as [e|]; simpl.
    2:{ eapply t_bind; [apply Hnone; intros _ [H1 H2]; apply Hno; auto|intros _ []]. }
    eapply t_bind; [apply Hrec; [intros _ [H1 H2]; apply Hno; auto|apply Hcfg; reflexivity]|].
    intros t Ht. apply t_ret. intros Hk. apply grown_some with (c := ce_stmt e); auto.
Qed.

Lemma t_collect_tree fuel : forall entity c,
  (R -> rank entity < fuel) -> (K -> clean entity) -> obtainable E s0 entity c ->
  tri (collect_tree E fuel stop_at entity (Some c)) (fun t => K -> grown E s0 stop_at entity c t).
Proof.
  induction fuel as [|fuel IH]; intros entity c Hr Hcl Ho; cbn [collect_tree].
  { intros s Hs. split; [exact Hs|]. simpl. intros HR'. specialize (Hr HR'). lia. }
  destruct (s_hints c) as [hints|] eqn:Eh.
  2:{ apply t_ret. intros _. apply grown_top. left. exact Eh. }
  destruct (String.eqb_spec (s_iss c) stop_at) as [Es|Ns].
  { apply t_ret. intros _. apply grown_top. right. exact Es. }
  eapply t_bind with
    (P := fun bs => NoDup (map fst bs) /\ (forall a, In a (map fst bs) <-> In a hints) /\
                    (K -> forall a b, In (a, b) bs -> grown_branch E s0 stop_at entity a b)).
  - eapply t_mfold with
      (P := fun l bs => NoDup (map fst bs) /\ (forall a, In a (map fst bs) <-> In a l) /\
                        (K -> forall a b, In (a, b) bs -> grown_branch E s0 stop_at entity a b)).
    + simpl. split; [constructor|]. split; [tauto|]. intros _ a b [].
    + intros l1 authority acc Hin (Hnd & Hdom & Hbr).
      eapply t_bind; [apply t_collect_branch|].
      * intros Hk. split; [apply Hcl, Hk|]. exact (HK Hk entity c hints authority Ho Eh Hin).
      * intros c' Hno Ho'. apply IH; [| |exact Ho'].
        -- intros HR'. specialize (Hr HR').
           assert (L := HR HR' entity c hints authority Ho Eh Ns Hin (Hno HR')). lia.
        -- intros Hk. exact (HK Hk entity c hints authority Ho Eh Hin).
      * intros Hno. destruct fuel as [|fuel']; cbn [collect_tree]; [|apply t_raise; discriminate].
        intros s Hs. split; [exact Hs|]. simpl. intros HR'. specialize (Hr HR').
        assert (L := HR HR' entity c hints authority Ho Eh Ns Hin (Hno HR')). lia.
      * intros b Hb. apply t_ret. split; [apply NoDup_dset; exact Hnd|]. split.
        -- intros a. rewrite (dkeys_dset_in _ a authority b acc). rewrite in_app_iff. simpl.
           rewrite <- Hdom. unfold dkeys. intuition.
        -- intros Hk a b' Hin'. apply In_dset in Hin'.
           destruct Hin' as [[= -> ->]|Hin']; [apply Hb, Hk|apply (Hbr Hk), Hin'].
  - intros bs (Hnd & Hdom & Hbr). apply t_ret. intros Hk. apply (grown_node _ _ _ _ _ hints); auto.
Qed.

Lemma t_collect fuel id :
  (R -> rank id < fuel) -> (K -> clean id) ->
  let r := collect E fuel stop_at id s0 in
  inv (fst r) /\
  match snd r with
  | Ok None => True
  | Ok (Some (tr, t)) =>
      exists c, ((exists e, dget id (st_cfg s0) = Some e /\ ce_stmt e = c /\ ce_jws e = Some t) \/
                 config_from E (st_tick s0) id t c) /\
                (K -> grown E s0 stop_at id c tr)
  | Err e => R -> e <> RecursionError
  end.
Proof.
  intros Hr Hcl.
  set (Q := fun x : option (tree esval * token) =>
     match x with
     | None => True
     | Some (tr, t) =>
      exists c, ((exists e, dget id (st_cfg s0) = Some e /\ ce_stmt e = c /\ ce_jws e = Some t) \/
                 config_from E (st_tick s0) id t c) /\
                (K -> grown E s0 stop_at id c tr)
     end).
  assert (G : let r := collect E fuel stop_at id s0 in
     inv (fst r) /\ match snd r with Ok x => Q x | Err e => R -> e <> RecursionError end).
  2:{ destruct G as [G1 G2]. split; [exact G1|].
      destruct (snd (collect E fuel stop_at id s0)) as [[[tr t]|]|e]; exact G2. }
  unfold collect. unfold mbind at 1, StateM.get.
  match goal with |- context [mbind ?m ?k s0] => assert (T : tri (mbind m k) Q) end.
  2:{ exact (T s0 inv_start). }
  eapply t_bind with
    (P := fun x => forall t c, x = Some (t, c) ->
                   exists e, dget id (st_cfg s0) = Some e /\ ce_stmt e = c /\ ce_jws e = Some t).
  { unfold cache_get. destruct (dget id (st_cfg s0)) as [e|] eqn:Ee; [|apply t_ret; discriminate].
    eapply t_bind; [apply t_now|]. intros n _.
    eapply t_bind with (P := fun _ => True).
    { apply t_lift; [auto|]. unfold too_old. destruct (s_exp (ce_stmt e)); [discriminate|].
      intros e' [= <-]; discriminate. }
    intros old _. destruct old; [apply t_ret; discriminate|].
    destruct (ce_jws e) as [t|] eqn:Ej; [|apply t_raise; discriminate].
    apply t_ret. intros t' c [= <- <-]. exists e. auto. }
  intros cached Hc. destruct cached as [[t c]|].
  - destruct (Hc t c eq_refl) as (e & E1 & E2 & E3).
    assert (Ho : obtainable E s0 id c) by (right; exists e; auto).
    eapply t_bind; [apply t_collect_tree; assumption|]. intros tr Htr. apply t_ret.
    exists c. split; [left; exists e; auto|exact Htr].
  - eapply t_bind; [apply t_get_entity_configuration|]. intros signed Hs.
    destruct signed as [t|]; [|apply t_ret; exact I].
    eapply t_bind with (P := fun tp => config_from E (st_tick s0) id (fst tp) (snd tp)).
    { apply t_open. intros t' p [= ->] H.
      destruct (Hs t' eq_refl) as (n & Hn & Hserve). exists n. auto. }
    intros [t' p] Htp. simpl in Htp.
    assert (Ho : obtainable E s0 id p) by (left; exists t'; exact Htp).
    eapply t_bind; [apply t_cfg_set; exact Ho|]. intros _ _.
    eapply t_bind; [apply t_collect_tree; assumption|]. intros tr Htr. apply t_ret.
    exists p. split; [right; exact Htp|exact Htr].
Qed.

End Run.

(** ** Statements in the cache *)
Definition clock_of (E : cenv) (s : cstate) : Z := e_clock E (st_tick s).

Lemma es_fresh E entity authority s v z :
  dget (cache_key authority entity) (st_es s) = Some v ->
  dget (time_key authority entity) (st_es s) = Some (ESExp z) ->
  (clock_of E s <= z - e_delta E)%Z ->
  get_entity_statement E entity authority s = (s, Ok (Some v)).
Proof.
  intros H1 H2 H3. unfold get_entity_statement, mbind, es_getitem, cache_getitem, now. rewrite H1. simpl.
  rewrite H2. simpl. unfold clock_of in H3.
  destruct (Z.ltb_spec (z - e_delta E) (e_clock E (st_tick s))); [lia|]. destruct s. reflexivity.
Qed.

Definition without (entity authority : string) (s : cstate) : cstate :=
  mkState (st_cfg s) (ddel (time_key authority entity) (ddel (cache_key authority entity) (st_es s)))
          (st_tick s).

Lemma es_stale E entity authority s v z :
  dget (cache_key authority entity) (st_es s) = Some v ->
  dget (time_key authority entity) (st_es s) = Some (ESExp z) ->
  (z - e_delta E < clock_of E s)%Z ->
  get_entity_statement E entity authority s
  = get_entity_statement E entity authority (without entity authority s).
Proof.
  intros H1 H2 H3. unfold get_entity_statement, mbind, es_getitem, cache_getitem, now.
  rewrite H1. simpl. rewrite H2. simpl. unfold clock_of in H3.
  destruct (Z.ltb_spec (z - e_delta E) (e_clock E (st_tick s))); [|lia].
  unfold es_del, cache_delitem, dmem. simpl. rewrite H1. simpl.
  rewrite dget_ddel_other by (intros N; symmetry in N; exact (key_kinds_same _ _ N)). rewrite H2. simpl.
  rewrite (dget_ddel_other _ (cache_key authority entity)) by apply key_kinds_same.
  rewrite dget_ddel_same. simpl. reflexivity.
Qed.

(** the part of get_entity_statement that asks the network *)
Lemma es_missing E entity authority s s' v :
  dget (cache_key authority entity) (st_es s) = None ->
  get_entity_statement E entity authority s = (s', Ok (Some v)) ->
  exists n ep t k p z, st_tick s <= n /\ S n = st_tick s' /\
    e_net E n (QFetch ep authority entity) = RText (Some t) /\ v = ESTok t /\ t = TJws k p /\
    s_exp p = Some z /\
    dget (cache_key authority entity) (st_es s') = Some v /\
    dget (time_key authority entity) (st_es s') = Some (ESExp z).
Proof.
  intros H0 H. unfold get_entity_statement in H.
  assert (E0 : es_getitem E (cache_key authority entity) s = (s, Ok None)).
  { unfold es_getitem, cache_getitem. rewrite H0. destruct s; reflexivity. }
  unfold mbind at 1 in H. rewrite E0 in H. cbn beta iota in H.
  unfold mbind at 1, ret at 1 in H. cbn beta iota in H.
  unfold mbind at 1 in H.
  destruct (t_get_federation_fetch_endpoint E s False False authority s (inv_start E s False)) as [I1 _].
  destruct (get_federation_fetch_endpoint E authority s) as [s1 [ep|e]]; [|discriminate].
  cbn beta iota in H. simpl in I1. destruct I1 as (Ht & _ & _).
  destruct (String.eqb ep ""); [discriminate|].
  unfold mbind at 1, get_document in H.
  destruct (e_net E (st_tick s1) (QFetch ep authority entity)) as [signed| | |] eqn:En; try discriminate.
  unfold mbind at 1, lift, unverified in H. destruct signed as [[|k p]|]; try discriminate.
  unfold mbind at 1, es_set at 1, modify in H. simpl in H.
  destruct (s_exp p) as [z|] eqn:Ez; [|discriminate].
  unfold mbind, es_set, modify, ret in H. simpl in H. injection H as <- <-.
  exists (st_tick s1), ep, (TJws k p), k, p, z. repeat split; try assumption; simpl.
  - unfold cache_set. rewrite dget_dset_other by apply key_kinds_same. apply dget_dset_same.
  - unfold cache_set. apply dget_dset_same.
Qed.

Lemma es_other E entity authority s v :
  dget (cache_key authority entity) (st_es s) = Some v ->
  (forall z, dget (time_key authority entity) (st_es s) <> Some (ESExp z)) ->
  get_entity_statement E entity authority s = (s, Err TypeError).
Proof.
  intros H1 H2. unfold get_entity_statement, mbind, es_getitem, cache_getitem, now. rewrite H1. simpl.
  destruct (dget (time_key authority entity) (st_es s)) as [[t|z]|] eqn:Et; simpl;
    try (destruct s; reflexivity).
  exfalso. apply (H2 z). reflexivity.
Qed.
