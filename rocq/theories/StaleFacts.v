(** Caches in which everything is over (C171). *)
From Verif Require Import PyFacts CollectorProps TreeProps VerifierFacts FederationProps RevokeFacts StaleSpec.
From Coq Require Import Lia.

(** ** Two states of one collector *)
Section Alike.
Context (E : cenv) (n1 : nat).
Context (FW : forwards E) (DL : (0 <= e_delta E)%Z) (HC : clean_net E).

(** the same configurations, but for some that are over on the left *)
Definition cfg_alike (c c' : dict centry) : Prop :=
  forall id, dget id c = dget id c' \/
    (dget id c' = None /\ exists e z, dget id c = Some e /\ ce_class e = CDict /\ s_exp (ce_stmt e) = Some z /\
                                      (z + e_delta E <= e_clock E n1)%Z).

Definition same_pair (a e : string) (x x' : dict esval) : Prop :=
  dget (cache_key a e) x = dget (cache_key a e) x' /\ dget (time_key a e) x = dget (time_key a e) x'.

(** the same statements, but for some that are over on the left *)
Definition es_alike (x x' : dict esval) : Prop :=
  forall a e, clean a -> clean e -> same_pair a e x x' \/
    (dget (cache_key a e) x' = None /\ dget (time_key a e) x' = None /\
     exists v z, dget (cache_key a e) x = Some v /\ dget (time_key a e) x = Some (ESExp z) /\
                 (z - e_delta E < e_clock E n1)%Z).

Definition alike (R : dict esval -> dict esval -> Prop) (s s' : cstate) : Prop :=
  st_tick s = st_tick s' /\ n1 <= st_tick s /\ cfg_alike (st_cfg s) (st_cfg s') /\ R (st_es s) (st_es s').

(** the programs give the same result in such states *)
Definition both {A} (R : dict esval -> dict esval -> Prop) (m : M cstate A) : Prop :=
  forall s s', alike R s s' -> snd (m s) = snd (m s') /\ alike R (fst (m s)) (fst (m s')).

Section Any.
Context (R : dict esval -> dict esval -> Prop).

Lemma b_ret A (a : A) : both R (ret a).
Proof. intros s s' H. split; [reflexivity|exact H]. Qed.

Lemma b_raise A e : both R (raise (A:=A) e).
Proof. intros s s' H. split; [reflexivity|exact H]. Qed.

Lemma b_lift A (r : res A) : both R (lift r).
Proof. intros s s' H. split; [reflexivity|exact H]. Qed.

Lemma b_bind A B (m : M cstate A) (f : A -> M cstate B) : both R m -> (forall a, both R (f a)) -> both R (mbind m f).
Proof.
  intros Hm Hf s s' H. unfold mbind. destruct (Hm s s' H) as [E1 E2].
  destruct (m s) as [s1 [a|e]], (m s') as [s1' [a'|e']]; cbn [fst snd] in *; try discriminate.
  - injection E1 as <-. apply Hf, E2.
  - injection E1 as <-. split; [reflexivity|exact E2].
Qed.

Lemma b_mfold A B (f : B -> A -> M cstate B) l : (forall a b, In a l -> both R (f b a)) -> forall b, both R (mfold f l b).
Proof.
  induction l as [|a l IH]; intros Hf b; [apply b_ret|]. cbn [mfold].
  apply b_bind; [apply Hf; left; reflexivity|]. intros b'. apply IH. intros a' b'' Hin. apply Hf. right. exact Hin.
Qed.

Lemma b_now : both R (now E).
Proof. intros s s' H. split; [cbn; destruct H as (-> & _); reflexivity|exact H]. Qed.

Lemma b_document q : both R (get_document E q).
Proof.
  intros s s' (H1 & H2 & H3 & H4). unfold get_document. cbn [fst snd]. rewrite H1. split; [reflexivity|].
  split; [reflexivity|]. cbn [st_tick]. split; [lia|]. split; assumption.
Qed.

Lemma b_cfg_getitem id : both R (cfg_getitem E id).
Proof.
  intros s s' (H1 & H2 & H3 & H4). unfold cfg_getitem, cache_getitem. rewrite <- H1.
  assert (T : (e_clock E n1 <= e_clock E (st_tick s))%Z) by (apply FW, H2).
  assert (D : forall c c', cfg_alike c c' -> cfg_alike (ddel id c) (ddel id c')).
  { intros c c' Hc id'. destruct (string_dec id' id) as [->|N].
    - left. rewrite !dget_ddel_same. reflexivity.
    - rewrite !dget_ddel_other by exact N. apply Hc. }
  destruct (H3 id) as [Es|(En & e & z & Ee & Ec & Ez & Hz)].
  - rewrite <- Es. destruct (dget id (st_cfg s)) as [e|]; [|split; [reflexivity|repeat split; assumption]].
    destruct (ce_class e); try (split; [reflexivity|repeat split; assumption]).
    destruct (s_exp (ce_stmt e)) as [z|]; [|split; [reflexivity|repeat split; assumption]].
    destruct (Z.ltb _ _); (split; [reflexivity|repeat split; try assumption]). apply D. exact H3.
  - rewrite En, Ee, Ec, Ez. destruct (Z.ltb_spec (e_clock E (st_tick s)) (z - e_delta E)) as [L|L]; [lia|].
    split; [reflexivity|]. split; [reflexivity|]. split; [exact H2|]. split; [|exact H4]. cbn [st_cfg fst].
    intros id'. destruct (string_dec id' id) as [->|N].
    + left. rewrite dget_ddel_same, En. reflexivity.
    + rewrite dget_ddel_other by exact N. apply H3.
Qed.

Lemma b_cfg_set id e : both R (cfg_set id e).
Proof.
  intros s s' (H1 & H2 & H3 & H4). split; [reflexivity|]. split; [exact H1|]. split; [exact H2|].
  split; [|exact H4]. intros id'. cbn. unfold cache_set. rewrite !dget_dset.
  destruct (String.eqb id' id); [left; reflexivity|apply H3].
Qed.

Lemma b_configuration id : both R (get_entity_configuration E id).
Proof.
  intros s s' H. unfold get_entity_configuration.
  destruct (b_document (QDoc (e_wk E id)) s s' H) as [E1 E2].
  destruct (get_document E (QDoc (e_wk E id)) s) as [s1 r], (get_document E (QDoc (e_wk E id)) s') as [s1' r'].
  cbn [fst snd] in *. subst r'. destruct r as [t|x]; [split; [reflexivity|exact E2]|].
  destruct x; try (split; [reflexivity|exact E2]).
  destruct (String.eqb _ _); [split; [reflexivity|exact E2]|]. apply b_document, E2.
Qed.

Lemma b_open t : both R (open_self_signed E t).
Proof.
  intros s s' H. unfold open_self_signed. cbn [fst snd]. split; [|exact H]. destruct H as (-> & _). reflexivity.
Qed.

Lemma b_fetch_endpoint id : both R (get_federation_fetch_endpoint E id).
Proof.
  unfold get_federation_fetch_endpoint. apply b_bind; [apply b_cfg_getitem|]. intros cached.
  apply b_bind; [destruct cached; [apply b_lift|apply b_ret]|]. intros ep. destruct (negb _); [apply b_ret|].
  apply b_bind; [apply b_configuration|]. intros signed. apply b_bind; [apply b_open|]. intros tp.
  apply b_bind; [apply b_lift|]. intros ep'. apply b_bind; [apply b_cfg_set|]. intros _. apply b_ret.
Qed.
End Any.

(** ** Statements *)

(** the pair in question is the same on both sides *)
Definition pair_alike (a e : string) (x x' : dict esval) : Prop := es_alike x x' /\ same_pair a e x x'.

Section Pair.
Context (a e : string) (Ha : clean a) (He : clean e).
Notation R := (pair_alike a e).

Lemma b_es_getitem k : k = cache_key a e \/ k = time_key a e -> both R (es_getitem E k).
Proof.
  intros Hk s s' H. assert (H' := H). destruct H' as (H1 & H2 & H3 & H4 & H5 & H6).
  unfold es_getitem, cache_getitem.
  assert (G : dget k (st_es s) = dget k (st_es s')) by (destruct Hk as [->| ->]; assumption).
  rewrite <- G. destruct (dget k (st_es s)); (split; [reflexivity|]);
    (split; [exact H1|split; [exact H2|split; [exact H3|split; [exact H4|split; assumption]]]]).
Qed.

Lemma set_alike k v x x' : k = cache_key a e \/ k = time_key a e -> R x x' -> R (dset k v x) (dset k v x').
Proof.
  intros Hk [H4 [H5 H6]]. split.
  - intros a' e' Ha' He'. destruct (string_dec a' a) as [->|Na]; [destruct (string_dec e' e) as [->|Ne]|].
    + left. unfold same_pair. rewrite !dget_dset. destruct (String.eqb _ k), (String.eqb _ k); split; congruence.
    + assert (N1 : cache_key a e' <> k).
      { destruct Hk as [->| ->]; [intros K; apply cache_key_inj in K; try assumption; destruct K; contradiction|
                                  apply key_kinds; assumption]. }
      assert (N2 : time_key a e' <> k).
      { destruct Hk as [->| ->]; [intros K; symmetry in K; revert K; apply key_kinds; assumption|
                                  intros K; apply time_key_inj in K; try assumption; destruct K; contradiction]. }
      unfold same_pair. rewrite !(dget_dset_other _ _ _ _ _ N1), !(dget_dset_other _ _ _ _ _ N2). apply H4; assumption.
    + assert (N1 : cache_key a' e' <> k).
      { destruct Hk as [->| ->]; [intros K; apply cache_key_inj in K; try assumption; destruct K; contradiction|
                                  apply key_kinds; assumption]. }
      assert (N2 : time_key a' e' <> k).
      { destruct Hk as [->| ->]; [intros K; symmetry in K; revert K; apply key_kinds; assumption|
                                  intros K; apply time_key_inj in K; try assumption; destruct K; contradiction]. }
      unfold same_pair. rewrite !(dget_dset_other _ _ _ _ _ N1), !(dget_dset_other _ _ _ _ _ N2). apply H4; assumption.
  - unfold same_pair. rewrite !dget_dset. destruct (String.eqb _ k), (String.eqb _ k); split; congruence.
Qed.

Lemma del_alike k x x' : k = cache_key a e \/ k = time_key a e -> R x x' -> R (ddel k x) (ddel k x').
Proof.
  assert (D : forall k k' (y : dict esval), dget k' (ddel k y) = if String.eqb k' k then None else dget k' y).
  { intros k0 k' y. destruct (String.eqb_spec k' k0) as [->|N]; [apply dget_ddel_same|apply dget_ddel_other, N]. }
  intros Hk [H4 [H5 H6]]. split.
  - intros a' e' Ha' He'. destruct (string_dec a' a) as [->|Na]; [destruct (string_dec e' e) as [->|Ne]|].
    + left. unfold same_pair. rewrite !D. destruct (String.eqb _ k), (String.eqb _ k); split; congruence.
    + assert (N1 : cache_key a e' <> k).
      { destruct Hk as [->| ->]; [intros K; apply cache_key_inj in K; try assumption; destruct K; contradiction|
                                  apply key_kinds; assumption]. }
      assert (N2 : time_key a e' <> k).
      { destruct Hk as [->| ->]; [intros K; symmetry in K; revert K; apply key_kinds; assumption|
                                  intros K; apply time_key_inj in K; try assumption; destruct K; contradiction]. }
      unfold same_pair. rewrite !(dget_ddel_other _ _ _ _ N1), !(dget_ddel_other _ _ _ _ N2). apply H4; assumption.
    + assert (N1 : cache_key a' e' <> k).
      { destruct Hk as [->| ->]; [intros K; apply cache_key_inj in K; try assumption; destruct K; contradiction|
                                  apply key_kinds; assumption]. }
      assert (N2 : time_key a' e' <> k).
      { destruct Hk as [->| ->]; [intros K; symmetry in K; revert K; apply key_kinds; assumption|
                                  intros K; apply time_key_inj in K; try assumption; destruct K; contradiction]. }
      unfold same_pair. rewrite !(dget_ddel_other _ _ _ _ N1), !(dget_ddel_other _ _ _ _ N2). apply H4; assumption.
  - unfold same_pair. rewrite !D. destruct (String.eqb _ k), (String.eqb _ k); split; congruence.
Qed.

Lemma b_es_set k v : k = cache_key a e \/ k = time_key a e -> both R (es_set k v).
Proof.
  intros Hk s s' (H1 & H2 & H3 & H4). split; [reflexivity|]. split; [exact H1|]. split; [exact H2|].
  split; [exact H3|]. cbn. unfold cache_set. apply set_alike; assumption.
Qed.

Lemma b_es_del k : k = cache_key a e \/ k = time_key a e -> both R (es_del k).
Proof.
  intros Hk s s' (H1 & H2 & H3 & H4). unfold es_del, cache_delitem, dmem.
  assert (G : dget k (st_es s) = dget k (st_es s')) by (destruct H4 as [_ [H5 H6]]; destruct Hk as [->| ->]; assumption).
  rewrite <- G. destruct (dget k (st_es s)); (split; [reflexivity|]); (split; [exact H1|]); (split; [exact H2|]);
    (split; [exact H3|]); [|exact H4]. apply del_alike; assumption.
Qed.

Lemma b_statement_same : both R (get_entity_statement E e a).
Proof.
  unfold get_entity_statement. apply b_bind; [apply b_es_getitem; left; reflexivity|]. intros cached.
  apply b_bind.
  { destruct cached as [v|]; [|apply b_ret]. apply b_bind; [apply b_now|]. intros n.
    apply b_bind; [apply b_es_getitem; right; reflexivity|]. intros exp.
    destruct exp as [[t|z]|]; try apply b_raise. destruct (Z.ltb _ _); [|apply b_ret].
    apply b_bind; [apply b_es_del; left; reflexivity|]. intros _.
    apply b_bind; [apply b_es_del; right; reflexivity|]. intros _. apply b_ret. }
  intros usable. destruct usable as [v|]; [apply b_ret|].
  apply b_bind; [apply b_fetch_endpoint|]. intros ep. destruct (String.eqb ep ""); [apply b_ret|].
  apply b_bind; [apply b_document|]. intros signed. apply b_bind; [apply b_lift|]. intros p.
  destruct signed as [t|]; [|apply b_raise]. apply b_bind; [apply b_es_set; left; reflexivity|]. intros _.
  destruct (s_exp p) as [z|]; [|apply b_raise]. apply b_bind; [apply b_es_set; right; reflexivity|]. intros _.
  apply b_ret.
Qed.

Lemma b_statement : both es_alike (get_entity_statement E e a).
Proof.
  intros s s' (H1 & H2 & H3 & H4).
  assert (G : forall s0, alike R s0 s' ->
    snd (get_entity_statement E e a s0) = snd (get_entity_statement E e a s') /\
    alike es_alike (fst (get_entity_statement E e a s0)) (fst (get_entity_statement E e a s'))).
  { intros s0 H. destruct (b_statement_same s0 s' H) as [G1 (G2 & G3 & G4 & G5 & _)]. split; [exact G1|].
    split; [exact G2|]. split; [exact G3|]. split; assumption. }
  destruct (H4 a e Ha He) as [Hp|(Hn1 & Hn2 & v & z & Hv & Hz & Hlt)].
  - apply G. split; [exact H1|]. split; [exact H2|]. split; [exact H3|]. split; assumption.
  - assert (T : (e_clock E n1 <= e_clock E (st_tick s))%Z) by (apply FW, H2).
    rewrite (es_stale E e a s v z Hv Hz) by (unfold clock_of; lia).
    apply G. split; [exact H1|]. split; [exact H2|]. split; [exact H3|]. cbn [st_es without].
    assert (D : forall k k' (y : dict esval), dget k' (ddel k y) = if String.eqb k' k then None else dget k' y).
    { intros k0 k' y. destruct (String.eqb_spec k' k0) as [->|N]; [apply dget_ddel_same|apply dget_ddel_other, N]. }
    assert (P : same_pair a e (ddel (time_key a e) (ddel (cache_key a e) (st_es s))) (st_es s')).
    { split.
      - rewrite D, D, String.eqb_refl, Hn1. destruct (String.eqb _ _); reflexivity.
      - rewrite D, String.eqb_refl, Hn2. reflexivity. }
    split; [|exact P]. intros a' e' Ha' He'. destruct (string_dec a' a) as [->|Na]; [destruct (string_dec e' e) as [->|Ne]|].
    + left. exact P.
    + unfold same_pair.
      rewrite !(dget_ddel_other _ (cache_key a e')) by
        (first [apply key_kinds; assumption|intros K; apply cache_key_inj in K; try assumption; destruct K; contradiction]).
      rewrite !(dget_ddel_other _ (time_key a e')) by
        (first [intros K; apply time_key_inj in K; try assumption; destruct K; contradiction|
                intros K; symmetry in K; revert K; apply key_kinds; assumption]).
      apply H4; assumption.
    + unfold same_pair.
      rewrite !(dget_ddel_other _ (cache_key a' e')) by
        (first [apply key_kinds; assumption|intros K; apply cache_key_inj in K; try assumption; destruct K; contradiction]).
      rewrite !(dget_ddel_other _ (time_key a' e')) by
        (first [intros K; apply time_key_inj in K; try assumption; destruct K; contradiction|
                intros K; symmetry in K; revert K; apply key_kinds; assumption]).
      apply H4; assumption.
Qed.
End Pair.

(** ** The collection.  What is in the caches came from the network, so its hints are clean. *)
Definition both_in {A} (m : M cstate A) : Prop :=
  forall s s', fi E 0 s -> alike es_alike s s' -> snd (m s) = snd (m s') /\ alike es_alike (fst (m s)) (fst (m s')).

Lemma bi_of A (m : M cstate A) : both es_alike m -> both_in m.
Proof. intros H s s' _. apply H. Qed.

Lemma bi_bind A B (m : M cstate A) (f : A -> M cstate B) (Q : A -> Prop) :
  both_in m -> triple False (fi E 0) m Q -> (forall a, Q a -> both_in (f a)) -> both_in (mbind m f).
Proof.
  intros Hm Ht Hf s s' Hi H. unfold mbind. destruct (Hm s s' Hi H) as [E1 E2]. destruct (Ht s Hi) as [T1 T2].
  destruct (m s) as [s1 [a|x]], (m s') as [s1' [a'|x']]; cbn [fst snd] in *; try discriminate.
  - injection E1 as <-. apply Hf; assumption.
  - injection E1 as <-. split; [reflexivity|exact E2].
Qed.

Lemma bi_mfold A B (f : B -> A -> M cstate B) l :
  (forall a b, In a l -> both_in (f b a) /\ triple False (fi E 0) (f b a) (fun _ => True)) ->
  forall b, both_in (mfold f l b).
Proof.
  induction l as [|a l IH]; intros Hf b; [apply bi_of, b_ret|]. cbn [mfold].
  eapply bi_bind; [apply Hf; left; reflexivity|apply Hf; left; reflexivity|]. intros b' _.
  apply IH. intros a' b'' Hin. apply Hf. right. exact Hin.
Qed.

Lemma bi_collect_tree fuel stop_at : forall entity c, clean entity ->
  (forall c', c = Some c' -> exists t id, from_doc E id t c') ->
  both_in (collect_tree E fuel stop_at entity c).
Proof.
  induction fuel as [|fuel IH]; intros entity c He Hc; cbn [collect_tree]; [apply bi_of, b_raise|].
  destruct c as [c|]; [|apply bi_of, b_raise].
  destruct (Hc c eq_refl) as (t0 & id0 & n0 & u0 & k0 & Hn0 & _).
  destruct (s_hints c) as [hints|] eqn:Eh; [|apply bi_of, b_ret]. destruct (String.eqb _ _); [apply bi_of, b_ret|].
  assert (G : forall a, In a hints ->
    both_in (collect_branch E (collect_tree E fuel stop_at) entity a) /\
    triple False (fi E 0) (collect_branch E (collect_tree E fuel stop_at) entity a) (fun _ => True)).
  { intros a Hin. assert (Ha : clean a) by (apply (HC _ _ _ _ _ _ Hn0 Eh Hin)). unfold collect_branch.
    destruct (_ && _); [split; [apply bi_of, b_ret|apply t_ret; exact I]|].
    split.
    - eapply bi_bind; [apply bi_of, b_statement; assumption|apply f_get_entity_statement; assumption|].
      intros es _. destruct es as [v|]; [|apply bi_of, b_ret]. destruct (es_truthy v); [|apply bi_of, b_ret].
      eapply bi_bind; [apply bi_of, b_cfg_getitem|apply f_cfg_getitem|]. intros cfg Hcfg.
      assert (Hc' : forall c', option_map ce_stmt cfg = Some c' -> exists t id, from_doc E id t c').
      { intros c' Ec'. destruct cfg as [e|]; [|discriminate]. injection Ec' as <-.
        destruct (Hcfg e eq_refl) as (t & _ & Hf). eauto. }
      eapply bi_bind; [apply IH; assumption|apply f_collect_tree; assumption|]. intros t _. apply bi_of, b_ret.
    - eapply t_bind; [apply f_get_entity_statement; assumption|].
      intros es _. destruct es as [v|]; [|apply t_ret; exact I]. destruct (es_truthy v); [|apply t_ret; exact I].
      eapply t_bind; [apply f_cfg_getitem|]. intros cfg Hcfg.
      assert (Hc' : forall c', option_map ce_stmt cfg = Some c' -> exists t id, from_doc E id t c').
      { intros c' Ec'. destruct cfg as [e|]; [|discriminate]. injection Ec' as <-.
        destruct (Hcfg e eq_refl) as (t & _ & Hf). eauto. }
      eapply t_bind; [apply f_collect_tree; assumption|]. intros t _. apply t_ret. exact I. }
  eapply bi_bind with (Q := fun _ => True).
  - apply bi_mfold. intros a b Hin. destruct (G a Hin) as [G1 G2]. split.
    + eapply bi_bind; [exact G1|exact G2|]. intros x _. apply bi_of, b_ret.
    + eapply t_bind; [exact G2|]. intros x _. apply t_ret. exact I.
  - apply (t_mfold False (fi E 0) _ _ _ hints [] (fun _ _ => True)); [exact I|].
    intros l1 a bs Hin _. eapply t_bind; [apply (proj2 (G a Hin))|]. intros x _. apply t_ret. exact I.
  - intros bs _. apply bi_of, b_ret.
Qed.

Lemma bi_collect fuel stop_at id : clean id -> both_in (collect E fuel stop_at id).
Proof.
  intros Hid s s' Hi H. unfold collect. unfold mbind at 1 4, StateM.get. cbn beta iota.
  (* both find the same configuration or both find none that can be used *)
  set (tail := fun cached : option (token * stmt) =>
     match cached with
     | Some (t, c) => do tr <- collect_tree E fuel stop_at id (Some c) in ret (Some (tr, t))
     | None =>
         do signed <- get_entity_configuration E id in
         match signed with
         | None => ret None
         | Some _ =>
             do tp <- open_self_signed E signed in
             do _ <- cfg_set id (mkEntry (snd tp) (Some (fst tp)) CDict) in
             do tr <- collect_tree E fuel stop_at id (Some (snd tp)) in
             ret (Some (tr, fst tp))
         end
     end).
  assert (T : forall cached, (forall t c, cached = Some (t, c) -> from_doc E id t c) -> both_in (tail cached)).
  { intros cached Hc. destruct cached as [[t c]|]; cbn [tail].
    - assert (Hf := Hc t c eq_refl).
      eapply bi_bind with (Q := fun _ => True);
        [apply bi_collect_tree; [exact Hid|intros c' [= <-]; eauto]| |intros tr _; apply bi_of, b_ret].
      intros s1 Hs1. destruct (f_collect_tree E 0 HC fuel stop_at id (Some c) Hid) with (s := s1) as [T1 T2];
        [intros c' [= <-]; eauto|exact Hs1|]. split; [exact T1|]. destruct (snd _); [exact I|exact T2].
    - eapply bi_bind; [apply bi_of, b_configuration|apply f_get_entity_configuration|]. intros signed Hsg.
      destruct signed as [t|]; [|apply bi_of, b_ret].
      eapply bi_bind; [apply bi_of, b_open|apply (f_open E 0 id); exact Hsg|]. intros [t' c'] [Hf _]. cbn [fst snd] in *.
      eapply bi_bind; [apply bi_of, b_cfg_set|eapply f_cfg_set; [reflexivity|exact Hf]|]. intros _ _.
      eapply bi_bind with (Q := fun _ => True);
        [apply bi_collect_tree; [exact Hid|intros c1 [= <-]; eauto]| |intros tr _; apply bi_of, b_ret].
      intros s1 Hs1. destruct (f_collect_tree E 0 HC fuel stop_at id (Some c') Hid) with (s := s1) as [T1 T2];
        [intros c1 [= <-]; eauto|exact Hs1|]. split; [exact T1|]. destruct (snd _); [exact I|exact T2]. }
  set (head := fun o : option centry =>
     match o with
     | None => ret None
     | Some e => do n <- now E in do old <- lift (too_old E n (ce_stmt e)) in
         if old then ret None
         else match ce_jws e with Some t => ret (Some (t, ce_stmt e)) | None => raise AttributeError end
     end : M cstate (option (token * stmt))).
  change (snd ((do cached <- head (cache_get id (st_cfg s)) in tail cached) s) =
          snd ((do cached <- head (cache_get id (st_cfg s')) in tail cached) s') /\
          alike es_alike (fst ((do cached <- head (cache_get id (st_cfg s)) in tail cached) s))
                         (fst ((do cached <- head (cache_get id (st_cfg s')) in tail cached) s'))).
  assert (HD : forall o s0, head o s0 =
    (s0, match o with
         | None => Ok None
         | Some e => match too_old E (e_clock E (st_tick s0)) (ce_stmt e) with
                     | Ok true => Ok None
                     | Ok false => match ce_jws e with Some t => Ok (Some (t, ce_stmt e)) | None => Err AttributeError end
                     | Err x => Err x
                     end
         end)).
  { intros [e|] s0; [|reflexivity]. cbn [head]. unfold mbind, now, lift.
    destruct (too_old _ _ _) as [[|]|x]; [reflexivity| |reflexivity]. destruct (ce_jws e); reflexivity. }
  clearbody head. unfold mbind. rewrite !HD.
  assert (H' := H). destruct H' as (H1 & H2 & H3 & H4). unfold cache_get. rewrite <- H1.
  destruct (H3 id) as [Es|(En & e & z & Ee & Ec & Ez & Hz)].
  - rewrite <- Es. destruct (dget id (st_cfg s)) as [e|] eqn:Ee.
    2:{ apply T; [discriminate|exact Hi|exact H]. }
    assert (Hi' := Hi). destruct Hi' as (I1 & I2 & I3). destruct (I2 id e Ee) as (t & Et & Hf). rewrite Et.
    destruct (too_old E (e_clock E (st_tick s)) (ce_stmt e)) as [[|]|x].
    + apply T; [discriminate|exact Hi|exact H].
    + apply T; [intros t' c' [= <- <-]; exact Hf|exact Hi|exact H].
    + split; [reflexivity|exact H].
  - rewrite En, Ee. assert (L : (e_clock E n1 <= e_clock E (st_tick s))%Z) by (apply FW, H2).
    unfold too_old. rewrite Ez.
    destruct (Z.leb_spec (z + e_delta E) (e_clock E (st_tick s))) as [L'|L']; [|lia].
    apply T; [discriminate|exact Hi|exact H].
Qed.
End Alike.

(** ** What is in the caches after any history *)
Section Reached.
Context (E : cenv) (HC : clean_net E).

(** the document was handed out before request [n] *)
Definition had (n : nat) (c : stmt) : Prop := exists m u k, m < n /\ e_net E m (QDoc u) = RText (Some (TJws k c)).

Definition es_kept (n : nat) (x : dict esval) : Prop :=
  forall a e v, clean a -> clean e -> dget (cache_key a e) x = Some v ->
    exists m ep k p, m < n /\ e_net E m (QFetch ep a e) = RText (Some (TJws k p)) /\ v = ESTok (TJws k p) /\
      (forall z, s_exp p = Some z -> dget (time_key a e) x = Some (ESExp z)).

Definition kept_all (s : cstate) : Prop :=
  (forall id e, dget id (st_cfg s) = Some e -> ce_class e = CDict /\ had (st_tick s) (ce_stmt e)) /\
  es_kept (st_tick s) (st_es s) /\ es_good E (st_es s).

Lemma had_later n n' c : n <= n' -> had n c -> had n' c.
Proof. intros L (m & u & k & H1 & H2). exists m, u, k. split; [lia|exact H2]. Qed.

Lemma es_kept_later n n' x : n <= n' -> es_kept n x -> es_kept n' x.
Proof.
  intros L H a e v Ha He Hv. destruct (H a e v Ha He Hv) as (m & ep & k & p & H1 & H2). exists m, ep, k, p.
  split; [lia|exact H2].
Qed.

(** from request [N] on, the entries stay good and the result is as described *)
Definition goes {A} (N : nat) (m : M cstate A) (Q : nat -> A -> Prop) : Prop :=
  forall s, kept_all s -> N <= st_tick s ->
    kept_all (fst (m s)) /\ st_tick s <= st_tick (fst (m s)) /\
    match snd (m s) with Ok a => Q (st_tick (fst (m s))) a | Err _ => True end.

Lemma g_ret A N (a : A) (Q : nat -> A -> Prop) : (forall n, N <= n -> Q n a) -> goes N (ret a) Q.
Proof. intros H s Hs L. cbn. split; [exact Hs|]. split; [lia|apply H, L]. Qed.

Lemma g_raise A N e (Q : nat -> A -> Prop) : goes N (raise e) Q.
Proof. intros s Hs L. cbn. auto. Qed.

Lemma g_lift A N (r : res A) : goes N (lift r) (fun _ a => r = Ok a).
Proof. intros s Hs L. cbn. split; [exact Hs|]. split; [lia|]. destruct r; auto. Qed.

Lemma g_bind A B N (m : M cstate A) (f : A -> M cstate B) (P : nat -> A -> Prop) (Q : nat -> B -> Prop) :
  goes N m P -> (forall n a, N <= n -> P n a -> goes n (f a) Q) -> goes N (mbind m f) Q.
Proof.
  intros Hm Hf s Hs L. unfold mbind. destruct (Hm s Hs L) as (H1 & H2 & H3).
  destruct (m s) as [s1 [a|e]]; cbn [fst snd] in *; [|auto].
  destruct (Hf (st_tick s1) a ltac:(lia) H3 s1 H1 (le_n _)) as (G1 & G2 & G3).
  split; [exact G1|]. split; [lia|exact G3].
Qed.

Lemma g_weaken A N (m : M cstate A) (P Q : nat -> A -> Prop) :
  (forall n a, P n a -> Q n a) -> goes N m P -> goes N m Q.
Proof.
  intros H Hm s Hs L. destruct (Hm s Hs L) as (H1 & H2 & H3). split; [exact H1|]. split; [exact H2|].
  destruct (snd (m s)); auto.
Qed.

Lemma g_mfold A B (f : B -> A -> M cstate B) l :
  (forall N a b, In a l -> goes N (f b a) (fun _ _ => True)) -> forall N b, goes N (mfold f l b) (fun _ _ => True).
Proof.
  induction l as [|a l IH]; intros Hf N b; [apply g_ret; auto|]. cbn [mfold].
  eapply g_bind; [apply Hf; left; reflexivity|]. intros n b' _ _. apply IH. intros N' a' b'' Hin. apply Hf. right. exact Hin.
Qed.

Lemma g_document N q : goes N (get_document E q) (fun n t => exists m, m < n /\ e_net E m q = RText t).
Proof.
  intros s (H1 & H2 & H3) L. unfold get_document. cbn [fst snd st_tick]. split; [|split; [lia|]].
  - split; [|split; [|exact H3]].
    + intros id e He. cbn [st_tick st_cfg] in *. destruct (H1 id e He) as [G1 G2]. split; [exact G1|].
      apply (had_later (st_tick s)); [lia|exact G2].
    + cbn [st_tick st_es]. apply (es_kept_later (st_tick s)); [lia|exact H2].
  - destruct (e_net E (st_tick s) q) as [t| | |] eqn:En; auto. exists (st_tick s). split; [lia|exact En].
Qed.

Lemma g_configuration N id :
  goes N (get_entity_configuration E id)
       (fun n r => forall t, r = Some t -> exists m u, m < n /\ e_net E m (QDoc u) = RText (Some t)).
Proof.
  intros s Hs L. unfold get_entity_configuration.
  destruct (g_document N (QDoc (e_wk E id)) s Hs L) as (H1 & H2 & H3).
  destruct (get_document E (QDoc (e_wk E id)) s) as [s1 [r|x]]; cbn [fst snd] in *.
  - split; [exact H1|]. split; [exact H2|]. intros t ->. destruct H3 as (m & Hm & Hn). eauto.
  - destruct x; try (split; [exact H1|split; [exact H2|exact I]]).
    destruct (String.eqb _ _); [split; [exact H1|split; [exact H2|exact I]]|].
    destruct (g_document (st_tick s1) (QDoc (e_tenant E id)) s1 H1 (le_n _)) as (G1 & G2 & G3).
    split; [exact G1|]. split; [lia|]. destruct (snd (get_document E (QDoc (e_tenant E id)) s1)) as [r|]; [|exact I].
    intros t ->. destruct G3 as (m & Hm & Hn). eauto.
Qed.

Lemma g_open N signed :
  (forall t, signed = Some t -> exists m u, m < N /\ e_net E m (QDoc u) = RText (Some t)) ->
  goes N (open_self_signed E signed) (fun n tp => had n (snd tp)).
Proof.
  intros Ht s Hs L. unfold open_self_signed. cbn [fst snd]. split; [exact Hs|]. split; [lia|].
  destruct (verify_self_signed E (e_clock E (st_tick s)) signed) as [[t p]|] eqn:Ev; [|exact I].
  apply verify_self_signed_ok in Ev. destruct Ev as [-> (k & keys & -> & _)].
  destruct (Ht _ eq_refl) as (m & u & Hm & Hn). exists m, u, k. split; [lia|exact Hn].
Qed.

Lemma g_cfg_getitem N id :
  goes N (cfg_getitem E id) (fun n r => forall e, r = Some e -> had n (ce_stmt e)).
Proof.
  intros s (H1 & H2 & H3) L. unfold cfg_getitem, cache_getitem.
  assert (K : kept_all (mkState (st_cfg s) (st_es s) (st_tick s))) by (split; [exact H1|split; assumption]).
  destruct (dget id (st_cfg s)) as [e|] eqn:Ee.
  2:{ cbn [fst snd]. split; [exact K|]. split; [cbn; lia|discriminate]. }
  destruct (H1 id e Ee) as [-> Hh]. destruct (s_exp (ce_stmt e)) as [z|].
  2:{ cbn [fst snd]. split; [exact K|]. split; [cbn; lia|exact I]. }
  destruct (Z.ltb _ _); cbn [fst snd].
  - split; [exact K|]. split; [cbn; lia|]. intros e' [= <-]. exact Hh.
  - split; [|split; [cbn; lia|discriminate]]. split; [|split; assumption].
    intros id' e' He'. cbn [st_cfg st_tick] in *. destruct (string_dec id' id) as [->|Ne].
    + rewrite dget_ddel_same in He'. discriminate.
    + rewrite dget_ddel_other in He' by exact Ne. apply (H1 id' e' He').
Qed.

Lemma g_cfg_set N id c t : had N c -> goes N (cfg_set id (mkEntry c t CDict)) (fun _ _ => True).
Proof.
  intros Hh s (H1 & H2 & H3) L. cbn. split; [|split; [lia|exact I]]. split; [|split; assumption].
  intros id' e' He'. cbn [st_cfg st_tick] in *. unfold cache_set in He'. rewrite dget_dset in He'.
  destruct (String.eqb id' id); [|apply (H1 id' e' He')]. injection He' as <-. split; [reflexivity|].
  apply (had_later N); assumption.
Qed.

Lemma g_fetch_endpoint N id : goes N (get_federation_fetch_endpoint E id) (fun _ _ => True).
Proof.
  unfold get_federation_fetch_endpoint. eapply g_bind; [apply g_cfg_getitem|]. intros n cached _ _.
  eapply g_bind with (P := fun _ _ => True).
  { destruct cached; [|apply g_ret; auto]. eapply g_weaken; [|apply g_lift]. auto. }
  intros n' ep _ _. destruct (negb _); [apply g_ret; auto|].
  eapply g_bind; [apply g_configuration|]. intros n2 signed _ Hs.
  eapply g_bind; [apply g_open; exact Hs|]. intros n3 [t p] _ Hh. cbn [fst snd] in *.
  eapply g_bind; [apply g_lift|]. intros n4 ep' L4 _.
  eapply g_bind; [apply g_cfg_set; apply (had_later n3); assumption|]. intros n5 _ _ _. apply g_ret. auto.
Qed.

Lemma es_kept_del n a e x : clean a -> clean e -> es_kept n x ->
  es_kept n (ddel (time_key a e) (ddel (cache_key a e) x)).
Proof.
  intros Ha He H a' e' v Ha' He' Hv.
  rewrite dget_ddel_other in Hv by (apply key_kinds; assumption).
  destruct (string_dec (cache_key a' e') (cache_key a e)) as [Ek|Nk].
  { rewrite Ek, dget_ddel_same in Hv. discriminate. }
  rewrite dget_ddel_other in Hv by exact Nk. destruct (H a' e' v Ha' He' Hv) as (m & ep & k & p & H1 & H2 & H3 & H4).
  exists m, ep, k, p. split; [exact H1|]. split; [exact H2|]. split; [exact H3|]. intros z Hz.
  rewrite dget_ddel_other.
  - rewrite dget_ddel_other; [apply H4, Hz|]. intros K. symmetry in K. revert K. apply key_kinds; assumption.
  - intros K. apply time_key_inj in K; try assumption. destruct K as [-> ->]. apply Nk. reflexivity.
Qed.

(** the part that asks the network *)
Definition ends (n : nat) (s : cstate) : Prop := kept_all s /\ n <= st_tick s.

Lemma g_fetch N entity authority s : clean entity -> clean authority -> kept_all s -> N <= st_tick s ->
  dget (cache_key authority entity) (st_es s) = None ->
  ends (st_tick s) (fst (get_entity_statement E entity authority s)).
Proof.
  intros He Ha Hi L H0. unfold get_entity_statement.
  assert (E0 : es_getitem E (cache_key authority entity) s = (s, Ok None)).
  { unfold es_getitem, cache_getitem. rewrite H0. destruct s; reflexivity. }
  unfold mbind at 1. rewrite E0. cbn beta iota. unfold mbind at 1, ret at 1. cbn beta iota. unfold mbind at 1.
  destruct (g_fetch_endpoint N authority s Hi L) as (I1 & L1 & _). assert (Ees := fetch_endpoint_es E authority s).
  destruct (get_federation_fetch_endpoint E authority s) as [s1 [ep|x]]; cbn [fst] in I1, L1, Ees; [|split; auto].
  destruct (String.eqb ep ""); [cbn [ret fst]; split; [exact I1|exact L1]|].
  unfold mbind at 1. destruct (g_document (st_tick s1) (QFetch ep authority entity) s1 I1 (le_n _)) as (I2 & L2 & Hd).
  assert (Ees2 := get_document_es E (QFetch ep authority entity) s1).
  destruct (get_document E (QFetch ep authority entity) s1) as [s2 [signed|x]]; cbn [fst snd] in I2, L2, Hd, Ees2.
  2:{ cbn [fst]. split; [exact I2|]. cbn. lia. }
  destruct Hd as (n & Hn1 & Hn). unfold mbind at 1, lift, unverified.
  destruct signed as [[|k p]|]; try (cbn [fst]; split; [exact I2|cbn; lia]).
  destruct I2 as (J1 & J2 & J3). rewrite Ees in Ees2.
  assert (J3' : es_good E (dset (cache_key authority entity) (ESTok (TJws k p)) (st_es s2))).
  { apply (es_good_tok E _ _ n ep); try assumption. rewrite Ees2. exact H0. }
  unfold mbind at 1, es_set at 1, modify. cbn.
  assert (LL : st_tick s <= st_tick s2) by lia.
  destruct (s_exp p) as [z|] eqn:Ez; cbn; (split; [|exact LL]); (split; [exact J1|]); cbn [st_es]; unfold cache_set.
  - split.
    2:{ eapply es_good_time; try eassumption. apply dget_dset_same. }
    intros a' e' v Ha' He' Hv. cbn [st_tick]. rewrite dget_dset_other in Hv by (apply key_kinds; assumption).
    rewrite dget_dset in Hv. destruct (String.eqb_spec (cache_key a' e') (cache_key authority entity)) as [Ek|Nk].
    + apply cache_key_inj in Ek; try assumption. destruct Ek as [-> ->]. injection Hv as <-.
      exists n, ep, k, p. split; [exact Hn1|]. split; [exact Hn|]. split; [reflexivity|]. intros z' Hz'.
      rewrite dget_dset_same. congruence.
    + destruct (J2 a' e' v Ha' He' Hv) as (m & ep' & k' & p' & G1 & G2 & G3 & G4).
      exists m, ep', k', p'. split; [exact G1|]. split; [exact G2|]. split; [exact G3|]. intros z' Hz'.
      rewrite dget_dset_other; [rewrite dget_dset_other; [apply G4, Hz'|]|].
      * intros K. symmetry in K. revert K. apply key_kinds; assumption.
      * intros K. apply time_key_inj in K; try assumption. destruct K as [-> ->]. apply Nk. reflexivity.
  - split; [|exact J3'].
    intros a' e' v Ha' He' Hv. cbn [st_tick]. rewrite dget_dset in Hv.
    destruct (String.eqb_spec (cache_key a' e') (cache_key authority entity)) as [Ek|Nk].
    + apply cache_key_inj in Ek; try assumption. destruct Ek as [-> ->]. injection Hv as <-.
      exists n, ep, k, p. split; [exact Hn1|]. split; [exact Hn|]. split; [reflexivity|]. congruence.
    + destruct (J2 a' e' v Ha' He' Hv) as (m & ep' & k' & p' & G1 & G2 & G3 & G4).
      exists m, ep', k', p'. split; [exact G1|]. split; [exact G2|]. split; [exact G3|]. intros z' Hz'.
      rewrite dget_dset_other; [apply G4, Hz'|]. intros K. symmetry in K. revert K. apply key_kinds; assumption.
Qed.

Lemma g_statement N entity authority : clean entity -> clean authority ->
  goes N (get_entity_statement E entity authority) (fun _ _ => True).
Proof.
  intros He Ha s Hi L.
  assert (G : kept_all (fst (get_entity_statement E entity authority s)) /\
              st_tick s <= st_tick (fst (get_entity_statement E entity authority s))).
  { destruct (dget (cache_key authority entity) (st_es s)) as [v|] eqn:Ev; [|apply (g_fetch N); assumption].
    destruct (dget (time_key authority entity) (st_es s)) as [[t|z]|] eqn:Et.
    - rewrite (es_other E entity authority s _ Ev) by congruence. cbn [fst]. auto.
    - destruct (Z_le_gt_dec (clock_of E s) (z - e_delta E)) as [Hle|Hgt].
      + rewrite (es_fresh E entity authority s _ z Ev Et Hle). cbn [fst]. auto.
      + rewrite (es_stale E entity authority s _ z Ev Et) by lia.
        apply (g_fetch N (entity) authority (without entity authority s)); try assumption.
        * destruct Hi as (H1 & H2 & H3). split; [exact H1|]. cbn [st_es st_tick without].
          split; [apply es_kept_del; assumption|apply es_good_del; assumption].
        * cbn [st_es without]. rewrite dget_ddel_other by apply key_kinds_same. apply dget_ddel_same.
    - rewrite (es_other E entity authority s _ Ev) by congruence. cbn [fst]. auto. }
  destruct G as [G1 G2]. split; [exact G1|]. split; [exact G2|]. destruct (snd _); exact I.
Qed.

Lemma g_collect_tree fuel stop_at : forall N entity c, clean entity -> (forall c', c = Some c' -> had N c') ->
  goes N (collect_tree E fuel stop_at entity c) (fun _ _ => True).
Proof.
  induction fuel as [|fuel IH]; intros N entity c He Hc; cbn [collect_tree]; [apply g_raise|].
  destruct c as [c|]; [|apply g_raise]. destruct (Hc c eq_refl) as (m0 & u0 & k0 & _ & Hn0).
  destruct (s_hints c) as [hints|] eqn:Eh; [|apply g_ret; auto]. destruct (String.eqb _ _); [apply g_ret; auto|].
  eapply g_bind; [|intros n bs _ _; apply g_ret; auto].
  apply g_mfold. intros N' a b Hin. assert (Ha : clean a) by (apply (HC _ _ _ _ _ _ Hn0 Eh Hin)).
  eapply g_bind; [|intros n x _ _; apply g_ret; auto]. unfold collect_branch.
  destruct (_ && _); [apply g_ret with (Q := fun _ _ => True); auto|].
  eapply g_bind; [apply g_statement; assumption|]. intros n es _ _.
  destruct es as [v|]; [|apply g_ret; auto]. destruct (es_truthy v); [|apply g_ret; auto].
  eapply g_bind; [apply g_cfg_getitem|]. intros n2 cfg _ Hcfg.
  eapply g_bind; [apply IH; [exact Ha|]|intros n3 t _ _; apply g_ret; auto].
  intros c' Ec'. destruct cfg as [e|]; [|discriminate]. injection Ec' as <-. apply Hcfg. reflexivity.
Qed.

Lemma g_collect N fuel stop_at id : clean id -> goes N (collect E fuel stop_at id) (fun _ _ => True).
Proof.
  intros Hid s Hs L. unfold collect. unfold mbind at 1, StateM.get. cbn beta iota.
  match goal with |- kept_all (fst (?m s)) /\ _ => assert (G : goes (st_tick s) m (fun _ _ => True)) end.
  2:{ exact (G s Hs (le_n _)). }
  eapply g_bind with (P := fun n r => forall t c, r = Some (t, c) -> had n c).
  - unfold cache_get. destruct (dget id (st_cfg s)) as [e|] eqn:Ee; [|apply g_ret; discriminate].
    destruct Hs as (H1 & _). destruct (H1 id e Ee) as [_ Hh].
    eapply g_bind with (P := fun _ _ => True); [intros s1 Hs1 L1; cbn; auto|]. intros n1 n L1 _.
    eapply g_bind with (P := fun _ _ => True); [eapply g_weaken; [|apply g_lift]; auto|]. intros n2 old L2 _.
    destruct old; [apply g_ret; discriminate|]. destruct (ce_jws e) as [t|]; [|apply g_raise].
    apply g_ret. intros n3 L3 t' c' [= <- <-]. apply (had_later (st_tick s)); [lia|exact Hh].
  - intros n cached Ln Hc. destruct cached as [[t c]|].
    + eapply g_bind; [apply g_collect_tree; [exact Hid|]|intros n3 tr _ _; apply g_ret; auto].
      intros c' [= <-]. apply (Hc t c eq_refl).
    + eapply g_bind; [apply g_configuration|]. intros n2 signed L2 Hsg.
      destruct signed as [t|]; [|apply g_ret; auto].
      eapply g_bind; [apply g_open; exact Hsg|]. intros n3 [t' c'] L3 Hh. cbn [fst snd] in *.
      eapply g_bind; [apply g_cfg_set; exact Hh|]. intros n4 _ L4 _.
      eapply g_bind; [apply g_collect_tree; [exact Hid|]|intros n5 tr _ _; apply g_ret; auto].
      intros c1 [= <-]. apply (had_later n3); assumption.
Qed.

Lemma kept_steps O steps : forall s, clean_steps steps -> kept_all (f_col s) -> kept_all (f_col (after_steps E O steps s)).
Proof.
  induction steps as [|st steps IH]; intros s Hcl H; [exact H|]. cbn [after_steps fold_left].
  apply IH; [intros st' id Hin; apply Hcl; right; exact Hin|].
  assert (Hst : forall id, asked_for st = Some id -> clean id) by (intros id; apply Hcl; left; reflexivity).
  destruct st as [fuel id|fuel id|]; cbn [do_step].
  - rewrite verified_col. apply (g_collect 0 fuel "" id (Hst id eq_refl) _ H). lia.
  - destruct (asked_col E O fuel id s) as [->| ->]; [exact H|].
    apply (g_collect 0 fuel "" id (Hst id eq_refl) _ H). lia.
  - destruct H as (H1 & H2 & H3). cbn [f_col].
    split; [|split; [apply (es_kept_later (st_tick (f_col s))); [cbn; lia|exact H2]|exact H3]].
    intros id e He. cbn [st_cfg st_tick] in *. destruct (H1 id e He) as [G1 G2]. split; [exact G1|].
    apply (had_later (st_tick (f_col s))); [cbn; lia|exact G2].
Qed.

Lemma kept_start s : newborn s -> kept_all (f_col s).
Proof.
  intros (H1 & H2 & _). unfold kept_all. rewrite H1, H2. split; [discriminate|].
  split; [intros a e v _ _ H; discriminate|]. intros a e _ _. split; [discriminate|reflexivity].
Qed.
End Reached.

(** when all of that is over, the caches are as good as empty *)
Lemma kept_over E s : (0 <= e_delta E)%Z -> kept_all E (f_col s) ->
  dated_over E (st_tick (f_col s)) -> all_dated E (st_tick (f_col s)) ->
  alike E (st_tick (f_col s)) (es_alike E (st_tick (f_col s))) (f_col s) (f_col (newcomer s)).
Proof.
  intros DL (H1 & H2 & H3) Hov Hda. split; [reflexivity|]. split; [apply le_n|]. split.
  - intros id. destruct (dget id (st_cfg (f_col s))) as [e|] eqn:Ee; [right|left; reflexivity].
    split; [reflexivity|]. destruct (H1 id e Ee) as (Hc & m & u & k & Hm & Hn).
    destruct (s_exp (ce_stmt e)) as [z|] eqn:Ez; [|destruct (Hda _ _ _ _ Hm Hn Ez)].
    exists e, z. split; [reflexivity|]. split; [exact Hc|]. split; [exact Ez|].
    specialize (Hov _ _ _ _ _ Hm Hn Ez). lia.
  - intros a e Ha He. cbn [newcomer f_col st_es].
    destruct (dget (cache_key a e) (st_es (f_col s))) as [v|] eqn:Ev.
    + right. split; [reflexivity|]. split; [reflexivity|].
      destruct (H2 a e v Ha He Ev) as (m & ep & k & p & Hm & Hn & -> & Ht).
      destruct (s_exp p) as [z|] eqn:Ez; [|destruct (Hda _ _ _ _ Hm Hn Ez)].
      exists (ESTok (TJws k p)), z. split; [reflexivity|]. split; [apply Ht; reflexivity|].
      specialize (Hov _ _ _ _ _ Hm Hn Ez). lia.
    + left. split; [exact Ev|]. destruct (H3 a e Ha He) as [_ G]. exact (G Ev).
Qed.

(** two entities that are alike in that sense get the same answers from then on *)
Section Later.
Context (E : cenv) (n1 : nat) (FW : forwards E) (DL : (0 <= e_delta E)%Z) (HC : clean_net E) (O : iter_order).

Definition twins (old : dict (list tchain)) (s s' : fstate) : Prop :=
  fi E 0 (f_col s) /\ alike E n1 (es_alike E n1) (f_col s) (f_col s') /\ f_keys s = f_keys s' /\
  (forall id, dget id old = None -> dget id (f_chains s) = dget id (f_chains s')).

Lemma twins_verified old fuel id s s' : clean id -> twins old s s' ->
  snd (get_verified_trust_chains E O fuel id s) = snd (get_verified_trust_chains E O fuel id s') /\
  twins old (fst (get_verified_trust_chains E O fuel id s)) (fst (get_verified_trust_chains E O fuel id s')).
Proof.
  intros Hid (Hi & Ha & Hk & Hc). unfold twins. rewrite !verified_col.
  destruct (bi_collect E n1 FW DL HC fuel "" id Hid _ _ Hi Ha) as [B1 B2].
  assert (F := f_collect E 0 HC fuel "" id Hid _ Hi). destruct F as [F _].
  assert (G : snd (get_verified_trust_chains E O fuel id s) = snd (get_verified_trust_chains E O fuel id s') /\
              f_keys (fst (get_verified_trust_chains E O fuel id s)) = f_keys (fst (get_verified_trust_chains E O fuel id s')) /\
              f_chains (fst (get_verified_trust_chains E O fuel id s)) = f_chains s /\
              f_chains (fst (get_verified_trust_chains E O fuel id s')) = f_chains s').
  { unfold get_verified_trust_chains, collect_trust_chains, mbind, on_col.
    destruct (collect E fuel "" id (f_col s)) as [c1 r1], (collect E fuel "" id (f_col s')) as [c2 r2]. cbn [fst snd] in *.
    subst r2. destruct r1 as [[[tr t]|]|x]; cbn [fst snd ret].
    - destruct (map (map tok_of) (tree2chains tr)) as [|ch chs]; cbn [fst snd ret f_keys f_chains]; [auto|].
      unfold on_keys. cbn [f_keys f_col f_chains]. rewrite Hk.
      destruct (verify_trust_chains E (ch :: chs) [t] (f_keys s')) as [kj [tcs|x]]; cbn; auto.
    - auto.
    - auto. }
  destruct G as (G1 & G2 & G3 & G4). split; [exact G1|]. split; [exact F|]. split; [exact B2|]. split; [exact G2|].
  rewrite G3, G4. exact Hc.
Qed.

Lemma twins_asked old fuel id s s' : clean id -> dget id old = None -> twins old s s' ->
  snd (get_trust_chains E O fuel id s) = snd (get_trust_chains E O fuel id s') /\
  twins old (fst (get_trust_chains E O fuel id s)) (fst (get_trust_chains E O fuel id s')).
Proof.
  intros Hid Ho H. destruct (twins_verified old fuel id s s' Hid H) as [V1 V2]. assert (Hc := proj2 (proj2 (proj2 H)) id Ho).
  unfold get_trust_chains, mbind, StateM.get. rewrite Hc. destruct (dget id (f_chains s')) as [cs|]; [cbn; auto|].
  destruct (get_verified_trust_chains E O fuel id s) as [s1 r1], (get_verified_trust_chains E O fuel id s') as [s2 r2].
  cbn [fst snd] in V1, V2. subst r2. destruct r1 as [cs|x]; [|cbn; auto]. destruct (is_nil cs); [cbn; auto|]. cbn.
  split; [reflexivity|]. destruct V2 as (W1 & W2 & W3 & W4). split; [exact W1|]. split; [exact W2|]. split; [exact W3|].
  intros id' Ho'. cbn [f_chains]. rewrite !dget_dset. destruct (String.eqb id' id); [reflexivity|apply W4, Ho'].
Qed.

Lemma twins_waited old s s' : twins old s s' -> twins old (do_step E O s Wait) (do_step E O s' Wait).
Proof.
  intros ((H1 & H2 & H3) & (A1 & A2 & A3 & A4) & Hk & Hc). split; [|split; [|split; [exact Hk|exact Hc]]].
  - split; [cbn; lia|]. split; assumption.
  - split; [cbn; lia|]. split; [cbn; lia|]. split; assumption.
Qed.

Lemma twins_results old later : clean_steps later -> (forall fuel id, In (Ask fuel id) later -> dget id old = None) ->
  forall s s', twins old s s' ->
  results E O later s = results E O later s' /\ twins old (after_steps E O later s) (after_steps E O later s').
Proof.
  induction later as [|st later IH]; intros Hcl Ho s s' H; [split; [reflexivity|exact H]|].
  assert (G : result_of E O s st = result_of E O s' st /\ twins old (do_step E O s st) (do_step E O s' st)).
  { destruct st as [fuel id|fuel id|]; cbn [result_of do_step].
    - assert (Hid : clean id) by (apply (Hcl (Look fuel id)); [left|]; reflexivity).
      destruct (twins_verified old fuel id s s' Hid H) as [-> V]. auto.
    - assert (Hid : clean id) by (apply (Hcl (Ask fuel id)); [left|]; reflexivity).
      assert (Hid' : dget id old = None) by (apply (Ho fuel); left; reflexivity).
      destruct (twins_asked old fuel id s s' Hid Hid' H) as [-> V]. auto.
    - split; [reflexivity|]. apply twins_waited, H. }
  destruct G as [G1 G2]. cbn [results after_steps fold_left]. rewrite G1.
  destruct (IH (fun st' id Hin => Hcl st' id (or_intror Hin)) (fun fuel id Hin => Ho fuel id (or_intror Hin)) _ _ G2)
    as [-> I2]. split; [reflexivity|exact I2].
Qed.
End Later.
