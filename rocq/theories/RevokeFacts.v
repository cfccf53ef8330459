(** Lemmas for the end of a membership (C169). *)
From Verif Require Import PyFacts CollectorProps TreeProps VerifierFacts FederationProps.
From Verif Require Export RevokeSpec.
From Coq Require Import Lia.

Section Fresh.
Context (E : cenv) (n1 : nat) (HC : clean_net E).

(** where the entries of the caches come from *)
Definition from_doc (id : string) (t : token) (c : stmt) : Prop :=
  exists n u k, e_net E n (QDoc u) = RText (Some (TJws k c)) /\ t = TJws k c.

Definition es_good (es : dict esval) : Prop :=
  forall a e, clean a -> clean e ->
    (forall v, dget (cache_key a e) es = Some v ->
       exists n ep k p, e_net E n (QFetch ep a e) = RText (Some (TJws k p)) /\ v = ESTok (TJws k p) /\
         (forall z, dget (time_key a e) es = Some (ESExp z) -> s_exp p = Some z)) /\
    (dget (cache_key a e) es = None -> dget (time_key a e) es = None).

Definition fi (s : cstate) : Prop :=
  n1 <= st_tick s /\
  (forall id e, dget id (st_cfg s) = Some e -> exists t, ce_jws e = Some t /\ from_doc id t (ce_stmt e)) /\
  es_good (st_es s).

Notation tri := (triple False fi).
Ltac keep := split; [assumption|split; assumption].

Lemma f_cfg_getitem id :
  tri (cfg_getitem E id)
      (fun r => forall e, r = Some e -> exists t, ce_jws e = Some t /\ from_doc id t (ce_stmt e)).
Proof.
  intros s (H1 & H2 & H3). unfold cfg_getitem, cache_getitem.
  destruct (dget id (st_cfg s)) as [e|] eqn:Ee; simpl.
  - assert (Hdel : forall id' e', dget id' (ddel id (st_cfg s)) = Some e' ->
                                  exists t, ce_jws e' = Some t /\ from_doc id' t (ce_stmt e')).
    { intros id' e' H. destruct (string_dec id' id) as [->|N].
      - rewrite dget_ddel_same in H. discriminate.
      - rewrite dget_ddel_other in H by exact N. apply H2, H. }
    destruct (ce_class e); simpl.
    + destruct (s_exp (ce_stmt e)) as [z|]; simpl.
      * destruct (Z.ltb _ _); simpl; (split; [keep|]).
        -- intros e' [= <-]. apply H2, Ee.
        -- discriminate.
      * split; [keep|]. intros [].
    + split; [keep|]. intros e' [= <-]. apply H2, Ee.
    + split; [keep|]. intros e' [= <-]. apply H2, Ee.
  - split; [keep|]. discriminate.
Qed.

Lemma f_cfg_set id e t : ce_jws e = Some t -> from_doc id t (ce_stmt e) -> tri (cfg_set id e) (fun _ => True).
Proof.
  intros He Hf s (H1 & H2 & H3). split; [|exact I]. split; [exact H1|]. split; [|exact H3].
  intros id' e' H. simpl in H. unfold cache_set in H. rewrite dget_dset in H.
  destruct (String.eqb_spec id' id) as [->|N]; [injection H as <-; eauto|apply H2, H].
Qed.

Lemma f_get_document q :
  tri (get_document E q) (fun t => exists n, n1 <= n /\ e_net E n q = RText t).
Proof.
  intros s (H1 & H2 & H3). unfold get_document. simpl. split.
  - split; [simpl; lia|]. split; assumption.
  - destruct (e_net E (st_tick s) q) as [t| | |] eqn:En; try (intros []).
    exists (st_tick s). auto.
Qed.

Lemma f_get_entity_configuration id :
  tri (get_entity_configuration E id)
      (fun r => forall t, r = Some t -> exists n u, n1 <= n /\ e_net E n (QDoc u) = RText (Some t)).
Proof.
  intros s Hs. unfold get_entity_configuration.
  destruct (f_get_document (QDoc (e_wk E id)) s Hs) as [H1 H2].
  destruct (get_document E (QDoc (e_wk E id)) s) as [s' [r|e]]; cbn [fst snd] in *.
  - split; [exact H1|]. intros t ->. destruct H2 as (n & Hn & H2). eauto.
  - assert (G : fi (fst (s', Err e : res (option token)))) by exact H1.
    destruct e; try (split; [exact G|intros []]).
    destruct (String.eqb _ _); [split; [exact H1|intros []]|].
    destruct (f_get_document (QDoc (e_tenant E id)) s' H1) as [H3 H4]. split; [exact H3|].
    destruct (snd (get_document E (QDoc (e_tenant E id)) s')) as [r|]; [|intros []].
    intros t ->. destruct H4 as (n & Hn & H4). eauto.
Qed.

Lemma f_open id signed :
  (forall t, signed = Some t -> exists n u, n1 <= n /\ e_net E n (QDoc u) = RText (Some t)) ->
  tri (open_self_signed E signed) (fun tp => from_doc id (fst tp) (snd tp) /\ recent_doc E n1 (fst tp)).
Proof.
  intros Ht s Hs. unfold open_self_signed. cbn [fst snd]. split; [exact Hs|].
  destruct (verify_self_signed E (e_clock E (st_tick s)) signed) as [[t p]|] eqn:Ev; [|intros []].
  apply verify_self_signed_ok in Ev. destruct Ev as [-> (k & keys & -> & _)].
  destruct (Ht _ eq_refl) as (n & u & Hle & Hn). cbn [fst snd]. split; [exists n, u, k; auto|].
  exists n, u, k, p. auto.
Qed.

Lemma f_fetch_endpoint id : tri (get_federation_fetch_endpoint E id) (fun _ => True).
Proof.
  unfold get_federation_fetch_endpoint. eapply t_bind; [apply f_cfg_getitem|]. intros cached _.
  eapply t_bind with (P := fun _ => True).
  { destruct cached; [|apply t_ret; exact I]. intros s Hs. split; [exact Hs|].
    cbn [snd lift]. destruct (get_endpoint _); [exact I|intros []]. }
  intros ep _. destruct (negb _); [apply t_ret; exact I|].
  eapply t_bind; [apply f_get_entity_configuration|]. intros signed Hsg.
  eapply t_bind; [apply (f_open id); exact Hsg|]. intros [t p] [Hf _]. cbn [fst snd] in *.
  eapply t_bind with (P := fun _ => True).
  { intros s Hs. split; [exact Hs|]. cbn [snd lift]. destruct (get_endpoint _); [exact I|intros []]. }
  intros ep' _. eapply t_bind; [eapply f_cfg_set; [reflexivity|exact Hf]|]. intros _ _. apply t_ret. exact I.
Qed.

(** only the configurations change when a fetch endpoint is looked up *)
Lemma get_document_es q s : st_es (fst (get_document E q s)) = st_es s.
Proof. reflexivity. Qed.

Lemma cfg_getitem_es id s : st_es (fst (cfg_getitem E id s)) = st_es s.
Proof. unfold cfg_getitem. destruct (cache_getitem _ _ _ _ _ _). reflexivity. Qed.

Lemma get_entity_configuration_es id s : st_es (fst (get_entity_configuration E id s)) = st_es s.
Proof.
  unfold get_entity_configuration.
  assert (H := get_document_es (QDoc (e_wk E id)) s).
  destruct (get_document E (QDoc (e_wk E id)) s) as [s' [r|e]]; cbn [fst] in *; [exact H|].
  destruct e; try exact H. destruct (String.eqb _ _); [exact H|]. rewrite <- H. apply get_document_es.
Qed.

Lemma fetch_endpoint_es id s : st_es (fst (get_federation_fetch_endpoint E id s)) = st_es s.
Proof.
  unfold get_federation_fetch_endpoint, mbind at 1. assert (H := cfg_getitem_es id s).
  destruct (cfg_getitem E id s) as [s1 [cached|x]]; cbn [fst] in H; [|exact H]. unfold mbind at 1.
  assert (G : fst ((match cached with Some e => lift (get_endpoint (ce_stmt e)) | None => ret "" end) s1) = s1)
    by (destruct cached; reflexivity).
  destruct ((match cached with Some e => lift (get_endpoint (ce_stmt e)) | None => ret "" end) s1)
    as [s2 [ep|x]]; cbn [fst] in G; subst s2; [|exact H].
  destruct (negb _); [exact H|]. unfold mbind at 1. assert (H2 := get_entity_configuration_es id s1).
  destruct (get_entity_configuration E id s1) as [s2 [signed|x]]; cbn [fst] in H2; [|cbn [fst]; congruence].
  unfold mbind, open_self_signed. destruct (verify_self_signed _ _ _) as [tp|x]; [|cbn [fst]; congruence].
  unfold lift. destruct (get_endpoint _); cbn; congruence.
Qed.

Lemma es_good_del a e es : clean a -> clean e -> es_good es ->
  es_good (ddel (time_key a e) (ddel (cache_key a e) es)).
Proof.
  intros Ha He H a' e' Ha' He'. destruct (H a' e' Ha' He') as [H1 H2].
  assert (K1 : dget (cache_key a' e') (ddel (time_key a e) (ddel (cache_key a e) es))
             = if String.eqb (cache_key a' e') (cache_key a e) then None else dget (cache_key a' e') es).
  { rewrite dget_ddel_other by (apply key_kinds; assumption).
    destruct (String.eqb_spec (cache_key a' e') (cache_key a e)) as [->|N].
    - apply dget_ddel_same.
    - apply dget_ddel_other, N. }
  assert (K2 : dget (time_key a' e') (ddel (time_key a e) (ddel (cache_key a e) es))
             = if String.eqb (time_key a' e') (time_key a e) then None else dget (time_key a' e') es).
  { destruct (String.eqb_spec (time_key a' e') (time_key a e)) as [->|N].
    - apply dget_ddel_same.
    - rewrite dget_ddel_other by exact N. apply dget_ddel_other.
      intros N'. symmetry in N'. exact (key_kinds _ _ _ _ Ha Ha' N'). }
  rewrite K1, K2. split.
  - destruct (String.eqb_spec (cache_key a' e') (cache_key a e)) as [|N]; [discriminate|].
    intros v Hv. destruct (H1 v Hv) as (n & ep & k & p & G1 & G2 & G3).
    exists n, ep, k, p. split; [exact G1|]. split; [exact G2|]. intros z Hz.
    destruct (String.eqb _ _); [discriminate|]. apply G3, Hz.
  - destruct (String.eqb_spec (time_key a' e') (time_key a e)) as [|N]; [reflexivity|].
    destruct (String.eqb_spec (cache_key a' e') (cache_key a e)) as [Ek|N'].
    + apply cache_key_inj in Ek; [|exact Ha'|exact Ha]. destruct Ek as [-> ->]. contradiction.
    + exact H2.
Qed.

Lemma es_good_tok a e n ep k p es : clean a -> clean e ->
  e_net E n (QFetch ep a e) = RText (Some (TJws k p)) ->
  dget (cache_key a e) es = None -> es_good es -> es_good (dset (cache_key a e) (ESTok (TJws k p)) es).
Proof.
  intros Ha He Hn H0 H a' e' Ha' He'. destruct (H a' e' Ha' He') as [H1 H2].
  assert (K2 : dget (time_key a' e') (dset (cache_key a e) (ESTok (TJws k p)) es) = dget (time_key a' e') es).
  { apply dget_dset_other. intros N. symmetry in N. exact (key_kinds _ _ _ _ Ha Ha' N). }
  rewrite K2, dget_dset. destruct (String.eqb_spec (cache_key a' e') (cache_key a e)) as [Ek|N].
  - apply cache_key_inj in Ek; [|exact Ha'|exact Ha]. destruct Ek as [-> ->]. split; [|discriminate].
    intros v [= <-]. exists n, ep, k, p. split; [exact Hn|]. split; [reflexivity|].
    rewrite (H2 H0). discriminate.
  - split; assumption.
Qed.

Lemma es_good_time a e k p z es : clean a -> clean e ->
  dget (cache_key a e) es = Some (ESTok (TJws k p)) -> s_exp p = Some z ->
  es_good es -> es_good (dset (time_key a e) (ESExp z) es).
Proof.
  intros Ha He H0 Hz H a' e' Ha' He'. destruct (H a' e' Ha' He') as [H1 H2].
  rewrite dget_dset_other by (apply key_kinds; assumption). rewrite dget_dset.
  destruct (String.eqb_spec (time_key a' e') (time_key a e)) as [Ek|N].
  - apply time_key_inj in Ek; [|exact Ha'|exact Ha]. destruct Ek as [-> ->]. rewrite H0. split; [|discriminate].
    intros v [= <-]. destruct (H1 _ H0) as (n & ep & k' & p' & G1 & [= <- <-] & _).
    exists n, ep, k, p. split; [exact G1|]. split; [reflexivity|]. intros z' [= <-]. exact Hz.
  - split; assumption.
Qed.

(** the part that asks the network *)
Lemma f_fetch entity authority s s' r : clean entity -> clean authority -> fi s ->
  dget (cache_key authority entity) (st_es s) = None ->
  get_entity_statement E entity authority s = (s', r) ->
  fi s' /\ (forall v, r = Ok (Some v) -> exists t, v = ESTok t /\ recent E n1 authority entity t).
Proof.
  intros He Ha Hi H0 H. unfold get_entity_statement in H.
  assert (E0 : es_getitem E (cache_key authority entity) s = (s, Ok None)).
  { unfold es_getitem, cache_getitem. rewrite H0. destruct s; reflexivity. }
  unfold mbind at 1 in H. rewrite E0 in H. cbn beta iota in H.
  unfold mbind at 1, ret at 1 in H. cbn beta iota in H. unfold mbind at 1 in H.
  destruct (f_fetch_endpoint authority s Hi) as [I1 _]. assert (Ees := fetch_endpoint_es authority s).
  destruct (get_federation_fetch_endpoint E authority s) as [s1 [ep|x]]; cbn [fst] in I1, Ees.
  2:{ injection H as <- <-. split; [exact I1|discriminate]. }
  destruct (String.eqb ep ""); [injection H as <- <-; split; [exact I1|discriminate]|].
  unfold mbind at 1 in H. destruct (f_get_document (QFetch ep authority entity) s1 I1) as [I2 Hd].
  assert (Ees2 := get_document_es (QFetch ep authority entity) s1).
  destruct (get_document E (QFetch ep authority entity) s1) as [s2 [signed|x]]; cbn [fst snd] in I2, Hd, Ees2.
  2:{ injection H as <- <-. split; [exact I2|discriminate]. }
  destruct Hd as (n & Hn1 & Hn). unfold mbind at 1, lift, unverified in H.
  destruct signed as [[|k p]|]; try (injection H as <- <-; split; [exact I2|discriminate]).
  destruct I2 as (J1 & J2 & J3). rewrite Ees in Ees2.
  assert (J3' : es_good (dset (cache_key authority entity) (ESTok (TJws k p)) (st_es s2))).
  { apply (es_good_tok _ _ n ep); try assumption. rewrite Ees2. exact H0. }
  unfold mbind at 1, es_set at 1, modify in H. cbn in H.
  destruct (s_exp p) as [z|] eqn:Ez; cbn in H; injection H as <- <-.
  - split.
    + split; [exact J1|]. split; [exact J2|]. cbn [st_es]. unfold cache_set.
      eapply es_good_time; try eassumption. apply dget_dset_same.
    + intros v [= <-]. exists (TJws k p). split; [reflexivity|]. exists n, ep, k, p, z. repeat split; auto.
  - split; [|discriminate]. split; [exact J1|]. split; [exact J2|]. exact J3'.
Qed.

Lemma f_get_entity_statement entity authority : clean entity -> clean authority ->
  tri (get_entity_statement E entity authority)
      (fun r => forall v, r = Some v -> exists t, v = ESTok t /\ recent E n1 authority entity t).
Proof.
  intros He Ha s Hi.
  assert (G : fi (fst (get_entity_statement E entity authority s)) /\
              forall v, snd (get_entity_statement E entity authority s) = Ok (Some v) ->
                        exists t, v = ESTok t /\ recent E n1 authority entity t).
  { destruct Hi as (I1 & I2 & I3). destruct (I3 authority entity Ha He) as [J1 J2].
    destruct (dget (cache_key authority entity) (st_es s)) as [v|] eqn:Ev.
    - destruct (J1 v eq_refl) as (n & ep & k & p & Hn & -> & Hz).
      destruct (dget (time_key authority entity) (st_es s)) as [[t|z]|] eqn:Et.
      + rewrite (es_other E entity authority s _ Ev) by congruence. cbn [fst snd].
        split; [keep|discriminate].
      + destruct (Z_le_gt_dec (clock_of E s) (z - e_delta E)) as [Hle|Hgt].
        * rewrite (es_fresh E entity authority s _ z Ev Et Hle). cbn [fst snd].
          split; [keep|]. intros v [= <-]. exists (TJws k p). split; [reflexivity|].
          exists n, ep, k, p, z. split; [exact Hn|]. split; [reflexivity|]. split; [apply Hz; reflexivity|].
          right. exists (st_tick s). split; [exact I1|exact Hle].
        * rewrite (es_stale E entity authority s _ z Ev Et) by lia.
          destruct (get_entity_statement E entity authority (without entity authority s)) as [s' r] eqn:Eg.
          cbn [fst snd]. apply (f_fetch entity authority (without entity authority s) s' r He Ha); [| |exact Eg].
          -- split; [exact I1|]. split; [exact I2|]. cbn [st_es without]. apply es_good_del; assumption.
          -- cbn [st_es without]. rewrite dget_ddel_other by apply key_kinds_same. apply dget_ddel_same.
      + rewrite (es_other E entity authority s _ Ev) by congruence. cbn [fst snd].
        split; [keep|discriminate].
    - destruct (get_entity_statement E entity authority s) as [s' r] eqn:Eg.
      cbn [fst snd]. apply (f_fetch entity authority s s' r He Ha); [keep|exact Ev|exact Eg]. }
  destruct G as [G1 G2]. split; [exact G1|].
  destruct (snd (get_entity_statement E entity authority s)) as [r|]; [|intros []].
  intros v ->. apply G2. reflexivity.
Qed.

(** every statement in the tree is recent *)
Inductive fresh_tree : string -> tree esval -> Prop :=
| fresh_node entity bs :
    (forall a v t, In (a, Some (v, t)) bs ->
       exists tk, v = ESTok tk /\ recent E n1 a entity tk /\ fresh_tree a t) ->
    fresh_tree entity (T bs).

Lemma f_collect_tree fuel stop_at : forall entity c, clean entity ->
  (forall c', c = Some c' -> exists t id, from_doc id t c') ->
  tri (collect_tree E fuel stop_at entity c) (fresh_tree entity).
Proof.
  induction fuel as [|fuel IH]; intros entity c He Hc; cbn [collect_tree].
  { intros s Hs. split; [exact Hs|intros []]. }
  destruct c as [c|]; [|intros s Hs; split; [exact Hs|intros []]].
  destruct (Hc c eq_refl) as (t0 & id0 & n0 & u0 & k0 & Hn0 & _).
  destruct (s_hints c) as [hints|] eqn:Eh.
  2:{ apply t_ret. constructor. intros a v t []. }
  destruct (String.eqb _ _).
  { apply t_ret. constructor. intros a v t []. }
  eapply t_bind with (P := fun bs => fresh_tree entity (T bs)).
  2:{ intros bs Hbs. apply t_ret. exact Hbs. }
  apply (t_mfold False fi _ _ _ hints [] (fun _ bs => fresh_tree entity (T bs))).
  { constructor. intros a v t []. }
  intros l1 a bs Hin Hbs. assert (Ha : clean a) by (apply (HC _ _ _ _ _ _ Hn0 Eh Hin)).
  eapply t_bind with (P := fun b => forall v t, b = Some (v, t) ->
     exists tk, v = ESTok tk /\ recent E n1 a entity tk /\ fresh_tree a t).
  - unfold collect_branch. destruct (_ && _); [apply t_ret; discriminate|].
    eapply t_bind; [apply f_get_entity_statement; assumption|]. intros es Hes.
    destruct es as [v|]; [|apply t_ret; discriminate]. destruct (es_truthy v); [|apply t_ret; discriminate].
    destruct (Hes v eq_refl) as (tk & -> & Hr).
    eapply t_bind; [apply f_cfg_getitem|]. intros cfg Hcfg.
    eapply t_bind; [apply IH; [exact Ha|]|].
    + intros c' Ec'. destruct cfg as [e|]; [|discriminate]. injection Ec' as <-.
      destruct (Hcfg e eq_refl) as (t & _ & Hf). eauto.
    + intros t Ht. apply t_ret. intros v t' [= <- <-]. exists tk. auto.
  - intros b Hb. apply t_ret. constructor. intros a' v t Hin'.
    apply In_dset in Hin'. destruct Hin' as [E'|Hin'].
    + injection E' as -> <-. apply Hb. reflexivity.
    + inversion Hbs as [? ? G]; subst. apply (G a' v t Hin').
Qed.

Lemma f_collect fuel stop_at id : clean id ->
  tri (collect E fuel stop_at id)
      (fun r => forall tr t, r = Some (tr, t) -> fresh_tree id tr /\ recent_doc E n1 t).
Proof.
  intros Hid s Hs. unfold collect. unfold mbind at 1, StateM.get.
  cbn beta iota. 
  assert (G : tri (match cache_get id (st_cfg s) with
     | None => ret None
     | Some e =>
         do n <- now E in
         do old <- lift (too_old E n (ce_stmt e)) in
         if old then ret None
         else match ce_jws e with
              | Some t => ret (Some (t, ce_stmt e))
              | None => raise AttributeError
              end
     end) (fun r => forall t c, r = Some (t, c) -> from_doc id t c /\ recent_doc E n1 t)).
  { unfold cache_get. destruct (dget id (st_cfg s)) as [e|] eqn:Ee; [|apply t_ret; discriminate].
    destruct Hs as (_ & H2 & _). destruct (H2 id e Ee) as (t & Et & Hf).
    eapply t_bind with (P := fun z => exists m, n1 <= m /\ z = e_clock E m).
    { intros s1 Hs1. split; [exact Hs1|]. exists (st_tick s1). split; [apply Hs1|reflexivity]. }
    intros n (m & Hm & ->).
    eapply t_bind with (P := fun old => too_old E (e_clock E m) (ce_stmt e) = Ok old).
    { intros s1 Hs1. split; [exact Hs1|]. cbn [snd lift]. destruct (too_old _ _ _); [reflexivity|intros []]. }
    intros old Hold. destruct old; [apply t_ret; discriminate|]. rewrite Et. apply t_ret.
    intros t' c' [= <- <-]. split; [exact Hf|]. destruct Hf as (n & u & k & Hn & ->).
    unfold too_old in Hold. destruct (s_exp (ce_stmt e)) as [z|] eqn:Ez; [|discriminate]. injection Hold as Hold.
    exists n, u, k, (ce_stmt e). split; [exact Hn|]. split; [reflexivity|]. right. exists m, z.
    split; [exact Hm|]. split; [exact Ez|]. lia. }
  refine (t_bind False fi _ _ _ _ _ _ G _ s Hs).
  clear G s Hs. intros cached Hc. destruct cached as [[t c]|].
  - destruct (Hc t c eq_refl) as [Hf Hrd].
    eapply t_bind; [apply f_collect_tree; [exact Hid|]|].
    + intros c' [= <-]. eauto.
    + intros tr Htr. apply t_ret. intros tr' t' [= <- <-]. auto.
  - eapply t_bind; [apply f_get_entity_configuration|]. intros signed Hsg.
    destruct signed as [t|]; [|apply t_ret; discriminate].
    eapply t_bind; [apply (f_open id); exact Hsg|]. intros [t' c'] [Hf Hrd]. cbn [fst snd] in *.
    eapply t_bind; [eapply f_cfg_set; [reflexivity|exact Hf]|]. intros _ _.
    eapply t_bind; [apply f_collect_tree; [exact Hid|]|].
    + intros c1 [= <-]. eauto.
    + intros tr Htr. apply t_ret. intros tr1 t1 [= <- <-]. auto.
Qed.

Lemma fresh_path : forall tr entity, fresh_tree entity tr -> forall p, TreeProps.path tr p ->
  forall v, In v p -> exists a e tk, v = ESTok tk /\ recent E n1 a e tk.
Proof.
  intros tr. induction tr as [bs IH] using tree_ind'. intros entity Hf p Hp v Hv.
  inversion Hf as [? ? G]; subst.
  inversion Hp as [bs' a Hin|bs' a w Hin|bs' a w t p' Hin Hne Hp']; subst.
  - destruct Hv.
  - destruct Hv as [<-|[]]. destruct (G _ _ _ Hin) as (tk & -> & Hr & _). eauto.
  - apply in_app_iff in Hv. destruct (G _ _ _ Hin) as (tk & -> & Hr & Ht). destruct Hv as [Hv|[<-|[]]]; [|eauto].
    apply (IH a _ t Hin a Ht p' Hp' v Hv).
Qed.

End Fresh.

(** ** Whole runs *)
Lemma fi_start E n1 s : st_cfg s = [] -> st_es s = [] -> n1 <= st_tick s -> fi E n1 s.
Proof.
  intros H1 H2 H3. split; [exact H3|]. rewrite H1, H2. split; [discriminate|].
  intros a e _ _. split; [discriminate|reflexivity].
Qed.

Lemma fi_later E n1 n2 s : fi E n1 s -> n2 <= st_tick s -> fi E n2 s.
Proof. intros (_ & H2 & H3) H. split; [exact H|]. split; assumption. Qed.

Lemma verified_col E O fuel id s :
  f_col (fst (get_verified_trust_chains E O fuel id s)) = fst (collect E fuel "" id (f_col s)).
Proof.
  unfold get_verified_trust_chains, collect_trust_chains, mbind, on_col.
  destruct (collect E fuel "" id (f_col s)) as [s1 [[[tr t]|]|x]]; cbn [fst]; try reflexivity.
  cbn [ret]. destruct (map (map tok_of) (tree2chains tr)) as [|ch chs]; [reflexivity|].
  unfold on_keys. cbn [f_keys f_col f_chains].
  destruct (verify_trust_chains E (ch :: chs) [t] (f_keys s)) as [kj [tcs|x]]; reflexivity.
Qed.

Lemma asked_col E O fuel id s :
  f_col (fst (get_trust_chains E O fuel id s)) = f_col s \/
  f_col (fst (get_trust_chains E O fuel id s)) = fst (collect E fuel "" id (f_col s)).
Proof.
  unfold get_trust_chains, mbind, StateM.get. destruct (dget id (f_chains s)); [left; reflexivity|right].
  rewrite <- (verified_col E O). destruct (get_verified_trust_chains E O fuel id s) as [s1 [cs|x]]; [|reflexivity].
  destruct (is_nil cs); reflexivity.
Qed.

Lemma fi_step E O st s n1 : clean_net E -> (forall id, asked_for st = Some id -> clean id) ->
  fi E n1 (f_col s) -> fi E n1 (f_col (do_step E O s st)).
Proof.
  intros HC Hid H. destruct st as [fuel id|fuel id|]; cbn [do_step].
  - rewrite verified_col. apply (f_collect E n1 HC fuel "" id (Hid id eq_refl) _ H).
  - destruct (asked_col E O fuel id s) as [->| ->]; [exact H|].
    apply (f_collect E n1 HC fuel "" id (Hid id eq_refl) _ H).
  - destruct H as (H1 & H2 & H3). split; [cbn; lia|]. split; assumption.
Qed.

Lemma fi_steps E O steps : forall s n1, clean_net E -> clean_steps steps ->
  fi E n1 (f_col s) -> fi E n1 (f_col (after_steps E O steps s)).
Proof.
  induction steps as [|st steps IH]; intros s n1 HC Hcl H; [exact H|]. cbn [after_steps fold_left].
  apply IH; [exact HC|intros st' id Hin; apply Hcl; right; exact Hin|].
  apply fi_step; [exact HC| |exact H]. intros id. apply Hcl. left. reflexivity.
Qed.

(** what a collection that succeeds has in hand *)
Lemma looked E O fuel id s s' cs c :
  fi E (st_tick (f_col s)) (f_col s) -> clean_net E -> clean id ->
  get_verified_trust_chains E O fuel id s = (s', Ok cs) -> In c cs ->
  exists pre ch leaf, tc_chain (ch_tc c) = ch ++ [leaf] /\
    map between (ch_verified c) = map between (map snd (jws (ch ++ [leaf]))) /\
    properly_signed (after_calls (e_lib E) (f_keys s) (map (fun c => c ++ [leaf]) pre)) (jws (ch ++ [leaf])) /\
    recent_doc E (st_tick (f_col s)) leaf /\
    forall ts t, In ts (pre ++ [ch]) -> In t ts -> exists a e, recent E (st_tick (f_col s)) a e t.
Proof.
  intros Hi HC Hid H Hin.
  destruct (returned_chain _ _ _ _ _ _ _ _ H Hin) as (chains & leaf & pre & ch & post & tc & H1 & H2 & Hv & Ha).
  apply apply_keeps in Ha. destruct Ha as (A1 & A2 & A3 & A4 & A5 & A6).
  unfold collected, collect_trust_chains, mbind, on_col in H1.
  destruct (f_collect E _ HC fuel "" id Hid (f_col s) Hi) as [_ G].
  destruct (collect E fuel "" id (f_col s)) as [c0 [[[tr t]|]|x]]; try discriminate.
  injection H1 as <- <-. cbn [snd] in G. destruct (G tr t eq_refl) as [Hf Hrd].
  apply call_ok in Hv. destruct Hv as (Hv & _ & _ & _ & Ech). apply verified_iff in Hv.
  destruct Hv as (_ & Eves & Hps & _).
  exists pre, ch, t. split; [rewrite A2; exact Ech|]. split.
  { rewrite <- Eves. unfold between. clear -A5 A6. revert A5 A6. generalize (tc_verified tc).
    generalize (ch_verified c). induction l as [|x l IH]; intros [|y l'] H1 H2; cbn in *; try discriminate; [reflexivity|].
    injection H1 as H1 H1'. injection H2 as H2 H2'. f_equal; [congruence|]. apply IH; assumption. }
  split; [exact Hps|]. split; [exact Hrd|].
  intros ts t' Hts Ht'. assert (Hch : In ts (map (map tok_of) (tree2chains tr))).
  { rewrite H2. apply in_app_iff in Hts. apply in_or_app. destruct Hts as [Hts|[<-|[]]]; [left; exact Hts|].
    right. left. reflexivity. }
  apply in_map_iff in Hch. destruct Hch as (q & <- & Hq). apply C31_chains_are_paths in Hq.
  apply in_map_iff in Ht'. destruct Ht' as (v & <- & Hv).
  destruct (fresh_path E _ tr id Hf q Hq v Hv) as (a & e & tk & -> & Hr). exists a, e. exact Hr.
Qed.

Lemma fi_run E O steps s0 : newborn s0 -> clean_net E -> clean_steps steps ->
  fi E (st_tick (f_col (after_steps E O steps s0))) (f_col (after_steps E O steps s0)).
Proof.
  intros (N1 & N2 & _) HC Hst. eapply fi_later; [|apply le_n].
  apply (fi_steps E O steps s0 0 HC Hst). apply fi_start; [exact N1|exact N2|lia].
Qed.

(** what a returned chain rests on *)
Lemma rests_on E O steps s0 fuel id s' cs c :
  newborn s0 -> clean_net E -> clean_steps steps -> clean id ->
  get_verified_trust_chains E O fuel id (after_steps E O steps s0) = (s', Ok cs) -> In c cs ->
  exists ts leaf, tc_chain (ch_tc c) = ts ++ [leaf] /\
    map between (ch_verified c) = map between (map snd (jws (ts ++ [leaf]))) /\
    (exists n u k p, e_net E n (QDoc u) = RText (Some (TJws k p)) /\ leaf = TJws k p) /\
    forall t, In t ts -> exists a e, recent E (st_tick (f_col (after_steps E O steps s0))) a e t.
Proof.
  intros Hn HC Hst Hid H Hin.
  destruct (looked E O fuel id _ s' cs c (fi_run E O steps s0 Hn HC Hst) HC Hid H Hin)
    as (pre & ch & leaf & H1 & H2 & _ & (n & u & k & p & H3 & -> & _) & H4).
  exists ch, (TJws k p). split; [exact H1|]. split; [exact H2|]. split; [eauto 6|].
  intros t Ht. apply (H4 ch t); [|exact Ht]. apply in_or_app. right. left. reflexivity.
Qed.

(** keys are never dropped *)
Lemma verify_keeps E chains extra : forall kj x k, holds kj x k ->
  holds (fst (verify_trust_chains E chains extra kj)) x k.
Proof.
  unfold verify_trust_chains.
  set (f := fun acc c => do tc <- run_verifier E (c ++ extra) in
                         ret (match tc with Some t => acc ++ [t] | None => acc end)).
  generalize (@nil trust_chain). induction chains as [|c chains IH]; intros acc kj x k H;
    [exact H|]. cbn [mfold]. unfold f at 1. unfold mbind, run_verifier.
  assert (G := holds_after (e_lib E) [c ++ extra] kj x k H). cbn [after_calls fold_left] in G.
  unfold after_calls in G. cbn [fold_left] in G.
  destruct (verifier_call (e_lib E) kj (c ++ extra)) as [kj1 [o|e]]; [|exact G]. cbn [ret]. apply IH. exact G.
Qed.

Lemma looked_keys E O fuel id s x k : holds (f_keys s) x k ->
  holds (f_keys (fst (get_verified_trust_chains E O fuel id s))) x k.
Proof.
  intros H. unfold get_verified_trust_chains, mbind at 1. assert (Hk := collect_keys E fuel id "" s).
  destruct (collect_trust_chains E fuel id "" s) as [s1 [[chains [leaf|]]|e]]; cbn [fst] in Hk.
  - destruct chains as [|ch chains]; [cbn; rewrite Hk; exact H|].
    unfold mbind, on_keys. assert (G := verify_keeps E (ch :: chains) [leaf] (f_keys s1) x k).
    rewrite Hk in G. specialize (G H). rewrite Hk.
    destruct (verify_trust_chains E (ch :: chains) [leaf] (f_keys s)) as [kj [tcs|e]]; exact G.
  - destruct chains; cbn; rewrite Hk; exact H.
  - cbn. rewrite Hk. exact H.
Qed.
