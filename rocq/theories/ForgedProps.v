(** Explicit registration with OAuth 2 when anybody may ask in the name of a member (C192). *)
From Verif Require Import PyFacts ExampleKit CollectorProps CollectorRepeatProps FederationProps LiveFacts WellRunFacts.
From Verif Require Import ClientFacts ClientProps RegistrationFacts RegistrationProps RegistrationGrantProps RpSpec RpFacts RpProps.
From Verif Require Import LiveExample LiveResolveProps LiveRegisterProps LiveAnswerProps GetInProps TakenProps.
From Verif Require Import OauthModel OauthProps.
From Verif Require Export OauthOutageProps.
From Coq Require Import Lia.

(** nobody lives at the addresses of [a], or [a] is the superior of others and has not registered [m] *)
Definition astray (F : list member) (E : cenv) (m : member) (a : string) : Prop :=
  clean a /\ a <> m_id m /\
  ((forall x, In x F -> m_home x <> e_wk E a /\ m_home x <> e_tenant E a) \/
   exists x m2, In x F /\ In m2 F /\ m_id x = a /\ In a (superiors_of m2) /\ dget (m_id m) (m_subs x) = None).

Definition may_name (F : list member) (E : cenv) (m : member) (a : string) : Prop := In a (superiors_of m) \/ astray F E m a.

(** [t] asks for the member [m]: it is about [m] and names superiors of [m], and others that do not answer for [m]. Who has signed it,
    who is its issuer and everything else in it is left open. *)
Definition in_name_of (F : list member) (E : cenv) (m : member) (t : token) : Prop :=
  exists k p, t = TJws k p /\ s_sub p = m_id m /\ forall hints a, s_hints p = Some hints -> In a hints -> may_name F E m a.

Definition ocalls_any (F : list member) (E : cenv) (rank : string -> nat) (cs : list ocall) : Prop :=
  forall c, In c cs ->
  match c with
  | OVisit v => by_members F rank [v]
  | OEnlist fuel P prio t =>
      (exists m, In m F /\ rank (m_id m) < fuel /\ in_name_of F E m t) \/
      (forall k p ks, t = TJws k p -> s_jwks p = Some ks -> ~ In k ks)
  end.

(** [rt] leads from [m] up to somebody whose keys are in [kj], the constraints along it allow [p], and
    [md] is what the policies along [rt] leave of the metadata in [p] *)
Definition left_of (jwks_of : val -> option (list key)) (F : list member) (E : cenv) (O : iter_order) (kj : keyjar) (m : member) (p : stmt)
    (rt : list string) (md : tc_metadata) : Prop :=
  path F (m_id m) rt /\ rt <> [] /\ VerifierSpec.known kj (end_of (m_id m) rt) /\
  accepted (removelast (said jwks_of F E (m_id m) rt) ++ [p]) /\
  exists ves, policy_call_chain O (removelast (said jwks_of F E (m_id m) rt) ++ [p]) = Ok (md, ves).

(** The request [t] puts [ci] under [x] *)
Definition oadmitted (jwks_of : val -> option (list key)) (F : list member) (E : cenv) (O : iter_order) (R : reg_env) (kj : keyjar)
    (t : token) (x : string) (ci : dict val) : Prop :=
  exists m k p rt md ty d, In m F /\ t = TJws k p /\ s_sub p = m_id m /\ left_of jwks_of F E O kj m p rt md /\
    ty <> "federation_entity" /\ ty <> "trust_mark_issuer" /\ (exists mm, s_metadata p = Some mm /\ In ty (dkeys mm)) /\
    claims_for md ty d /\ stored_from R d ci /\ dget "client_id" ci = Some (VStr x).

Section Op.
Context (jwks_of : val -> option (list key)) (F : list member) (E : cenv) (rank : string -> nat).
Hypothesis L : library_shaky jwks_of F E.
Hypothesis HR : hierarchy F rank.
Hypothesis HU : all_checkable jwks_of F E.
Context (O : iter_order) (R : reg_env).
Hypothesis KI : keeps_id R.
Hypothesis PC : passed_on R "client_id".
Context (n0 : nat) (kj0 : keyjar).
Notation N0 := (library_net jwks_of F (e_clock E) 0).
Notation E0 := (freeze N0 E).
Notation L0 := (ls_run _ _ _ L).
Notation W := (library_world jwks_of F (e_clock E 0)).

(** who is asked without knowing anything gives an error *)
Lemma astray_fails rec m a : In m F -> astray F E m a -> exists x, pbranch E0 rec (m_id m) a = Err x.
Proof.
  intros Hm (_ & Na & H). unfold pbranch.
  destruct (String.eqb_spec (m_id m) a) as [Eq|_]; [exfalso; apply Na; symmetry; exact Eq|]. cbn [andb].
  cut (exists x, pstatement E0 a (m_id m) = Err x). { intros [x ->]. exists x. reflexivity. }
  destruct H as [H|(x & m2 & Hx & Hm2 & <- & Ha & Hn)].
  - assert (D : forall u, (forall x, In x F -> m_home x <> u) -> e_net E0 0 (QDoc u) = R404).
    { intros u Hu. cbn [e_net freeze library_net]. destruct (find _ F) as [y|] eqn:Ef; [|reflexivity].
      apply find_some in Ef. destruct Ef as [Hy Ey]. apply String.eqb_eq in Ey. destruct (Hu y Hy Ey). }
    unfold pstatement, pendpoint, pverified, pconf, pdoc. cbn [e_wk e_tenant freeze].
    rewrite (D (e_wk E a)) by (intros y Hy; exact (proj1 (H y Hy))).
    rewrite (D (e_tenant E a)) by (intros y Hy; exact (proj2 (H y Hy))).
    destruct (String.eqb _ _); eexists; reflexivity.
  - destruct (lf_superiors _ _ _ L0 m2 _ Hm2 Ha) as (x' & Hx' & Ex & Hs).
    assert (x' = x) as -> by (apply (lf_ids _ _ _ L0); assumption). destruct Hs as [S1 (md & M1 & M2) _ _].
    assert (PV : pverified E0 (m_id x) = Ok (own W (m_id x), w_config W (m_id x)))
      by exact (wr_pverified E0 W "" (m_id x) (WR _ _ _ rank L0 HR x Hx) (m_id x) (reaches_self W "" (m_id x))).
    assert (GE : endpoint_of (w_config W (m_id x)) (m_fetch x)).
    { destruct (configuration_of_member _ _ _ L0 x Hx) as (p2 & st2 & _ & _ & Hw2 & _ & _ & _ & _ & _ & Hc2 & Hg2).
      cbn [e_clock freeze] in Hw2.
      rewrite Hw2. destruct (published_metadata (m_srv x) (m_whole x)) as [|kv rest] eqn:Ep; [discriminate M1|].
      rewrite <- Ep in *. assert (T : truthy (VDict (published_metadata (m_srv x) (m_whole x))) = true) by (rewrite Ep; reflexivity).
      unfold if_truthy in Hg2. rewrite T in Hg2.
      destruct (claim_get _ _ _ _ _ _ Hg2 Hc2) as (tm & Et & Ft).
      assert (X := as_dict_get _ _ _ _ "federation_entity" Ft). rewrite M1 in X. destruct X as (fe & Hfe & Gfe).
      assert (Y := as_dict_get _ _ _ _ "federation_fetch_endpoint" Hfe). rewrite M2 in Y. destruct Y as (b & [= <-] & Gb).
      exists tm, fe. auto. }
    destruct GE as (tm & fe & G1 & G2 & G3). unfold pstatement, pendpoint. rewrite PV. cbn [bind snd]. unfold get_endpoint. rewrite G1.
    unfold dindex. rewrite G2. cbn [bind]. rewrite G3. cbn [bind].
    destruct (String.eqb_spec (m_fetch x) "") as [E1|_]; [destruct (proj1 S1 E1)|].
    assert (Ix := so_id _ _ _ (lf_sound _ _ _ L0 x Hx)). assert (Im := so_id _ _ _ (lf_sound _ _ _ L0 m Hm)).
    unfold pdoc. cbn [e_net freeze library_net]. rewrite (sees_location _ _ _ S1 (proj1 Ix) (proj1 Im)).
    rewrite (find_fetch _ _ _ L0 x Hx (proj1 S1)). cbn [dget String.eqb Ascii.eqb Bool.eqb].
    unfold fetch. cbn [fq_sub]. destruct (String.eqb_spec (m_id m) "") as [E1|_]; [destruct (proj1 Im E1)|]. cbn [orb].
    assert (EI : issuer_of (m_srv x) (mkFreq (Some (m_id x)) (Some (m_id m))) = m_id x).
    { unfold issuer_of. cbn [fq_iss]. destruct (m_id x) as [|ch i]; [destruct (proj1 Ix eq_refl)|reflexivity]. }
    rewrite EI. destruct (String.eqb_spec (m_id m) (m_id x)) as [E1|_]; [exfalso; apply Na; symmetry; exact E1|].
    unfold mbind, StateM.get. unfold find_filled. rewrite Hn. cbn [snd raise answer]. eexists; reflexivity.
Qed.

(** the tree for a request in the name of a member has nothing but ways up of that member *)
Lemma forged_tree fuel m p : In m F -> rank (m_id m) < fuel ->
  (forall hints a, s_hints p = Some hints -> In a hints -> may_name F E m a) ->
  forall tr, ptree E0 fuel "" (m_id m) p = Ok tr ->
    forall c, In c (tree2chains tr) -> exists r, route W "" (m_id m) r /\ r <> [] /\ c = map ESTok (along W (m_id m) r).
Proof.
  intros Hm Hf Hp tr. destruct fuel as [|fuel]; [lia|]. cbn [ptree].
  destruct (s_hints p) as [hints|] eqn:Eh; [|intros [= <-] c []].
  destruct (String.eqb (s_iss p) ""); [intros [= <-] c []|].
  assert (WR' := WR _ _ _ rank L0 HR m Hm). assert (RK := world_ranked _ _ _ rank L0 HR m Hm).
  assert (HFr : serves_fresh E0) by exact (proj1 (proj2 (library_quiet _ _ _ L0 m Hm))).
  set (e := m_id m) in *. assert (Re : reaches W "" e e) by constructor.
  assert (HA : above W "" e = superiors_of m) by exact (above_member _ _ _ L0 m Hm).
  assert (Hb : forall a, In a (above W "" e) -> exists t,
             pbranch E0 (ptree E0 fuel "") e a = Ok (Some (ESTok (TJws (w_key W a) (w_about W a e)), t)) /\
             (t = T [] <-> above W "" a = []) /\
             forall c, In c (tree2chains t) <-> exists r, route W "" a r /\ r <> [] /\ c = map ESTok (along W a r)).
  { intros a Ha. assert (Ra : reaches W "" e a) by (eapply reaches_up; eauto).
    destruct (wr_ptree E0 W "" e rank WR' RK HFr fuel a Ra) as (t & Ht & Hemp & _ & Hc). { specialize (RK e a Re Ha). lia. }
    exists t. split; [|split; assumption]. unfold pbranch.
    destruct (String.eqb_spec e a) as [Eq|_]; [exfalso; exact (rank_ne W "" e rank RK e a Re Ha Eq)|]. cbn [andb].
    rewrite (wr_pstatement E0 W "" e WR' HFr e a Re Ha). cbn [bind]. rewrite (wr_pverified E0 W "" e WR' a Ra). cbn [bind snd].
    rewrite Ht. reflexivity. }
  intros H. apply bind_ok in H. destruct H as (bs & Hbs & [= <-]).
  destruct (foldM_dset (pbranch E0 (ptree E0 fuel "") e) _ _ _ Hbs) as (D1 & _ & D3); [intros a b []|].
  assert (Dk : forall a b, In (a, b) bs -> In a hints).
  { assert (G : forall l d bs, foldM (fun acc a => let* b := pbranch E0 (ptree E0 fuel "") e a in Ok (dset a b acc)) l d
                = Ok bs -> forall a b, In (a, b) bs -> In a l \/ exists b', In (a, b') d).
    { induction l as [|a l IHl]; intros d bs0 H a' b' Hin; cbn [foldM] in H.
      - injection H as <-. eauto.
      - apply bind_ok in H. destruct H as (d' & Hd' & H). apply bind_ok in Hd'. destruct Hd' as (b & _ & [= <-]).
        destruct (IHl _ _ H a' b' Hin) as [Hl|[b'' Hd]]; [left; right; exact Hl|].
        apply In_dset in Hd. destruct Hd as [[= -> ->]|Hd]; [left; left; reflexivity|right; eauto]. }
    intros a b Hin. destruct (G _ _ _ Hbs a b Hin) as [H|[b' []]]. exact H. }
  intros c. cbn [tree2chains]. rewrite in_flat_map.
  intros ((a & b) & Hin & Hc). cbn [snd] in Hc. assert (Hpb0 := D1 a b Hin).
  assert (Ha : In a (above W "" e)).
  { destruct (Hp hints a eq_refl (Dk a b Hin)) as [Ha|Ha]; [rewrite HA; exact Ha|]. exfalso.
    destruct (astray_fails (ptree E0 fuel "") m a Hm Ha) as [x X]. fold e in X. rewrite X in Hpb0. discriminate Hpb0. }
  destruct (Hb a Ha) as (t & Hpb & Hemp & Hch). rewrite Hpb0 in Hpb. injection Hpb as ->.
  destruct t as [[|b0 bs0]].
  - destruct Hc as [<-|[]]. exists [a]. split; [|split; [discriminate|reflexivity]].
    constructor; [exact Ha|]. constructor. apply Hemp. reflexivity.
  - apply in_map_iff in Hc. destruct Hc as (c' & <- & Hc'). apply Hch in Hc'.
    destruct Hc' as (r & Hroute & Hne & ->). exists (a :: r).
    split; [constructor; assumption|]. split; [discriminate|]. cbn [along]. rewrite map_app. reflexivity.
Qed.

(** what is collected for it *)
Lemma forged_collected fuel m p s : In m F -> rank (m_id m) < fuel ->
  (forall hints a, s_hints p = Some hints -> In a hints -> may_name F E m a) -> MotionFacts.J E N0 n0 s ->
  runs E N0 n0 (collect_tree E fuel "" (m_id m) (Some p)) s (tmap esk) (ptree E0 fuel "" (m_id m) p) (fun _ _ => True).
Proof.
  intros Hm Hf Hp Hs. destruct fuel as [|fuel]; [lia|]. cbn [collect_tree ptree].
  assert (Hid := proj2 (so_id _ _ _ (lf_sound _ _ _ L0 m Hm))).
  assert (PV : pverified E0 (m_id m) = Ok (own W (m_id m), config jwks_of F E (m_id m))).
  { exact (wr_pverified E0 W "" (m_id m) (WR _ _ _ rank L0 HR m Hm) (m_id m) (reaches_self W "" (m_id m))). }
  destruct (s_hints p) as [hints|] eqn:Eh; [|apply runs_ret; auto].
  destruct (String.eqb (s_iss p) ""); [apply runs_ret; auto|].
  eapply runs_bind.
  - apply (r_mfold _ _ _ _ _ _ _ _ (map (fun b => (fst b, bmap esk (snd b))))); [|exact Hs|reflexivity].
    intros a b b0 s1 Hin H1 Hb.
    assert (Ha : clean a).
    { destruct (Hp hints a eq_refl Hin) as [Hab|Hab]; [|exact (proj1 Hab)].
      assert (HA : above W "" (m_id m) = superiors_of m) by exact (above_member _ _ _ L0 m Hm). rewrite <- HA in Hab.
      unfold above, superiors in Hab. destruct (String.eqb (m_id m) ""); [destruct Hab|].
      fold (config jwks_of F E (m_id m)) in Hab.
      destruct (s_hints (config jwks_of F E (m_id m))) as [h|] eqn:Ehh; [|destruct Hab].
      eapply (moving_clean jwks_of F E L); [exact PV|exact Ehh|exact Hab]. }
    eapply runs_bind.
    + eapply r_branch; [..|exact H1]; try exact Hid; try exact Ha;
        try solve [first [apply (moving_alike jwks_of F E L)|apply (moving_apart jwks_of F E L)|apply (moving_dated jwks_of F E L)
          |apply (dated0 jwks_of F E L)|exact (lf_picks _ _ _ L0)|apply (moving_valid jwks_of F E L)|apply (moving_valid0 jwks_of F E L)
          |apply (moving_clean jwks_of F E L)]].
      intros t1 p1 p2 s2 H2 Hv' Hp'.
      exact (r_tree E N0 n0 (moving_alike jwks_of F E L) (moving_apart jwks_of F E L) (moving_dated jwks_of F E L) (dated0 jwks_of F E L)
             (lf_picks _ _ _ L0) (moving_valid jwks_of F E L) (moving_valid0 jwks_of F E L) (moving_clean jwks_of F E L)
             "" fuel a t1 p1 p2 s2 Ha H2 Hv' Hp').
    + intros s2 x x0 _ H2 _ _ Ex. apply runs_ret; [exact H2| |exact I]. rewrite !dset_map, Hb, Ex. reflexivity.
  - intros s1 bs bs0 _ H1 _ _ Eb. apply runs_ret; [exact H1| |exact I]. rewrite !tmap_T, Eb. reflexivity.
Qed.

(** ** Keys *)

(** every statement on a way up is about a member that has superiors, and vouches for its key *)
Lemma up_about r : forall m, In m F -> route W "" (m_id m) r ->
  (forall k p, In (k, p) (jws (along W (m_id m) r)) ->
     exists m', In m' F /\ s_sub p = m_id m' /\ superiors_of m' <> [] /\ vouches_for p (m_key m')) /\
  (r <> [] -> exists k p, In (k, p) (jws (along W (m_id m) r)) /\ s_sub p = m_id m).
Proof.
  induction r as [|a r IH]; intros m Hm Hr; cbn [along].
  { split; [intros k p []|intros H; contradiction]. }
  inversion Hr as [|? ? ? Ha Hr']; subst.
  assert (HA : above W "" (m_id m) = superiors_of m) by exact (above_member _ _ _ L0 m Hm).
  destruct (wr_about _ _ _ _ (WR _ _ _ rank L0 HR m Hm) (m_id m) a (reaches_self _ "" (m_id m)) Ha) as (_ & As & Av & _).
  rewrite FederationProps.jws_app. cbn [jws]. split.
  - intros k p Hin. apply in_app_or in Hin. destruct Hin as [Hin|[[= <- <-]|[]]].
    + rewrite HA in Ha. destruct (lf_superiors _ _ _ L0 m a Hm Ha) as (m2 & H2 & <- & _). exact (proj1 (IH m2 H2 Hr') k p Hin).
    + exists m. split; [exact Hm|]. split; [exact As|]. split; [rewrite HA in Ha; intros X; rewrite X in Ha; destruct Ha|].
      cbn [library_world w_key] in Av. rewrite (by_id_In _ _ _ L0 m Hm) in Av. exact Av.
  - intros _. exists (w_key W a), (w_about W a (m_id m)). split; [apply in_or_app; right; left; reflexivity|exact As].
Qed.

Lemma near_jws c : forall c0, map tk c = map tk c0 -> forall k p, In (k, p) (jws c) ->
  exists p0, In (k, p0) (jws c0) /\ settle p = settle p0.
Proof.
  induction c as [|t c IH]; intros [|t0 c0] H k p Hin; try discriminate H; [destruct Hin|]. cbn [map] in H.
  assert (H1 : tk t = tk t0) by congruence. assert (H2 : map tk c = map tk c0) by congruence.
  destruct t as [|k1 p1], t0 as [|k2 p2]; try discriminate H1; cbn [jws] in *; [exact (IH c0 H2 k p Hin)|].
  cbn [tk] in H1. destruct Hin as [[= -> ->]|Hin].
  - exists p2. split; [left; congruence|congruence].
  - destruct (IH c0 H2 k p Hin) as (p0 & I0 & E0'). exists p0. split; [right; exact I0|exact E0'].
Qed.

Definition kept (kj : keyjar) : Prop :=
  right_keys F kj /\ forall x, In x F -> superiors_of x = [] -> dget (m_id x) kj = dget (m_id x) kj0.

Lemma call_keeps m r c k p kj : In m F -> route W "" (m_id m) r -> r <> [] -> map tk c = map tk (along W (m_id m) r) -> s_sub p = m_id m ->
  kept kj -> kept (fst (verifier_call (e_lib E) kj (c ++ [TJws k p]))).
Proof.
  intros Hm Hr Hne Hc Es [K1 K2]. rewrite call_fst.
  destruct (verify_effect (e_lib E) kj (c ++ [TJws k p])) as (pre & post & Ej & _ & Hh & _ & Hd & _).
  destruct (up_about r m Hm Hr) as [U1 U2]. rewrite FederationProps.jws_app in Ej. cbn [jws] in Ej.
  assert (C1 : forall k0 p0, In (k0, p0) (jws c) -> exists m', In m' F /\ s_sub p0 = m_id m' /\ superiors_of m' <> [] /\ vouches_for p0 (m_key m')).
  { intros k0 p0 Hin. destruct (near_jws c _ Hc k0 p0 Hin) as (p1 & I1 & S1). destruct (U1 k0 p1 I1) as (m' & H1 & H2 & H3 & ks & H4 & H5).
    destruct (settle_fields _ _ S1) as (_ & Hs & Hj & _). exists m'. split; [exact H1|]. split; [congruence|]. split; [exact H3|].
    exists ks. split; [congruence|exact H5]. }
  destruct (U2 Hne) as (k1 & p1 & I1 & S1). destruct (near_jws _ c (eq_sym Hc) k1 p1 I1) as (p2 & I2 & S2).
  assert (S3 : s_sub p2 = m_id m) by (destruct (settle_fields _ _ S2) as (_ & Hs & _); congruence).
  assert (Hpre : forall k0 p0, In (k0, p0) pre -> In (k0, p0) (jws c) \/ (p0 = p /\ forall y, In y (jws c) -> In y pre)).
  { intros k0 p0 Hin. destruct post as [|y post] using rev_ind.
    - rewrite app_nil_r in Ej. rewrite <- Ej in Hin |- *. apply in_app_or in Hin. destruct Hin as [Hin|[[= <- <-]|[]]]; [auto|].
      right. split; [reflexivity|]. intros y Hy. apply in_or_app. auto.
    - clear IHpost. rewrite app_assoc in Ej. apply app_inj_tail in Ej. destruct Ej as [Ej _]. left. rewrite Ej. apply in_or_app. auto. }
  assert (About : forall k0 p0, In (k0, p0) pre -> exists m', In m' F /\ s_sub p0 = m_id m' /\ superiors_of m' <> [] /\ vouched pre (m_id m') (m_key m')).
  { intros k0 p0 Hin. destruct (Hpre k0 p0 Hin) as [Hin'|[-> Hall]].
    - destruct (C1 k0 p0 Hin') as (m' & H1 & H2 & H3 & ks & H4 & H5). exists m'. split; [exact H1|]. split; [exact H2|]. split; [exact H3|].
      exists k0, p0, ks. auto.
    - destruct (C1 k1 p2 I2) as (m' & H1 & H2 & H3 & ks & H4 & H5). exists m'. split; [exact H1|]. split; [congruence|]. split; [exact H3|].
      exists k1, p2, ks. auto. }
  split.
  - intros x ks Hx Dx. assert (G : VerifierSpec.holds (fst (verify_trust_chain (e_lib E) kj (c ++ [TJws k p]))) (m_id x) (m_key x)).
    { apply Hh. destruct (in_dec string_dec (m_id x) (map (fun kp => s_sub (snd kp)) pre)) as [Hin|Hnin].
      - right. apply in_map_iff in Hin. destruct Hin as ([k0 p0] & E1 & Hin). destruct (About k0 p0 Hin) as (m' & H1 & H2 & _ & H3).
        cbn [snd] in E1. assert (x = m') as -> by (apply (lf_ids _ _ _ L0); [exact Hx|exact H1|congruence]). exact H3.
      - left. rewrite Hd in Dx.
        + exists ks. split; [exact Dx|exact (K1 x ks Hx Dx)].
        + intros k0 p0 Hin E1. apply Hnin, in_map_iff. exists (k0, p0). auto. }
    destruct G as (l & Hl & Hin). congruence.
  - intros x Hx Hs. rewrite <- (K2 x Hx Hs). apply Hd. intros k0 p0 Hin E1. destruct (About k0 p0 Hin) as (m' & H1 & H2 & H3 & _).
    assert (x = m') as -> by (apply (lf_ids _ _ _ L0); [exact Hx|exact H1|congruence]). contradiction.
Qed.

(** what an accepted chain is like *)
Lemma call_accepted m r c k p kj kj' tc : In m F -> route W "" (m_id m) r -> r <> [] -> map tk c = map tk (along W (m_id m) r) ->
  kept kj -> verifier_call (e_lib E) kj (c ++ [TJws k p]) = (kj', Ok (Some tc)) ->
  tc_anchor tc = end_of (m_id m) r /\ VerifierSpec.known kj0 (end_of (m_id m) r) /\
  accepted (removelast (said jwks_of F E (m_id m) r) ++ [p]) /\
  map settle (tc_verified tc) = map settle (removelast (said jwks_of F E (m_id m) r) ++ [p]).
Proof.
  intros Hm Hr Hne Hc [K1 K2] H. unfold verifier_call in H.
  assert (VI := verified_iff (e_lib E) kj (c ++ [TJws k p])). unfold verified in VI.
  destruct (verify_trust_chain (e_lib E) kj (c ++ [TJws k p])) as [kj1 [[|s ves]|x]]; cbn [snd] in VI; try discriminate H.
  assert (NN : s :: ves <> []) by (intros X; discriminate X).
  destruct (proj1 (VI (s :: ves)) (conj eq_refl NN)) as (_ & Ev & PS & _ & _ & AC). clear VI.
  destruct (trust_chain_expires_at (s :: ves)) as [z|]; [|discriminate H]. cbn [bind] in H. injection H as _ <-. cbn [tc_anchor tc_verified].
  assert (Hset : map settle (s :: ves) = map settle (removelast (said jwks_of F E (m_id m) r) ++ [p])).
  { rewrite Ev, (said_front jwks_of F E). unfold claims_up. rewrite FederationProps.jws_app, !map_app. cbn [jws map snd].
    apply (f_equal (fun l => l ++ [settle p])). clear - Hc. revert Hc. generalize (along W (m_id m) r) as c0. induction c as [|t c IH]; intros [|t0 c0] H; try discriminate H; [reflexivity|].
    cbn [map] in H. assert (H1 : tk t = tk t0) by congruence. assert (H2 : map tk c = map tk c0) by congruence.
    destruct t as [|k1 p1], t0 as [|k2 p2]; try discriminate H1; cbn [jws map snd]; [exact (IH c0 H2)|]. cbn [tk] in H1.
    rewrite (IH c0 H2). f_equal. congruence. }
  destruct (first_issuer E0 W "" (m_id m) (WR _ _ _ rank L0 HR m Hm) r (m_id m) (reaches_self _ "" (m_id m)) Hr Hne) as (k1 & p1 & l & El & Ei).
  assert (Es : s_iss s = end_of (m_id m) r).
  { rewrite (said_front jwks_of F E) in Hset. unfold claims_up in Hset. rewrite El in Hset. cbn [jws map snd app] in Hset.
    assert (X : settle s = settle p1) by congruence. destruct (settle_fields _ _ X) as (X1 & _). congruence. }
  split; [exact Es|]. split; [|split; [|exact Hset]].
  - destruct (jws (c ++ [TJws k p])) as [|[k2 p2] l2] eqn:Ej; [discriminate Ev|]. cbn [map snd] in Ev.
    destruct (PS [] k2 p2 l2 eq_refl) as [(l3 & D3 & _)|(k3 & p3 & jw & [] & _)].
    assert (p2 = s) as -> by congruence. rewrite Es in D3.
    destruct (reach_end W "" (m_id m) r (m_id m) (reaches_self _ "" (m_id m)) Hr) as [Rt At].
    destruct (reaches_member _ _ _ L0 "" m _ Hm Rt) as (m' & Hm' & Em'). rewrite <- Em' in *.
    assert (HA : above W "" (m_id m') = superiors_of m') by exact (above_member _ _ _ L0 m' Hm').
    exists l3. rewrite <- (K2 m' Hm'); [exact D3|]. rewrite <- HA. exact At.
  - unfold accepted in *. rewrite <- (meets_settle (removelast _ ++ _)), <- Hset, meets_settle. exact AC.
Qed.

Lemma all_kept m k p chains : In m F -> s_sub p = m_id m ->
  (forall c, In c chains -> exists r, route W "" (m_id m) r /\ r <> [] /\ map tk c = map tk (along W (m_id m) r)) ->
  forall kj, kept kj ->
  kept (fst (verify_trust_chains E chains [TJws k p] kj)) /\
  forall tcs, snd (verify_trust_chains E chains [TJws k p] kj) = Ok tcs -> forall tc, In tc tcs ->
    exists r, path F (m_id m) r /\ r <> [] /\ tc_anchor tc = end_of (m_id m) r /\ VerifierSpec.known kj0 (end_of (m_id m) r) /\
      accepted (removelast (said jwks_of F E (m_id m) r) ++ [p]) /\
      map settle (tc_verified tc) = map settle (removelast (said jwks_of F E (m_id m) r) ++ [p]).
Proof.
  intros Hm Es Hc. unfold verify_trust_chains.
  set (good := fun tc => exists r, path F (m_id m) r /\ r <> [] /\ tc_anchor tc = end_of (m_id m) r /\ VerifierSpec.known kj0 (end_of (m_id m) r) /\
      accepted (removelast (said jwks_of F E (m_id m) r) ++ [p]) /\
      map settle (tc_verified tc) = map settle (removelast (said jwks_of F E (m_id m) r) ++ [p])).
  cut (forall acc kj, (forall tc, In tc acc -> good tc) -> kept kj ->
    match mfold (fun acc c => do tc <- run_verifier E (c ++ [TJws k p]) in ret (match tc with Some t => acc ++ [t] | None => acc end)) chains acc kj with
    | (kj', v) => kept kj' /\ forall tcs, v = Ok tcs -> forall tc, In tc tcs -> good tc
    end).
  { intros G kj K. specialize (G [] kj (fun tc (H : In tc []) => match H with end) K).
    destruct (mfold _ chains [] kj) as [kj' v]. exact G. }
  induction chains as [|c chains IH]; intros acc kj Ha K.
  { cbn. split; [exact K|]. intros tcs [= <-]. exact Ha. }
  cbn [mfold]. unfold mbind at 1. unfold mbind at 1. unfold run_verifier at 1.
  destruct (Hc c (or_introl eq_refl)) as (r & Hr & Hne & Hck).
  assert (K' := call_keeps m r c k p kj Hm Hr Hne Hck Es K).
  destruct (verifier_call (e_lib E) kj (c ++ [TJws k p])) as [kj1 [o|x]] eqn:Ev; cbn [fst] in K'.
  2:{ split; [exact K'|]. intros tcs X. discriminate X. }
  unfold ret at 1. apply IH; [intros c' Hc'; apply Hc; right; exact Hc'| |exact K'].
  destruct o as [tc|]; [|exact Ha]. intros tc' Hin. apply in_app_or in Hin. destruct Hin as [Hin|[<-|[]]]; [exact (Ha tc' Hin)|].
  destruct (call_accepted m r c k p kj kj1 tc Hm Hr Hne Hck K Ev) as (A1 & A2 & A3 & A4).
  exists r. split; [exact (route_path _ _ _ L0 _ _ Hr m Hm eq_refl)|]. auto.
Qed.

(** ** One request *)

Lemma forged_looked fuel m k p f f1 r : In m F -> rank (m_id m) < fuel -> living jwks_of F E n0 kj0 f -> s_sub p = m_id m ->
  (forall hints a, s_hints p = Some hints -> In a hints -> may_name F E m a) ->
  verify_self_signed E (e_clock E (st_tick (f_col f))) (Some (TJws k p)) = Ok (TJws k p, p) ->
  chains_from E O fuel (m_id m) (TJws k p) f = (f1, r) ->
  living jwks_of F E n0 kj0 f1 /\ f_chains f1 = f_chains f /\
  forall cs c, r = Ok cs -> In c cs -> exists rt, left_of jwks_of F E O kj0 m p rt (ch_md c) /\ ch_anchor c = end_of (m_id m) rt.
Proof.
  intros Hm Hf (H1 & H2 & H3) Es Hp HV H.
  assert (Hch := forged_tree fuel m p Hm Hf Hp).
  assert (RT := forged_collected fuel m p (f_col f) Hm Hf Hp H1).
  unfold runs in RT. unfold chains_from, collect_trust_chains_signed in H. unfold mbind at 1 in H. rewrite opened_fed, HV in H. cbn [snd is_nil] in H.
  unfold mbind at 1, on_col at 1 in H. destruct (collect_tree E fuel "" (m_id m) (Some p) (f_col f)) as [c1 rt]. destruct RT as (_ & R2 & R3).
  destruct R3 as [[R3 ->]|[(R3 & x & R4 & ->)|[R3 _]]].
  { injection H as <- <-. cbn [f_col f_chains f_keys]. split; [|split; [reflexivity|intros cs c X; discriminate X]]. split; [exact R2|]. auto. }
  { injection H as <- <-. cbn [f_col f_chains f_keys]. split; [|split; [reflexivity|intros cs c X; discriminate X]]. split; [exact R2|]. auto. }
  destruct rt as [tr|x].
  2:{ injection H as <- <-. cbn [f_col f_chains f_keys]. split; [|split; [reflexivity|intros cs c X; discriminate X]]. split; [exact R2|]. auto. }
  destruct (ptree E0 fuel "" (m_id m) p) as [tr0|x0]; [|discriminate R3]. specialize (Hch tr0 eq_refl). cbn in R3. injection R3 as R3.
  assert (CN := chains_near _ _ R3).
  assert (HC : forall c, In c (map (map tok_of) (tree2chains tr)) ->
    exists r, route W "" (m_id m) r /\ r <> [] /\ map tk c = map tk (along W (m_id m) r)).
  { intros c Hin. assert (I2 := in_map (map tk) _ _ Hin). rewrite CN in I2. apply in_map_iff in I2. destruct I2 as (c0 & E1 & I2).
    apply in_map_iff in I2. destruct I2 as (c2 & <- & I2). destruct (Hch c2 I2) as (r0 & A1 & A2 & ->). exists r0. split; [exact A1|].
    split; [exact A2|]. rewrite <- E1, (map_map ESTok tok_of). cbn [tok_of]. rewrite map_id. reflexivity. }
  destruct (all_kept m k p _ Hm Es HC (f_keys f) (conj H2 H3)) as [[K1 K2] KA].
  unfold ret at 1, mbind, on_keys in H. cbn [fst f_keys] in H.
  destruct (verify_trust_chains E (map (map tok_of) (tree2chains tr)) [TJws k p] (f_keys f)) as [kj' [tcs|x]]; cbn [fst snd] in K1, K2, KA.
  - unfold lift in H. injection H as <- <-. cbn [f_col f_chains f_keys]. split; [|split; [reflexivity|]].
    + split; [exact R2|]. split; [exact K1|exact K2].
    + intros cs c EP Hin. destruct (applied_of O tcs cs EP) as [A1 _]. destruct (A1 c Hin) as (tc & I1 & Ea & _ & ves & Hpol).
      destruct (KA tcs eq_refl tc I1) as (r0 & B1 & B2 & Bt & B3 & B4 & B5). exists r0. split; [|congruence]. split; [exact B1|].
      split; [exact B2|]. split; [exact B3|]. split; [exact B4|]. assert (X := f_equal (policy_call_chain O) B5). rewrite !policy_chain_settle, Hpol in X. cbn [rmap fst] in X.
      destruct (policy_call_chain O (removelast (said jwks_of F E (m_id m) r0) ++ [p])) as [[md w]|]; [|discriminate X].
      cbn [rmap fst] in X. exists w. congruence.
  - injection H as <- <-. cbn [f_col f_chains f_keys]. split; [|split; [reflexivity|intros cs c X; discriminate X]].
    split; [exact R2|]. split; [exact K1|exact K2].
Qed.

(** what there is in the database is old, right, or was asked for in the name of a member *)
Definition fkeeping (db0 : dict (dict val)) (done : list ocall) (s : astate) : Prop :=
  living jwks_of F E n0 kj0 (a_fed s) /\ stored_right jwks_of F E O kj0 (a_fed s) /\
  forall x ci, dget x (r_cdb (a_reg s)) = Some ci ->
    dget x db0 = Some ci \/ client_right jwks_of F E O R kj0 x ci \/
    exists fuel P prio t, In (OEnlist fuel P prio t) done /\ oadmitted jwks_of F E O R kj0 t x ci.

Lemma fmore_done db0 done done' s : incl done done' -> fkeeping db0 done s -> fkeeping db0 done' s.
Proof.
  intros I (V & S & G). split; [exact V|]. split; [exact S|]. intros x ci D.
  destruct (G x ci D) as [A|[A|(fuel & P & prio & t & A & B)]]; [auto..|]. right. right. exists fuel, P, prio, t. auto.
Qed.

Lemma fvisit_keeps db0 done v s : by_members F rank [v] -> fkeeping db0 done s -> fkeeping db0 done (do_visit E O R s v).
Proof.
  intros Hv (V & S & G).
  destruct (visited_right jwks_of F E rank L HR HU O R KI PC n0 kj0 (r_cdb (a_reg s)) v s (Hv v (or_introl eq_refl))) as (V' & S' & G').
  { split; [exact V|]. split; [exact S|]. intros x ci D. left. exact D. }
  split; [exact V'|]. split; [exact S'|]. intros x ci D. destruct (G' x ci D) as [A|A]; [exact (G x ci A)|auto].
Qed.

Lemma fenlist_keeps db0 done fuel P prio t s :
  (exists m, In m F /\ rank (m_id m) < fuel /\ in_name_of F E m t) \/ (forall k p ks, t = TJws k p -> s_jwks p = Some ks -> ~ In k ks) ->
  fkeeping db0 done s -> fkeeping db0 (OEnlist fuel P prio t :: done) (do_ocall E O R s (OEnlist fuel P prio t)).
Proof.
  intros Hn K. cbn [do_ocall]. destruct (answer_oauth E O fuel R P prio t s) as [s' r] eqn:Eq. cbn [fst].
  assert (K' : fkeeping db0 (OEnlist fuel P prio t :: done) s) by (apply (fmore_done db0 done); [intros c Hc; right; exact Hc|exact K]).
  destruct (oanswer_cases E O R _ _ _ _ _ _ _ Eq) as [[-> _]|(k & p & ks & f1 & rc & -> & EJ & IK & EV & EG & X)]; [exact K'|].
  destruct Hn as [(m & Hm & Hf & HS)|Hn]; [|destruct (Hn k p ks eq_refl EJ IK)].
  destruct HS as (k' & p' & [= <- <-] & Es & Hh). rewrite Es in EG. destruct K' as (V & S & G).
  destruct (forged_looked fuel m k p _ f1 rc Hm Hf V Es Hh EV EG) as (V1 & Hc & A).
  assert (S1 : stored_right jwks_of F E O kj0 f1) by (intros x cs Hx D; rewrite Hc in D; exact (S x cs Hx D)).
  destruct X as [[-> _]|(cs & c & mm & ty & md & r2 & o & -> & Ic & Em & Ed & T2 & T3 & Ecm & E2 & -> & X)];
    [split; [exact V1|split; [exact S1|exact G]]|].
  split; [exact V1|]. split; [exact S1|]. cbn [a_reg]. intros x ci D. destruct o as [|args].
  - destruct (C57_entry_left_partial _ _ _ _ _ _ _ _ E2 (request_nodup md) PC) as [_ [->|(id & ci' & _ & B & Edb)]].
    + exact (G x ci D).
    + rewrite Edb in D. destruct (string_dec x id) as [->|N].
      * rewrite dget_dset_same in D. injection D as <-. right. left. left. exact B.
      * rewrite dget_dset_other in D by exact N. exact (G x ci D).
  - destruct (A cs c eq_refl Ic) as (rt & Lf & _).
    assert (RQ : NoDup (dkeys md) -> forall y, y <> "client_id" -> dget y (request_of md) = dget y md).
    { intros N y _. unfold request_of. rewrite dget_dupdate by exact N. destruct (dget y md); reflexivity. }
    destruct (step2_stored O R md _ _ _ _ _ _ _ RQ (request_nodup md) KI E2) as (rid & ci2 & D1 & D2 & _ & SF & Dc).
    destruct (step2_entry _ _ _ _ _ _ _ _ _ KI E2) as (rid' & ci3 & ci1 & D1' & Edb).
    assert (rid' = rid) by congruence. subst rid'. rewrite Edb, dget_dset_same in D2. injection D2 as ->.
    rewrite Edb in D. destruct (string_dec x rid) as [->|N].
    + rewrite dget_dset_same in D. injection D as <-. right. right. exists fuel, P, prio, (TJws k p). split; [left; reflexivity|].
      exists m, k, p, rt, (ch_md c), ty, md.
      split; [exact Hm|]. split; [reflexivity|]. split; [exact Es|]. split; [exact Lf|]. split; [exact T2|]. split; [exact T3|].
      split; [exists mm; auto|]. split; [exact (chain_claims c ty md Ecm)|]. split; [exact SF|exact Dc].
    + rewrite !dget_dset_other in D by exact N. exact (G x ci D).
Qed.

Lemma fcalls_keep db0 cs : forall done s, ocalls_any F E rank cs -> fkeeping db0 done s ->
  fkeeping db0 (rev cs ++ done) (after_ocalls E O R cs s).
Proof.
  unfold after_ocalls. induction cs as [|c cs IH]; intros done s A K; [exact K|]. cbn [fold_left rev]. rewrite <- app_assoc. cbn [app].
  apply IH; [intros c' Hc; apply A; right; exact Hc|]. assert (Ac := A c (or_introl eq_refl)). destruct c as [v|fuel P prio t].
  - apply (fmore_done db0 done); [intros x Hx; right; exact Hx|]. exact (fvisit_keeps db0 done v s Ac K).
  - exact (fenlist_keeps db0 done fuel P prio t s Ac K).
Qed.
End Op.

Lemma fkeeping_start jwks_of F E O R s0 : newborn (a_fed s0) -> right_keys F (f_keys (a_fed s0)) ->
  fkeeping jwks_of F E O R (st_tick (f_col (a_fed s0))) (f_keys (a_fed s0)) (r_cdb (a_reg s0)) [] s0.
Proof.
  intros HB Hk. split; [exact (living_start jwks_of F E _ HB Hk)|]. split; [|intros x ci D; left; exact D].
  intros x cs Hx D. rewrite (proj2 (proj2 HB)) in D. discriminate D.
Qed.

(** ** C192: forged requests for registration *)

(** Whoever asks for registration in the name of members: the keys of the trust anchors stay what they were, the keys that are held for
    members include their own, and the chains that are kept are those of the federation. Every client in the database was there before,
    is right (C175), or has what the policies above the member that is named leave of the metadata in a request, the constraints permitting. *)
Theorem C192_no_harm : forall jwks_of F E O R rank s0 cs,
  library_shaky jwks_of F E -> hierarchy F rank -> all_checkable jwks_of F E -> keeps_id R -> passed_on R "client_id" ->
  newborn (a_fed s0) -> right_keys F (f_keys (a_fed s0)) -> ocalls_any F E rank cs ->
  let s := after_ocalls E O R cs s0 in
  (forall x, In x F -> superiors_of x = [] -> dget (m_id x) (f_keys (a_fed s)) = dget (m_id x) (f_keys (a_fed s0))) /\
  right_keys F (f_keys (a_fed s)) /\
  stored_right jwks_of F E O (f_keys (a_fed s0)) (a_fed s) /\
  forall x ci, dget x (r_cdb (a_reg s)) = Some ci ->
    dget x (r_cdb (a_reg s0)) = Some ci \/ client_right jwks_of F E O R (f_keys (a_fed s0)) x ci \/
    exists fuel P prio t, In (OEnlist fuel P prio t) cs /\ oadmitted jwks_of F E O R (f_keys (a_fed s0)) t x ci.
Proof.
  intros jwks_of F E O R rank s0 cs L HR HU KI PC HB Hk HA s.
  destruct (fcalls_keep jwks_of F E rank L HR HU O R KI PC _ _ _ cs [] s0 HA (fkeeping_start jwks_of F E O R s0 HB Hk)) as ((_ & V2 & V3) & S & G).
  split; [exact V3|]. split; [exact V2|]. split; [exact S|]. intros x ci D.
  destruct (G x ci D) as [A|[A|(fuel & P & prio & t & A & B)]]; [auto..|]. right. right. exists fuel, P, prio, t. split; [|exact B].
  rewrite app_nil_r in A. apply in_rev. exact A.
Qed.
Print Assumptions C192_no_harm.

(** A member that asks afterwards is answered as in C190. *)
Theorem C192_answered : forall jwks_of F E O R rank s0 cs fuel P prio mo m z p s' v,
  library_shaky jwks_of F E -> forwards E -> hierarchy F rank -> all_checkable jwks_of F E -> keeps_id R -> passed_on R "client_id" ->
  newborn (a_fed s0) -> right_keys F (f_keys (a_fed s0)) -> ocalls_any F E rank cs ->
  In m F -> rank (m_id m) < fuel -> is_member P mo ->
  sends jwks_of F E m (TJws (m_key m) p) -> s_exp p = Some z ->
  only_oauth (s_metadata (config jwks_of F E (m_id m))) ->
  (exists rt, usable jwks_of F E (f_keys (a_fed s0)) (m_id m) rt) ->
  (forall rt, usable jwks_of F E (f_keys (a_fed s0)) (m_id m) rt -> exists d, leaves O jwks_of F E (m_id m) rt d /\ good_oauth R d) ->
  let s := after_ocalls E O R cs s0 in
  (e_clock E (st_tick (f_col (a_fed s))) < z)%Z ->
  answer_oauth E O fuel R P prio (TJws (m_key m) p) s = (s', v) ->
  (e_clock E (st_tick (f_col (a_fed s'))) < e_clock E (st_tick (f_col (a_fed s0))) + 86400 - e_delta E)%Z ->
  (exists a rt d ci md, v = Ok (Some a) /\ usable jwks_of F E (f_keys (a_fed s0)) (m_id m) rt /\
     made_by mo m (end_of (m_id m) rt) (op_now P + op_lifetime P) a /\
     leaves O jwks_of F E (m_id m) rt d /\
     s_metadata (an_claims a) = Some [("oauth_client", md)] /\
     dget (rg_newid R (dkeys (r_cdb (a_reg s)))) (r_cdb (a_reg s')) = Some ci /\
     (forall k v, dget k d = Some v -> ~ In k RegistrationFacts.checked ->
        ~ In k ["client_id"; "client_salt"; "client_id_issued_at"; "client_secret"; "client_secret_expires_at"] ->
        granted R k v (dget k ci))) \/
  (outage jwks_of F E (st_tick (f_col (a_fed s))) (st_tick (f_col (a_fed s'))) /\ (exists x, net_error x /\ v = Err x) /\ a_reg s' = a_reg s).
Proof.
  intros jwks_of F E O R rank s0 cs fuel P prio mo m z p s' v L HF HR HU KI PC HB Hk HA Hm Hf HP HS T6 HO HX HG s HZ H HT.
  destruct (fcalls_keep jwks_of F E rank L HR HU O R KI PC _ _ _ cs [] s0 HA (fkeeping_start jwks_of F E O R s0 HB Hk)) as (V & _ & _).
  exact (oanswered jwks_of F E O R rank _ _ s fuel P prio mo m z p s' v L HF HR HU KI PC V Hm Hf HP HS T6 HO HX HG HZ H HT).
Qed.
Print Assumptions C192_answered.

(** The federation of C189, whose server still has the keys of somebody that was expelled ([gone], C191). [gone] asks in the name of the
    client and gets a client of its own; the client asks afterwards and is registered with what it has published. *)
Definition fo_request : token :=
  TJws 7 (mkStmt "gone" "client" (Some 4700%Z) (Some [7])
    (Some [("oauth_client", [("redirect_uris", VList [VStr "https://rp/cb"]); ("jwks", VInt 7); ("contacts", VList [VStr "gone"])])])
    None None (Some ["ta"])).
Definition fo_server : astate := mkA (mkFed (mkState [] [] 0) [("ta", [1]); ("gone", [7])] []) ex_start.
Definition fo_reg : reg_env := with_newid fresh_id ex_reg.
Definition fo_env : cenv := mkEnv 300 ["ta"] (library_net ex_jwks oa_fed cr_clock) cr_clock all_keys wk_url tenant_url.
Definition fo_calls : list ocall := [OEnlist 2 oa_op [] fo_request; OEnlist 2 oa_op [] TJunk; OVisit (Fed Wait)].
Definition fo_after (n : nat) : astate := after_ocalls fo_env id_order fo_reg (firstn n fo_calls) fo_server.
Definition fo_ask (s : astate) : astate * res (option RpModel.answer) := answer_oauth fo_env id_order 2 fo_reg oa_op [] oo_token s.

Lemma fo_shaky : library_shaky ex_jwks oa_fed fo_env.
Proof.
  constructor.
  - exact oa_run.
  - intros n q. left. reflexivity.
  - exact (ls_slow _ _ _ oo_shaky).
  - intros id m m' n I1 I2 H1 H2 N. exfalso. cbn [e_wk e_tenant fo_env] in H1, H2. unfold wk_url in H1. unfold tenant_url in H2.
    apply (f_equal String.length) in H1, H2.
    assert (Hap : forall a b, String.length (a ++ b) = String.length a + String.length b).
    { intros a b. induction a as [|c a IH]; cbn; [reflexivity|]. rewrite IH. reflexivity. }
    rewrite Hap in H1, H2. oa_members; cbn in H1, H2; lia.
Qed.

Lemma fo_named : in_name_of oa_fed fo_env oa_client fo_request.
Proof. eexists _, _. split; [reflexivity|]. split; [reflexivity|]. cbn [s_hints]. intros hints a [= <-] Ha. left. exact Ha. Qed.

Lemma fo_good : good_oauth fo_reg oa_claims.
Proof.
  split; [apply nodupb_sound; reflexivity|]. split.
  - constructor.
    + apply nodupb_sound. reflexivity.
    + reflexivity.
    + intros k v H. apply dget_In in H. simpl in H. split; [reflexivity|].
      repeat destruct H as [H|H]; try contradiction; injection H as <- <-; try (eexists; apply granted_passed; reflexivity).
      exists (Some (VList (map VStr ["code"]))). apply (granted_common _ _ _ "response_types_supported" ["code"; "id_token"] ["code"]);
        try reflexivity; [discriminate | repeat constructor; simpl; tauto |].
      intros x; simpl; split; [intros [<-|[]]; auto | intros [[<-|[]] _]; auto].
    + intros k Hk. simpl in Hk. repeat (destruct Hk as [<-|Hk]; [reflexivity|]). destruct Hk.
    + intros H. discriminate H.
    + intros v H; injection H as <-; exists ["https://rp/cb"]; split; [reflexivity|]; intros u [<-|[]]; right;
      split; [discriminate|]; split; [reflexivity|]; left; reflexivity.
    + intros v H; discriminate H.
    + intros k v Hk H; simpl in Hk; destruct Hk as [<-|[<-|[<-|[]]]]; discriminate H.
    + intros v H; discriminate H.
    + intros v H; eexists; reflexivity.
  - intros k v Hk H. unfold algs in Hk. simpl in Hk. destruct Hk as [<-|[<-|[]]]; discriminate H.
Qed.

Example C192_ex : library_shaky ex_jwks oa_fed fo_env /\ forwards fo_env /\ hierarchy oa_fed oa_rank /\ all_checkable ex_jwks oa_fed fo_env /\
  keeps_id fo_reg /\ passed_on fo_reg "client_id" /\ newborn (a_fed fo_server) /\ right_keys oa_fed (f_keys (a_fed fo_server)) /\
  ocalls_any oa_fed fo_env oa_rank fo_calls /\ is_member oa_op oa_as /\ sends ex_jwks oa_fed fo_env oa_client oo_token /\
  s_exp oo_later = Some 87000%Z /\ only_oauth (s_metadata (config ex_jwks oa_fed fo_env "client")) /\
  (exists rt, usable ex_jwks oa_fed fo_env (f_keys (a_fed fo_server)) "client" rt) /\
  (forall rt, usable ex_jwks oa_fed fo_env (f_keys (a_fed fo_server)) "client" rt ->
     exists d, leaves id_order ex_jwks oa_fed fo_env "client" rt d /\ good_oauth fo_reg d) /\
  (* what [gone] gets *)
  (exists ci, dget "op1x" (r_cdb (a_reg (fo_after 3))) = Some ci /\ dget "contacts" ci = Some (VList [VStr "gone"; VStr "ta"])) /\
  (* what the client is told, and gets *)
  (exists a, snd (fo_ask (fo_after 3)) = Ok (Some a) /\ s_sub (an_claims a) = "client" /\ an_anchor a = Some "ta") /\
  (exists ci, dget "op1op1xx" (r_cdb (a_reg (fst (fo_ask (fo_after 3))))) = Some ci /\ dget "contacts" ci = Some (VList [VStr "ta"])) /\
  (* the keys that are held in between *)
  f_keys (a_fed (fo_after 3)) = [("ta", [1]); ("gone", [7]); ("client", [3; 7])] /\
  (e_clock fo_env (st_tick (f_col (a_fed (fo_after 3%nat)))) < 87000)%Z /\
  (e_clock fo_env (st_tick (f_col (a_fed (fst (fo_ask (fo_after 3%nat)))))) < e_clock fo_env (st_tick (f_col (a_fed fo_server))) + 86400 - e_delta fo_env)%Z.
Proof.
  assert (Hr : In oa_client oa_fed) by (simpl; auto).
  split; [exact fo_shaky|]. split; [exact cr_forwards|]. split; [exact oa_hierarchy|]. split; [intros m Hm; exact (oa_checkable m Hm)|].
  split; [exact ex_keeps_id|]. split; [reflexivity|]. split; [repeat split|]. split.
  { intros m ks Hm D. oa_members; vm_compute in D; try discriminate D. injection D as <-. left. reflexivity. }
  split.
  { intros c [<-|[<-|[<-|[]]]].
    - left. exists oa_client. split; [exact Hr|]. split; [vm_compute; lia|exact fo_named].
    - right. intros k p ks H. discriminate H.
    - intros v [<-|[]]. exact I. }
  split; [split; [reflexivity|split; [reflexivity|left; reflexivity]]|]. split.
  { exists oo_later. split; [reflexivity|]. split; [vm_compute; reflexivity|discriminate]. }
  split; [reflexivity|]. split.
  { eexists. split; [vm_compute; reflexivity|]. split; [apply nodupb_sound; reflexivity|]. split; [left; reflexivity|].
    intros t [<-|[]]. left. reflexivity. }
  split.
  { exists ["ta"]. destruct (oa_usable oa_client Hr ltac:(discriminate)) as (U1 & U2 & U3 & U4).
    split; [exact U1|]. split; [exact U2|]. split; [exists [1]; reflexivity|exact U4]. }
  split.
  { intros rt (U1 & U2 & _ & U4). exists oa_claims. assert (rt = ["ta"]) as ->; [|split; [exact oa_leaves|exact fo_good]].
    destruct (oa_path oa_client rt Hr U1) as [-> | ->]; [contradiction U2; reflexivity|reflexivity]. }
  split; [eexists; split; vm_compute; reflexivity|]. split; [eexists; split; [vm_compute; reflexivity|split; reflexivity]|].
  split; [eexists; split; vm_compute; reflexivity|]. split; [vm_compute; reflexivity|]. split; vm_compute; reflexivity.
Qed.

(** A request that names somebody who does not exist beside the trust anchor ends in an error; the client is answered afterwards *)
Definition fo_lost : token :=
  TJws 7 (mkStmt "gone" "client" (Some 4700%Z) (Some [7]) (Some [("oauth_client", [("contacts", VList [VStr "gone"])])])
    None None (Some ["ta"; "nobody"])).

Example C192_astray_ex : in_name_of oa_fed fo_env oa_client fo_lost /\
  (let s := after_ocalls fo_env id_order fo_reg [OEnlist 2 oa_op [] fo_lost] fo_server in
   snd (answer_oauth fo_env id_order 2 fo_reg oa_op [] fo_lost fo_server) = Err MissingPage /\ f_keys (a_fed s) = f_keys (a_fed fo_server) /\
   exists a, snd (fo_ask s) = Ok (Some a) /\ s_sub (an_claims a) = "client" /\ an_anchor a = Some "ta").
Proof.
  split.
  - eexists _, _. split; [reflexivity|]. split; [reflexivity|]. cbn [s_hints]. intros hints a [= <-] [<-|[<-|[]]]; [left; left; reflexivity|right].
    split; [reflexivity|]. split; [intros X; discriminate X|]. left. intros x Hx. oa_members; split; intros X; discriminate X.
  - split; [vm_compute; reflexivity|]. split; [vm_compute; reflexivity|]. eexists. split; [vm_compute; reflexivity|split; reflexivity].
Qed.
