(** Looking at a federation with the tree command (C165). *)
From Verif Require Import PyFacts PolicyProps ExampleKit CollectorProps CollectorFacts PublishFacts PublishProps RpSpec RpFacts LiveFacts
  ListModel ScriptModel ScriptProps SetupProps.
From Coq Require Import Lia.

(** ** What is on the tree *)

Definition lists_others (m : member) : Prop :=
  exists fe u, federation_part m fe /\ dget "federation_list_endpoint" fe = Some u.

Inductive under (F : list member) : member -> member -> Prop :=
| under_self m : under F m m
| under_sub m m1 m' : lists_others m -> In m1 F -> In (m_id m1) (dkeys (m_subs m)) -> under F m1 m' -> under F m m'.

(** the entities at the ends of the tree: those without a list endpoint *)
Definition end_below (F : list member) (m : member) (x : string) : Prop :=
  exists m', under F m m' /\ ~ lists_others m' /\ m_id m' = x.

(** somebody on the tree has a subordinate that does not know about it *)
Definition unknown_superior (F : list member) (m : member) (p : string * string) : Prop :=
  exists a x, under F m a /\ lists_others a /\ In x F /\ In (m_id x) (dkeys (m_subs a)) /\ ~ In (m_id a) (superiors_of x) /\
    p = (m_id a, m_id x).

(** every entity has a part as a federation entity, where the list endpoint is what answers at its URL; whoever is
    registered is there, has superiors, and is further down *)
Record listed (F : list member) (L : lenv) (height : string -> nat) : Prop := mkListed {
  li_part : forall m, In m F -> exists fe, federation_part m fe;
  li_ep : forall m fe u n, In m F -> federation_part m fe -> dget "federation_list_endpoint" fe = Some u ->
    exists ep ids O V, u = VStr ep /\ process O V [] (m_subs m) = Ok (LIds ids) /\ l_net L n ep LAll = LList ids;
  li_subs : forall m x, In m F -> lists_others m -> In x (dkeys (m_subs m)) ->
    height x < height (m_id m) /\ exists m1, In m1 F /\ m_id m1 = x /\ superiors_of m1 <> []
}.

Lemma dkeys_dset A k (v : A) d x : In x (dkeys (dset k v d)) <-> x = k \/ In x (dkeys d).
Proof.
  split.
  - intros H. apply key_In_dget in H. destruct H as [w Hw]. rewrite dget_dset in Hw.
    destruct (String.eqb_spec x k); [left; assumption|right; exact (dget_In_key _ _ _ _ Hw)].
  - intros H. destruct (String.eqb_spec x k) as [->|N].
    + apply dget_In_key with v. apply dget_dset_same.
    + destruct H as [H|H]; [contradiction|]. apply key_In_dget in H. destruct H as [w Hw].
      apply dget_In_key with w. rewrite dget_dset_other by exact N. exact Hw.
Qed.

Lemma dkeys_dupdate A (e d : dict A) x : In x (dkeys (dupdate d e)) <-> In x (dkeys d) \/ In x (dkeys e).
Proof.
  unfold dupdate. revert d. induction e as [|[k v] e IH]; intros d; cbn [fold_left]; [simpl; tauto|].
  rewrite IH, dkeys_dset. cbn [fst snd]. simpl. intuition auto.
Qed.

Section Federation_.
Context (jwks_of : val -> option (list key)) (F : list member) (E : cenv) (rank : string -> nat) (LE : lenv) (height : string -> nat).
Hypothesis L : library_run jwks_of F E.
Hypothesis HL : listed F LE height.

(** what is read of an entity *)
Lemma reads m fe : In m F -> federation_part m fe -> exists c ms fe' ks,
  (forall s, exists n, read_configuration E (m_id m) s = (mkState (st_cfg s) (st_es s) n, Ok c)) /\
  s_jwks c = Some ks /\ In (m_key m) ks /\
  (superiors_of m <> [] -> s_hints c = Some (superiors_of m)) /\
  s_metadata c = Some ms /\ @dget (dict val) "federation_entity" ms = Some fe' /\ forall k, dget k fe' = dget k fe.
Proof.
  intros Hm Hfe.
  destruct (configuration_of_member _ _ _ L m Hm) as (p & c & Hp & Hd & _ & _ & _ & (ks & Hj & Hin) & Hx & Hh & Hc & Hmd).
  assert (N : if_truthy (Some (VDict (published_metadata (m_srv m) (m_whole m)))) = Some (VDict (says_of_itself m))).
  { unfold federation_part, says_of_itself in *. cbn. destruct (published_metadata (m_srv m) (m_whole m)); [discriminate Hfe|reflexivity]. }
  rewrite N in Hmd. destruct (claim_get _ _ _ _ _ _ Hmd Hc) as (ms & Em & Fm).
  assert (X := as_dict_get _ _ _ _ "federation_entity" Fm). unfold federation_part in Hfe. rewrite Hfe in X. destruct X as (fe' & Hf' & Gf').
  exists c, ms, fe', ks. split; [|split; [exact Hj|split; [exact Hin|split; [|split; [exact Em|split; [exact Gf'|]]]]]].
  - intros s.
    assert (A : forall n, e_net E n (QDoc (m_home m)) = RText (Some (TJws (m_key m) c))).
    { intros n. rewrite (lf_net _ _ _ L n). cbn [library_net].
      destruct (find _ F) as [m'|] eqn:Ef.
      - apply find_some in Ef. destruct Ef as [H1 H2]. apply String.eqb_eq in H2. apply (lf_homes _ _ _ L) in H2; auto. subst m'.
        rewrite (lf_clock _ _ _ L n), Hp. cbn [answer]. rewrite Hd. reflexivity.
      - apply (find_none _ _ Ef) in Hm. rewrite String.eqb_refl in Hm. discriminate. }
    assert (V : forall n, verify_self_signed E (e_clock E n) (Some (TJws (m_key m) c)) = Ok (TJws (m_key m) c, c)).
    { intros n. unfold verify_self_signed. rewrite Hj.
      assert (K : kmem (m_key m) (filter (lib_picks (e_lib E) (TJws (m_key m) c)) ks) = true).
      { apply kmem_In, filter_In. split; [exact Hin|]. apply (lf_picks _ _ _ L). }
      rewrite K, (lf_valid _ _ _ L _ _ _ Hx); [reflexivity|]. rewrite (lf_clock _ _ _ L n). lia. }
    unfold read_configuration, mbind, get_entity_configuration, get_document.
    destruct (lf_place _ _ _ L m Hm) as [Hp1|(Hp1 & Hne & Hno)].
    + rewrite <- Hp1, A. unfold open_self_signed. rewrite V. eexists. reflexivity.
    + assert (B : e_net E (st_tick s) (QDoc (e_wk E (m_id m))) = R404).
      { rewrite (lf_net _ _ _ L). cbn [library_net]. destruct (find _ F) as [m'|] eqn:Ef; [|reflexivity].
        apply find_some in Ef. destruct Ef as [H1 H2]. apply String.eqb_eq in H2. exfalso. exact (Hno m' H1 H2). }
      rewrite B. destruct (String.eqb_spec (e_tenant E (m_id m)) (e_wk E (m_id m))) as [C|_]; [contradiction|].
      rewrite <- Hp1, A. unfold open_self_signed. rewrite V. eexists. reflexivity.
  - intros Hne. destruct (s_hints c) as [h|]; [rewrite Hh; reflexivity|]. symmetry in Hh. contradiction.
  - intros k. assert (Y := as_dict_get _ _ _ _ k Hf'). destruct (dget k fe) as [v|]; [|exact Y].
    destruct Y as (b & [= <-] & ->). reflexivity.
Qed.

(** the tree below an entity *)
Lemma subordinates_of n : forall m superior s, In m F -> height (m_id m) < n -> (superior = "" \/ superiors_of m <> []) ->
  exists k res errs, do_subordinates E LE n (m_id m) superior s = (mkState (st_cfg s) (st_es s) k, Ok (res, errs)) /\
    (forall x, In x (dkeys res) <-> end_below F m x) /\
    (forall p, In p errs <-> (superior <> "" /\ ~ In superior (superiors_of m) /\ p = (superior, m_id m)) \/ unknown_superior F m p).
Proof.
  induction n as [|n IH]; intros m superior s Hm Hn Hsup; [lia|].
  destruct (li_part _ _ _ HL m Hm) as [fe Hfe].
  destruct (reads m fe Hm Hfe) as (c & ms & fe' & ks & Hr & _ & _ & Hh & Em & Ef & Eq).
  cbn [do_subordinates]. unfold mbind at 1. destruct (Hr s) as [k1 ->].
  set (s1 := mkState (st_cfg s) (st_es s) k1).
  set (wrong := if String.eqb superior "" then [] else if smem superior (superiors_of m) then [] else [(superior, m_id m)]).
  assert (W : (if String.eqb superior "" then ret []
               else match s_hints c with None => raise KeyError
                    | Some hs => ret (if smem superior hs then [] else [(superior, m_id m)]) end) s1 = (s1, Ok wrong)).
  { unfold wrong. destruct (String.eqb_spec superior ""); [reflexivity|]. destruct Hsup as [->|Hsup]; [contradiction|].
    rewrite (Hh Hsup). reflexivity. }
  assert (W' : forall p, In p wrong <-> superior <> "" /\ ~ In superior (superiors_of m) /\ p = (superior, m_id m)).
  { intros p. unfold wrong. destruct (String.eqb_spec superior "") as [->|N]; [split; [intros []|intros [C _]; contradiction]|].
    destruct (smem superior (superiors_of m)) eqn:Es.
    - apply smem_In in Es. split; [intros []|intros (_ & C & _); contradiction].
    - apply smem_false in Es. simpl. split; [intros [<-|[]]; auto|intros (_ & _ & ->); auto]. }
  unfold mbind at 1. rewrite W. unfold mbind at 1, lift at 1. rewrite Em.
  unfold mbind at 1, lift at 1, dindex. change metadata with (dict val). rewrite Ef, Eq.
  destruct (dget "federation_list_endpoint" fe) as [u|] eqn:Eu.
  - assert (LO : lists_others m) by (exists fe, u; auto).
    destruct (li_ep _ _ _ HL m fe u (st_tick s1) Hm Hfe Eu) as (ep & ids & O & V & -> & Hids & Hnet).
    cbn in Hids. injection Hids as <-.
    unfold mbind at 1, do_list_at. rewrite Hnet. cbn [names_in].
    set (s2 := mkState (st_cfg s1) (st_es s1) (S (st_tick s1))).
    assert (G : forall l, (forall x, In x l -> In x (dkeys (m_subs m))) -> forall s0 acc, exists k res errs,
      mfold (fun acc sub => do r <- do_subordinates E LE n sub (m_id m) in ret (dupdate (fst acc) (fst r), snd acc ++ snd r)) l acc s0
        = (mkState (st_cfg s0) (st_es s0) k, Ok (res, errs)) /\
      (forall x, In x (dkeys res) <-> In x (dkeys (fst acc)) \/ exists m1, In m1 F /\ In (m_id m1) l /\ end_below F m1 x) /\
      (forall p, In p errs <-> In p (snd acc) \/ exists m1, In m1 F /\ In (m_id m1) l /\
         ((~ In (m_id m) (superiors_of m1) /\ p = (m_id m, m_id m1)) \/ unknown_superior F m1 p))).
    { induction l as [|y l IHl]; intros Hl s0 [acc1 acc2].
      - exists (st_tick s0), acc1, acc2. cbn [mfold]. split; [destruct s0; reflexivity|]. cbn [fst snd].
        split; intros z; (split; [auto|intros [H|(m1 & _ & [] & _)]; exact H]).
      - destruct (li_subs _ _ _ HL m y Hm LO (Hl y (or_introl eq_refl))) as (Hlt & m1 & Hm1 & <- & Hne).
        destruct (IH m1 (m_id m) s0 Hm1 ltac:(lia) (or_intror Hne)) as (k2 & res & errs & Hd & R1 & R2).
        cbn [mfold]. unfold mbind at 1. unfold mbind at 1. rewrite Hd. unfold ret at 1.
        destruct (IHl (fun x h => Hl x (or_intror h)) (mkState (st_cfg s0) (st_es s0) k2)
                    (dupdate acc1 res, acc2 ++ errs)) as (k3 & res' & errs' & Hd' & R1' & R2').
        cbn [fst snd st_cfg st_es] in *. exists k3, res', errs'. split; [exact Hd'|].
        assert (U : forall m2, In m2 F -> m_id m2 = m_id m1 -> m2 = m1) by (intros m2 H1 H2; exact (lf_ids _ _ _ L m2 m1 H1 Hm1 H2)).
        assert (Nid : m_id m <> "") by exact (proj1 (so_id _ _ _ (lf_sound _ _ _ L m Hm))).
        split.
        + intros x. rewrite R1', dkeys_dupdate, R1. split.
          * intros [[H|H]|(m2 & H1 & H2 & H3)]; [left; exact H|right; exists m1; simpl; auto|right; exists m2; simpl; auto].
          * intros [H|(m2 & H1 & [H2|H2] & H3)]; [auto| |right; eauto].
            left. right. symmetry in H2. apply U in H2; [|exact H1]. subst m2. exact H3.
        + intros p. rewrite R2', in_app_iff, R2. split.
          * intros [[H|[(_ & H)|H]]|(m2 & H1 & H2 & H3)]; [left; exact H| | |right; exists m2; simpl; auto].
            -- right. exists m1. simpl. auto.
            -- right. exists m1. simpl. auto.
          * intros [H|(m2 & H1 & [H2|H2] & H3)]; [auto| |right; eauto].
            left. right. symmetry in H2. apply U in H2; [|exact H1]. subst m2. destruct H3 as [H3|H3]; auto. }
    destruct (G (dkeys (m_subs m)) (fun x h => h) s2 ([], wrong)) as (k3 & res & errs & Hd & R1 & R2).
    rewrite Hd. cbn [fst snd st_cfg st_es s2 s1] in *. exists k3, res, errs. split; [reflexivity|]. split.
    + intros x. rewrite R1. split.
      * intros [[]|(m1 & H1 & H2 & m' & H3 & H4)]. exists m'. split; [|exact H4]. eapply under_sub; eauto.
      * intros (m' & H3 & H4 & H5). right. inversion H3 as [x0|? m1 ? H6 H7 H8 H9]; subst; [contradiction|].
        exists m1. split; [exact H7|]. split; [exact H8|]. exists m'. auto.
    + intros p. rewrite R2, W'. split.
      * intros [H|(m1 & H1 & H2 & [(H3 & ->)|(a & x & H3 & H4)])]; [left; exact H| |].
        -- right. exists m, m1. split; [apply under_self|]. auto 10.
        -- right. exists a, x. split; [eapply under_sub; eauto|exact H4].
      * intros [H|(a & x & H3 & H4 & H5 & H6 & H7 & ->)]; [left; exact H|]. right.
        inversion H3 as [x0|? m1 ? G6 G7 G8 G9]; subst.
        -- exists x. auto 10.
        -- exists m1. split; [exact G7|]. split; [exact G8|]. right. exists a, x. auto 10.
  - assert (LO : ~ lists_others m).
    { intros (fe2 & u & H1 & H2). unfold federation_part in *. rewrite Hfe in H1. injection H1 as <-. congruence. }
    unfold ret. exists k1, [(m_id m, tt)], wrong. split; [reflexivity|]. split.
    + intros x. simpl. split.
      * intros [<-|[]]. exists m. split; [apply under_self|auto].
      * intros (m' & H1 & H2 & <-). inversion H1; subst; [auto|contradiction].
    + intros p. rewrite W'. split; [auto|]. intros [H|(a & x & H3 & H4 & _)]; [exact H|].
      inversion H3; subst; contradiction.
Qed.

End Federation_.

(** ** Several entities, one after the other *)

Section Checks.
Context (jwks_of : val -> option (list key)) (F : list member) (E : cenv) (rank : string -> nat).
Hypothesis L : library_run jwks_of F E.
Hypothesis HR : hierarchy F rank.
Hypothesis HU : unconstrained F.

Notation W := (library_world jwks_of F (e_clock E 0)).

(** what was learnt with one entity is right for the others, and nothing is learnt about those at the top *)
Lemma chains_keep O fuel m s : checkable jwks_of F E (m_id m) -> In m F -> rank (m_id m) < fuel -> visited E (f_col s) -> right_keys F (f_keys s) ->
  let s' := fst (get_verified_trust_chains E O fuel (m_id m) s) in
  visited E (f_col s') /\ right_keys F (f_keys s') /\
  (forall x, In x F -> superiors_of x = [] -> dget (m_id x) (f_keys s') = dget (m_id x) (f_keys s)).
Proof.
  intros CC Hm Hf V J. assert (Q := library_quiet _ _ _ L m Hm). assert (HF := proj1 (proj2 Q)).
  assert (WR' := WR _ _ _ rank L HR m Hm).
  destruct (collect_routes E W "" (m_id m) rank fuel s Q V WR' (world_ranked _ _ _ rank L HR m Hm) Hf)
    as (s1 & chains & C1 & C2 & C3 & C4 & C6 & C5).
  destruct (verify_routes E W "" (m_id m) WR' HF (f_keys s)
    (checkable_clear _ _ _ L m Hm CC) chains) with (kj := f_keys s) (acc := @nil trust_chain)
    as (kj' & tcs & V1 & V2 & V3 & V4 & V5).
  { intros c Hin. apply C5, Hin. }
  { exact (world_jar _ _ _ L m _ Hm J). }
  { intros e _. reflexivity. }
  cbn [app] in V1. change (verify_trust_chains E chains [own W (m_id m)] (f_keys s) = (kj', Ok tcs)) in V1.
  assert (Hg : get_verified_trust_chains E O fuel (m_id m) s = (mkFed (f_col s1) kj' (f_chains s1), apply_policies O tcs)).
  { unfold get_verified_trust_chains. unfold mbind at 1. rewrite C1. destruct chains as [|c0 chains0].
    - cbn in V1. injection V1 as <- <-. rewrite <- C2. destruct s1; reflexivity.
    - unfold mbind, on_keys. rewrite C2, V1. reflexivity. }
  rewrite Hg. cbn [fst f_col f_keys]. split; [exact C4|]. split.
  - assert (JK : jar_ok W (fun e => exists x, In x F /\ m_id x = e) kj').
    { rewrite (verify_all _ _ _ _ _ _ V1). apply after_calls_jar.
      - intros e ks (x & Hx & <-) Hd. cbn [library_world w_key]. rewrite (by_id_In _ _ _ L x Hx). exact (J x ks Hx Hd).
      - intros k p Hin. apply in_flat_map in Hin. destruct Hin as (c & Hc & Hin).
        apply in_map_iff in Hc. destruct Hc as (c' & <- & Hc). rewrite FederationProps.jws_app in Hin. apply in_app_iff in Hin.
        destruct Hin as [Hin|[Hin|[]]].
        + apply C5 in Hc. destruct Hc as (r & Hr & _ & ->).
          exact (along_vouch E W "" (m_id m) WR' r (m_id m) k p (reaches_self W "" (m_id m)) Hr Hin).
        + assert (Ep : p = w_config W (m_id m)) by (injection Hin as _ Hp; symmetry; exact Hp). rewrite Ep. destruct (wr_config _ _ _ _ WR' (m_id m) (reaches_self W "" (m_id m))) as (_ & _ & Hs & _ & Hv).
          rewrite Hs. exact Hv. }
    intros x ks Hx Hd. assert (G := JK (m_id x) ks (ex_intro _ x (conj Hx eq_refl)) Hd).
    cbn [library_world w_key] in G. rewrite (by_id_In _ _ _ L x Hx) in G. exact G.
  - intros x Hx Hs. apply V3. rewrite (above_member _ _ _ L x Hx). exact Hs.
Qed.

(** the verdict about an entity *)
Definition judged (root x : string) (v : verdict) : Prop :=
  match v with
  | Found => exists rt, path F x rt /\ rt <> [] /\ end_of x rt = root
  | NoAnchor => ~ exists rt, path F x rt /\ rt <> [] /\ end_of x rt = root
  | NoChain => forall rt, path F x rt -> rt <> [] -> end_of x rt <> root
  end.

Lemma verdicts O fuel root ks (items : dict unit) : forall s acc, (forall x, In x (dkeys items) -> exists m, In m F /\ m_id m = x /\ rank x < fuel) ->
  (exists m, In m F /\ m_id m = root /\ superiors_of m = []) ->
  visited E (f_col s) -> right_keys F (f_keys s) -> dget root (f_keys s) = Some ks ->
  match snd (mfold (fun acc e =>
           do cs <- get_verified_trust_chains E O fuel (fst e) in
           ret (acc ++ (if is_nil cs then [(fst e, NoChain)] else []) ++
                [(fst e, if is_nil (filter (fun c => String.eqb (ch_anchor c) root) cs) then NoAnchor else Found)]))
    items acc s) with
  | Ok vs => exists new, vs = acc ++ new /\ (forall x v, In (x, v) new -> In x (dkeys items) /\ judged root x v) /\
      (forall x, In x (dkeys items) -> exists v, v <> NoChain /\ In (x, v) new)
  | Err y => exists x rt claims, In x (dkeys items) /\ path F x rt /\ rt <> [] /\
      map names_of claims = PublishProps.links x rt ++ [(x, x)] /\ policy_call_chain O claims = Err y
  end.
Proof.
  induction items as [|[x u] items IH]; intros s acc Hi (mr & Hmr & Hir & Hsr) V J Hk.
  { cbn. exists []. rewrite app_nil_r. split; [reflexivity|]. split; [intros x v []|intros x []]. }
  destruct (Hi x (or_introl eq_refl)) as (m & Hm & <- & Hf).
  assert (K := chains_keep O fuel m s (unconstrained_checkable _ _ _ rank L HR m Hm HU) Hm Hf V J). cbv zeta in K.
  cbn [mfold]. unfold mbind at 1. unfold mbind at 1. cbn [fst].
  destruct (get_verified_trust_chains E O fuel (m_id m) s) as [s1 [cs|y]] eqn:Eg; cbn [fst] in K.
  2:{ cbn [snd]. assert (C := C121_found jwks_of F E O rank fuel m s s1 (Err y) L HR HU Hm Hf V J Eg). cbn in C.
      destruct C as (rt & claims & C1 & C2 & C3 & C4 & C5). exists (m_id m), rt, claims. split; [left; reflexivity|auto]. }
  destruct K as (K1 & K2 & K3). unfold ret at 1.
  assert (C := C121_found jwks_of F E O rank fuel m s s1 (Ok cs) L HR HU Hm Hf V J Eg). cbn in C. destruct C as (C1 & C2 & _).
  assert (D : is_nil (filter (fun c => String.eqb (ch_anchor c) root) cs) = false <->
              exists rt, path F (m_id m) rt /\ rt <> [] /\ end_of (m_id m) rt = root).
  { split.
    - intros H. destruct (filter _ cs) as [|c l] eqn:Ef; [discriminate|].
      assert (Hc : In c (filter (fun c => String.eqb (ch_anchor c) root) cs)) by (rewrite Ef; left; reflexivity).
      apply filter_In in Hc. destruct Hc as [Hc Ha]. apply String.eqb_eq in Ha.
      destruct (C2 c Hc) as (rt & P1 & P2 & _ & P4 & _). exists rt. split; [exact P1|]. split; [exact P2|]. congruence.
    - intros (rt & P1 & P2 & P3). destruct (C1 rt P1 P2) as (c & Hc & Ha & _); [rewrite P3; exists ks; exact Hk|].
      destruct (filter _ cs) as [|c0 l] eqn:Ef; [|reflexivity]. exfalso.
      assert (Hin : In c (filter (fun c => String.eqb (ch_anchor c) root) cs)).
      { apply filter_In. split; [exact Hc|]. apply String.eqb_eq. congruence. }
      rewrite Ef in Hin. destruct Hin. }
  assert (Hk' : dget root (f_keys s1) = Some ks) by (rewrite <- Hir, (K3 mr Hmr Hsr), Hir; exact Hk).
  set (now := (if is_nil cs then [(m_id m, NoChain)] else []) ++
    [(m_id m, if is_nil (filter (fun c => String.eqb (ch_anchor c) root) cs) then NoAnchor else Found)]).
  assert (NW : forall x v, In (x, v) now -> x = m_id m /\ judged root x v).
  { intros x v Hin. unfold now in Hin. apply in_app_iff in Hin. destruct Hin as [Hin|[Hin|[]]].
    - destruct cs as [|c0 cs0]; [|destruct Hin]. destruct Hin as [Hin|[]]. injection Hin as <- <-. split; [reflexivity|].
      intros rt P1 P2 P3. assert (X : @is_nil tchain [] = false) by (apply D; eauto). discriminate X.
    - injection Hin as <- <-. split; [reflexivity|]. destruct (is_nil (filter _ cs)) eqn:En.
      + intros X. apply D in X. discriminate X.
      + apply D. reflexivity. }
  specialize (IH s1 (acc ++ now) (fun x h => Hi x (or_intror h)) (ex_intro _ mr (conj Hmr (conj Hir Hsr))) K1 K2 Hk').
  destruct (snd (mfold _ items (acc ++ now) s1)) as [vs|y] eqn:Em.
  - destruct IH as (new & -> & I1 & I2). exists (now ++ new). split; [rewrite app_assoc; reflexivity|]. split.
    + intros x v Hin. apply in_app_iff in Hin. destruct Hin as [Hin|Hin].
      * destruct (NW _ _ Hin) as [-> G]. split; [left; reflexivity|exact G].
      * destruct (I1 _ _ Hin) as [G1 G2]. split; [right; exact G1|exact G2].
    + intros x [<-|Hx]; cbn [fst].
      * exists (if is_nil (filter (fun c => String.eqb (ch_anchor c) root) cs) then NoAnchor else Found).
        split; [destruct (is_nil (filter (fun c => String.eqb (ch_anchor c) root) cs)); discriminate|]. apply in_or_app. left. unfold now. apply in_or_app. right. left. reflexivity.
      * destruct (I2 x Hx) as (v & N & Hv). exists v. split; [exact N|]. apply in_or_app. right. exact Hv.
  - destruct IH as (x & rt & claims & H1 & H2). exists x, rt, claims. split; [right; exact H1|exact H2].
Qed.

End Checks.

Lemma trusting_run jwks_of F E root : library_run jwks_of F E -> library_run jwks_of F (trusting E root).
Proof.
  intros [L1 L2 L3 L4 L5 L6 L7 L8 L9 L10 L11]. constructor; try assumption.
  - intros m Hm. destruct (L10 m Hm). constructor; assumption.
  - intros m a Hm Ha. destruct (L11 m a Hm Ha) as (m' & H1 & H2 & []). exists m'. split; [exact H1|]. split; [exact H2|]. constructor; assumption.
Qed.

(** who is on the tree has a path to its top, unless an error was printed *)
Lemma under_path F m m' : under F m m' -> In m F -> (forall p, ~ unknown_superior F m p) ->
  forall r top, path F (m_id m) r -> end_of (m_id m) r = top -> exists r', path F (m_id m') r' /\ end_of (m_id m') r' = top.
Proof.
  induction 1 as [m|m m1 m' LO Hm1 Hin Hu IH]; intros Hm Hno r top Hp He; [eauto|].
  assert (Hs : In (m_id m) (superiors_of m1)).
  { destruct (in_dec string_dec (m_id m) (superiors_of m1)) as [H|H]; [exact H|]. exfalso.
    apply (Hno (m_id m, m_id m1)). exists m, m1. split; [apply under_self|]. auto 10. }
  apply (IH Hm1) with (r := m_id m :: r).
  - intros p (a & x & H1 & H2). apply (Hno p). exists a, x. split; [exact (under_sub F m m1 a LO Hm1 Hin H1)|exact H2].
  - apply path_up; assumption.
  - cbn [end_of]. exact He.
Qed.

Lemma under_In F m m' : under F m m' -> In m F -> In m' F.
Proof. induction 1; auto. Qed.

(** ** C165: the tree command shows the federation *)

(** It shows the entities at the ends of the tree, and complains about exactly those registrations that the subordinate
    does not know of. *)
Theorem C165_tree : forall jwks_of F E LE height O n fuel root s,
  library_run jwks_of F E -> listed F LE height -> In root F -> height (m_id root) < n ->
  exists s' res errs, tree E LE O n fuel false (m_id root) s = (s', Ok (res, errs, [])) /\
    (forall x, In x (dkeys res) <-> end_below F root x) /\ (forall p, In p errs <-> unknown_superior F root p).
Proof.
  intros jwks_of F E LE height O n fuel root s L HL Hr Hn.
  destruct (li_part _ _ _ HL root Hr) as [fe Hfe].
  destruct (reads jwks_of F E L root fe Hr Hfe) as (c & ms & fe' & ks & Hrd & Hj & _).
  destruct (Hrd s) as [k1 H1]. unfold tree. unfold mbind at 1. rewrite H1. unfold mbind at 1, lift at 1, keys_in_statement. rewrite Hj.
  destruct (subordinates_of jwks_of F (trusting E (m_id root)) LE height (trusting_run _ _ _ _ L) HL n root ""
              (mkState (st_cfg s) (st_es s) k1) Hr Hn (or_introl eq_refl)) as (k & res & errs & H2 & R1 & R2).
  unfold mbind. rewrite H2. unfold ret. cbn [fst snd]. eexists _, res, errs. split; [reflexivity|]. split; [exact R1|].
  intros p. rewrite R2. split; [intros [(C & _)|H]; [contradiction|exact H]|auto].
Qed.
Print Assumptions C165_tree.

(** With -c every one of them is said to have a valid trust chain if and only if it has a path to the top.  Where no
    registration was complained about, all of them have. *)
Theorem C165_checked : forall jwks_of F E LE height rank O n fuel root s s' r,
  library_run jwks_of F E -> listed F LE height -> hierarchy F rank -> unconstrained F ->
  In root F -> superiors_of root = [] -> height (m_id root) < n -> (forall m, In m F -> rank (m_id m) < fuel) ->
  st_cfg s = [] -> st_es s = [] ->
  tree E LE O n fuel true (m_id root) s = (s', r) ->
  match r with
  | Ok (res, errs, vs) =>
      (forall x, In x (dkeys res) <-> end_below F root x) /\ (forall p, In p errs <-> unknown_superior F root p) /\
      (forall x v, In (x, v) vs -> end_below F root x /\ judged F (m_id root) x v) /\
      (forall x, end_below F root x -> exists v, v <> NoChain /\ In (x, v) vs) /\
      (errs = [] -> lists_others root -> forall x v, In (x, v) vs -> v = Found)
  | Err y => exists x rt claims, end_below F root x /\ path F x rt /\ rt <> [] /\
      map names_of claims = PublishProps.links x rt ++ [(x, x)] /\ policy_call_chain O claims = Err y
  end.
Proof.
  intros jwks_of F E LE height rank O n fuel root s s' r L HL HR HU Hr Hs Hn Hf Hc Hes H.
  destruct (li_part _ _ _ HL root Hr) as [fe Hfe].
  destruct (reads jwks_of F E L root fe Hr Hfe) as (c & ms & fe' & ks & Hrd & Hj & Hk & _).
  destruct (Hrd s) as [k1 H1]. unfold tree in H. unfold mbind at 1 in H. rewrite H1 in H.
  unfold mbind at 1, lift at 1, keys_in_statement in H. rewrite Hj in H.
  assert (L' := trusting_run _ _ _ (m_id root) L).
  destruct (subordinates_of jwks_of F (trusting E (m_id root)) LE height L' HL n root ""
              (mkState (st_cfg s) (st_es s) k1) Hr Hn (or_introl eq_refl)) as (k & res & errs & H2 & R1 & R2).
  unfold mbind in H. rewrite H2 in H. cbn [fst snd st_cfg st_es] in H. rewrite Hc, Hes in H.
  assert (R2' : forall p, In p errs <-> unknown_superior F root p).
  { intros p. rewrite R2. split; [intros [(C & _)|G]; [contradiction|exact G]|auto]. }
  assert (V := verdicts jwks_of F (trusting E (m_id root)) rank L' HR HU O fuel (m_id root) ks res
    (mkFed (mkState [] [] k) [(m_id root, ks)] []) []).
  assert (Hitems : forall x, In x (dkeys res) -> exists m, In m F /\ m_id m = x /\ rank x < fuel).
  { intros x Hx. apply R1 in Hx. destruct Hx as (m' & U & _ & <-). assert (Hm' := under_In _ _ _ U Hr).
    exists m'. split; [exact Hm'|]. split; [reflexivity|]. exact (Hf m' Hm'). }
  specialize (V Hitems (ex_intro _ root (conj Hr (conj eq_refl Hs))) (visited_none _ k)).
  assert (RK : right_keys F [(m_id root, ks)]).
  { intros x ks' Hx Hg. cbn [dget] in Hg. destruct (String.eqb_spec (m_id x) (m_id root)) as [C|_]; [|discriminate]. injection Hg as <-.
    apply (lf_ids _ _ _ L x root Hx Hr) in C. subst x. exact Hk. }
  assert (DK : dget (m_id root) [(m_id root, ks)] = Some ks) by (cbn [dget]; rewrite String.eqb_refl; reflexivity).
  specialize (V RK DK). fold (find_trust_chain (trusting E (m_id root)) O fuel res (m_id root)) in V.
  destruct (find_trust_chain (trusting E (m_id root)) O fuel res (m_id root) (mkFed (mkState [] [] k) [(m_id root, ks)] [])) as [f x].
  cbn [snd] in V. injection H as <- <-. destruct x as [vs|y]; cbn [bind].
  - destruct V as (new & -> & V1 & V2). cbn [app]. split; [exact R1|]. split; [exact R2'|]. split; [|split].
    + intros x v Hin. destruct (V1 x v Hin) as [G1 G2]. split; [apply R1; exact G1|exact G2].
    + intros x Hx. apply V2. apply R1. exact Hx.
    + intros -> LO x v Hin. destruct (V1 x v Hin) as [G1 G2]. apply R1 in G1. destruct G1 as (m' & U & NL & <-).
      assert (P : exists rt, path F (m_id m') rt /\ rt <> [] /\ end_of (m_id m') rt = m_id root).
      { destruct (under_path F root m' U Hr) with (r := @nil string) (top := m_id root) as (rt & P1 & P2).
        - intros p Hp. apply R2' in Hp. destruct Hp.
        - apply path_end; assumption.
        - reflexivity.
        - exists rt. split; [exact P1|]. split; [|exact P2]. intros ->. cbn in P2.
          apply (lf_ids _ _ _ L m' root (under_In _ _ _ U Hr) Hr) in P2. subst m'. contradiction. }
      destruct v; cbn in G2; [|contradiction|reflexivity]. destruct P as (rt & P1 & P2 & P3). destruct (G2 rt P1 P2 P3).
  - destruct V as (x & rt & claims & V1 & V2). exists x, rt, claims. split; [apply R1; exact V1|exact V2].
Qed.
Print Assumptions C165_checked.

(** ** Networks of any kind *)

(** what can be seen from an entity: configurations that are signed with a key in them, and what list endpoints say *)
Inductive seen (E : cenv) (L : lenv) : string -> string -> Prop :=
| seen_end id t c ms fe : config_from E 0 id t c -> s_metadata c = Some ms -> @dget (dict val) "federation_entity" ms = Some fe ->
    dget "federation_list_endpoint" fe = None -> seen E L id id
| seen_sub id t c ms fe ep n ids sub x : config_from E 0 id t c -> s_metadata c = Some ms ->
    @dget (dict val) "federation_entity" ms = Some fe -> dget "federation_list_endpoint" fe = Some (VStr ep) ->
    names_in (l_net L n ep LAll) = Ok ids -> In sub ids -> seen E L sub x -> seen E L id x.

Lemma seen_sound E L n : forall id superior s s' res errs, do_subordinates E L n id superior s = (s', Ok (res, errs)) ->
  (forall x, In x (dkeys res) -> seen E L id x) /\
  (forall a x, In (a, x) errs -> exists t c hs, config_from E 0 x t c /\ s_hints c = Some hs /\ ~ In a hs).
Proof.
  induction n as [|n IH]; intros id superior s s' res errs H; [discriminate|]. cbn [do_subordinates] in H.
  unfold mbind at 1 in H. destruct (read_configuration E id s) as [s1 [c|x]] eqn:Er; [|discriminate].
  destruct (read_inv _ _ _ _ _ Er) as (t & (n0 & _ & Hc) & _).
  assert (C : config_from E 0 id t c) by (exists n0; split; [lia|exact Hc]). clear Hc.
  unfold mbind at 1 in H.
  destruct ((if String.eqb superior "" then ret []
             else match s_hints c with None => raise KeyError
                  | Some hs => ret (if smem superior hs then [] else [(superior, id)]) end) s1) as [s2 [wrong|y]] eqn:Ew; [|discriminate].
  assert (W : forall a x, In (a, x) wrong -> exists t c hs, config_from E 0 x t c /\ s_hints c = Some hs /\ ~ In a hs).
  { intros a x Hin. destruct (String.eqb superior ""); [injection Ew as _ <-; destruct Hin|].
    destruct (s_hints c) as [hs|] eqn:Eh; [|discriminate Ew]. unfold ret in Ew. injection Ew as _ <-.
    destruct (smem superior hs) eqn:Es; [destruct Hin|]. destruct Hin as [Hin|[]]. injection Hin as <- <-.
    exists t, c, hs. split; [exact C|]. split; [exact Eh|]. intros G. apply smem_In in G. congruence. }
  unfold mbind at 1, lift at 1 in H. destruct (s_metadata c) as [ms|] eqn:Em; [|discriminate].
  unfold mbind at 1, lift at 1, dindex in H. change metadata with (dict val) in H.
  destruct (@dget (dict val) "federation_entity" ms) as [fe|] eqn:Ef; [|discriminate].
  destruct (dget "federation_list_endpoint" fe) as [u|] eqn:Eu.
  - unfold mbind at 1, do_list_at in H. destruct u as [|b|z|ep|l|d]; try discriminate.
    destruct (names_in (l_net L (st_tick s2) ep LAll)) as [ids|y] eqn:En; [|discriminate].
    set (s3 := mkState _ _ _) in H.
    assert (G : forall l, (forall x, In x l -> In x ids) -> forall s0 acc s0' res errs,
      mfold (fun acc sub => do r <- do_subordinates E L n sub id in ret (dupdate (fst acc) (fst r), snd acc ++ snd r)) l acc s0
        = (s0', Ok (res, errs)) ->
      (forall x, In x (dkeys (fst acc)) -> seen E L id x) ->
      (forall a x, In (a, x) (snd acc) -> exists t c hs, config_from E 0 x t c /\ s_hints c = Some hs /\ ~ In a hs) ->
      (forall x, In x (dkeys res) -> seen E L id x) /\
      (forall a x, In (a, x) errs -> exists t c hs, config_from E 0 x t c /\ s_hints c = Some hs /\ ~ In a hs)).
    { induction l as [|y l IHl]; intros Hl s0 acc s0' res0 errs0 Hm I1 I2; cbn [mfold] in Hm.
      - unfold ret in Hm. injection Hm as _ ->. auto.
      - unfold mbind at 1 in Hm. unfold mbind at 1 in Hm.
        destruct (do_subordinates E L n y id s0) as [s4 [[r1 r2]|z]] eqn:Ed; [|discriminate]. unfold ret at 1 in Hm. cbn [fst snd] in Hm.
        destruct (IH _ _ _ _ _ _ Ed) as [J1 J2].
        apply (IHl (fun x h => Hl x (or_intror h)) _ _ _ _ _ Hm); cbn [fst snd].
        + intros x Hx. apply dkeys_dupdate in Hx. destruct Hx as [Hx|Hx]; [exact (I1 x Hx)|].
          exact (seen_sub E L id t c ms fe ep (st_tick s2) ids y x C Em Ef Eu En (Hl y (or_introl eq_refl)) (J1 x Hx)).
        + intros a x Hx. apply in_app_iff in Hx. destruct Hx as [Hx|Hx]; [exact (I2 a x Hx)|exact (J2 a x Hx)]. }
    apply (G ids (fun x h => h) _ _ _ _ _ H); cbn [fst snd]; [intros x []|exact W].
  - unfold ret in H. injection H as _ <- <-. split; [|exact W]. intros x [<-|[]]. exact (seen_end E L id t c ms fe C Em Ef Eu).
Qed.

(** Nothing is shown that is not there: a shown entity has a configuration, and is on the lists. *)
Theorem C165_seen : forall E L O n fuel checks root s s' res errs vs,
  tree E L O n fuel checks root s = (s', Ok (res, errs, vs)) ->
  (forall x, In x (dkeys res) -> seen E L root x) /\
  (forall a x, In (a, x) errs -> exists t c hs, config_from E 0 x t c /\ s_hints c = Some hs /\ ~ In a hs) /\
  (forall x v, In (x, v) vs -> In x (dkeys res)).
Proof.
  intros E L O n fuel checks root s s' res errs vs H. unfold tree in H.
  unfold mbind at 1 in H. destruct (read_configuration E root s) as [s1 [c|x]]; [|discriminate].
  unfold mbind at 1, lift at 1 in H. destruct (keys_in_statement c) as [ks|x]; [|discriminate].
  unfold mbind in H. destruct (do_subordinates (trusting E root) L n root "" s1) as [s2 [[r1 r2]|x]] eqn:Ed; [|discriminate].
  destruct (seen_sound _ _ _ _ _ _ _ _ _ Ed) as [J1 J2].
  assert (T1 : forall x, seen (trusting E root) L root x -> seen E L root x).
  { intros x Hx. revert Hx. generalize root at 2 3. intros r0. induction 1; [eapply seen_end; eauto|eapply seen_sub; eauto]. }
  assert (G : forall (items : dict unit) acc f f' vs', mfold (fun acc e =>
           do cs <- get_verified_trust_chains (trusting E root) O fuel (fst e) in
           ret (acc ++ (if is_nil cs then [(fst e, NoChain)] else []) ++
                [(fst e, if is_nil (filter (fun c => String.eqb (ch_anchor c) root) cs) then NoAnchor else Found)]))
    items acc f = (f', Ok vs') -> forall x v, In (x, v) vs' -> In (x, v) acc \/ In x (dkeys items)).
  { induction items as [|[y u] items IH]; intros acc f f' vs' Hm x v Hin; cbn [mfold] in Hm.
    - injection Hm as _ ->. auto.
    - unfold mbind at 1 in Hm. unfold mbind at 1 in Hm. cbn [fst] in Hm.
      destruct (get_verified_trust_chains _ _ _ y f) as [f1 [cs|z]]; [|discriminate]. unfold ret at 1 in Hm.
      destruct (IH _ _ _ _ Hm x v Hin) as [H1|H1]; [|right; right; exact H1].
      apply in_app_iff in H1. destruct H1 as [H1|H1]; [left; exact H1|]. right. left. cbn [fst].
      apply in_app_iff in H1. destruct H1 as [H1|[H1|[]]]; [|congruence]. destruct (is_nil cs); [|destruct H1].
      destruct H1 as [H1|[]]. congruence. }
  destruct checks.
  - destruct (find_trust_chain (trusting E root) O fuel (fst (r1, r2)) root (mkFed s2 [(root, ks)] [])) as [f [v|x]] eqn:Ef;
      cbn [bind] in H; [|discriminate]. injection H as <- <- <- <-. cbn [fst snd] in *.
    split; [intros x Hx; apply T1, J1, Hx|]. split; [exact J2|]. intros x w Hin.
    destruct (G _ _ _ _ _ Ef x w Hin) as [[]|G']; exact G'.
  - unfold ret in H. injection H as <- <- <- <-. cbn [fst snd] in *. split; [intros x Hx; apply T1, J1, Hx|]. split; [exact J2|]. intros x w [].
Qed.
Print Assumptions C165_seen.

(** op below im is registered with ta as well, but does not know of it *)
Definition tr_commands : list (string * string) := su_commands ++ [("ta", "op")].
Definition tr_fed : list member := fst (fst (set_up su_jwks su_val su_env tr_commands (su_fed, 0))).
Definition tr_env : cenv := with_members su_jwks su_env tr_fed.
Definition tr_lists : lenv := mkLenv
  (fun _ ep _ => if String.eqb ep "ta/list" then LList ["im"; "rp"; "op"] else if String.eqb ep "im/list" then LList ["rp"; "op"] else LNoConnection)
  (fun _ _ => Ok tt) true.
Definition tr_height (e : string) : nat := if String.eqb e "ta" then 2 else if String.eqb e "im" then 1 else 0.
Definition tr_root : member := nth 0 tr_fed su_ta.

Lemma tr_members m : In m tr_fed -> exists m0, In m0 su_fed /\ filled su_jwks su_val su_fed tr_commands m0 m.
Proof.
  intros Hm. destruct (set_up_fills su_jwks su_val su_env tr_commands su_fed 0 su_started) as (F' & n' & H1 & _ & H3).
  { apply su_known. intros c [<-|[]]. reflexivity. }
  unfold tr_fed in Hm. rewrite H1 in Hm. exact (Forall2_In_r _ _ _ _ _ _ H3 Hm).
Qed.

Example C165_ex : library_run su_jwks tr_fed tr_env /\ listed tr_fed tr_lists tr_height /\ hierarchy tr_fed su_rank /\ unconstrained tr_fed /\
  In tr_root tr_fed /\ superiors_of tr_root = [] /\ lists_others tr_root /\ tr_height (m_id tr_root) < 3 /\
  (forall m, In m tr_fed -> su_rank (m_id m) < 3) /\
  snd (tree tr_env tr_lists id_order 3 3 true "ta" (mkState [] [] 0)) =
    Ok ([("rp", tt); ("op", tt)], [("ta", "op")], [("rp", Found); ("op", Found)]).
Proof.
  assert (KN : forall c, In c tr_commands -> exists m fe, In m su_fed /\ m_id m = snd c /\ federation_part m fe).
  { apply su_known. intros c [<-|[]]. reflexivity. }
  destruct (set_up_fills su_jwks su_val su_env tr_commands su_fed 0 su_started KN) as (F' & n' & H1 & H2 & H3).
  assert (HF : F' = tr_fed) by (unfold tr_fed; rewrite H1; reflexivity). subst F'.
  assert (HR : hierarchy tr_fed su_rank).
  { intros x a Hx Ha. destruct (tr_members x Hx) as (y & Hy & Hfy). destruct (filled_same _ _ _ _ _ _ Hfy) as (X1 & X2 & _).
    rewrite X1. rewrite X2 in Ha. exact (su_hierarchy y a Hy Ha). }
  assert (IDs : forall L, L = tr_fed -> Forall (fun m => (exists fe, federation_part m fe /\
      (dget "federation_list_endpoint" fe = None \/
       exists ep, dget "federation_list_endpoint" fe = Some (VStr ep) /\ l_net tr_lists 0 ep LAll = LList (dkeys (m_subs m)))) /\
      (forall x, In x (dkeys (m_subs m)) -> tr_height x < tr_height (m_id m) /\ exists m1, In m1 tr_fed /\ m_id m1 = x /\ superiors_of m1 <> []) /\
      su_rank (m_id m) < 3) L).
  { intros L EL. let v := eval vm_compute in tr_fed in assert (ET : tr_fed = v) by (vm_compute; reflexivity).
    assert (X : forall i m, nth_error L i = Some m -> In m tr_fed) by (intros i m; rewrite <- EL; apply nth_error_In).
    rewrite ET in EL. rewrite EL in X |- *. clear ET EL.
    assert (X1 := X 1 _ eq_refl). assert (X2 := X 2 _ eq_refl). assert (X3 := X 3 _ eq_refl).
    repeat (constructor; [split; [|split]|]).
    - eexists. split; [reflexivity|]. right. eexists. split; reflexivity.
    - intros x Hx. vm_compute in Hx. destruct Hx as [<-|[<-|[<-|[]]]]; (split; [vm_compute; lia|]); eexists;
        [split; [exact X1|]|split; [exact X2|]|split; [exact X3|]]; split; try reflexivity; discriminate.
    - vm_compute. lia.
    - eexists. split; [reflexivity|]. right. eexists. split; reflexivity.
    - intros x Hx. vm_compute in Hx. destruct Hx as [<-|[<-|[]]]; (split; [vm_compute; lia|]); eexists;
        [split; [exact X2|]|split; [exact X3|]]; split; try reflexivity; discriminate.
    - vm_compute. lia.
    - eexists. split; [reflexivity|]. left. reflexivity.
    - intros x [].
    - vm_compute. lia.
    - eexists. split; [reflexivity|]. left. reflexivity.
    - intros x [].
    - vm_compute. lia.
    - constructor. }
  specialize (IDs tr_fed eq_refl). rewrite Forall_forall in IDs.
  split; [exact (run_after su_jwks su_val su_env su_keys su_fed tr_fed tr_commands su_rank H2 su_hierarchy H3 su_started (su_introduced _))|].
  split.
  { constructor.
    - intros m Hm. destruct (IDs m Hm) as ((fe & G & _) & _). eauto.
    - intros m fe u n Hm Hfe Hu. destruct (IDs m Hm) as ((fe2 & G & [N|(ep & N & Nn)]) & _);
        unfold federation_part in *; rewrite Hfe in G; injection G as <-; [congruence|].
      rewrite Hu in N. injection N as ->. exists ep, (dkeys (m_subs m)), id_order, (mkListEnv (fun _ => Err OtherException) (fun _ => Err OtherException) (fun _ _ => true) (fun _ => true) false).
      split; [reflexivity|]. split; [reflexivity|exact Nn].
    - intros m x Hm _ Hx. destruct (IDs m Hm) as (_ & G & _). exact (G x Hx). }
  split; [exact HR|].
  split. { apply (filled_unconstrained _ _ _ _ _ H3). intros m sub e Hm H. su_members; discriminate H. }
  split; [left; reflexivity|]. split; [reflexivity|]. split; [eexists _, _; split; reflexivity|]. split; [vm_compute; lia|].
  split; [intros m Hm; destruct (IDs m Hm) as (_ & _ & G); exact G|]. vm_compute. reflexivity.
Qed.
