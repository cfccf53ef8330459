(** A federation that is set up with the commands works (C164). *)
From Verif Require Import PyFacts PolicyProps ExampleKit CollectorProps CollectorFacts PublishFacts PublishProps ScriptModel ScriptProps.
From Coq Require Import Lia.

(** JSON dictionaries, and what is in them *)
Definition dict_of (P : val -> Prop) (v : val) : Prop := exists d, v = VDict d /\ forall k x, In (k, x) d -> P x.
Definition anything (v : val) : Prop := True.

Lemma as_dict_total B (f : val -> option B) (P : val -> Prop) v : (forall x, P x -> f x <> None) -> dict_of P v -> as_dict_of f v <> None.
Proof.
  intros Hf (d & -> & Hd). cbn [as_dict_of]. induction d as [|[k x] d IH]; [discriminate|]. cbn [omap fst snd].
  assert (Hx := Hf x (Hd k x (or_introl eq_refl))). destruct (f x) as [b|]; [|congruence]. cbn [option_map].
  assert (G := IH (fun k x H => Hd k x (or_intror H))). destruct (omap _ d); [discriminate|congruence].
Qed.

Lemma as_dict_keys B (f : val -> option B) d d' : as_dict_of f (VDict d) = Some d' -> dkeys d' = dkeys d.
Proof.
  cbn [as_dict_of]. revert d'. induction d as [|[k x] d IH]; intros d' H; cbn [omap fst snd] in H; [injection H as <-; reflexivity|].
  destruct (f x) as [b|]; [|discriminate]. cbn [option_map] in H. destruct (omap _ d) as [ys|]; [|discriminate].
  injection H as <-. unfold dkeys in *. cbn [map fst]. f_equal. apply IH. reflexivity.
Qed.

Lemma Forall2_weaken A B (R R' : A -> B -> Prop) l l' : (forall a b, R a b -> R' a b) -> Forall2 R l l' -> Forall2 R' l l'.
Proof. intros H. induction 1; constructor; auto. Qed.

(** ** What the commands are about *)

Section Setup_.
Context (jwks_of : val -> option (list key)) (jwks_val : list key -> val).

(** the entities have been started; they have places on the network, but need not know each other *)
Record started (F : list member) (E : cenv) : Prop := mkStarted {
  sd_clock : forall n, e_clock E n = e_clock E 0;
  sd_picks : forall k p, lib_picks (e_lib E) (TJws k p) k = true;
  sd_valid : forall n p z, s_exp p = Some z -> (n < z)%Z -> lib_valid (e_lib E) n p = true;
  sd_delta : (e_delta E < 86400)%Z;
  sd_ids : forall m m', In m F -> In m' F -> m_id m = m_id m' -> m = m';
  sd_homes : forall m m', In m F -> In m' F -> m_home m = m_home m' -> m = m';
  sd_fetches : forall m m', In m F -> In m' F -> m_fetch m = m_fetch m' -> m_fetch m <> "" -> m = m';
  sd_place : forall m, In m F ->
    m_home m = e_wk E (m_id m) \/
    (m_home m = e_tenant E (m_id m) /\ e_tenant E (m_id m) <> e_wk E (m_id m) /\
     forall m', In m' F -> m_home m' <> e_wk E (m_id m));
  sd_sound : forall m, In m F -> sound jwks_of E m
}.

(** what an entity says about itself *)
Definition says_of_itself (m : member) : dict val := published_metadata (m_srv m) (m_whole m).

Definition federation_part (m : member) (fe : dict val) : Prop := dget "federation_entity" (says_of_itself m) = Some (VDict fe).

(** [e] registers [m]: its keys, its types and whether it lists others, and nothing else *)
Definition enrolled (m : member) (e : dict val) : Prop :=
  exists ks fe, jwks_of (fs_jwks (m_srv m)) = Some ks /\ federation_part m fe /\
    dget "jwks" e = Some (jwks_val ks) /\ dget "entity_types" e = Some (VList (map VStr (dkeys (says_of_itself m)))) /\
    dget "intermediate" e = (if dmem "federation_list_endpoint" fe then Some (VBool true) else None) /\
    (forall k, dget k e <> None -> In k ["jwks"; "entity_types"; "intermediate"]) /\ NoDup (dkeys e).

(** the subordinates of [m] are those that the commands gave it, and otherwise the ones it had *)
Definition filled (F : list member) (commands : list (string * string)) (m m' : member) : Prop :=
  exists db, m' = put_subs m db /\ (NoDup (dkeys (m_subs m)) -> NoDup (dkeys db)) /\
    (forall x, In (m_id m, x) commands -> exists m2 e, In m2 F /\ m_id m2 = x /\ dget x db = Some e /\ enrolled m2 e) /\
    (forall x, ~ In (m_id m, x) commands -> dget x db = dget x (m_subs m)).

Section Run_.
Context (E : cenv).

Notation net F := (with_members jwks_of E F).

Lemma started_home F m : started F E -> In m F -> find (fun x => String.eqb (m_home x) (m_home m)) F = Some m.
Proof.
  intros L Hm. destruct (find _ F) as [m'|] eqn:Ef.
  - apply find_some in Ef. destruct Ef as [H1 H2]. apply String.eqb_eq in H2. f_equal. apply (sd_homes _ _ L); auto.
  - apply (find_none _ _ Ef) in Hm. rewrite String.eqb_refl in Hm. discriminate.
Qed.

(** a member's configuration can be read *)
Lemma member_reads F m : started F E -> In m F -> exists p c ks,
  entity_configuration (m_srv m) (m_whole m) (m_marks m) (e_clock E 0) = Ok p /\ decode jwks_of p = Some c /\
  jwks_of (fs_jwks (m_srv m)) = Some ks /\ s_jwks c = Some ks /\
  dget "metadata" p = (if is_nil (says_of_itself m) then None else Some (VDict (says_of_itself m))) /\
  claim (as_dict_of (as_dict_of Some)) "metadata" p = Some (s_metadata c) /\
  forall s, exists s', read_configuration (net F) (m_id m) s = (s', Ok c).
Proof.
  intros L Hm. destruct (sd_sound _ _ L m Hm) as [_ [ks [Hk Hin]] _ _ [a Ha] Hr _ _].
  destruct (configuration_total (m_srv m) (m_whole m) (m_marks m) (e_clock E 0) a Ha) as [p Hp].
  specialize (Hr p Hp). destruct (decode jwks_of p) as [c|] eqn:Ed; [|congruence].
  destruct (C118_configuration jwks_of (net F) _ _ _ _ _ _ (m_key m) ks Hp Ed Hk Hin (sd_picks _ _ L _ _))
    as (_ & _ & Hj & Hx & _ & Hmd & Hv).
  destruct (decode_fields _ _ _ Ed) as (_ & _ & _ & _ & D5 & _).
  exists p, c, ks. split; [exact Hp|]. split; [exact Ed|]. split; [exact Hk|]. split; [exact Hj|]. split; [exact Hmd|].
  split; [exact D5|]. intros s.
  assert (A : forall n, e_net (net F) n (QDoc (m_home m)) = RText (Some (TJws (m_key m) c))).
  { intros n. cbn [with_members e_net library_net]. rewrite (started_home F m L Hm), (sd_clock _ _ L n), Hp. cbn [answer].
    rewrite Ed. reflexivity. }
  assert (V : forall n, verify_self_signed (net F) (e_clock E n) (Some (TJws (m_key m) c)) = Ok (TJws (m_key m) c, c)).
  { intros n. apply Hv. cbn [with_members e_lib]. apply (sd_valid _ _ L _ _ _ Hx). rewrite (sd_clock _ _ L n). lia. }
  unfold read_configuration, mbind, get_entity_configuration, get_document.
  destruct (sd_place _ _ L m Hm) as [Hp1|(Hp1 & Hne & Hno)].
  - change (e_wk (net F) (m_id m)) with (e_wk E (m_id m)). rewrite <- Hp1, A. cbn [open_self_signed st_tick].
    unfold open_self_signed. cbn [st_tick with_members e_clock]. rewrite V. eexists. reflexivity.
  - assert (B : e_net (net F) (st_tick s) (QDoc (e_wk (net F) (m_id m))) = R404).
    { cbn [with_members e_net e_wk library_net]. destruct (find _ F) as [m'|] eqn:Ef; [|reflexivity].
      apply find_some in Ef. destruct Ef as [H1 H2]. apply String.eqb_eq in H2. exfalso. exact (Hno m' H1 H2). }
    rewrite B. change (e_tenant (net F) (m_id m)) with (e_tenant E (m_id m)). change (e_wk (net F) (m_id m)) with (e_wk E (m_id m)).
    destruct (String.eqb_spec (e_tenant E (m_id m)) (e_wk E (m_id m))) as [C|_]; [contradiction|].
    rewrite <- Hp1, A. unfold open_self_signed. cbn [st_tick with_members e_clock]. rewrite V. eexists. reflexivity.
Qed.

(** ... and registered *)
Lemma member_entry F m fe : started F E -> In m F -> federation_part m fe -> forall s, exists s' e,
  get_info (net F) jwks_val false true (m_id m) s = (s', Ok (SubordinateInfo [(m_id m, e)])) /\ enrolled m e.
Proof.
  intros L Hm Hfe s. destruct (member_reads F m L Hm) as (p & c & ks & Hp & Hd & Hk & Hj & Hmd & Hc & Hr).
  destruct (Hr s) as [s' Hs]. unfold federation_part in Hfe.
  assert (N : is_nil (says_of_itself m) = false) by (destruct (says_of_itself m); [discriminate Hfe|reflexivity]).
  rewrite N in Hmd. destruct (claim_get _ _ _ _ _ _ Hmd Hc) as (ms & Em & Fm).
  assert (X := as_dict_get _ _ _ _ "federation_entity" Fm). rewrite Hfe in X. destruct X as (fe' & Hf' & Gf').
  assert (Y : dmem "federation_list_endpoint" fe' = dmem "federation_list_endpoint" fe).
  { assert (Z := as_dict_get _ _ _ _ "federation_list_endpoint" Hf'). unfold dmem.
    destruct (dget "federation_list_endpoint" fe); [destruct Z as (b & _ & ->)|rewrite Z]; reflexivity. }
  assert (Z : exists e, subordinate_entry jwks_val c = Ok e).
  { unfold subordinate_entry, keys_in_statement. rewrite Em, Hj. cbn [bind].
    assert (G : @dindex metadata "federation_entity" ms = Ok fe') by (unfold dindex; change metadata with (dict val); rewrite Gf'; reflexivity).
    rewrite G. cbn [bind]. eauto. }
  destruct Z as [e He]. exists s', e. split.
  - unfold get_info, mbind. rewrite Hs. cbn [andb negb]. unfold lift. rewrite He. reflexivity.
  - destruct (entry_reports _ _ _ He) as (ks' & Hk' & (ms' & fe2 & R1 & R2 & R3 & R4 & R5 & R6) & R7).
    assert (ks' = ks) by congruence. assert (ms' = ms) by congruence. subst ks' ms'.
    change metadata with (dict val) in R2, R4. assert (fe2 = fe') by (rewrite Gf' in R2; injection R2; auto). subst fe2.
    rewrite (as_dict_keys _ _ _ _ Fm) in R4. rewrite Y in R5.
    exists ks, fe. split; [exact Hk|]. split; [exact Hfe|]. auto 10.
Qed.

(** one command *)
Definition registers (sup sub : string) (e : dict val) (m : member) : member :=
  if String.eqb (m_id m) sup then put_subs m (dset sub e (m_subs m)) else m.

Lemma registers_same sup sub e m : let m' := registers sup sub e m in
  m_srv m' = m_srv m /\ m_whole m' = m_whole m /\ m_marks m' = m_marks m /\ m_key m' = m_key m /\ m_home m' = m_home m /\
  m_fetch m' = m_fetch m /\ m_id m' = m_id m.
Proof. unfold registers. destruct (String.eqb (m_id m) sup); cbn; auto 10. Qed.

Lemma registers_sound sup sub e m m2 : enrolled m2 e -> sound jwks_of E m -> sound jwks_of E (registers sup sub e m).
Proof.
  intros (ks & fe & _ & _ & _ & _ & _ & He & Hnd) Hs. unfold registers. destruct (String.eqb (m_id m) sup); [|exact Hs].
  destruct Hs as [S1 S2 [S3 S3'] S4 S5 S6 S7 S8]. constructor; cbn [put_subs m_srv m_whole m_marks m_subs m_key]; auto.
  - split; [|exact S3']. intros x e' H. rewrite dget_dset in H. destruct (String.eqb x sub); [injection H as <-; exact Hnd|exact (S3 _ _ H)].
  - intros x e' v H Hv. rewrite dget_dset in H. destruct (String.eqb x sub); [|exact (S8 _ _ _ H Hv)].
    injection H as <-. exfalso. assert (G : In "lifetime" ["jwks"; "entity_types"; "intermediate"]) by (apply He; congruence).
    simpl in G. intuition discriminate.
Qed.

Lemma registers_started sup sub e F m2 : enrolled m2 e -> started F E -> started (map (registers sup sub e) F) E.
Proof.
  intros He [S1 S2 S3 S4 S5 S6 S7 S8 S9]. constructor; auto.
  - intros m m' Hm Hm' H. apply in_map_iff in Hm, Hm'. destruct Hm as (x & <- & Hx). destruct Hm' as (y & <- & Hy).
    destruct (registers_same sup sub e x) as (_ & _ & _ & _ & _ & _ & X). destruct (registers_same sup sub e y) as (_ & _ & _ & _ & _ & _ & Y).
    cbv zeta in X, Y. rewrite X, Y in H. rewrite (S5 x y Hx Hy H). reflexivity.
  - intros m m' Hm Hm' H. apply in_map_iff in Hm, Hm'. destruct Hm as (x & <- & Hx). destruct Hm' as (y & <- & Hy).
    destruct (registers_same sup sub e x) as (_ & _ & _ & _ & X & _). destruct (registers_same sup sub e y) as (_ & _ & _ & _ & Y & _).
    cbv zeta in X, Y. rewrite X, Y in H. rewrite (S6 x y Hx Hy H). reflexivity.
  - intros m m' Hm Hm' H Hn. apply in_map_iff in Hm, Hm'. destruct Hm as (x & <- & Hx). destruct Hm' as (y & <- & Hy).
    destruct (registers_same sup sub e x) as (_ & _ & _ & _ & _ & X & _). destruct (registers_same sup sub e y) as (_ & _ & _ & _ & _ & Y & _).
    cbv zeta in X, Y. rewrite X, Y in H. rewrite X in Hn. rewrite (S7 x y Hx Hy H Hn). reflexivity.
  - intros m Hm. apply in_map_iff in Hm. destruct Hm as (x & <- & Hx).
    destruct (registers_same sup sub e x) as (_ & _ & _ & _ & X & _ & Y). cbv zeta in X, Y. rewrite X, Y.
    destruct (S8 x Hx) as [H|(H1 & H2 & H3)]; [left; exact H|right]. split; [exact H1|]. split; [exact H2|].
    intros m' Hm'. apply in_map_iff in Hm'. destruct Hm' as (y & <- & Hy).
    destruct (registers_same sup sub e y) as (_ & _ & _ & _ & Z & _). cbv zeta in Z. rewrite Z. exact (H3 y Hy).
  - intros m Hm. apply in_map_iff in Hm. destruct Hm as (x & <- & Hx). eapply registers_sound; eauto.
Qed.

Lemma enrol_step F n sup m fe : started F E -> In m F -> federation_part m fe -> exists n' e,
  enrol jwks_of jwks_val E sup (m_id m) (F, n) = ((map (registers sup (m_id m) e) F, n'), Ok tt) /\ enrolled m e.
Proof.
  intros L Hm Hfe. destruct (member_entry F m fe L Hm Hfe (mkState [] [] n)) as (s' & e & Hg & He).
  exists (st_tick s'), e. split; [|exact He]. unfold enrol. cbn [fst snd]. rewrite Hg. reflexivity.
Qed.

Lemma pair_dec (x y : string * string) : {x = y} + {x <> y}.
Proof. decide equality; apply string_dec. Qed.

(** all the commands *)
Lemma set_up_fills commands : forall F n, started F E ->
  (forall c, In c commands -> exists m fe, In m F /\ m_id m = snd c /\ federation_part m fe) ->
  exists F' n', set_up jwks_of jwks_val E commands (F, n) = ((F', n'), Ok tt) /\ started F' E /\ Forall2 (filled F commands) F F'.
Proof.
  induction commands as [|[sup sub] cs IH]; intros F n L Hc.
  - exists F, n. split; [reflexivity|]. split; [exact L|]. clear L Hc. induction F as [|m F IHF]; constructor.
    + exists (m_subs m). split; [destruct m; reflexivity|]. split; [auto|]. split; [intros x []|reflexivity].
    + eapply Forall2_weaken; [|exact IHF]. intros a b (db & D1 & D0 & D2 & D3). exists db. split; [exact D1|]. split; [exact D0|].
      split; [intros x []|exact D3].
  - destruct (Hc (sup, sub) (or_introl eq_refl)) as (m0 & fe & Hm0 & Hid & Hfe). cbn [snd] in Hid. subst sub.
    destruct (enrol_step F n sup m0 fe L Hm0 Hfe) as (n1 & e & He & Hen).
    set (F1 := map (registers sup (m_id m0) e) F) in *.
    destruct (IH F1 n1 (registers_started _ _ _ _ _ Hen L)) as (F' & n' & HF & LF & HA).
    { intros c Hin. destruct (Hc c (or_intror Hin)) as (m & fe' & Hm & Hi & Hf). destruct (registers_same sup (m_id m0) e m) as (X & Y & _ & _ & _ & _ & Z).
      exists (registers sup (m_id m0) e m), fe'. split; [apply in_map; exact Hm|]. split; [congruence|].
      unfold federation_part, says_of_itself in *. cbv zeta in X, Y. rewrite X, Y. exact Hf. }
    exists F', n'. split; [unfold set_up; cbn [mfold]; unfold mbind at 1; cbn [fst snd]; rewrite He; exact HF|].
    split; [exact LF|].
    assert (G : Forall2 (fun m m' => filled F1 cs (registers sup (m_id m0) e m) m') F F').
    { clear - HA. unfold F1 in HA at 2. revert HA. generalize (filled F1 cs). intros R. revert F'.
      induction F as [|m F IHF]; intros F' H; inversion H; subst; constructor; auto. }
    eapply Forall2_weaken; [|exact G]. intros m m' (db & D1 & D0 & D2 & D3).
    destruct (registers_same sup (m_id m0) e m) as (_ & _ & _ & _ & _ & _ & Z). cbv zeta in Z. rewrite Z in D2, D3.
    exists db. split; [|split; [|split]].
    + rewrite D1. unfold registers, put_subs. destruct (String.eqb (m_id m) sup); reflexivity.
    + intros N. apply D0. unfold registers. destruct (String.eqb (m_id m) sup); [apply NoDup_dset|]; exact N.
    + intros x Hx. destruct (in_dec pair_dec (m_id m, x) cs) as [Hi|Hn].
      * destruct (D2 x Hi) as (m2 & e2 & M1 & M2 & M3 & M4). unfold F1 in M1. apply in_map_iff in M1. destruct M1 as (m3 & <- & M1).
        destruct (registers_same sup (m_id m0) e m3) as (Q1 & Q2 & _ & _ & _ & _ & Q3). cbv zeta in Q1, Q2, Q3.
        exists m3, e2. split; [exact M1|]. split; [congruence|]. split; [exact M3|].
        unfold enrolled, federation_part, says_of_itself in *. rewrite Q1, Q2 in M4. exact M4.
      * destruct Hx as [Hx|Hx]; [|contradiction]. injection Hx as Hs <-.
        exists m0, e. split; [exact Hm0|]. split; [reflexivity|]. split; [|exact Hen].
        rewrite (D3 _ Hn). unfold registers. rewrite <- Hs, String.eqb_refl. cbn [put_subs m_subs]. apply dget_dset_same.
    + intros x Hx. rewrite D3 by (intros C; apply Hx; right; exact C). unfold registers.
      destruct (String.eqb_spec (m_id m) sup) as [Hs|_]; [|reflexivity]. cbn [put_subs m_subs]. apply dget_dset_other.
      intros ->. apply Hx. left. congruence.
Qed.

(** ** Statements about the entities that were registered *)

(** policies of [S] that can be part of a statement about [m]: for its types, and for itself *)
Definition usable_policies (S : fserver) (m : member) : Prop :=
  (forall et p v, In et (dkeys (says_of_itself m)) -> dget et (fs_policy S) = Some p ->
     (dget "metadata" p = Some v -> dict_of anything v) /\
     (dget "metadata_policy" p = Some v -> dict_of (dict_of anything) v)) /\
  (forall p v, dget (m_id m) (fs_policy S) = Some p ->
     (dget "metadata" p = Some v -> dict_of (dict_of anything) v) /\
     (dget "metadata_policy" p = Some v -> dict_of (dict_of (dict_of anything)) v)).

(** [m] has a fetch endpoint, and says so *)
Definition speaks (m : member) : Prop :=
  location (m_fetch m) /\ exists fe, federation_part m fe /\ dget "federation_fetch_endpoint" fe = Some (VStr (m_fetch m)).

Lemma type_policies_from pol ts m mp : type_policies pol (map VStr ts) = Ok (m, mp) ->
  (forall et v, In (et, v) m -> In et ts /\ exists p, dget et pol = Some p /\ dget "metadata" p = Some v) /\
  (forall et v, In (et, v) mp -> In et ts /\ exists p, dget et pol = Some p /\ dget "metadata_policy" p = Some v).
Proof.
  unfold type_policies. intros H.
  apply (foldM_inv _ _ _ (fun acc =>
    (forall et v, In (et, v) (fst acc) -> In et ts /\ exists p, dget et pol = Some p /\ dget "metadata" p = Some v) /\
    (forall et v, In (et, v) (snd acc) -> In et ts /\ exists p, dget et pol = Some p /\ dget "metadata_policy" p = Some v))) in H;
    [exact H| |split; intros et v []].
  intros [m0 mp0] x [m1 mp1] Hx [I1 I2] Hs. apply in_map_iff in Hx. destruct Hx as (et & <- & Het). cbn [fst snd] in *.
  destruct (find_filled et pol) as [p|] eqn:Ef; [|injection Hs as <- <-; auto].
  injection Hs as <- <-. apply find_filled_some in Ef. destruct Ef as [Ef _]. unfold add_typed. split; intros et' v Hin.
  - destruct (dget "metadata" p) as [w|] eqn:Ew; [|exact (I1 _ _ Hin)].
    apply In_dset in Hin. destruct Hin as [Hin|Hin]; [|exact (I1 _ _ Hin)]. injection Hin as -> ->. eauto.
  - destruct (dget "metadata_policy" p) as [w|] eqn:Ew; [|exact (I2 _ _ Hin)].
    apply In_dset in Hin. destruct Hin as [Hin|Hin]; [|exact (I2 _ _ Hin)]. injection Hin as -> ->. eauto.
Qed.

Lemma claim_total B (f : val -> option B) k p : (forall v, dget k p = Some v -> f v <> None) -> claim f k p <> None.
Proof.
  unfold claim. intros H. destruct (dget k p) as [v|]; [|discriminate]. specialize (H v eq_refl). destruct (f v); [discriminate|congruence].
Qed.

Hypothesis readable_keys : forall ks, jwks_of (jwks_val ks) = Some ks.

(** what the statement is made of *)
Lemma enrolled_args m' m e args iss : sound jwks_of E m' -> dget (m_id m) (m_subs m') = Some e -> enrolled m e ->
  usable_policies (m_srv m') m -> stmt_args (m_srv m') (m_id m) (kept (m_srv m') iss (m_id m) e) = Ok args ->
  (exists ks, dget "jwks" args = Some (jwks_val ks)) /\ dget "lifetime" args = None /\ dget "constraints" args = None /\
  dget "authority_hints" args = Some (VList [VStr iss]) /\
  (forall v, dget "metadata" args = Some v -> dict_of (dict_of anything) v) /\
  (forall v, dget "metadata_policy" args = Some v -> dict_of (dict_of (dict_of anything)) v).
Proof.
  intros Hs He (ks & fe & _ & _ & Ej & Et & _ & Eo & End) [U1 U2] Ha.
  destruct (so_dicts _ _ _ Hs) as [Sd1 Sd2]. assert (Sp := so_policies _ _ _ Hs).
  set (S := m_srv m') in *. set (e1 := kept S iss (m_id m) e) in *.
  assert (K : forall k, k <> "authority_hints" -> k <> "metadata" -> k <> "metadata_policy" -> dget k e1 = dget k e).
  { intros k. apply (kept_policies S (m_subs m')); [split; assumption|exact Sp]. }
  assert (O : forall k, ~ In k ["jwks"; "entity_types"; "intermediate"] -> dget k e = None).
  { intros k Hk. destruct (dget k e) as [v|] eqn:E1; [|reflexivity]. exfalso. apply Hk, Eo. congruence. }
  assert (W : dget "authority_hints" (with_hints iss e) = Some (VList [VStr iss])).
  { unfold with_hints, dmem. rewrite O by (simpl; intuition discriminate). apply dget_dset_same. }
  assert (W' : forall k, k <> "authority_hints" -> dget k (with_hints iss e) = dget k e).
  { intros k Hk. unfold with_hints. destruct (dmem "authority_hints" e); [reflexivity|apply dget_dset_other; exact Hk]. }
  assert (J : dget "jwks" e1 = Some (jwks_val ks)) by (rewrite K by discriminate; exact Ej).
  assert (Lf : dget "lifetime" e1 = None) by (rewrite K by discriminate; apply O; simpl; intuition discriminate).
  assert (Cf : dget "constraints" e1 = None) by (rewrite K by discriminate; apply O; simpl; intuition discriminate).
  unfold stmt_args in Ha. destruct (own_policy S (m_id m)) as [p|] eqn:Eop.
  - injection Ha as <-. split; [eauto|]. split; [exact Lf|]. split; [exact Cf|].
    assert (Ek : e1 = dupdate (with_hints iss e) p) by (unfold e1, kept; rewrite Eop; reflexivity).
    unfold own_policy in Eop. apply find_filled_some in Eop. destruct Eop as [Eop _].
    assert (P : forall k v, dget k p = Some v -> k = "metadata" \/ k = "metadata_policy").
    { intros k v Hv. apply (Sp _ _ _ Eop). exact (dget_In_key _ _ _ _ Hv). }
    assert (D : forall k, dget k e1 = match dget k p with Some v => Some v | None => dget k (with_hints iss e) end).
    { intros k. rewrite Ek. apply dget_dupdate. exact (Sd2 _ _ Eop). }
    split; [|split].
    + rewrite D. destruct (dget "authority_hints" p) as [v|] eqn:Ev; [destruct (P _ _ Ev); discriminate|exact W].
    + intros v Hv. rewrite D in Hv. destruct (dget "metadata" p) as [w|] eqn:Ev; [injection Hv as <-; exact (proj1 (U2 _ _ Eop) Ev)|].
      rewrite W' in Hv by discriminate. rewrite O in Hv by (simpl; intuition discriminate). discriminate.
    + intros v Hv. rewrite D in Hv. destruct (dget "metadata_policy" p) as [w|] eqn:Ev; [injection Hv as <-; exact (proj2 (U2 _ _ Eop) Ev)|].
      rewrite W' in Hv by discriminate. rewrite O in Hv by (simpl; intuition discriminate). discriminate.
  - assert (Ek : e1 = with_hints iss e) by (unfold e1, kept; rewrite Eop; reflexivity).
    assert (Et1 : dget "entity_types" e1 = Some (VList (map VStr (dkeys (says_of_itself m))))) by (rewrite K by discriminate; exact Et).
    rewrite Et1 in Ha. cbn [py_list bind] in Ha. apply bind_ok in Ha. destruct Ha as ([md mp] & Hm & Ha). injection Ha as Ha.
    destruct (type_policies_from _ _ _ _ Hm) as [T1 T2].
    assert (A : forall k, k <> "metadata" -> k <> "metadata_policy" -> k <> "entity_types" -> dget k args = dget k e1).
    { intros k N1 N2 N3. rewrite <- Ha. destruct (is_nil md && is_nil mp); [apply dget_ddel_other; assumption|].
      cbn [dupdate fold_left fst snd]. rewrite !dget_dset_other by assumption. apply dget_ddel_other; assumption. }
    split; [exists ks; rewrite A by discriminate; exact J|]. split; [rewrite A by discriminate; exact Lf|].
    split; [rewrite A by discriminate; exact Cf|]. split; [rewrite A, Ek by discriminate; exact W|].
    assert (Md : dget "metadata" e1 = None /\ dget "metadata_policy" e1 = None).
    { rewrite Ek, !W' by discriminate. split; apply O; simpl; intuition discriminate. }
    destruct Md as [Md1 Md2].
    split; intros v Hv; rewrite <- Ha in Hv; destruct (is_nil md && is_nil mp).
    + rewrite dget_ddel_other in Hv by discriminate. congruence.
    + cbn [dupdate fold_left fst snd] in Hv. rewrite dget_dset_other, dget_dset_same in Hv by discriminate. injection Hv as <-.
      exists md. split; [reflexivity|]. intros et x Hx. destruct (T1 _ _ Hx) as (H1 & p & H2 & H3). exact (proj1 (U1 _ _ _ H1 H2) H3).
    + rewrite dget_ddel_other in Hv by discriminate. congruence.
    + cbn [dupdate fold_left fst snd] in Hv. rewrite dget_dset_same in Hv. injection Hv as <-.
      exists mp. split; [reflexivity|]. intros et x Hx. destruct (T2 _ _ Hx) as (H1 & p & H2 & H3). exact (proj2 (U1 _ _ _ H1 H2) H3).
Qed.

Lemma enrolled_readable m' m e now p : sound jwks_of E m' -> sound jwks_of E m -> m_id m <> m_id m' ->
  dget (m_id m) (m_subs m') = Some e -> enrolled m e -> usable_policies (m_srv m') m ->
  snd (fetch (m_srv m') now (mkFreq (Some (m_id m')) (Some (m_id m))) (m_subs m')) = Ok p -> decode jwks_of p <> None.
Proof.
  intros Hs Hs2 Hne He Hen Hu Hp. set (q := mkFreq (Some (m_id m')) (Some (m_id m))) in *.
  destruct (fetch (m_srv m') now q (m_subs m')) as [db' r] eqn:Hf. cbn [snd] in Hp. subst r.
  assert (Hi : issuer_of (m_srv m') q = m_id m').
  { unfold issuer_of, q. cbn [fq_iss]. destruct (m_id m') eqn:Em; [|reflexivity].
    destruct (so_id _ _ _ Hs) as [C _]. congruence. }
  destruct (fetch_inv _ _ _ _ _ _ (so_dicts _ _ _ Hs) Hf) as [(Ho & _)|(sub & e' & args & _ & Es & _ & _ & (Hr & _) & Ha & _ & Hc)].
  - exfalso. unfold own_request in Ho. rewrite Hi in Ho. cbn [q fq_sub] in Ho. apply orb_true_iff in Ho.
    destruct Ho as [Ho|Ho]; apply String.eqb_eq in Ho; [exact (proj1 (so_id _ _ _ Hs2) Ho)|exact (Hne Ho)].
  - cbn [q fq_sub] in Es. injection Es as <-. rewrite He in Hr. injection Hr as <-. rewrite Hi in Ha, Hc.
    destruct (enrolled_args m' m e args (m_id m') Hs He Hen Hu Ha) as ((ks & J) & Lf & Cf & Hh & Hmd & Hmp).
    unfold decode. rewrite !Hc. change (claim_of now (m_id m') (m_id m) (fs_jwks (m_srv m')) args "iss") with (Some (VStr (m_id m'))).
    change (claim_of now (m_id m') (m_id m) (fs_jwks (m_srv m')) args "sub") with (Some (VStr (m_id m))). cbv iota.
    assert (C1 : claim PublishModel.as_int "exp" p <> None).
    { apply claim_total. intros v Hv. rewrite Hc in Hv. unfold claim_of, arg_or in Hv. cbn -[dget Z.add] in Hv. rewrite Lf in Hv.
      cbn -[Z.add] in Hv. injection Hv as <-. discriminate. }
    assert (C2 : claim jwks_of "jwks" p <> None).
    { apply claim_total. intros v Hv. rewrite Hc in Hv. unfold claim_of in Hv. cbn -[dget truthy arg_or] in Hv. rewrite J in Hv.
      injection Hv as <-. rewrite readable_keys. discriminate. }
    assert (C3 : claim (as_dict_of (as_dict_of Some)) "metadata" p <> None).
    { apply claim_total. intros v Hv. rewrite Hc in Hv. unfold claim_of in Hv. cbn -[dget if_truthy] in Hv.
      unfold if_truthy in Hv. destruct (dget "metadata" args) as [w|] eqn:Ew; [|discriminate]. destruct (truthy w); [|discriminate].
      injection Hv as <-. apply (as_dict_total _ _ (dict_of anything)); [|exact (Hmd _ eq_refl)].
      intros x Hx. apply (as_dict_total _ _ anything); [discriminate|exact Hx]. }
    assert (C4 : claim (as_dict_of (as_dict_of (as_dict_of Some))) "metadata_policy" p <> None).
    { apply claim_total. intros v Hv. rewrite Hc in Hv. unfold claim_of in Hv. cbn -[dget if_truthy] in Hv.
      unfold if_truthy in Hv. destruct (dget "metadata_policy" args) as [w|] eqn:Ew; [|discriminate]. destruct (truthy w); [|discriminate].
      injection Hv as <-. apply (as_dict_total _ _ (dict_of (dict_of anything))); [|exact (Hmp _ eq_refl)].
      intros x Hx. apply (as_dict_total _ _ (dict_of anything)); [|exact Hx].
      intros y Hy. apply (as_dict_total _ _ anything); [discriminate|exact Hy]. }
    assert (C5 : claim as_constraints "constraints" p <> None).
    { apply claim_total. intros v Hv. rewrite Hc in Hv. unfold claim_of in Hv. cbn -[dget if_truthy] in Hv. rewrite Cf in Hv. discriminate. }
    assert (C6 : claim as_strs "authority_hints" p <> None).
    { apply claim_total. intros v Hv. rewrite Hc in Hv. unfold claim_of in Hv. cbn -[dget if_truthy] in Hv. rewrite Hh in Hv.
      injection Hv as <-. discriminate. }
    destruct (claim PublishModel.as_int "exp" p); [|congruence]. destruct (claim jwks_of "jwks" p); [|congruence].
    destruct (claim _ "metadata" p); [|congruence]. destruct (claim _ "metadata_policy" p); [|congruence].
    destruct (claim as_constraints "constraints" p); [|congruence]. destruct (claim as_strs "authority_hints" p); [discriminate|congruence].
Qed.

(** the answer about an entity depends on its registration only *)
Lemma fetch_local S now iss sub db db' : dget sub db = dget sub db' ->
  snd (fetch S now (mkFreq iss (Some sub)) db) = snd (fetch S now (mkFreq iss (Some sub)) db').
Proof.
  intros H. rewrite !fetch_eq. destruct (own_request S (mkFreq iss (Some sub))); [reflexivity|]. cbn [fq_sub].
  unfold find_filled. rewrite H. destruct (dget sub db') as [e|]; [|reflexivity]. destruct (is_nil e); reflexivity.
Qed.

Lemma Forall2_In_l A B (R : A -> B -> Prop) l l' a : Forall2 R l l' -> In a l -> exists b, In b l' /\ R a b.
Proof.
  intros H. revert a. induction H as [|x y l l' Hr _ IH]; intros a [].
  - subst. exists y. split; [left; reflexivity|exact Hr].
  - destruct (IH _ H) as (b & H1 & H2). exists b. split; [right; exact H1|exact H2].
Qed.

Lemma Forall2_In_r A B (R : A -> B -> Prop) l l' b : Forall2 R l l' -> In b l' -> exists a, In a l /\ R a b.
Proof.
  intros H. revert b. induction H as [|x y l l' Hr _ IH]; intros b [].
  - subst. exists x. split; [left; reflexivity|exact Hr].
  - destruct (IH _ H) as (a & H1 & H2). exists a. split; [right; exact H1|exact H2].
Qed.

(** every entity was registered with each of its superiors: by a command, or before *)
Definition introduced (F : list member) (commands : list (string * string)) : Prop :=
  forall m a, In m F -> In a (superiors_of m) -> exists m', In m' F /\ m_id m' = a /\
    (In (a, m_id m) commands /\ speaks m' /\ usable_policies (m_srv m') m \/
     ~ In (a, m_id m) commands /\ serves jwks_of E m' m).

Lemma run_after F F' commands rank : started F' E -> hierarchy F rank -> Forall2 (filled F commands) F F' ->
  started F E -> introduced F commands -> library_run jwks_of F' (net F').
Proof.
  intros L' HR HA L Hi. destruct L' as [S1 S2 S3 S4 S5 S6 S7 S8 S9]. constructor; auto.
  - intros m Hm. destruct (S9 m Hm) as [T1 T2 T3 T4 T5 T6 T7 T8]. constructor; auto.
  - intros x a Hx Ha. destruct (Forall2_In_r _ _ _ _ _ _ HA Hx) as (m & Hm & db & Ex & _).
    assert (Ha' : In a (superiors_of m)) by (rewrite Ex in Ha; exact Ha).
    destruct (Hi m a Hm Ha') as (m1 & Hm1 & Hid & Hcase).
    destruct (Forall2_In_l _ _ _ _ _ _ HA Hm1) as (y & Hy & db1 & Ey & _ & Y1 & Y2).
    exists y. split; [exact Hy|]. split; [rewrite Ey; exact Hid|].
    assert (Ix : m_id x = m_id m) by (rewrite Ex; reflexivity).
    assert (Kx : m_key x = m_key m) by (rewrite Ex; reflexivity).
    assert (Hne : m_id m <> m_id m1).
    { intros C. assert (G := HR m a Hm Ha'). rewrite <- Hid, <- C in G. lia. }
    destruct Hcase as [(Hin & [Hsp1 (fe & Hsp2 & Hsp3)] & Hu)|(Hout & Hsv)].
    + rewrite <- Hid in Hin. destruct (Y1 _ Hin) as (m2 & e & M1 & M2 & M3 & M4).
      apply (sd_ids _ _ L) in M2; [subst m2|exact M1|exact Hm].
      assert (Hsy : sound jwks_of E y) by (destruct (S9 y Hy); constructor; auto).
      assert (Gy : dget (m_id m) (m_subs y) = Some e) by (rewrite Ey; exact M3).
      constructor.
      * rewrite Ey. exact Hsp1.
      * exists fe. rewrite Ey. split; [exact Hsp2|exact Hsp3].
      * destruct (so_key _ _ _ (sd_sound _ _ L m Hm)) as (ks & Hk & Hin').
        assert (M5 := M4). destruct M5 as (ks' & fe' & K1 & _ & K3 & K4 & _ & K6 & _).
        exists e, ks, (jwks_val ks). rewrite Ix, Kx. assert (ks' = ks) by congruence. subst ks'.
        split; [split; [exact Gy|intros ->; discriminate K3]|].
        split; [|split; [exact K3|split; [apply readable_keys|exact Hin']]].
        assert (O : forall k, ~ In k ["jwks"; "entity_types"; "intermediate"] -> dget k e = None).
        { intros k Hk'. destruct (dget k e) as [v|] eqn:E1; [|reflexivity]. exfalso. apply Hk', K6. congruence. }
        split; [intros k Hk'; apply O; simpl in Hk' |- *; intros C; intuition congruence|].
        split; [intros v Hv; rewrite O in Hv by (simpl; intuition discriminate); discriminate|].
        split; [intros v Hv; rewrite K4 in Hv; injection Hv as <-; eauto|].
        intros p k v Hp Hv. apply (so_policies _ _ _ Hsy _ _ _ Hp). exact (dget_In_key _ _ _ _ Hv).
      * intros p Hp. rewrite Ix in Hp.
        assert (My : m_id y = m_id m1) by (rewrite Ey; reflexivity).
        apply (enrolled_readable y m e (e_clock E 0) p Hsy (sd_sound _ _ L m Hm)); [rewrite My; exact Hne|exact Gy|exact M4| |exact Hp].
        rewrite Ey. exact Hu.
    + rewrite <- Hid in Hout. destruct Hsv as [V1 V2 V3 V4]. assert (Gy := Y2 _ Hout).
      constructor.
      * rewrite Ey. exact V1.
      * rewrite Ey. exact V2.
      * destruct V3 as (e & ks & v & (R1 & R1') & R2 & R3 & R4 & R5). exists e, ks, v. rewrite Ix, Kx, Ey. cbn [put_subs m_subs m_srv].
        split; [split; [rewrite Gy; exact R1|exact R1']|]. auto.
      * intros p Hp. apply V4. rewrite Ix, Ey in Hp. cbn [put_subs m_subs m_srv] in Hp.
        change (m_id (put_subs m1 db1)) with (m_id m1) in Hp. change (e_clock (net F') 0) with (e_clock E 0) in Hp.
        rewrite <- Hp. apply fetch_local. symmetry. exact Gy.
Qed.

End Run_.
End Setup_.

(** ** C164: entities that were registered with the commands find each other *)

(** The commands succeed.  Afterwards every entity has the subordinates it was given, with the keys, types and status
    they publish, and the entities make up a federation as C121, C122 and C139-C143 are about. *)
Theorem C164_set_up : forall jwks_of jwks_val E F n commands rank,
  (forall ks, jwks_of (jwks_val ks) = Some ks) -> started jwks_of F E -> hierarchy F rank -> introduced jwks_of E F commands ->
  (forall c, In c commands -> exists m fe, In m F /\ m_id m = snd c /\ federation_part m fe) ->
  exists F' n', set_up jwks_of jwks_val E commands (F, n) = ((F', n'), Ok tt) /\
    Forall2 (filled jwks_of jwks_val F commands) F F' /\ library_run jwks_of F' (with_members jwks_of E F').
Proof.
  intros jwks_of jwks_val E F n commands rank Hk L HR Hi Hc.
  destruct (set_up_fills jwks_of jwks_val E commands F n L Hc) as (F' & n' & H1 & H2 & H3).
  exists F', n'. split; [exact H1|]. split; [exact H3|]. exact (run_after _ _ E Hk F F' commands rank H2 HR H3 L Hi).
Qed.
Print Assumptions C164_set_up.

Lemma filled_same jwks_of jwks_val F commands m m' : filled jwks_of jwks_val F commands m m' ->
  m_id m' = m_id m /\ superiors_of m' = superiors_of m /\ m_key m' = m_key m /\ m_srv m' = m_srv m.
Proof. intros (db & -> & _). auto. Qed.

Lemma filled_path jwks_of jwks_val F0 commands F F' : Forall2 (filled jwks_of jwks_val F0 commands) F F' ->
  forall e r, path F' e r <-> path F e r.
Proof.
  intros HA e r. split; induction 1 as [m Hm Hs|m a r Hm Ha _ IH].
  - destruct (Forall2_In_r _ _ _ _ _ _ HA Hm) as (x & Hx & Hf). destruct (filled_same _ _ _ _ _ _ Hf) as (-> & E1 & _).
    rewrite E1 in Hs. apply path_end; assumption.
  - destruct (Forall2_In_r _ _ _ _ _ _ HA Hm) as (x & Hx & Hf). destruct (filled_same _ _ _ _ _ _ Hf) as (-> & E1 & _).
    rewrite E1 in Ha. apply path_up; assumption.
  - destruct (Forall2_In_l _ _ _ _ _ _ HA Hm) as (x & Hx & Hf). destruct (filled_same _ _ _ _ _ _ Hf) as (<- & E1 & _).
    rewrite <- E1 in Hs. apply path_end; assumption.
  - destruct (Forall2_In_l _ _ _ _ _ _ HA Hm) as (x & Hx & Hf). destruct (filled_same _ _ _ _ _ _ Hf) as (<- & E1 & _).
    rewrite <- E1 in Ha. apply path_up; assumption.
Qed.

Lemma filled_unconstrained jwks_of jwks_val commands F F' : Forall2 (filled jwks_of jwks_val F commands) F F' ->
  unconstrained F -> unconstrained F'.
Proof.
  intros HA Hu m' sub e Hm' He. destruct (Forall2_In_r _ _ _ _ _ _ HA Hm') as (m & Hm & db & -> & _ & Y1 & Y2). cbn [put_subs m_subs] in He.
  destruct (in_dec pair_dec (m_id m, sub) commands) as [Hin|Hout].
  - destruct (Y1 _ Hin) as (m2 & e2 & _ & _ & E2 & (ks & fe & _ & _ & _ & _ & _ & K & _)).
    assert (e2 = e) by congruence. subst e2. destruct (dget "constraints" e) as [v|] eqn:Ev; [|reflexivity].
    exfalso. assert (G := K "constraints"). rewrite Ev in G. simpl in G. intuition discriminate.
  - rewrite (Y2 _ Hout) in He. exact (Hu _ _ _ Hm He).
Qed.

(** Whoever takes the keys of a trust anchor from get_info finds exactly the chains from the entities to it. *)
Theorem C164_chains : forall jwks_of jwks_val E F n commands rank,
  (forall ks, jwks_of (jwks_val ks) = Some ks) -> started jwks_of F E -> hierarchy F rank -> introduced jwks_of E F commands ->
  (forall c, In c commands -> exists m fe, In m F /\ m_id m = snd c /\ federation_part m fe) -> unconstrained F ->
  exists F' n', set_up jwks_of jwks_val E commands (F, n) = ((F', n'), Ok tt) /\
    forall ta, In ta F -> exists ks,
      (forall s, exists s', get_info (with_members jwks_of E F') jwks_val true false (m_id ta) s =
                              (s', Ok (AnchorInfo [(m_id ta, ks)]))) /\
      forall O fuel m tick s' r, In m F -> rank (m_id m) < fuel ->
        get_verified_trust_chains (with_members jwks_of E F') O fuel (m_id m)
          (mkFed (mkState [] [] tick) [(m_id ta, ks)] []) = (s', r) ->
        match r with
        | Ok cs =>
            (forall rt, path F (m_id m) rt -> rt <> [] -> end_of (m_id m) rt = m_id ta -> exists c, In c cs /\ runs_along c (m_id m) rt) /\
            (forall c, In c cs -> exists rt, path F (m_id m) rt /\ end_of (m_id m) rt = m_id ta /\ runs_along c (m_id m) rt)
        | Err x => exists rt claims, path F (m_id m) rt /\ end_of (m_id m) rt = m_id ta /\
            map names_of claims = links (m_id m) rt ++ [(m_id m, m_id m)] /\ policy_call_chain O claims = Err x
        end.
Proof.
  intros jwks_of jwks_val E F n commands rank Hk L HR Hi Hc Hu.
  destruct (set_up_fills jwks_of jwks_val E commands F n L Hc) as (F' & n' & H1 & H2 & H3).
  assert (L' := run_after _ _ E Hk F F' commands rank H2 HR H3 L Hi).
  exists F', n'. split; [exact H1|]. intros ta Hta.
  destruct (Forall2_In_l _ _ _ _ _ _ H3 Hta) as (ta' & Hta' & Hft). destruct (filled_same _ _ _ _ _ _ Hft) as (I1 & I2 & I3 & I4).
  destruct (member_reads jwks_of E F' ta' H2 Hta') as (p & c & ks & _ & _ & Ek & Ej & _ & _ & Hr).
  exists ks. split.
  { intros s. destruct (Hr s) as [s' Hs]. exists s'. unfold get_info, mbind. rewrite <- I1, Hs. cbn [andb negb].
    unfold lift, keys_in_statement. rewrite Ej. reflexivity. }
  intros O fuel m tick s' r Hm Hf H.
  destruct (Forall2_In_l _ _ _ _ _ _ H3 Hm) as (m' & Hm' & Hfm). destruct (filled_same _ _ _ _ _ _ Hfm) as (J1 & J2 & J3 & J4).
  assert (HR' : hierarchy F' rank).
  { intros x a Hx Ha. destruct (Forall2_In_r _ _ _ _ _ _ H3 Hx) as (y & Hy & Hfy). destruct (filled_same _ _ _ _ _ _ Hfy) as (X1 & X2 & _).
    rewrite X1. rewrite X2 in Ha. exact (HR y a Hy Ha). }
  assert (RK : right_keys F' [(m_id ta, ks)]).
  { intros x ks' Hx Hg. cbn [dget] in Hg. destruct (String.eqb_spec (m_id x) (m_id ta)) as [C|_]; [|discriminate]. injection Hg as <-.
    rewrite <- I1 in C. apply (lf_ids _ _ _ L' x ta' Hx Hta') in C. subst x.
    destruct (so_key _ _ _ (lf_sound _ _ _ L' ta' Hta')) as (ks2 & K1 & K2). congruence. }
  assert (KN : forall x, VerifierSpec.known [(m_id ta, ks)] x -> x = m_id ta).
  { intros x. unfold VerifierSpec.known. cbn [dget]. destruct (String.eqb_spec x (m_id ta)); intros K; [assumption|].
    destruct K as [? K]. discriminate K. }
  assert (KY : VerifierSpec.known [(m_id ta, ks)] (m_id ta)).
  { unfold VerifierSpec.known. cbn [dget]. rewrite String.eqb_refl. exists ks. reflexivity. }
  rewrite <- J1 in H. rewrite <- J1 in Hf.
  assert (C := C121_found jwks_of F' _ O rank fuel m' (mkFed (mkState [] [] tick) [(m_id ta, ks)] []) s' r L' HR' (filled_unconstrained _ _ _ _ _ H3 Hu) Hm' Hf (visited_none _ tick) RK H).
  cbn [f_keys] in C. rewrite J1 in C.
  assert (PW := filled_path _ _ _ _ _ _ H3). destruct r as [cs|x].
  - destruct C as (C1 & C2 & _). split.
    + intros rt P1 P2 P3. apply C1; [apply PW; exact P1|exact P2|]. cbn [f_keys]. rewrite P3. exact KY.
    + intros ch Hch. destruct (C2 ch Hch) as (rt & P1 & P2 & P3 & P4). exists rt. split; [apply PW; exact P1|].
      split; [apply KN; exact P3|exact P4].
  - destruct C as (rt & claims & P1 & P2 & P3 & P4). exists rt, claims. split; [apply PW; exact P1|]. split; [apply KN; exact P3|exact P4].
Qed.
Print Assumptions C164_chains.

(** What a superior's policy says about one of the types that the subordinate publishes is something it is configured
    to say about the subordinate (C122). *)
Theorem C164_policies : forall jwks_of jwks_val E F n commands,
  started jwks_of F E ->
  (forall c, In c commands -> exists m fe, In m F /\ m_id m = snd c /\ federation_part m fe) ->
  exists F' n', set_up jwks_of jwks_val E commands (F, n) = ((F', n'), Ok tt) /\
    forall m' m et pol mp cl cp op v, In m' F' -> In m F -> In (m_id m', m_id m) commands ->
      In et (dkeys (says_of_itself m)) -> dget et (fs_policy (m_srv m')) = Some pol ->
      dget "metadata_policy" pol = Some (VDict mp) -> dget cl mp = Some (VDict cp) -> dget op cp = Some v ->
      configured m' (m_id m) et cl op v.
Proof.
  intros jwks_of jwks_val E F n commands L Hc.
  destruct (set_up_fills jwks_of jwks_val E commands F n L Hc) as (F' & n' & H1 & H2 & H3).
  exists F', n'. split; [exact H1|]. intros m' m et pol mp cl cp op v Hm' Hm Hin Het P1 P2 P3 P4.
  destruct (Forall2_In_r _ _ _ _ _ _ H3 Hm') as (x & Hx & db & -> & _ & Y1 & _).
  change (m_id (put_subs x db)) with (m_id x) in Hin. destruct (Y1 _ Hin) as (m2 & e & M1 & M2 & M3 & (ks & fe & _ & _ & K3 & K4 & _)).
  apply (sd_ids _ _ _ L) in M2; [subst m2|exact M1|exact Hm].
  exists e, (dkeys (says_of_itself m)), pol, mp, cp. cbn [put_subs m_subs m_srv] in *.
  split; [split; [exact M3|intros ->; discriminate K3]|]. auto 10.
Qed.
Print Assumptions C164_policies.

(** ta, im and rp as in C121_ex, and an OP, before anybody is registered with anybody; rp names two superiors *)
Definition su_jwks (v : val) : option (list key) :=
  match v with VList vs => Some (map (fun x => match x with VInt z => Z.to_nat z | _ => 0 end) vs) | _ => None end.
Definition su_val (ks : list key) : val := VList (map (fun k => VInt (Z.of_nat k)) ks).

Definition su_ta : member := mkMember
  (mkFserver "ta" (su_val [1]) [("federation_entity", VDict [("federation_fetch_endpoint", VStr "ta/fetch");
                                                             ("federation_list_endpoint", VStr "ta/list")])] None [])
  None SrcNone [] 1 "ta/wk" "ta/fetch".
Definition su_im : member := mkMember
  (mkFserver "im" (su_val [2; 5]) [("federation_entity", VDict [("federation_fetch_endpoint", VStr "im/fetch");
                                                                 ("federation_list_endpoint", VStr "im/list")])]
     (Some (VList [VStr "ta"])) (lib_policy []))
  None SrcNone [] 2 "im/wk" "im/fetch".
Definition su_rp : member := mkMember
  (mkFserver "rp" (su_val [3]) [("federation_entity", VDict []);
                                ("openid_relying_party", VDict [("scope", VStr "openid"); ("org", VStr "rp")])]
     (Some (VList [VStr "im"; VStr "ta"])) [])
  None (SrcList [VStr "mark"]) [] 3 "rp/wk" "".
Definition su_op : member := mkMember
  (mkFserver "op" (su_val [4]) [("openid_provider", VDict [("issuer", VStr "op")]); ("federation_entity", VDict [])]
     (Some (VList [VStr "im"])) [])
  None SrcNone [] 4 "op/wk" "".
Definition su_fed : list member := [su_ta; su_im; su_rp; su_op].
Definition su_env : cenv :=
  mkEnv 300 ["ta"] (fun _ _ => R404) (fun _ => 0%Z) all_keys wk_url tenant_url.
Definition su_commands : list (string * string) := [("ta", "im"); ("im", "rp"); ("ta", "rp"); ("im", "op")].
Definition su_rank (e : string) : nat := if String.eqb e "op" then 2 else lib_rank e.

Ltac su_members := repeat match goal with H : In _ su_fed |- _ => destruct H as [<-|[<-|[<-|[<-|[]]]]] end.

Lemma su_keys ks : su_jwks (su_val ks) = Some ks.
Proof. unfold su_val, su_jwks. f_equal. rewrite map_map. rewrite <- (map_id ks) at 2. apply map_ext. apply Nat2Z.id. Qed.

Lemma su_started : started su_jwks su_fed su_env.
Proof.
  constructor.
  - reflexivity.
  - reflexivity.
  - intros n p z Hz Hn. cbn. unfold within_skew. rewrite Hz. apply Z.ltb_lt. lia.
  - reflexivity.
  - intros m m' Hm Hm' H. su_members; try reflexivity; discriminate H.
  - intros m m' Hm Hm' H. su_members; try reflexivity; discriminate H.
  - intros m m' Hm Hm' H N. su_members; try reflexivity; try discriminate H; exfalso; apply N; reflexivity.
  - intros m Hm. su_members; left; reflexivity.
  - intros m Hm. su_members; (apply mkSound;
      [split; [discriminate|reflexivity]
      |eexists; split; [reflexivity|left; reflexivity]
      |split; intros x e H; apply dget_In in H; simpl in H;
        repeat destruct H as [H|H]; try contradiction; injection H as <- <-; apply nodupb_sound; reflexivity
      |intros x p k H Hk; apply dget_In in H; simpl in H;
        repeat destruct H as [H|H]; try contradiction; injection H as <- <-; simpl in Hk; intuition auto
      |eexists; reflexivity
      |intros p Hp; vm_compute in Hp; injection Hp as <-; vm_compute; discriminate
      |intros a Ha; simpl in Ha; repeat destruct Ha as [<-|Ha]; try destruct Ha; reflexivity
      |intros sub e v H Hv; discriminate H]).
Qed.

Lemma su_hierarchy : hierarchy su_fed su_rank.
Proof. intros m a Hm Ha. su_members; simpl in Ha; repeat destruct Ha as [<-|Ha]; try destruct Ha; vm_compute; lia. Qed.

Lemma su_introduced more : introduced su_jwks su_env su_fed (su_commands ++ more).
Proof.
  assert (SP : speaks su_ta /\ speaks su_im) by (split; (split; [apply locationb_sound; reflexivity|]); eexists; split; reflexivity).
  assert (PI : forall m, In m [su_rp; su_op] -> usable_policies (m_srv su_im) m).
  { intros m Hm. split.
    + intros et p v Het H. destruct Hm as [<-|[<-|[]]]; simpl in Het; destruct Het as [<-|[<-|[]]]; try discriminate H.
      injection H as <-. split; intros Hv; [discriminate Hv|].
      injection Hv as <-. eexists. split; [reflexivity|]. intros k x Hx. simpl in Hx. destruct Hx as [Hx|[Hx|[]]]; injection Hx as <- <-;
        eexists; (split; [reflexivity|]); intros; exact I.
    + intros p v H. destruct Hm as [<-|[<-|[]]]; discriminate H. }
  intros m a Hm Ha. su_members; simpl in Ha; repeat destruct Ha as [<-|Ha]; try destruct Ha.
  - exists su_ta. split; [simpl; auto|]. split; [reflexivity|]. left. split; [simpl; auto|]. split; [apply SP|].
    split; [intros et p v _ H|intros p v H]; discriminate H.
  - exists su_im. split; [simpl; auto|]. split; [reflexivity|]. left. split; [simpl; auto|]. split; [apply SP|]. apply PI. simpl; auto.
  - exists su_ta. split; [simpl; auto|]. split; [reflexivity|]. left. split; [simpl; auto|]. split; [apply SP|].
    split; [intros et p v _ H|intros p v H]; discriminate H.
  - exists su_im. split; [simpl; auto|]. split; [reflexivity|]. left. split; [simpl; auto|]. split; [apply SP|]. apply PI. simpl; auto.
Qed.

Lemma su_known more : (forall c, In c more -> snd c = "op") ->
  forall c, In c (su_commands ++ more) -> exists m fe, In m su_fed /\ m_id m = snd c /\ federation_part m fe.
Proof.
  intros Hmore c Hc. apply in_app_iff in Hc. destruct Hc as [Hc|Hc].
  - simpl in Hc. destruct Hc as [<-|[<-|[<-|[<-|[]]]]].
    + exists su_im. eexists. split; [simpl; auto|]. split; reflexivity.
    + exists su_rp. eexists. split; [simpl; auto|]. split; reflexivity.
    + exists su_rp. eexists. split; [simpl; auto|]. split; reflexivity.
    + exists su_op. eexists. split; [simpl; auto|]. split; reflexivity.
  - rewrite (Hmore c Hc). exists su_op. eexists. split; [simpl; auto 6|]. split; reflexivity.
Qed.

Example C164_ex : (forall ks, su_jwks (su_val ks) = Some ks) /\ started su_jwks su_fed su_env /\ hierarchy su_fed su_rank /\
  introduced su_jwks su_env su_fed su_commands /\
  (forall c, In c su_commands -> exists m fe, In m su_fed /\ m_id m = snd c /\ federation_part m fe) /\ unconstrained su_fed /\
  path su_fed "rp" ["im"; "ta"] /\ path su_fed "rp" ["ta"] /\
  exists F' n' s' c1 c2, set_up su_jwks su_val su_env su_commands (su_fed, 0) = ((F', n'), Ok tt) /\
    get_verified_trust_chains (with_members su_jwks su_env F') id_order 3 "rp" (mkFed (mkState [] [] n') [("ta", [1])] []) =
      (s', Ok [c1; c2]) /\ runs_along c1 "rp" ["im"; "ta"] /\ runs_along c2 "rp" ["ta"].
Proof.
  split; [exact su_keys|]. split; [exact su_started|]. split; [exact su_hierarchy|].
  split; [rewrite <- (app_nil_r su_commands); apply su_introduced|].
  split; [rewrite <- (app_nil_r su_commands); apply su_known; intros c []|].
  split. { intros m sub e Hm H. su_members; discriminate H. }
  assert (P0 : path su_fed "ta" []) by (apply (path_end _ su_ta); [simpl; auto|reflexivity]).
  split; [apply (path_up _ su_rp); [simpl; auto|simpl; auto|]; apply (path_up _ su_im); [simpl; auto|simpl; auto|exact P0]|].
  split; [apply (path_up _ su_rp); [simpl; auto|simpl; auto|exact P0]|].
  eexists _, _, _, _, _. split; [vm_compute; reflexivity|]. split; [vm_compute; reflexivity|]. split; split; vm_compute; reflexivity.
Qed.
