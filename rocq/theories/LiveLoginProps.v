(** A relying party gets to know an OP of a federation whose entities run this library (C162). *)
From Verif Require Import PyFacts ExampleKit CollectorProps FederationProps VerifierFacts.
From Verif Require Import ClientFacts ClientProps ChainsSpec ChainsProps PolicySpec PolicyProps.
From Verif Require Import RegistrationGrantProps RpSpec RpFacts RpProps RpUseProps GuiseModel GuiseProps.
From Verif Require Import LiveFacts LiveExample LiveResolveProps LiveRegisterProps LiveAnswerProps.
From Coq Require Import Lia.

(** the member [m] is put together by this library and has an OP among its parts *)
Definition has_op (ops ass : list string) (cmd : client -> string -> dict val) (m : member) : Prop :=
  exists config parts conf st, NoDup (dkeys config) /\ ~ In "" (dkeys config) /\
    make_parts ops ass (m_id m) config = Ok parts /\ m_whole m = Some (parts_of cmd parts) /\
    dget "openid_provider" config = Some (SpServer conf st).

(** all the relying party knows is the identifier of the OP *)
Definition only_knows (s : rp) (id : string) : Prop :=
  (p_info s = [] /\ p_issuer s = id) \/ p_info s = [("issuer", VStr id)].

(** the keys in the metadata of an OP are readable *)
Definition readable_keys (K : key_sources) (d : dict val) : Prop :=
  dget "jwks_uri" d <> None \/ forall v, dget "jwks" d = Some v -> truthy v = true -> exists ks, ks_jwks K v = Ok ks.

(** [k] is a key the metadata give *)
Definition key_given (K : key_sources) (d : dict val) (k : key) : Prop :=
  (exists v, dget "jwks_uri" d = Some v /\ truthy v = true /\ In k (ks_url K v)) \/
  (dget "jwks_uri" d = None /\ exists v ks, dget "jwks" d = Some v /\ truthy v = true /\ ks_jwks K v = Ok ks /\ In k ks).

(** nobody on the way to the anchor says who the issuer has to be *)
Definition issuer_left_alone (jwks_of : val -> option (list key)) (F : list member) (E : cenv) (id : string)
    (rt : list string) : Prop :=
  forall x, In x (removelast (said jwks_of F E id rt)) -> ~ policy_about x "openid_provider" "issuer".

(** the anchor of [rt] comes no later in [prio] than that of any other usable path *)
Definition best_path (jwks_of : val -> option (list key)) (F : list member) (E : cenv) (kj : keyjar) (id : string)
    (prio : list string) (rt : list string) : Prop :=
  forall i a rt', nth_error prio i = Some a -> usable jwks_of F E kj id rt' -> end_of id rt' = a ->
    exists j, j <= i /\ nth_error prio j = Some (end_of id rt).

(** ** Lemmas *)

Lemma import_given K d iss kj : readable_keys K d ->
  exists kj', import_keys K d iss kj = (kj', Ok tt) /\
    (forall k, key_given K d k -> In (KPub k) (ckeys_of kj' iss)) /\
    (forall e, e <> iss -> dget e kj' = dget e kj) /\
    (forall x, In x (ckeys_of kj' iss) -> In x (ckeys_of kj iss) \/ exists k, x = KPub k /\ key_given K d k).
Proof.
  intros R. destruct (import_keys K d iss kj) as [kj' r] eqn:Ei.
  assert (Ho : forall e, e <> iss -> dget e kj' = dget e kj) by (intros e; exact (import_keys_other _ _ _ e _ _ _ Ei)).
  unfold import_keys in Ei. destruct (dget "jwks_uri" d) as [v|] eqn:D1.
  - unfold dmem, field in Ei. rewrite D1 in Ei. injection Ei as <- <-. eexists. split; [reflexivity|]. split; [|split; [exact Ho|]].
    + intros k [(w & W1 & W2 & W3)|(N & _)]; [|congruence]. assert (w = v) by congruence. subst w. rewrite W2.
      rewrite ckeys_add, String.eqb_refl. apply in_or_app. right. apply in_map, W3.
    + intros x Hx. rewrite ckeys_add, String.eqb_refl in Hx. apply in_app_or in Hx. destruct Hx as [Hx|Hx]; [left; exact Hx|right].
      destruct (truthy v) eqn:Tv; [|destruct Hx]. apply in_map_iff in Hx. destruct Hx as (k & <- & Hk). exists k. split; [reflexivity|].
      left. exists v. auto.
  - unfold dmem, field in Ei. rewrite D1 in Ei. destruct (dget "jwks" d) as [v|] eqn:D2.
    + destruct (truthy v) eqn:Tv.
      * destruct R as [R|R]; [congruence|]. destruct (R v D2 Tv) as [ks Hk]. rewrite Hk in Ei. injection Ei as <- <-.
        eexists. split; [reflexivity|]. split; [|split; [exact Ho|]].
        -- intros k [(w & W1 & _)|(_ & w & ks' & W1 & _ & W3 & W4)]; [congruence|]. assert (w = v) by congruence. subst w.
           assert (ks' = ks) by congruence. subst ks'. rewrite ckeys_add, String.eqb_refl. apply in_or_app. right. apply in_map, W4.
        -- intros x Hx. rewrite ckeys_add, String.eqb_refl in Hx. apply in_app_or in Hx. destruct Hx as [Hx|Hx]; [left; exact Hx|right].
           apply in_map_iff in Hx. destruct Hx as (k & <- & Ik). exists k. split; [reflexivity|]. right. split; [exact D1|].
           exists v, ks. auto.
      * injection Ei as <- <-. eexists. split; [reflexivity|]. split; [|split; [exact Ho|]].
        -- intros k [(w & W1 & _)|(_ & w & ks' & W1 & W2 & _)]; congruence.
        -- intros x Hx. rewrite ckeys_add, String.eqb_refl in Hx. apply in_app_or in Hx. destruct Hx as [Hx|[]]. left. exact Hx.
    + injection Ei as <- <-. eexists. split; [reflexivity|]. split; [|split; [exact Ho|]].
      * intros k [(w & W1 & _)|(_ & w & ks' & W1 & _)]; congruence.
      * intros x Hx. left. exact Hx.
Qed.

Section Logins.
Context (jwks_of : val -> option (list key)) (F : list member) (E : cenv) (rank : string -> nat).
Hypothesis L : library_run jwks_of F E.
Hypothesis HR : hierarchy F rank.

Notation W := (library_world jwks_of F (e_clock E 0)).

Lemma said_eq id rt : said jwks_of F E id rt = map snd (jws (along W id rt)) ++ [w_config W id].
Proof. apply claims_eq. Qed.

Lemma said_up id rt : removelast (said jwks_of F E id rt) = map snd (jws (along W id rt)).
Proof. rewrite said_eq. apply removelast_last. Qed.

(** the statements of members are well formed *)
Lemma said_wf m rt : well_formed E -> In m F -> path F (m_id m) rt ->
  wf_chain (removelast (said jwks_of F E (m_id m) rt)) (w_config W (m_id m)).
Proof.
  intros WF Hm Hp. rewrite said_up. split.
  - apply (WF (QDoc (m_home m)) (w_key W (m_id m))). exact (home_serves _ _ _ L m 0 Hm).
  - intros x Hx. destruct (along_In _ _ _ L rt _ x Hp Hx) as (m1 & m2 & H1 & H2 & H3 & ->).
    destruct (wr_about _ _ _ _ (WR _ _ _ rank L HR m1 H1) (m_id m1) (m_id m2) (reaches_self _ _ _)) as (_ & _ & _ & H4).
    { rewrite (above_member _ _ _ L m1 H1). exact H3. }
    destruct H4 as (ep & _ & _ & H4). exact (WF _ _ _ H4).
Qed.

(** the issuer an OP publishes for itself *)
Lemma op_issuer ops ass cmd m : In m F -> has_op ops ass cmd m -> In "issuer" ops -> In "issuer" ass ->
  metadata_says (w_config W (m_id m)) "openid_provider" "issuer" (VStr (m_id m)).
Proof.
  intros Hm (cfg & parts & conf & st & N1 & N2 & Hp & Hw & Hc) I1 I2.
  destruct (proj1 (C160_published ops ass cmd (m_id m) cfg parts N1 N2 Hp) _ _ _ Hc I1 I2) as (d & D1 & D2).
  destruct (configuration_of_member _ _ _ L m Hm) as (p & st' & _ & _ & -> & _ & _ & _ & _ & _ & H9 & H10).
  unfold published_metadata in H10. rewrite Hw in H10. unfold if_truthy in H10.
  assert (T : truthy (VDict (combo_metadata (parts_of cmd parts))) = true).
  { destruct (combo_metadata (parts_of cmd parts)); [discriminate D1|reflexivity]. }
  rewrite T in H10. destruct (claim_get _ _ _ _ _ _ H10 H9) as (ms & E1 & E2).
  assert (A := as_dict_get _ _ _ _ "openid_provider" E2). rewrite D1 in A. destruct A as (b & B1 & B2).
  assert (A := as_dict_get _ _ _ _ "issuer" B1). rewrite D2 in A. destruct A as (v & [= <-] & B3).
  exists ms, b. auto.
Qed.

(** along a usable path the issuer is kept *)
Lemma issuer_kept O ops ass cmd m rt md d : well_formed E -> In m F -> has_op ops ass cmd m -> In "issuer" ops -> In "issuer" ass ->
  path F (m_id m) rt -> rt <> [] -> issuer_left_alone jwks_of F E (m_id m) rt ->
  adjusted O jwks_of F E (m_id m) rt md -> claims_for md "openid_provider" d -> dget "issuer" d = Some (VStr (m_id m)).
Proof.
  intros WF Hm Hop I1 I2 Hp Hne Hl [ves Ha] Hd.
  assert (Wf := said_wf m rt WF Hm Hp).
  set (front := removelast (said jwks_of F E (m_id m) rt)) in *. set (leaf := w_config W (m_id m)) in *.
  assert (Es : said jwks_of F E (m_id m) rt = front ++ [leaf]).
  { unfold front, leaf. rewrite said_up. apply said_eq. }
  assert (Hnf : front <> []).
  { unfold front. rewrite said_up. destruct rt as [|a rt]; [contradiction|]. cbn [along]. rewrite jws_app, map_app.
    intros X. apply app_eq_nil in X. destruct X as [_ X]. discriminate X. }
  rewrite Es in Ha.
  assert (Hb : exists mds, md = ByType mds).
  { unfold policy_call_chain in Ha. rewrite rev_app_distr in Ha. cbn [rev app] in Ha.
    destruct (rev front) as [|x l] eqn:Er.
    - apply (f_equal (@rev stmt)) in Er. rewrite rev_involutive in Er. contradiction.
    - cbn [is_nil] in Ha. apply bind_ok in Ha. destruct Ha as (r & _ & [= <- _]). eauto. }
  destruct Hb as [mds ->].
  apply (proj1 (C08_untouched_claim O front leaf "openid_provider" "issuer" d Wf (ex_intro _ mds (ex_intro _ ves (conj Ha Hd))) Hl)).
  exact (op_issuer ops ass cmd m Hm Hop I1 I2).
Qed.

(** the issuers along a verified chain *)
Lemma chain_path O fuel m s s' cs c : In m F -> rank (m_id m) < fuel -> visited E (f_col s) ->
  jar_for jwks_of F E m (f_keys s) -> checkable jwks_of F E (m_id m) ->
  get_verified_trust_chains E O fuel (m_id m) s = (s', Ok cs) -> In c cs ->
  exists rt, usable jwks_of F E (f_keys s) (m_id m) rt /\ ch_anchor c = end_of (m_id m) rt /\
    adjusted O jwks_of F E (m_id m) rt (ch_md c) /\ tc_iss_path (ch_tc c) = m_id m :: rt.
Proof.
  intros Hm Hf V J CC H Hin.
  destruct (library_chains jwks_of F E rank L HR O fuel m s Hm Hf V J CC) as (s1 & tcs & G1 & _ & _ & _ & _ & G6 & _).
  rewrite H in G1. injection G1 as _ Ea. symmetry in Ea.
  destruct (proj1 (applied_of O tcs cs Ea) c Hin) as (tc & Ht & A1 & A2 & ves & A3).
  destruct (G6 tc Ht) as (_ & rt & Hu & B1 & B2 & B3). exists rt. split; [exact Hu|]. split; [congruence|].
  split; [exists ves; rewrite <- B2; exact A3|].
  destruct (FederationProps.returned_chain E O fuel (m_id m) s s' cs c H Hin) as (chains & leaf & pre & ch & post & tc' & _ & _ & Hv & Hap).
  unfold apply_to_chain in Hap. apply bind_ok in Hap. destruct Hap as ([md ves'] & _ & Eq). injection Eq as Eq.
  apply call_ok in Hv. destruct Hv as (Hv & _ & _ & Hi & Hc).
  apply verified_iff in Hv. destruct Hv as (_ & Hve & _).
  assert (Et : tc_chain tc' = chain_along W (m_id m) rt) by (rewrite <- B1, <- A2, <- Eq; reflexivity).
  assert (Ei : tc_iss_path (ch_tc c) = tc_iss_path tc') by (rewrite <- Eq; reflexivity).
  rewrite Ei, Hi, Hve, <- Hc, Et.
  change (map snd (jws (chain_along W (m_id m) rt))) with (claims_along W (m_id m) rt).
  apply (claims_issuers E W "" (m_id m) (WR _ _ _ rank L HR m Hm)). exact (path_route _ _ _ L _ _ (proj1 Hu)).
Qed.

(** chains of one entity can always be stored *)
Lemma save_total id ctx cs : (forall c, In c cs -> exists l, tc_iss_path (ch_tc c) = id :: l) ->
  exists d, save_trust_chains ctx cs = Ok d.
Proof.
  intros H. unfold save_trust_chains.
  assert (Hd : forall p, In p (chains2dict cs) -> In (snd p) cs).
  { intros [a c] Hin. apply (In_dget_nodup _ _ _ _ (proj1 (C38_no_other_anchor cs ""))) in Hin.
    apply C38_shortest_per_anchor in Hin. exact (proj1 (best_in _ _ _ Hin)). }
  generalize (match ctx with Some d0 => d0 | None => [] end). revert Hd.
  generalize (chains2dict cs) as l. induction l as [|p l IH]; intros Hd d0; [eexists; reflexivity|].
  cbn [foldM]. destruct (H (snd p) (Hd p (or_introl eq_refl))) as [r Er]. rewrite Er. cbn [bind].
  apply IH. intros q Hq. apply Hd. right. exact Hq.
Qed.

End Logins.

(** A relying party that knows no more than the identifier of an OP gets its metadata, as the policies along a path to the
    best anchor make them; it knows the OP by its identifier, has the keys that are given for it under that name and
    accepts its answers. *)
Theorem C162_known : forall jwks_of F E O rank fuel K prio ops ass cmd m s,
  library_run jwks_of F E -> hierarchy F rank -> well_formed E -> checkable jwks_of F E (m_id m) ->
  In m F -> rank (m_id m) < fuel -> visited E (f_col (p_fed s)) -> right_keys F (f_keys (p_fed s)) ->
  has_op ops ass cmd m -> In "issuer" ops -> In "issuer" ass -> only_knows s (m_id m) ->
  (exists rt, usable jwks_of F E (f_keys (p_fed s)) (m_id m) rt) ->
  (forall rt, usable jwks_of F E (f_keys (p_fed s)) (m_id m) rt -> issuer_left_alone jwks_of F E (m_id m) rt /\ exists md d,
     adjusted O jwks_of F E (m_id m) rt md /\ claims_for md "openid_provider" d /\ readable_keys K d) ->
  exists s' rt md d,
    do_provider_info E O fuel K prio s = (s', Ok (VStr (m_id m))) /\
    usable jwks_of F E (f_keys (p_fed s)) (m_id m) rt /\
    best_path jwks_of F E (f_keys (p_fed s)) (m_id m) prio rt /\
    adjusted O jwks_of F E (m_id m) rt md /\ claims_for md "openid_provider" d /\
    p_info s' = d /\ p_issuer s' = m_id m /\
    (forall k, key_given K d k -> In (KPub k) (ckeys_of (p_keys s') (m_id m))) /\
    (forall x, In x (ckeys_of (p_keys s') (m_id m)) -> In x (ckeys_of (p_keys s) (m_id m)) \/ exists k, x = KPub k /\ key_given K d k) /\
    (forall e, e <> m_id m -> dget e (p_keys s') = dget e (p_keys s)) /\
    (forall st, snd ((do _ <- init_authorization st in finalize_auth st) s') = Ok tt).
Proof.
  intros jwks_of F E O rank fuel K prio ops ass cmd m s L HR WF CC Hm Hf V Hk Hop I1 I2 Ho [rt0 Hu0] HG.
  assert (J := right_jar jwks_of F E L m _ Hm Hk).
  destruct (library_chains jwks_of F E rank L HR O fuel m (p_fed s) Hm Hf V J CC) as (f1 & tcs & G1 & _ & _ & _ & _ & G6 & G7).
  destruct (applied_total O tcs) as [cs Ec].
  { intros tc Ht. destruct (G6 tc Ht) as (_ & rt & Hu & _ & B2 & _). destruct (HG rt Hu) as (_ & md & d & [ves Ha] & _).
    rewrite B2. eexists. exact Ha. }
  destruct (applied_of O tcs cs Ec) as [_ A2]. rewrite Ec in G1.
  assert (Hch := chain_path jwks_of F E rank L HR O fuel m (p_fed s) f1 cs).
  assert (Hch' : forall c, In c cs -> _) by (intros c Hc; exact (Hch c Hm Hf V J CC G1 Hc)). clear Hch. rename Hch' into Hch.
  assert (Hne : cs <> []).
  { intros ->. destruct (G7 rt0 Hu0) as (tc & Ht & _). destruct (A2 tc Ht) as (c & [] & _). }
  destruct (save_total (m_id m) (p_store s) cs) as [d0 Hsave].
  { intros c Hc. destruct (Hch c Hc) as (rt & _ & _ & _ & Hp). eauto. }
  destruct (pick_some prio cs Hne) as [c Hpick].
  assert (Hin := pick_In _ _ _ Hpick).
  destruct (Hch c Hin) as (rt & Hu & Hend & Hadj & _).
  destruct (HG rt Hu) as (Hl & md & d & Ha & Hd & Hr).
  assert (md = ch_md c) by (apply (adjusted_fun O jwks_of F E (m_id m) rt); assumption). subst md.
  assert (Hi := issuer_kept jwks_of F E rank L HR O ops ass cmd m rt (ch_md c) d WF Hm Hop I1 I2 (proj1 Hu) (proj1 (proj2 Hu)) Hl Ha Hd).
  destruct (import_given K d (m_id m) (p_keys s) Hr) as (kj & K1 & K2 & K3 & K4).
  set (s' := mkRp f1 kj d (m_id m) (Some d0) (p_asked s)).
  assert (Hcol : forall i, collect_metadata E O fuel K prio (mkRp (p_fed s) (p_keys s) i (m_id m) (p_store s) (p_asked s)) = (s', Ok d)).
  { intros i. unfold collect_metadata. unfold mbind at 1, StateM.get at 1. unfold mbind at 1, rp_fed. cbn [p_fed p_keys p_info p_issuer p_store p_asked].
    rewrite G1. destruct cs as [|c0 cs0]; [contradiction|]. cbn [is_nil].
    unfold mbind at 1, lift at 1. rewrite Hsave. unfold mbind at 1, modify at 1. cbn [p_fed p_keys p_info p_issuer p_store p_asked].
    unfold mbind at 1, lift at 1. rewrite Hpick. unfold mbind at 1, lift at 1. rewrite (claims_chain c _ d Hd).
    unfold mbind at 1, lift at 1. unfold dindex. rewrite Hi. cbn [bind].
    unfold mbind at 1, modify at 1. cbn [p_fed p_keys p_info p_issuer p_store p_asked].
    unfold mbind at 1. cbn [p_fed p_keys p_info p_issuer p_store p_asked]. rewrite K1. reflexivity. }
  exists s', rt, (ch_md c), d. split.
  { unfold do_provider_info. unfold mbind at 1, StateM.get at 1. unfold mbind at 1.
    assert (X : (if is_nil (p_info s) then collect_metadata E O fuel K prio
          else match bare_issuer (p_info s) with
               | Some i =>
                   do _ <- modify (fun s => mkRp (p_fed s) (p_keys s) (p_info s) i (p_store s) (p_asked s)) in
                   collect_metadata E O fuel K prio
               | None => ret (p_info s)
               end) s = (s', Ok d)).
    { destruct Ho as [[Ho1 Ho2]|Ho].
      - rewrite Ho1. cbn [is_nil]. rewrite <- (Hcol (p_info s)), <- Ho2. f_equal. destruct s; reflexivity.
      - rewrite Ho. cbn [is_nil bare_issuer]. rewrite String.eqb_refl. unfold mbind, modify. apply Hcol. }
    rewrite X. unfold mbind, StateM.get, ret, provider_issuer, s'. cbn [p_info]. rewrite Hi. reflexivity. }
  split; [exact Hu|]. split.
  { intros i a rt' Hn Hu' Hend'.
    destruct (G7 rt' Hu') as (tc & Ht & _ & _ & Hta). destruct (A2 tc Ht) as (c' & Hc' & Han & _).
    assert (Hc'a : ch_anchor c' = a) by congruence.
    assert (P := pick_by_priority_spec prio cs). destruct (pick_by_priority prio cs) as [c0|].
    2:{ exfalso. exact (P a (nth_error_In _ _ Hn) c' Hc' Hc'a). }
    destruct P as (fid & Hpre & Hfst). assert (Hp0 := proj2 (C40_by_priority prio cs fid c0 Hpre) Hfst).
    assert (c0 = c) by congruence. subst c0.
    destruct Hpre as (pre & post & -> & Hno & _). exists (length pre). split.
    - destruct (Nat.le_gt_cases (length pre) i) as [Hle|Hgt]; [exact Hle|]. exfalso.
      rewrite nth_error_app1 in Hn by exact Hgt. exact (Hno a (nth_error_In _ _ Hn) c' Hc' Hc'a).
    - rewrite nth_error_app2 by apply Nat.le_refl. rewrite Nat.sub_diag. cbn [nth_error]. f_equal. rewrite <- Hend.
      destruct Hfst as (_ & _ & _ & Hx & _). symmetry. exact Hx. }
  split; [exact Ha|]. split; [exact Hd|]. split; [reflexivity|]. split; [reflexivity|].
  split; [exact K2|]. split; [exact K4|]. split; [exact K3|].
  intros st. unfold mbind, init_authorization, modify, finalize_auth, StateM.get, lift, dindex, mbind, provider_issuer, s'.
  cbn [p_asked p_info p_issuer]. rewrite dget_dset_same, Hi. cbn [py_eqb]. rewrite String.eqb_refl. reflexivity.
Qed.
Print Assumptions C162_known.

(** ** Registration *)

(** the types of registration an OP supports, along every usable path *)
Definition supports_types (O : iter_order) (jwks_of : val -> option (list key)) (F : list member) (E : cenv) (kj : keyjar)
    (id : string) (ts : list string) : Prop :=
  forall rt md d, usable jwks_of F E kj id rt -> adjusted O jwks_of F E id rt md -> claims_for md "openid_provider" d ->
    dget "client_registration_types_supported" d = Some (VList (map VStr ts)).

(** no chains of [id] are remembered *)
Definition nothing_stored (s : rp) (id : string) : Prop :=
  match p_store s with Some d => dget id d = None | None => True end.

Lemma stored_first id ctx cs d prio : cs <> [] -> (forall c, In c cs -> about c id) ->
  match ctx with Some d0 => dget id d0 = None | None => True end -> save_trust_chains ctx cs = Ok d ->
  exists c, In c cs /\ pick_from_stored_trust_chains prio d id = Ok c.
Proof.
  intros Hne Hab Hno Hs. destruct (save_entry cs ctx d (ex_intro _ id Hab) Hs) as [_ He].
  assert (Hb : forall c0, In c0 cs -> exists c, best cs (ch_anchor c0) c).
  { intros c0 Hc0. destruct (C38_no_other_anchor cs (ch_anchor c0)) as [_ H]. assert (X := proj2 H (ex_intro _ c0 (conj Hc0 eq_refl))).
    apply key_In_dget in X. destruct X as [c Hc]. exists c. apply C38_shortest_per_anchor, Hc. }
  assert (Hold : forall a, entry (match ctx with Some d0 => d0 | None => [] end) id a = None).
  { intros a. unfold entry. destruct ctx as [d0|]; [rewrite Hno; reflexivity|reflexivity]. }
  destruct cs as [|c0 cs']; [contradiction|]. destruct (Hb c0 (or_introl eq_refl)) as [c1 Hc1].
  assert (H1 := proj1 (He id (ch_anchor c0)) c1 Hc1 (Hab c1 (proj1 (best_in _ _ _ Hc1)))).
  unfold entry in H1. destruct (dget id d) as [mm|] eqn:Ed; [|discriminate H1].
  rewrite C41_stored_priority_partial, Ed. destruct mm as [|[a c] mm]; [discriminate H1|]. exists c. split; [|reflexivity].
  assert (Ha : entry d id a = Some c) by (unfold entry; rewrite Ed; cbn [dget]; rewrite String.eqb_refl; reflexivity).
  destruct (find (fun x => String.eqb (ch_anchor x) a) (c0 :: cs')) as [x|] eqn:Ef.
  - apply find_some in Ef. destruct Ef as [Hx1 Hx2]. apply String.eqb_eq in Hx2. subst a.
    destruct (Hb x Hx1) as [y Hy]. rewrite (proj1 (He id _) y Hy (Hab y (proj1 (best_in _ _ _ Hy)))) in Ha. injection Ha as <-.
    exact (proj1 (best_in _ _ _ Hy)).
  - rewrite (proj2 (He id a)) in Ha.
    + rewrite Hold in Ha. discriminate Ha.
    + intros x Hx Hxa _. apply (find_none _ _ Ef) in Hx. rewrite Hxa, String.eqb_refl in Hx. discriminate Hx.
Qed.

(** Then it registers in a way both of them know: not at all if all they have in common is automatic registration,
    otherwise at the OP's registration endpoint or, without a registration service, with what it has. *)
Theorem C162_registration : forall jwks_of F E O rank fuel K prio m s s' v ability service ts,
  library_run jwks_of F E -> hierarchy F rank -> checkable jwks_of F E (m_id m) ->
  In m F -> rank (m_id m) < fuel -> visited E (f_col (p_fed s)) -> right_keys F (f_keys (p_fed s)) ->
  only_knows s (m_id m) -> nothing_stored s (m_id m) ->
  do_provider_info E O fuel K prio s = (s', Ok v) ->
  supports_types O jwks_of F E (f_keys (p_fed s)) (m_id m) ts ->
  (forall rt, usable jwks_of F E (f_keys (p_fed s)) (m_id m) rt -> exists md d,
     adjusted O jwks_of F E (m_id m) rt md /\ claims_for md "openid_provider" d) ->
  let common t := In t ability /\ In t ts in
  ((forall t, ~ common t) -> choose_registration prio ability service s' = (s', Err ValueError)) /\
  (common "automatic" -> (forall t, common t -> t = "automatic") ->
     choose_registration prio ability service s' = (s', Ok Unregistered_use)) /\
  (forall t, common t -> t <> "automatic" -> service = false -> choose_registration prio ability service s' = (s', Ok Locally)) /\
  (forall t e, common t -> t <> "automatic" -> service = true -> dget "federation_registration_endpoint" (p_info s') = Some e ->
     choose_registration prio ability service s' = (s', Ok (Ask e))).
Proof.
  intros jwks_of F E O rank fuel K prio m s s' v ability service ts L HR CC Hm Hf V Hk Ho Hn H Hts HG common.
  assert (J := right_jar jwks_of F E L m _ Hm Hk).
  assert (Hc : exists i info, collect_metadata E O fuel K prio (mkRp (p_fed s) (p_keys s) i (m_id m) (p_store s) (p_asked s)) = (s', Ok info)).
  { unfold do_provider_info in H. unfold mbind at 1, StateM.get at 1 in H. unfold mbind at 1 in H.
    destruct Ho as [[Ho1 Ho2]|Ho].
    - rewrite Ho1 in H. cbn [is_nil] in H. exists (p_info s).
      replace (mkRp (p_fed s) (p_keys s) (p_info s) (m_id m) (p_store s) (p_asked s)) with s by (rewrite <- Ho2; destruct s; reflexivity).
      destruct (collect_metadata E O fuel K prio s) as [s1 [info|x]]; [|discriminate H].
      unfold mbind, StateM.get, ret in H. injection H as <- _. eauto.
    - rewrite Ho in H. cbn [is_nil bare_issuer] in H. rewrite String.eqb_refl in H. unfold mbind at 1, modify at 1 in H.
      rewrite Ho in H. exists [("issuer", VStr (m_id m))].
      destruct (collect_metadata E O fuel K prio _) as [s1 [info|x]]; [|discriminate H].
      unfold mbind, StateM.get, ret in H. injection H as <- _. eauto. }
  destruct Hc as (i & info & Hc). apply collect_inv in Hc. cbn [p_fed p_issuer p_store p_keys p_asked] in Hc.
  destruct Hc as (f & cs & d0 & c0 & iss & kj & G1 & Hne & Hsave & _ & _ & _ & _ & ->).
  assert (Hch : forall c, In c cs -> _) by
    (intros c Hc; exact (chain_path jwks_of F E rank L HR O fuel m (p_fed s) f cs c Hm Hf V J CC G1 Hc)).
  destruct (stored_first (m_id m) (p_store s) cs d0 prio Hne) as (c & Hin & Hpick).
  { intros c Hc. destruct (Hch c Hc) as (rt & _ & _ & _ & Hp). exists rt. exact Hp. }
  { exact Hn. }
  { exact Hsave. }
  destruct (Hch c Hin) as (rt & Hu & _ & Hadj & _). destruct (HG rt Hu) as (md & d & Ha & Hd).
  assert (md = ch_md c) by (apply (adjusted_fun O jwks_of F E (m_id m) rt); assumption). subst md.
  assert (Ht := Hts rt (ch_md c) d Hu Ha Hd).
  set (s' := mkRp f kj info (m_id m) (Some d0) (p_asked s)).
  set (possible := filter (fun x => vmem (VStr x) (dedup (map VStr ts))) (nodup string_dec ability)).
  assert (P : forall t, In t possible <-> common t).
  { intros t. unfold possible, common. rewrite filter_In, nodup_In, RpUseProps.vmem_str, In_dedup_strs. tauto. }
  assert (N : NoDup possible) by (apply NoDup_filter, NoDup_nodup).
  assert (Eq : choose_registration prio ability service s' =
    (if is_nil possible then raise ValueError
     else if (length possible =? 1)%nat && smem "automatic" possible then ret Unregistered_use
     else if service then do e <- lift (dindex "federation_registration_endpoint" (p_info s')) in ret (Ask e)
     else ret Locally) s').
  { unfold choose_registration. unfold mbind at 1, StateM.get at 1. unfold mbind at 1, lift at 1.
    change (p_store s') with (Some d0). unfold mbind at 1, lift at 1. change (p_issuer s') with (m_id m). rewrite Hpick. unfold mbind at 1, lift at 1. rewrite (claims_chain c _ d Hd).
    unfold mbind at 1, lift at 1, dindex at 1. rewrite Ht. unfold mbind at 1, lift at 1. rewrite py_set_strs. reflexivity. }
  clearbody possible. split; [|split; [|split]].
  - intros X. destruct possible as [|t l]; [exact Eq|]. exfalso. apply (X t), P. left. reflexivity.
  - intros Xa X. rewrite Eq. apply P in Xa. destruct possible as [|t l]; [destruct Xa|]. cbn [is_nil].
    assert (t = "automatic") by (apply X, P; left; reflexivity). subst t. destruct l as [|t l].
    + reflexivity.
    + exfalso. assert (t = "automatic") by (apply X, P; right; left; reflexivity). subst t.
      inversion N as [|? ? N1 _]; subst. apply N1. left. reflexivity.
  - intros t Xt Xn ->. rewrite Eq. apply P in Xt. destruct possible as [|t' l]; [destruct Xt|]. cbn [is_nil].
    destruct ((length (t' :: l) =? 1)%nat && smem "automatic" (t' :: l)) eqn:B; [|reflexivity]. exfalso.
    apply andb_true_iff in B. destruct B as [B1 B2]. destruct l as [|q l]; [|discriminate B1].
    apply smem_In in B2. destruct B2 as [->|[]]. destruct Xt as [<-|[]]. contradiction Xn. reflexivity.
  - intros t e Xt Xn -> He. rewrite Eq. apply P in Xt. destruct possible as [|t' l]; [destruct Xt|]. cbn [is_nil].
    destruct ((length (t' :: l) =? 1)%nat && smem "automatic" (t' :: l)) eqn:B.
    + exfalso. apply andb_true_iff in B. destruct B as [B1 B2]. destruct l as [|q l]; [|discriminate B1].
      apply smem_In in B2. destruct B2 as [->|[]]. destruct Xt as [<-|[]]. contradiction Xn. reflexivity.
    + unfold mbind, lift, dindex. rewrite He. reflexivity.
Qed.
Print Assumptions C162_registration.

(** an OP below [ta], which adds a contact to what OPs say *)
Definition w_conf : server_conf := mkServerConf None
  [("client_registration_types_supported", VList [VStr "automatic"; VStr "explicit"]); ("jwks", VInt 4);
   ("issuer", VStr "https://other")]
  [("registration", mkEndpoint "registration" "federation_registration_endpoint" "op/registration" [] [])].

Definition w_config : dict spec :=
  [("federation_entity", SpFederation (mkFedServer [] [])); ("openid_provider", SpServer w_conf "")].

Definition w_schema : list string := ["issuer"; "client_registration_types_supported"; "jwks"; "federation_registration_endpoint"].

Definition w_md (c : client) (t : string) : dict val := [].

Definition w_parts : dict guise :=
  match make_parts w_schema w_schema "op" w_config with Ok parts => parts | Err _ => [] end.

Definition w_op : member := mkMember (mkFserver "op" (VInt 4) [] (Some (VList [VStr "ta"])) []) (Some (parts_of w_md w_parts))
  SrcNone [] 4 "op/wk" "".

Definition w_ta : member := mkMember
  (mkFserver "ta" (VInt 1) [("federation_entity", VDict [("federation_fetch_endpoint", VStr "ta/fetch")])] None
     [("openid_provider", [("metadata_policy", VDict [("contacts", VDict [("add", VList [VStr "ta"])])])])])
  None SrcNone [("op", [("jwks", VInt 4); ("entity_types", VList [VStr "openid_provider"])])] 1 "ta/wk" "ta/fetch".

Definition w_fed : list member := [w_ta; w_op].

Definition w_env : cenv :=
  mkEnv 300 ["ta"] (library_net ex_jwks w_fed (fun _ => 1100%Z)) (fun _ => 1100%Z) all_keys wk_url tenant_url.

Definition w_start : rp := mkRp v_start [] [("issuer", VStr "op")] "" None [].

Ltac w_members := repeat match goal with H : In _ w_fed |- _ => destruct H as [<-|[<-|[]]] end.

Lemma w_run : library_run ex_jwks w_fed w_env.
Proof.
  constructor.
  - reflexivity.
  - reflexivity.
  - reflexivity.
  - intros n p z Hz Hn. cbn. unfold within_skew. rewrite Hz. apply Z.ltb_lt. lia.
  - reflexivity.
  - intros m m' Hm Hm' H. w_members; try reflexivity; discriminate H.
  - intros m m' Hm Hm' H. w_members; try reflexivity; discriminate H.
  - intros m m' Hm Hm' H N. w_members; try reflexivity; try discriminate H; cbn in N; contradiction N; reflexivity.
  - intros m Hm. w_members; left; reflexivity.
  - intros m Hm. w_members; (apply mkSound;
      [split; [discriminate|reflexivity]
      |eexists; split; [reflexivity|left; reflexivity]
      |split; intros x e H; apply dget_In in H; simpl in H;
        repeat destruct H as [H|H]; try contradiction; injection H as <- <-; apply nodupb_sound; reflexivity
      |intros x p k H Hk; apply dget_In in H; simpl in H;
        repeat destruct H as [H|H]; try contradiction; injection H as <- <-; simpl in Hk; intuition auto
      |eexists; reflexivity
      |intros p Hp; vm_compute in Hp; injection Hp as <-; vm_compute; discriminate
      |intros a Ha; simpl in Ha; repeat destruct Ha as [<-|Ha]; try destruct Ha; reflexivity
      |intros sub e v H Hv; apply dget_In in H; simpl in H; repeat destruct H as [H|H]; try contradiction;
        injection H as <- <-; vm_compute in Hv; discriminate Hv]).
  - intros m a Hm Ha. w_members; simpl in Ha; repeat destruct Ha as [<-|Ha]; try destruct Ha.
    exists w_ta. split; [left; reflexivity|]. split; [reflexivity|]. constructor.
    + apply locationb_sound. reflexivity.
    + eexists. split; reflexivity.
    + eexists _, _, _. split; [split; [reflexivity|discriminate]|]. split; [|split; [reflexivity|split; [reflexivity|left; reflexivity]]].
      split; [intros k Hk; simpl in Hk; repeat destruct Hk as [<-|Hk]; try destruct Hk; reflexivity|].
      split; [intros v Hv; discriminate Hv|].
      split; [intros v Hv; injection Hv as <-; exists ["openid_provider"]; reflexivity|].
      intros p k v Hp; discriminate Hp.
    + intros p Hp. vm_compute in Hp; injection Hp as <-; vm_compute; discriminate.
Qed.

Lemma w_hierarchy : hierarchy w_fed v_rank.
Proof. intros m a Hm Ha. w_members; simpl in Ha; repeat destruct Ha as [<-|Ha]; try destruct Ha; vm_compute; lia. Qed.

Lemma w_path rt : path w_fed "op" rt -> rt = ["ta"].
Proof.
  intros H. inversion H as [m0 Hm0 Hs Em Er|m0 a r Hm0 Ha Hr Em Er]; subst.
  - exfalso. w_members; [discriminate Em|discriminate Hs].
  - assert (a = "ta") as -> by (w_members; simpl in Ha; repeat destruct Ha as [<-|Ha]; try destruct Ha; reflexivity).
    f_equal. inversion Hr as [m1 Hm1 Hs1 E1 E2|m1 a1 r1 Hm1 Ha1 Hr1 E1 E2]; [reflexivity|].
    exfalso. w_members; try discriminate E1; destruct Ha1.
Qed.

Lemma w_well_formed : well_formed w_env.
Proof.
  intros q k p H. unfold w_env in H. cbn [e_net] in H. destruct q as [u|ep i x]; cbn [library_net] in H.
  - destruct (find _ _) as [m|] eqn:Ef; [|discriminate]. apply find_some in Ef. destruct Ef as [Hm _].
    apply wf_stmtb_sound. w_members; vm_compute in H; injection H as <- <-; vm_compute; reflexivity.
  - destruct (UrlModel.server_sees _) as [loc ps].
    destruct (find _ _) as [m|] eqn:Ef; [|discriminate]. apply find_some in Ef. destruct Ef as [Hm _].
    apply wf_stmtb_sound. revert H. generalize (dget "iss" ps) as i0, (dget "sub" ps) as x0. intros i0 x0 H.
    unfold fetch in H. cbn [fq_sub] in H. destruct x0 as [x0|].
    2: { w_members; vm_compute in H; injection H as <- <-; vm_compute; reflexivity. }
    destruct (String.eqb x0 "" || String.eqb x0 (issuer_of _ _)).
    { w_members; vm_compute in H; injection H as <- <-; vm_compute; reflexivity. }
    unfold mbind in H. unfold StateM.get in H.
    destruct (find_filled x0 (m_subs m)) as [e|] eqn:Ex; [|discriminate H].
    apply find_filled_some in Ex. destruct Ex as [Ex _]. apply dget_In in Ex.
    w_members; simpl in Ex; try contradiction; destruct Ex as [Ex|[]]; injection Ex as <- <-;
      cbn in H; injection H as <- <-; vm_compute; reflexivity.
Qed.

Lemma w_usable : usable ex_jwks w_fed w_env [("ta", [1])] "op" ["ta"].
Proof.
  split; [|split; [discriminate|split; [exists [1]; reflexivity|vm_compute; reflexivity]]].
  apply (path_up _ w_op); [right; left; reflexivity|left; reflexivity|].
  apply (path_end _ w_ta); [left; reflexivity|reflexivity].
Qed.

Definition w_claims : dict val :=
  [("client_registration_types_supported", VList [VStr "automatic"; VStr "explicit"]); ("jwks", VInt 4); ("issuer", VStr "op");
   ("federation_registration_endpoint", VStr "op/registration"); ("contacts", VList [VStr "ta"])].

Example C162_ex : let K := mkSources (fun _ => []) (fun _ => Ok [4]) in
  has_op w_schema w_schema w_md w_op /\ only_knows w_start "op" /\ nothing_stored w_start "op" /\
  checkable ex_jwks w_fed w_env "op" /\ right_keys w_fed (f_keys (p_fed w_start)) /\
  (forall rt, usable ex_jwks w_fed w_env (f_keys (p_fed w_start)) "op" rt -> issuer_left_alone ex_jwks w_fed w_env "op" rt /\
     exists md, adjusted id_order ex_jwks w_fed w_env "op" rt md /\ claims_for md "openid_provider" w_claims /\ readable_keys K w_claims) /\
  supports_types id_order ex_jwks w_fed w_env (f_keys (p_fed w_start)) "op" ["automatic"; "explicit"] /\
  exists s', do_provider_info w_env id_order 2 K ["ta"] w_start = (s', Ok (VStr "op")) /\ p_info s' = w_claims /\
    p_issuer s' = "op" /\ p_keys s' = [("op", [KPub 4])] /\
    snd (choose_registration ["ta"] ["automatic"] true s') = Ok Unregistered_use /\
    snd (choose_registration ["ta"] ["automatic"; "explicit"] true s') = Ok (Ask (VStr "op/registration")).
Proof.
  intros K. split; [|split; [|split; [|split; [|split; [|split; [|split]]]]]].
  - exists w_config, w_parts, w_conf, "". split; [apply nodupb_sound; reflexivity|].
    split; [intros [X|[X|[]]]; discriminate X|]. split; [vm_compute; reflexivity|]. split; reflexivity.
  - right. reflexivity.
  - exact I.
  - intros rt Hp. rewrite (w_path rt Hp). eexists. vm_compute. reflexivity.
  - intros m ks Hm H. w_members; cbn in H; [injection H as <-; left; reflexivity|discriminate H].
  - intros rt (Hp & _). rewrite (w_path rt Hp). split.
    + intros x Hx. vm_compute in Hx. destruct Hx as [<-|[]]. intros (ps & mp & cp & H1 & H2 & H3).
      cbn in H1. injection H1 as <-. cbn in H2. injection H2 as <-. discriminate H3.
    + eexists. split; [eexists; vm_compute; reflexivity|]. split; [vm_compute; reflexivity|]. right. intros v _ _. eexists. reflexivity.
  - intros rt md d (Hp & _) [ves Ha] Hd. rewrite (w_path rt Hp) in Ha. vm_compute in Ha. injection Ha as <- <-.
    cbn in Hd. injection Hd as <-. reflexivity.
  - eexists. split; [vm_compute; reflexivity|]. split; [reflexivity|]. split; [reflexivity|]. split; [reflexivity|].
    split; vm_compute; reflexivity.
Qed.
