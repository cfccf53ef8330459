(** What entities publish, and federations of entities that run this library (C118-C122). *)
From Verif Require Import PyFacts PolicyProps ExampleKit CollectorProps PublishFacts.
From Coq Require Import Lia.

(** keys for the examples: a number is a key *)
Definition ex_jwks (v : val) : option (list key) := match v with VInt z => Some [Z.to_nat z] | _ => None end.

(** ** C118: the configuration an entity publishes is its own, and can be verified *)

(** Whatever the entity is part of: the document names the entity as issuer and subject, has its keys, its superiors
    and its metadata, is valid for a day, and passes the check for self-signed documents while the library takes its times to be right. *)
Theorem C118_configuration : forall jwks_of E S whole marks now p st k ks,
  entity_configuration S whole marks now = Ok p -> decode jwks_of p = Some st ->
  jwks_of (fs_jwks S) = Some ks -> In k ks -> lib_picks (e_lib E) (TJws k st) k = true ->
  s_iss st = fs_id S /\ s_sub st = fs_id S /\ s_jwks st = Some ks /\ s_exp st = Some (now + 86400)%Z /\
  dget "authority_hints" p = (match fs_hints S with Some h => if truthy h then Some h else None | None => None end) /\
  dget "metadata" p = (if is_nil (published_metadata S whole) then None else Some (VDict (published_metadata S whole))) /\
  forall n, lib_valid (e_lib E) n st = true -> verify_self_signed E n (Some (TJws k st)) = Ok (TJws k st, st).
Proof.
  intros jwks_of E S whole marks now p st k ks Hp Hd Hj Hk Hl.
  destruct (configuration_claims _ _ _ _ _ Hp) as (a & Ha & Hc).
  destruct (decode_fields _ _ _ Hd) as (D1 & D2 & D3 & D4 & _).
  assert (A : a = [] \/ exists v, a = [("trust_marks", v)]) by exact (marks_keys _ _ Ha).
  set (args := _ :: _ ++ a) in Hc.
  assert (G : dget "jwks" args = None /\ dget "include_jwks" args = None /\
              dget "lifetime" args = None /\ dget "authority_hints" args = fs_hints S).
  { unfold args. destruct A as [->|[v ->]]; destruct (fs_hints S); cbn; auto. }
  destruct G as (G2 & G3 & G4 & G5).
  rewrite Hc in D1, D2. cbn in D1, D2. injection D1 as D1. injection D2 as D2.
  assert (J : s_jwks st = Some ks).
  { unfold claim in D4. rewrite Hc in D4. unfold claim_of in D4. cbn -[dget truthy arg_or] in D4. rewrite G2 in D4.
    unfold arg_or in D4. rewrite G3 in D4. cbn [truthy] in D4. rewrite Hj in D4. cbn [option_map] in D4.
    injection D4 as D4. symmetry. exact D4. }
  split; [symmetry; exact D1|]. split; [symmetry; exact D2|]. split; [exact J|]. split; [|split; [|split]].
  - unfold claim in D3. rewrite Hc in D3. unfold claim_of, arg_or in D3. cbn -[dget Z.add] in D3. rewrite G4 in D3.
    cbn -[Z.add] in D3. injection D3 as D3. symmetry. exact D3.
  - rewrite Hc. unfold claim_of. cbn -[dget truthy if_truthy]. rewrite G5. reflexivity.
  - rewrite Hc. unfold claim_of. cbn. destruct (published_metadata S whole); reflexivity.
  - intros n Hn. unfold verify_self_signed. rewrite J.
    assert (K : kmem k (filter (lib_picks (e_lib E) (TJws k st)) ks) = true).
    { apply kmem_In, filter_In. split; assumption. }
    rewrite K, Hn. reflexivity.
Qed.
Print Assumptions C118_configuration.

(** nothing but the source of the trust marks can keep it from being published *)
Theorem C118_always : forall S whole marks now,
  (exists p, entity_configuration S whole marks now = Ok p) <->
  (marks <> SrcOther /\ forall x, marks <> SrcCall (Err x)).
Proof.
  intros S whole marks now. split.
  - intros [p Hp]. unfold entity_configuration in Hp. apply bind_ok in Hp. destruct Hp as (a & Ha & _).
    split; [intros ->; discriminate|]. intros x ->. discriminate.
  - intros [H1 H2]. assert (X : exists a, marks_args marks = Ok a).
    { destruct marks as [|[|x l]|path|[v|x]|]; try (eexists; reflexivity); [exfalso; eapply H2; reflexivity|contradiction]. }
    destruct X as [a Ha]. exact (configuration_total S whole marks now a Ha).
Qed.
Print Assumptions C118_always.

Definition ex_whole : dict part :=
  [("federation_entity", PMeta (fun t => [(t, VDict [("federation_fetch_endpoint", VStr "im/fetch")])]));
   ("openid_relying_party", PMeta (fun t => [(t, VDict [("scope", VStr "openid")])]));
   ("handler", PHandler)].

Definition ex_im : fserver :=
  mkFserver "im" (VInt 2) [("federation_entity", VDict [("federation_fetch_endpoint", VStr "im/fetch")])]
    (Some (VList [VStr "ta"])) [].

Example C118_ex : exists p st,
  entity_configuration ex_im (Some ex_whole) SrcNone 1000 = Ok p /\ decode ex_jwks p = Some st /\
  s_metadata st = Some [("federation_entity", [("federation_fetch_endpoint", VStr "im/fetch")]);
                        ("openid_relying_party", [("scope", VStr "openid")])] /\ s_hints st = Some ["ta"].
Proof. eexists _, _. split; [vm_compute; reflexivity|]. split; [vm_compute; reflexivity|]. split; reflexivity. Qed.

(** ** C119: an entity publishes its trust marks *)

Definition C119_full : Prop := forall file S whole marks now p v,
  get_trust_marks file marks = Ok v -> truthy v = true -> entity_configuration S whole marks now = Ok p ->
  dget "trust_marks" p = Some v.

(** of trust marks in a file the name of the file is published *)
Theorem C119_marks_refuted : ~ C119_full.
Proof.
  intros H.
  assert (G : exists p, entity_configuration ex_im None (SrcFile "marks.json") 0 = Ok p /\
                        dget "trust_marks" p = Some (VStr "marks.json")).
  { eexists. split; vm_compute; reflexivity. }
  destruct G as (p & G1 & G2).
  specialize (H (fun _ => Ok (VList [VStr "mark"])) ex_im None (SrcFile "marks.json") 0%Z p (VList [VStr "mark"])
                eq_refl eq_refl G1). congruence.
Qed.
Print Assumptions C119_marks_refuted.

(** Missing: trust marks in a file.  Any others are published as they are, and nothing is published if there are none. *)
Theorem C119_marks_partial : forall file S whole marks now p v,
  (forall path, marks <> SrcFile path) ->
  get_trust_marks file marks = Ok v -> entity_configuration S whole marks now = Ok p ->
  dget "trust_marks" p = (if truthy v then Some v else match marks with SrcCall _ => Some v | _ => None end).
Proof.
  intros file S whole marks now p v Hf Hg Hp. destruct (configuration_claims _ _ _ _ _ Hp) as (a & Ha & Hc).
  rewrite Hc. unfold claim_of. cbn -[dget truthy]. clear Hc Hp.
  destruct marks as [|[|x l]|path|[w|x]|]; cbn in Hg, Ha; try discriminate;
    try (exfalso; eapply Hf; reflexivity); injection Hg as <-; injection Ha as <-;
    destruct (fs_hints S); cbn -[truthy]; try reflexivity; destruct (truthy w); reflexivity.
Qed.
Print Assumptions C119_marks_partial.

Example C119_ex : exists p, entity_configuration ex_im None (SrcCall (Ok (VList [VStr "mark"]))) 0 = Ok p /\
  dget "trust_marks" p = Some (VList [VStr "mark"]).
Proof. eexists. split; vm_compute; reflexivity. Qed.

(** ** C120: an entity says the same about itself wherever it is asked *)

(** the request asks an entity about itself *)
Definition about_itself (S : fserver) (q : freq) : Prop :=
  fq_sub q = None \/ fq_sub q = Some "" \/ fq_sub q = Some (issuer_of S q).

Definition C120_full : Prop := forall S whole marks now q db db' p p',
  about_itself S q -> entity_configuration S whole marks now = Ok p -> fetch S now q db = (db', Ok p') ->
  forall k, dget k p = dget k p'.

(** the fetch endpoint leaves the other parts of the entity out *)
Theorem C120_same_refuted : ~ C120_full.
Proof.
  intros H.
  assert (G : exists p p', entity_configuration ex_im (Some ex_whole) SrcNone 0 = Ok p /\
                           fetch ex_im 0 (mkFreq None None) [] = ([], Ok p') /\ dget "metadata" p <> dget "metadata" p').
  { eexists _, _. split; [vm_compute; reflexivity|]. split; [vm_compute; reflexivity|]. vm_compute. discriminate. }
  destruct G as (p & p' & G1 & G2 & G3). apply G3.
  exact (H _ _ _ _ _ _ _ _ _ (or_introl eq_refl : about_itself ex_im (mkFreq None None)) G1 G2 _).
Qed.
Print Assumptions C120_same_refuted.

Lemma fetch_itself S now q db db' p : about_itself S q -> fetch S now q db = (db', Ok p) ->
  db' = db /\ create_entity_statement now (fs_id S) (fs_id S) (fs_jwks S)
    (("metadata", VDict (fs_metadata S)) :: match fs_hints S with Some h => [("authority_hints", h)] | None => [] end) = Ok p.
Proof.
  intros Ha H. unfold fetch in H. destruct Ha as [Ha|[Ha|Ha]]; rewrite Ha in H; unfold lift in H.
  - injection H as <- H. auto.
  - cbn in H. injection H as <- H. auto.
  - rewrite String.eqb_refl, orb_true_r in H. injection H as <- H. auto.
Qed.

(** Missing: metadata of the other parts, and trust marks.  All other claims agree, and a trust mark is never in the
    answer of the fetch endpoint; an entity that is not part of anything says the same metadata. *)
Theorem C120_same_partial : forall S whole marks now q db db' p p',
  about_itself S q -> entity_configuration S whole marks now = Ok p -> fetch S now q db = (db', Ok p') ->
  (forall k, k <> "metadata" -> k <> "trust_marks" -> dget k p = dget k p') /\
  (whole = None -> dget "metadata" p = dget "metadata" p') /\ dget "trust_marks" p' = None.
Proof.
  intros S whole marks now q db db' p p' Hq Hp Hf. destruct (fetch_itself _ _ _ _ _ _ Hq Hf) as [_ Hf'].
  destruct (configuration_claims _ _ _ _ _ Hp) as (a & Ha & Hc).
  assert (Hc' : forall k, dget k p' = _) by
    (apply create_claims with (2 := Hf'); destruct (fs_hints S); cbn;
     repeat (constructor; [simpl; intuition discriminate|]); constructor).
  assert (A : forall k, k <> "trust_marks" -> dget k a = None).
  { intros k Hk. destruct (marks_keys _ _ Ha) as [->|[v ->]]; [reflexivity|]. cbn [dget].
    destruct (String.eqb_spec k "trust_marks"); [contradiction|reflexivity]. }
  assert (B : forall k, k <> "trust_marks" -> k <> "metadata" ->
    dget k (("metadata", VDict (published_metadata S whole)) ::
            match fs_hints S with Some h => [("authority_hints", h)] | None => [] end ++ a) =
    dget k (("metadata", VDict (fs_metadata S)) :: match fs_hints S with Some h => [("authority_hints", h)] | None => [] end)).
  { intros k H1 H2. cbn [dget]. destruct (String.eqb_spec k "metadata"); [contradiction|].
    destruct (fs_hints S) as [h|]; cbn [app dget]; [|apply A, H1].
    destruct (String.eqb k "authority_hints"); [reflexivity|apply A, H1]. }
  split; [|split].
  - intros k H1 H2. rewrite Hc, Hc'. unfold claim_of, arg_or. rewrite !B by (assumption || discriminate). reflexivity.
  - intros ->. rewrite Hc, Hc'. reflexivity.
  - rewrite Hc'. unfold claim_of. cbn. destruct (fs_hints S); reflexivity.
Qed.
Print Assumptions C120_same_partial.

Example C120_ex : exists p p', about_itself ex_im (mkFreq (Some "im") (Some "im")) /\
  entity_configuration ex_im None SrcNone 0 = Ok p /\ fetch ex_im 0 (mkFreq (Some "im") (Some "im")) [] = ([], Ok p') /\
  dget "metadata" p' = Some (VDict (fs_metadata ex_im)).
Proof.
  eexists _, _. split; [right; right; reflexivity|]. split; [vm_compute; reflexivity|].
  split; [vm_compute; reflexivity|reflexivity].
Qed.

(** ** C121: entities that run this library find each other's trust chains *)

(** [r] leads from [e] up to a member without superiors *)
Inductive path (F : list member) : string -> list string -> Prop :=
| path_end m : In m F -> superiors_of m = [] -> path F (m_id m) []
| path_up m a r : In m F -> In a (superiors_of m) -> path F a r -> path F (m_id m) (a :: r).

(** issuers and subjects along a path, top down *)
Fixpoint links (e : string) (r : list string) : list (string * string) :=
  match r with [] => [] | a :: r' => links a r' ++ [(a, e)] end.

Definition names_of (p : stmt) : string * string := (s_iss p, s_sub p).

(** the chain consists of a statement for each step of the path, and the configuration at its end *)
Definition runs_along (c : tchain) (e : string) (r : list string) : Prop :=
  ch_anchor c = end_of e r /\ map names_of (map snd (jws (tc_chain (ch_tc c)))) = links e r ++ [(e, e)].

(** nobody is above themselves *)
Definition hierarchy (F : list member) (rank : string -> nat) : Prop :=
  forall m a, In m F -> In a (superiors_of m) -> rank a < rank (m_id m).

(** keys held for a member include the one it signs with *)
Definition right_keys (F : list member) (kj : keyjar) : Prop :=
  forall m ks, In m F -> dget (m_id m) kj = Some ks -> In (m_key m) ks.

(** nobody is registered with constraints *)
Definition unconstrained (F : list member) : Prop :=
  forall m sub e, In m F -> dget sub (m_subs m) = Some e -> dget "constraints" e = None.

Section Found.
Context (jwks_of : val -> option (list key)) (F : list member) (E : cenv) (rank : string -> nat).
Hypothesis L : library_run jwks_of F E.
Hypothesis HR : hierarchy F rank.

Notation now0 := (e_clock E 0).
Notation W := (library_world jwks_of F now0).

Lemma above_member m : In m F -> above W "" (m_id m) = superiors_of m.
Proof.
  intros Hm. unfold above. destruct (String.eqb_spec (m_id m) "") as [Hn|_].
  - exfalso. apply (proj1 (so_id _ _ _ (lf_sound _ _ _ L m Hm))). exact Hn.
  - apply (member_superiors _ _ _ L m Hm).
Qed.

Lemma path_route e r : path F e r -> route W "" e r.
Proof.
  induction 1 as [m Hm Hs|m a r Hm Ha Hr IH]; constructor.
  - rewrite above_member; assumption.
  - rewrite above_member; assumption.
  - exact IH.
Qed.

Lemma route_path e r : route W "" e r -> forall m, In m F -> m_id m = e -> path F e r.
Proof.
  induction 1 as [e He|e a r Ha Hr IH]; intros m Hm <-; constructor; try exact Hm.
  - rewrite <- above_member; assumption.
  - rewrite <- above_member; assumption.
  - rewrite above_member in Ha by exact Hm. destruct (lf_superiors _ _ _ L m a Hm Ha) as (m' & H1 & H2 & _).
    exact (IH m' H1 H2).
Qed.

Lemma no_self m : In m F -> ~ In (m_id m) (superiors_of m).
Proof. intros Hm Hin. pose proof (HR m _ Hm Hin). lia. Qed.

Lemma WR m : In m F -> well_run W E "" (m_id m).
Proof. intros Hm. apply library_well_run; [exact L|exact Hm|exact no_self]. Qed.

Lemma world_ranked m : In m F -> ranked W "" (m_id m) rank.
Proof.
  intros Hm e a R Ha. destruct (reaches_member _ _ _ L "" m e Hm R) as (m' & Hm' & <-).
  rewrite above_member in Ha by exact Hm'. exact (HR m' a Hm' Ha).
Qed.

Lemma world_jar m kj : In m F -> right_keys F kj -> jar_right W "" (m_id m) kj.
Proof.
  intros Hm Hk e ks R Hd. destruct (reaches_member _ _ _ L "" m e Hm R) as (m' & Hm' & <-).
  cbn [library_world w_key]. rewrite (by_id_In _ _ _ L m' Hm'). exact (Hk m' ks Hm' Hd).
Qed.

(** the statements along a path are those of the superiors about their subordinates *)
Lemma along_In r : forall e x, path F e r -> In x (map snd (jws (along W e r))) ->
  exists m m', In m F /\ In m' F /\ In (m_id m') (superiors_of m) /\ x = w_about W (m_id m') (m_id m).
Proof.
  induction r as [|a r IH]; intros e x Hp Hx; [destruct Hx|]. inversion Hp as [|m a' r' Hm Ha Hr]; subst.
  cbn [along] in Hx. rewrite jws_app, map_app in Hx. apply in_app_iff in Hx. destruct Hx as [Hx|Hx].
  - exact (IH a x Hr Hx).
  - cbn in Hx. destruct Hx as [<-|[]]. destruct (lf_superiors _ _ _ L m a Hm Ha) as (m' & Hm' & <- & _).
    exists m, m'. auto.
Qed.

Lemma claims_eq e r : claims_along W e r = map snd (jws (along W e r)) ++ [w_config W e].
Proof. unfold claims_along, chain_along. rewrite jws_app, map_app. reflexivity. Qed.

Lemma claims_names r : forall e, path F e r -> map names_of (map snd (jws (along W e r))) = links e r.
Proof.
  induction r as [|a r IH]; intros e Hp; [reflexivity|]. inversion Hp as [|m a' r' Hm Ha Hr]; subst.
  cbn [along links]. rewrite jws_app, !map_app, (IH a Hr). f_equal. cbn [jws map snd].
  destruct (wr_about _ _ _ _ (WR m Hm) (m_id m) a (reaches_self _ _ _)) as (H1 & H2 & _); [rewrite above_member; assumption|].
  unfold names_of. rewrite H1, H2. reflexivity.
Qed.

Lemma config_names m : In m F -> names_of (w_config W (m_id m)) = (m_id m, m_id m).
Proof.
  intros Hm. destruct (wr_config _ _ _ _ (WR m Hm) (m_id m) (reaches_self _ _ _)) as (_ & H1 & H2 & _).
  unfold names_of. rewrite H1, H2. reflexivity.
Qed.

Lemma about_unconstrained m m' : unconstrained F -> In m F -> In m' F -> In (m_id m') (superiors_of m) ->
  s_constraints (w_about W (m_id m') (m_id m)) = None.
Proof.
  intros Hu Hm Hm' Ha. destruct (lf_superiors _ _ _ L m _ Hm Ha) as (m2 & Hm2 & Eq & Hs).
  apply (lf_ids _ _ _ L) in Eq; [subst m2|exact Hm2|exact Hm'].
  assert (Hne : m_id m <> m_id m') by (intros X; apply (no_self m Hm); rewrite X; exact Ha).
  destruct (fetched _ _ _ L m' m Hm' Hm Hne Hs) as (p & st & Hf & Hd & Hw & _). rewrite Hw.
  destruct (decode_fields _ _ _ Hd) as (_ & _ & _ & _ & _ & _ & D7 & _).
  destruct (lf_sound _ _ _ L m' Hm') as [_ _ Hdi Hpo _ _ _ _].
  set (q := mkFreq (Some (m_id m')) (Some (m_id m))) in Hf.
  destruct (fetch (m_srv m') now0 q (m_subs m')) as [db' res] eqn:Ef. cbn [snd] in Hf. subst res.
  apply claim_none in D7; [exact D7|].
  destruct (fetch_inv _ _ _ _ _ _ Hdi Ef) as [(_ & _ & Hc)|(sub & e & args & _ & Es & _ & _ & Hr & Hargs & _ & Hc)].
  - rewrite Hc. unfold claim_of, own_args. cbn. destruct (fs_hints (m_srv m')); reflexivity.
  - rewrite Hc. unfold claim_of. cbn -[dget if_truthy].
    rewrite (stmt_args_other _ _ _ _ _ Hargs) by discriminate.
    rewrite (kept_policies _ (m_subs m')) by (assumption || discriminate).
    rewrite (Hu m' sub e Hm' (proj1 Hr)). reflexivity.
Qed.

Lemma no_constraints_ok l leaf : (forall s, In s l -> s_constraints s = None) -> meets_restrictions (l ++ [leaf]) = Ok true.
Proof.
  intros H. unfold meets_restrictions. rewrite rev_app_distr. cbn [rev app]. rewrite rev_involutive.
  assert (C : check_upper l 0%Z (mkNames [] []) = Ok (Some (mkNames [] []))).
  { induction l as [|s l IH]; [reflexivity|]. cbn [check_upper]. rewrite (H s (or_introl eq_refl)).
    apply IH. intros x Hx. apply H. right. exact Hx. }
  rewrite C. reflexivity.
Qed.

Lemma all_accepted m r : unconstrained F -> path F (m_id m) r -> accepted (claims_along W (m_id m) r).
Proof.
  intros Hu Hp. unfold accepted. rewrite claims_eq. apply no_constraints_ok. intros s Hs.
  destruct (along_In r _ s Hp Hs) as (m1 & m2 & H1 & H2 & H3 & ->). apply about_unconstrained; assumption.
Qed.

End Found.

(** The trust chains of an entity are those of its paths to anchors whose keys are known, each once.  An exception is
    only raised if the policies along such a path raise it. *)
Theorem C121_found : forall jwks_of F E O rank fuel m s s' r,
  library_run jwks_of F E -> hierarchy F rank -> unconstrained F -> In m F -> rank (m_id m) < fuel ->
  visited E (f_col s) -> right_keys F (f_keys s) ->
  get_verified_trust_chains E O fuel (m_id m) s = (s', r) ->
  match r with
  | Ok cs =>
      (forall rt, path F (m_id m) rt -> rt <> [] -> VerifierSpec.known (f_keys s) (end_of (m_id m) rt) ->
         exists c, In c cs /\ runs_along c (m_id m) rt) /\
      (forall c, In c cs -> exists rt, path F (m_id m) rt /\ rt <> [] /\ VerifierSpec.known (f_keys s) (end_of (m_id m) rt) /\
         runs_along c (m_id m) rt) /\
      NoDup (map (fun c => tc_chain (ch_tc c)) cs)
  | Err x => exists rt claims, path F (m_id m) rt /\ rt <> [] /\ VerifierSpec.known (f_keys s) (end_of (m_id m) rt) /\
      map names_of claims = links (m_id m) rt ++ [(m_id m, m_id m)] /\ policy_call_chain O claims = Err x
  end.
Proof.
  intros jwks_of F E O rank fuel m s s' r L HR Hu Hm Hf V Hk H.
  set (W := library_world jwks_of F (e_clock E 0)).
  assert (CC : constraints_clear W "" (m_id m)).
  { intros rt Hrt. exists true. apply (all_accepted _ _ _ rank L HR m rt Hu). exact (route_path _ _ _ L _ _ Hrt m Hm eq_refl). }
  assert (G : forall rt, good_route W (f_keys s) "" (m_id m) rt <->
                         path F (m_id m) rt /\ rt <> [] /\ VerifierSpec.known (f_keys s) (end_of (m_id m) rt)).
  { intros rt. split.
    - intros (G1 & G2 & G3 & _). split; [exact (route_path _ _ _ L _ _ G1 m Hm eq_refl)|auto].
    - intros (G1 & G2 & G3). split; [exact (path_route _ _ _ L _ _ G1)|]. split; [exact G2|]. split; [exact G3|].
      apply (all_accepted _ _ _ rank L HR); assumption. }
  assert (B : forall rt c, path F (m_id m) rt -> belongs O W (m_id m) rt c -> runs_along c (m_id m) rt).
  { intros rt c Hp (B1 & B2 & _). split; [exact B2|]. rewrite B1. unfold chain_along, W.
    rewrite jws_app, !map_app, (claims_names _ _ _ rank L HR rt _ Hp). f_equal. cbn [jws own map snd].
    rewrite (config_names _ _ _ rank L HR m Hm). reflexivity. }
  assert (C := C92_exactly_the_routes E O W (m_id m) rank fuel s s' r (library_quiet _ _ _ L m Hm) V
                 (WR _ _ _ rank L HR m Hm) (world_ranked _ _ _ rank L HR m Hm) Hf
                 (world_jar _ _ _ L m _ Hm Hk) CC H).
  destruct r as [cs|x].
  - destruct C as (C1 & C2 & C3). split; [|split; [|exact C3]].
    + intros rt P1 P2 P3. destruct (C1 rt) as (c & Hc & Hb); [apply G; auto|]. exists c. split; [exact Hc|]. apply B; assumption.
    + intros c Hc. destruct (C2 c Hc) as (rt & Hg & Hb). apply G in Hg. destruct Hg as (P1 & P2 & P3).
      exists rt. split; [exact P1|]. split; [exact P2|]. split; [exact P3|]. apply B; assumption.
  - destruct C as (rt & Hg & Hx). apply G in Hg. destruct Hg as (P1 & P2 & P3). exists rt, (claims_along W (m_id m) rt).
    split; [exact P1|]. split; [exact P2|]. split; [exact P3|]. split; [|exact Hx].
    unfold W. rewrite claims_eq, map_app, (claims_names _ _ _ rank L HR rt _ P1). cbn [map].
    rewrite (config_names _ _ _ rank L HR m Hm). reflexivity.
Qed.
Print Assumptions C121_found.

(** rp below im below ta; im is a relying party as well, and has policies *)
Definition lib_policy (own : dict (dict val)) : dict (dict val) :=
  ("openid_relying_party", [("metadata_policy", VDict [("org", VDict [("value", VStr "im")]); ("scope", VDict [("essential", VBool true)])])]) :: own.

Definition lib_ta : member := mkMember
  (mkFserver "ta" (VInt 1) [("federation_entity", VDict [("federation_fetch_endpoint", VStr "ta/fetch")])] None [])
  None SrcNone [("im", [("jwks", VInt 2)])] 1 "ta/wk" "ta/fetch".

Definition lib_im (own : dict (dict val)) : member := mkMember
  (mkFserver "im" (VInt 2) [("federation_entity", VDict [("federation_fetch_endpoint", VStr "im/fetch")])]
     (Some (VList [VStr "ta"])) (lib_policy own))
  (Some ex_whole) SrcNone
  [("rp", [("jwks", VInt 3); ("entity_types", VList [VStr "openid_relying_party"]); ("lifetime", VInt 7200)])]
  2 "im/tenant/wk" "im/fetch".

Definition lib_rp : member := mkMember
  (mkFserver "rp" (VInt 3) [("openid_relying_party", VDict [("scope", VStr "openid"); ("org", VStr "rp")])]
     (Some (VList [VStr "im"])) [])
  None (SrcList [VStr "mark"]) [] 3 "rp/wk" "".

Definition lib_fed (own : dict (dict val)) : list member := [lib_ta; lib_im own; lib_rp].

Definition lib_env (own : dict (dict val)) : cenv :=
  mkEnv 300 ["ta"] (library_net ex_jwks (lib_fed own) (fun _ => 0%Z)) (fun _ => 0%Z) all_keys wk_url tenant_url.

Definition lib_rank (e : string) : nat := if String.eqb e "rp" then 2 else if String.eqb e "im" then 1 else 0.

Ltac members := repeat match goal with H : In _ (lib_fed _) |- _ =>
  destruct H as [<-|[<-|[<-|[]]]] end.

Lemma lib_run own : own = [] \/ own = [("rp", [("metadata_policy", VDict [])])] -> library_run ex_jwks (lib_fed own) (lib_env own).
Proof.
  intros Ho. constructor.
  - reflexivity.
  - reflexivity.
  - reflexivity.
  - intros n p z Hz Hn. cbn. unfold within_skew. rewrite Hz. apply Z.ltb_lt. lia.
  - reflexivity.
  - intros m m' Hm Hm' H. members; try reflexivity; discriminate H.
  - intros m m' Hm Hm' H. members; try reflexivity; discriminate H.
  - intros m m' Hm Hm' H N. members; try reflexivity; discriminate H.
  - intros m Hm. members; [left; reflexivity| |left; reflexivity]. right. split; [reflexivity|]. split; [discriminate|].
    intros m' Hm'. members; discriminate.
  - intros m Hm. members; (apply mkSound;
      [split; [discriminate|reflexivity]
      |eexists; split; [reflexivity|left; reflexivity]
      |split; intros x e H; apply dget_In in H; destruct Ho as [-> | ->]; simpl in H;
        repeat destruct H as [H|H]; try contradiction; injection H as <- <-; apply nodupb_sound; reflexivity
      |intros x p k H Hk; apply dget_In in H; destruct Ho as [-> | ->]; simpl in H;
        repeat destruct H as [H|H]; try contradiction; injection H as <- <-; simpl in Hk; intuition auto
      |eexists; reflexivity
      |intros p Hp; destruct Ho as [-> | ->]; vm_compute in Hp; injection Hp as <-; vm_compute; discriminate
      |intros a Ha; simpl in Ha; repeat destruct Ha as [<-|Ha]; try destruct Ha; reflexivity
      |intros sub e v H Hv; apply dget_In in H; simpl in H; repeat destruct H as [H|H]; try contradiction;
        injection H as <- <-; vm_compute in Hv; try discriminate Hv; injection Hv as <-;
        refine (ex_intro _ _ (conj eq_refl (conj eq_refl eq_refl)))]).
  - intros m a Hm Ha. members; simpl in Ha; repeat destruct Ha as [<-|Ha]; try destruct Ha.
    + exists lib_ta. split; [left; reflexivity|]. split; [reflexivity|]. constructor.
      * apply locationb_sound. reflexivity.
      * eexists. split; reflexivity.
      * eexists _, _, _. split; [split; [reflexivity|discriminate]|]. split; [|split; [reflexivity|split; [reflexivity|left; reflexivity]]].
        split; [intros k Hk; simpl in Hk; repeat destruct Hk as [<-|Hk]; try destruct Hk; reflexivity|].
        split; [intros v Hv; discriminate Hv|]. split; [intros v Hv; discriminate Hv|]. intros p k v Hp; discriminate Hp.
      * intros p Hp. destruct Ho as [-> | ->]; vm_compute in Hp; injection Hp as <-; vm_compute; discriminate.
    + exists (lib_im own). split; [right; left; reflexivity|]. split; [reflexivity|]. constructor.
      * apply locationb_sound. reflexivity.
      * eexists. split; reflexivity.
      * eexists _, _, _. split; [split; [reflexivity|discriminate]|]. split; [|split; [reflexivity|split; [reflexivity|left; reflexivity]]].
        split; [intros k Hk; simpl in Hk; repeat destruct Hk as [<-|Hk]; try destruct Hk; reflexivity|].
        split; [intros v Hv; injection Hv as <-; eexists; reflexivity|].
        split; [intros v Hv; injection Hv as <-; exists ["openid_relying_party"]; reflexivity|].
        intros p k v Hp Hk. destruct Ho as [-> | ->]; cbn in Hp; [discriminate Hp|]. injection Hp as <-.
        cbn [dget] in Hk. destruct (String.eqb_spec k "metadata_policy"); [right; assumption|discriminate Hk].
      * intros p Hp. destruct Ho as [-> | ->]; vm_compute in Hp; injection Hp as <-; vm_compute; discriminate.
Qed.

Lemma lib_hierarchy own : hierarchy (lib_fed own) lib_rank.
Proof. intros m a Hm Ha. members; simpl in Ha; repeat destruct Ha as [<-|Ha]; try destruct Ha; vm_compute; lia. Qed.

Lemma lib_path own : path (lib_fed own) "rp" ["im"; "ta"].
Proof.
  apply (path_up _ lib_rp); [simpl; auto|left; reflexivity|]. apply (path_up _ (lib_im own)); [simpl; auto|left; reflexivity|].
  apply (path_end _ lib_ta); [simpl; auto|reflexivity].
Qed.

Example C121_ex : library_run ex_jwks (lib_fed []) (lib_env []) /\ hierarchy (lib_fed []) lib_rank /\ unconstrained (lib_fed []) /\
  In lib_rp (lib_fed []) /\ visited (lib_env []) (mkState [] [] 0) /\ right_keys (lib_fed []) [("ta", [1])] /\
  path (lib_fed []) (m_id lib_rp) ["im"; "ta"] /\
  exists s' c, get_verified_trust_chains (lib_env []) id_order 3 "rp" (mkFed (mkState [] [] 0) [("ta", [1])] []) = (s', Ok [c]) /\
    runs_along c "rp" ["im"; "ta"].
Proof.
  split; [apply lib_run; left; reflexivity|]. split; [apply lib_hierarchy|]. split.
  { intros m sub e Hm H. apply dget_In in H. members; simpl in H; repeat destruct H as [H|H]; try contradiction;
      injection H as <- <-; reflexivity. }
  split; [simpl; auto|]. split; [constructor|]. split.
  { intros m ks Hm H. members; vm_compute in H; try discriminate H. injection H as <-. left. reflexivity. }
  split; [apply lib_path|]. eexists _, _. split; [vm_compute; reflexivity|]. split; vm_compute; reflexivity.
Qed.

(** ** C122: the policies a superior is configured with are the ones its subordinates' metadata meets *)

(** JSON documents after parsing: no object has two entries for a key *)
Definition well_formed (E : cenv) : Prop := forall q k p, e_net E 0 q = RText (Some (TJws k p)) -> wf_stmt p.

(** the superior has a policy for a type the subordinate is registered with *)
Definition configured (m' : member) (sub et cl op : string) (v : val) : Prop :=
  exists e ts pol mp cp, registered (m_subs m') sub e /\ dget "entity_types" e = Some (VList (map VStr ts)) /\ In et ts /\
    dget et (fs_policy (m_srv m')) = Some pol /\ dget "metadata_policy" pol = Some (VDict mp) /\
    dget cl mp = Some (VDict cp) /\ dget op cp = Some v.

(** a trust chain in which somebody makes a statement about somebody else *)
Definition passes (c : tchain) (a x : string) : Prop :=
  exists k st, In (TJws k st) (tc_chain (ch_tc c)) /\ s_iss st = a /\ s_sub st = x /\ a <> x.

(** the metadata of one type that was arrived at *)
Definition arrived (c : tchain) (et : string) (md : metadata) : Prop :=
  exists mds, ch_md c = ByType mds /\ dget et mds = Some (Some md).

Definition C122_full : Prop := forall jwks_of F E O rank fuel m s s' cs c m' x et cl v md,
  library_run jwks_of F E -> hierarchy F rank -> unconstrained F -> well_formed E -> In m F -> rank (m_id m) < fuel ->
  visited E (f_col s) -> right_keys F (f_keys s) ->
  get_verified_trust_chains E O fuel (m_id m) s = (s', Ok cs) -> In c cs ->
  In m' F -> passes c (m_id m') x -> configured m' x et cl "value" v -> arrived c et md ->
  exists w, dget cl md = Some w /\ py_eqb v w = true.

Definition own_ex : dict (dict val) := [("rp", [("metadata_policy", VDict [])])].

Lemma lib_wf own : own = [] \/ own = own_ex -> well_formed (lib_env own).
Proof.
  intros Ho q k p H. unfold lib_env in H. cbn [e_net] in H. destruct q as [u|ep i x]; cbn [library_net] in H.
  - destruct (find _ _) as [m|] eqn:Ef; [|discriminate]. apply find_some in Ef. destruct Ef as [Hm _].
    apply wf_stmtb_sound. members; destruct Ho as [-> | ->]; vm_compute in H; injection H as <- <-; vm_compute; reflexivity.
  - destruct (UrlModel.server_sees _) as [loc ps].
    destruct (find _ _) as [m|] eqn:Ef; [|discriminate]. apply find_some in Ef. destruct Ef as [Hm _].
    apply wf_stmtb_sound. revert H. generalize (dget "iss" ps) as i0, (dget "sub" ps) as x0. intros i0 x0 H.
    unfold fetch in H. cbn [fq_sub] in H. destruct x0 as [x0|].
    2: { members; destruct Ho as [-> | ->]; vm_compute in H; injection H as <- <-; vm_compute; reflexivity. }
    destruct (String.eqb x0 "" || String.eqb x0 (issuer_of _ _)).
    { members; destruct Ho as [-> | ->]; vm_compute in H; injection H as <- <-; vm_compute; reflexivity. }
    unfold mbind in H. cbn [StateM.get] in H. unfold StateM.get in H.
    destruct (find_filled x0 (m_subs m)) as [e|] eqn:Ex; [|discriminate H].
    apply find_filled_some in Ex. destruct Ex as [Ex _]. apply dget_In in Ex.
    members; simpl in Ex; try contradiction; destruct Ex as [Ex|[]]; injection Ex as <- <-;
      destruct Ho as [-> | ->]; cbn in H; injection H as <- <-; vm_compute; reflexivity.
Qed.

(** an entity with a policy of its own is not bound by that of its type *)
Theorem C122_enforced_refuted : ~ C122_full.
Proof.
  intros H.
  assert (G : exists s' c md, get_verified_trust_chains (lib_env own_ex) id_order 3 (m_id lib_rp)
                             (mkFed (mkState [] [] 0) [("ta", [1])] []) = (s', Ok [c]) /\
                passes c "im" "rp" /\ arrived c "openid_relying_party" md /\ dget "org" md = Some (VStr "rp")).
  { eexists _, _, _. split; [vm_compute; reflexivity|]. split.
    - eexists _, _. split; [right; left; reflexivity|]. split; [reflexivity|]. split; [reflexivity|discriminate].
    - split; [eexists; split; vm_compute; reflexivity|reflexivity]. }
  destruct G as (s' & c & md & G1 & G2 & G3 & G4).
  assert (X := H ex_jwks (lib_fed own_ex) (lib_env own_ex) id_order lib_rank 3 lib_rp
    (mkFed (mkState [] [] 0) [("ta", [1])] []) s' [c] c (lib_im own_ex) "rp"
    "openid_relying_party" "org" (VStr "im") md (lib_run own_ex (or_intror eq_refl)) (lib_hierarchy _)).
  destruct X as (w & X1 & X2).
  - intros m sub e Hm D. apply dget_In in D. members; simpl in D; repeat destruct D as [D|D]; try contradiction;
      injection D as <- <-; reflexivity.
  - apply lib_wf. right. reflexivity.
  - simpl. auto.
  - vm_compute. lia.
  - constructor.
  - intros m ks Hm D. members; vm_compute in D; try discriminate D. injection D as <-. left. reflexivity.
  - exact G1.
  - left. reflexivity.
  - simpl. auto.
  - exact G2.
  - eexists _, ["openid_relying_party"], _, _, _. split; [split; [reflexivity|discriminate]|]. split; [reflexivity|].
    split; [left; reflexivity|]. split; [reflexivity|]. split; [reflexivity|]. split; reflexivity.
  - exact G3.
  - rewrite G4 in X1. injection X1 as <-. discriminate X2.
Qed.
Print Assumptions C122_enforced_refuted.

(** what the superior is configured with is what it says *)
Lemma says_configured jwks_of F E rank m m' et cl op v : library_run jwks_of F E -> hierarchy F rank ->
  In m F -> In m' F -> In (m_id m') (superiors_of m) -> configured m' (m_id m) et cl op v ->
  (forall own, dget (m_id m) (fs_policy (m_srv m')) = Some own -> own = []) ->
  policy_says (w_about (library_world jwks_of F (e_clock E 0)) (m_id m') (m_id m)) et cl op v.
Proof.
  intros L HR Hm Hm' Ha (e & ts & pol & mp & cp & R & T1 & T2 & P1 & P2 & P3 & P4) Hown.
  destruct (lf_superiors _ _ _ L m _ Hm Ha) as (m2 & Hm2 & Eq & Hs).
  apply (lf_ids _ _ _ L) in Eq; [subst m2|exact Hm2|exact Hm'].
  assert (Hne : m_id m <> m_id m') by (intros X; apply (no_self _ _ HR m Hm); rewrite X; exact Ha).
  destruct (fetched _ _ _ L m' m Hm' Hm Hne Hs) as (p & st & Hf & Hd & Hw & _). rewrite Hw.
  destruct (lf_sound _ _ _ L m' Hm') as [[I1 _] _ Hdi _ _ _ _ _]. destruct (lf_sound _ _ _ L m Hm) as [[I2 _] _ _ _ _ _ _ _].
  set (q := mkFreq (Some (m_id m')) (Some (m_id m))) in Hf.
  destruct (fetch (m_srv m') (e_clock E 0) q (m_subs m')) as [db' res] eqn:Ef. cbn [snd] in Hf. subst res.
  assert (Wq : wanted (m_srv m') q = m_id m).
  { unfold wanted, q. cbn [fq_sub]. destruct (String.eqb_spec (m_id m) ""); [contradiction|reflexivity]. }
  assert (Oq : own_request (m_srv m') q = false).
  { unfold own_request, issuer_of, q. cbn [fq_sub fq_iss]. apply orb_false_iff. split; apply String.eqb_neq; [exact I2|].
    destruct (m_id m') as [|ch rest] eqn:Em; [contradiction|exact Hne]. }
  destruct (C68_policies_partial (m_srv m') (e_clock E 0) q (m_subs m') db' p e ts et pol "metadata_policy" (VDict mp)
    Hdi Oq) as (d & D1 & D2); [rewrite Wq; exact R|rewrite Wq; exact Hown|exact T1|exact T2|exact P1|simpl; auto|exact P2|exact Ef|].
  destruct (decode_fields _ _ _ Hd) as (_ & _ & _ & _ & _ & D6 & _).
  destruct (claim_get _ _ _ _ _ _ D1 D6) as (ps & Eps & Fps).
  assert (A1 := as_dict_get _ _ _ _ et Fps). rewrite D2 in A1. destruct A1 as (mp' & F1 & G1).
  assert (A2 := as_dict_get _ _ _ _ cl F1). rewrite P3 in A2. destruct A2 as (cp' & F2 & G2).
  assert (A3 := as_dict_get _ _ _ _ op F2). rewrite P4 in A3. destruct A3 as (v' & [= <-] & G3).
  exists ps, mp', cp'. auto.
Qed.

(** a chain that was returned, taken apart *)
Lemma returned_chain jwks_of F E O rank fuel m s s' cs c m' x :
  library_run jwks_of F E -> hierarchy F rank -> unconstrained F -> well_formed E -> In m F -> rank (m_id m) < fuel ->
  visited E (f_col s) -> right_keys F (f_keys s) ->
  get_verified_trust_chains E O fuel (m_id m) s = (s', Ok cs) -> In c cs -> In m' F -> passes c (m_id m') x ->
  exists front leaf ves m1, policy_call_chain O (front ++ [leaf]) = Ok (ch_md c, ves) /\ wf_chain front leaf /\
    (forall y, In y (leaf :: front) -> exists q k, e_net E 0 q = RText (Some (TJws k y))) /\
    In m1 F /\ m_id m1 = x /\ In (m_id m') (superiors_of m1) /\
    In (w_about (library_world jwks_of F (e_clock E 0)) (m_id m') x) front.
Proof.
  intros L HR Hu Hwf Hm Hf V Hk H Hc Hm' (k & st & P1 & P2 & P3 & P4).
  set (W := library_world jwks_of F (e_clock E 0)).
  assert (CC : constraints_clear W "" (m_id m)).
  { intros rt Hrt. exists true. apply (all_accepted _ _ _ rank L HR m rt Hu). exact (route_path _ _ _ L _ _ Hrt m Hm eq_refl). }
  assert (C := C92_exactly_the_routes E O W (m_id m) rank fuel s s' (Ok cs) (library_quiet _ _ _ L m Hm) V
                 (WR _ _ _ rank L HR m Hm) (world_ranked _ _ _ rank L HR m Hm) Hf
                 (world_jar _ _ _ L m _ Hm Hk) CC H).
  destruct C as (_ & C2 & _). destruct (C2 c Hc) as (rt & (G1 & _) & (B1 & _ & ves & B2)).
  assert (Hp : path F (m_id m) rt) by exact (route_path _ _ _ L _ _ G1 m Hm eq_refl).
  unfold W in B2. rewrite claims_eq in B2. fold W in B2.
  assert (Hin : In st (map snd (jws (along W (m_id m) rt)))).
  { rewrite B1 in P1. unfold chain_along in P1. apply in_app_iff in P1. destruct P1 as [P1|[P1|[]]].
    - clear - P1. induction (along W (m_id m) rt) as [|[|k' p'] l IH]; [destruct P1| |].
      + cbn [jws]. destruct P1 as [P1|P1]; [discriminate|exact (IH P1)].
      + cbn [jws map snd]. destruct P1 as [P1|P1]; [injection P1 as _ <-; left; reflexivity|right; exact (IH P1)].
    - exfalso. assert (P5 : w_config W (m_id m) = st) by (unfold own in P1; congruence). assert (N := config_names _ _ _ rank L HR m Hm). unfold names_of in N.
      fold W in N. rewrite P5, P2, P3 in N. apply P4. congruence. }
  destruct (along_In _ _ _ L rt _ st Hp Hin) as (m1 & m2 & M1 & M2 & M3 & M4). fold W in M4.
  assert (N : s_iss st = m_id m2 /\ s_sub st = m_id m1).
  { rewrite M4. assert (X := wr_about _ _ _ _ (WR _ _ _ rank L HR m1 M1) (m_id m1) (m_id m2) (reaches_self _ _ _)).
    destruct X as (X1 & X2 & _); [rewrite (above_member _ _ _ L m1 M1); exact M3|]. auto. }
  destruct N as [N1 N2]. rewrite P2 in N1. rewrite P3 in N2.
  apply (lf_ids _ _ _ L) in N1; [subst m2|exact Hm'|exact M2]. clear P3. subst x.
  exists (map snd (jws (along W (m_id m) rt))), (w_config W (m_id m)), ves, m1.
  assert (SV : forall y, In y (w_config W (m_id m) :: map snd (jws (along W (m_id m) rt))) ->
                 exists q k, e_net E 0 q = RText (Some (TJws k y))).
  { intros y [<-|Hy].
    - destruct (wr_config _ _ _ _ (WR _ _ _ rank L HR m Hm) (m_id m) (reaches_self _ _ _)) as ([Pb|(_ & _ & Pb)] & _);
        eexists _, _; exact Pb.
    - destruct (along_In _ _ _ L rt _ y Hp Hy) as (a & b & A1 & A2 & A3 & ->).
      assert (X := wr_about _ _ _ _ (WR _ _ _ rank L HR a A1) (m_id a) (m_id b) (reaches_self _ _ _)).
      destruct X as (_ & _ & _ & ep & _ & _ & X); [rewrite (above_member _ _ _ L a A1); exact A3|]. eexists _, _; exact X. }
  split; [exact B2|]. split; [split|split; [exact SV|]].
  - destruct (SV _ (or_introl eq_refl)) as (q & k' & X). exact (Hwf _ _ _ X).
  - intros y Hy. destruct (SV y (or_intror Hy)) as (q & k' & X). exact (Hwf _ _ _ X).
  - split; [exact M1|]. split; [reflexivity|]. split; [exact M3|]. rewrite <- M4. exact Hin.
Qed.

(** Missing: subordinates the superior has a policy of their own for.  For all others, what a superior anywhere in the
    chain gives as the value of a claim for a type is the value arrived at, and what it says has to be there is there. *)
Theorem C122_enforced_partial : forall jwks_of F E O rank fuel m s s' cs c m' x et cl v md,
  library_run jwks_of F E -> hierarchy F rank -> unconstrained F -> well_formed E -> In m F -> rank (m_id m) < fuel ->
  visited E (f_col s) -> right_keys F (f_keys s) ->
  get_verified_trust_chains E O fuel (m_id m) s = (s', Ok cs) -> In c cs ->
  In m' F -> passes c (m_id m') x -> (forall own, dget x (fs_policy (m_srv m')) = Some own -> own = []) ->
  configured m' x et cl "value" v -> arrived c et md ->
  exists w, dget cl md = Some w /\ py_eqb v w = true.
Proof.
  intros jwks_of F E O rank fuel m s s' cs c m' x et cl v md L HR Hu Hwf Hm Hf V Hk H Hc Hm' Hp Hown Hcf (mds & A1 & A2).
  destruct (returned_chain _ _ _ _ _ _ _ _ _ _ _ _ _ L HR Hu Hwf Hm Hf V Hk H Hc Hm' Hp)
    as (front & leaf & ves & m1 & R1 & R2 & _ & R3 & R4 & R5 & R6). subst x.
  rewrite A1 in R1. assert (RS : resolves O front leaf et md) by (exists mds, ves; auto).
  exact (C05_value_is_resolved O front leaf et cl _ v md R2 RS R6 (says_configured _ _ _ _ _ _ _ _ _ _ L HR R3 Hm' R5 Hcf Hown)).
Qed.
Print Assumptions C122_enforced_partial.

(** the same for subset_of, under the conditions of C01 *)
Theorem C122_subset_partial : forall jwks_of F E O rank fuel m s s' cs c m' x et cl S md v,
  library_run jwks_of F E -> hierarchy F rank -> unconstrained F -> well_formed E -> In m F -> rank (m_id m) < fuel ->
  visited E (f_col s) -> right_keys F (f_keys s) ->
  get_verified_trust_chains E O fuel (m_id m) s = (s', Ok cs) -> In c cs ->
  In m' F -> passes c (m_id m') x -> (forall own, dget x (fs_policy (m_srv m')) = Some own -> own = []) ->
  configured m' x et cl "subset_of" (VList S) -> arrived c et md ->
  (forall q k p, e_net E 0 q = RText (Some (TJws k p)) ->
     (forall u, metadata_says p et cl u -> is_list u = true) /\
     (forall u, policy_says p et cl "add" u -> is_list u = true) /\
     (forall u, policy_says p et cl "default" u -> is_list u = true) /\
     (forall u, policy_says p et cl "value" u -> list_within u S)) ->
  dget cl md = Some v -> list_within v S.
Proof.
  intros jwks_of F E O rank fuel m s s' cs c m' x et cl S md v L HR Hu Hwf Hm Hf V Hk H Hc Hm' Hp Hown Hcf (mds & A1 & A2) Hs.
  destruct (returned_chain _ _ _ _ _ _ _ _ _ _ _ _ _ L HR Hu Hwf Hm Hf V Hk H Hc Hm' Hp)
    as (front & leaf & ves & m1 & R1 & R2 & SV & R3 & R4 & R5 & R6). subst x.
  rewrite A1 in R1. assert (RS : resolves O front leaf et md) by (exists mds, ves; auto).
  apply (C01_subset_of_partial O front leaf et cl _ S md v R2 RS R6 (says_configured _ _ _ _ _ _ _ _ _ _ L HR R3 Hm' R5 Hcf Hown)).
  - split; [|split]; intros y u Hy; [|assert (Hy' : In y (leaf :: front)) by (right; exact Hy)..];
      [destruct (SV y Hy) as (q & k & X)|destruct (SV y Hy') as (q & k & X)..]; apply (Hs _ _ _ X).
  - intros y u Hy. destruct (SV y (or_intror Hy)) as (q & k & X). apply (Hs _ _ _ X).
Qed.
Print Assumptions C122_subset_partial.

Example C122_ex : well_formed (lib_env []) /\ configured (lib_im []) "rp" "openid_relying_party" "org" "value" (VStr "im") /\
  (forall own, dget "rp" (fs_policy (m_srv (lib_im []))) = Some own -> own = []) /\
  exists s' c md, get_verified_trust_chains (lib_env []) id_order 3 "rp" (mkFed (mkState [] [] 0) [("ta", [1])] []) = (s', Ok [c]) /\
    passes c "im" "rp" /\ arrived c "openid_relying_party" md /\ dget "org" md = Some (VStr "im").
Proof.
  split; [apply lib_wf; left; reflexivity|]. split.
  { eexists _, ["openid_relying_party"], _, _, _. split; [split; [reflexivity|discriminate]|]. split; [reflexivity|].
    split; [left; reflexivity|]. split; [reflexivity|]. split; [reflexivity|]. split; reflexivity. }
  split; [intros own H; discriminate H|]. eexists _, _, _. split; [vm_compute; reflexivity|]. split.
  - eexists _, _. split; [right; left; reflexivity|]. split; [reflexivity|]. split; [reflexivity|discriminate].
  - split; [eexists; split; vm_compute; reflexivity|reflexivity].
Qed.
