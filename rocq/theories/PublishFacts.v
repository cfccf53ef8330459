(** Lemmas about what entities publish, and about federations of entities that run this library. *)
From Verif Require Import PyFacts UrlModel UrlFacts.
From Verif Require Export PublishModel FetchFacts FetchProps WellRunProps.
From Coq Require Import Lia.

(** ** Reading *)

Lemma omap_map A B (f : A -> option B) (g : B -> A) l : (forall b, f (g b) = Some b) -> omap f (map g l) = Some l.
Proof. intros H. induction l as [|b l IH]; cbn [map omap]; [reflexivity|]. rewrite H, IH. reflexivity. Qed.

Lemma omap_In A B (f : A -> option B) l l' : omap f l = Some l' ->
  (forall x, In x l -> exists y, In y l' /\ f x = Some y) /\ (forall y, In y l' -> exists x, In x l /\ f x = Some y).
Proof.
  revert l'. induction l as [|x l IH]; intros l' H; cbn [omap] in H; [injection H as <-; split; intros ? []|].
  destruct (f x) as [y|] eqn:Ef; [|discriminate]. destruct (omap f l) as [ys|]; [|discriminate]. injection H as <-.
  destruct (IH ys eq_refl) as [I1 I2]. split.
  - intros z [<-|Hz]; [exists y; split; [left; reflexivity|exact Ef]|].
    destruct (I1 z Hz) as (w & H1 & H2). exists w. split; [right; exact H1|exact H2].
  - intros z [<-|Hz]; [exists x; split; [left; reflexivity|exact Ef]|].
    destruct (I2 z Hz) as (w & H1 & H2). exists w. split; [right; exact H1|exact H2].
Qed.

Lemma as_dict_get B (f : val -> option B) d d' k : as_dict_of f (VDict d) = Some d' ->
  match dget k d with
  | Some v => exists b, f v = Some b /\ dget k d' = Some b
  | None => dget k d' = None
  end.
Proof.
  cbn [as_dict_of]. revert d'. induction d as [|[x v] d IH]; intros d' H; cbn [omap] in H; [injection H as <-; reflexivity|].
  cbn [fst snd] in H. destruct (f v) as [b|] eqn:Ef; [|discriminate]. cbn [option_map] in H.
  destruct (omap _ d) as [ys|]; [|discriminate]. injection H as <-. cbn [dget].
  destruct (String.eqb k x); [exists b; auto|]. apply IH. reflexivity.
Qed.

Section Reads.
Context (jwks_of : val -> option (list key)).

Lemma decode_fields p st : decode jwks_of p = Some st ->
  dget "iss" p = Some (VStr (s_iss st)) /\ dget "sub" p = Some (VStr (s_sub st)) /\
  claim as_int "exp" p = Some (s_exp st) /\ claim jwks_of "jwks" p = Some (s_jwks st) /\
  claim (as_dict_of (as_dict_of Some)) "metadata" p = Some (s_metadata st) /\
  claim (as_dict_of (as_dict_of (as_dict_of Some))) "metadata_policy" p = Some (s_policy st) /\
  claim as_constraints "constraints" p = Some (s_constraints st) /\
  claim as_strs "authority_hints" p = Some (s_hints st).
Proof.
  unfold decode. destruct (dget "iss" p) as [[| | |i| |]|]; try discriminate.
  destruct (dget "sub" p) as [[| | |s| |]|]; try discriminate.
  destruct (claim as_int "exp" p); [|discriminate]. destruct (claim jwks_of "jwks" p); [|discriminate].
  destruct (claim _ "metadata" p); [|discriminate]. destruct (claim _ "metadata_policy" p); [|discriminate].
  destruct (claim as_constraints "constraints" p); [|discriminate].
  destruct (claim as_strs "authority_hints" p); [|discriminate].
  intros [= <-]. cbn. auto 10.
Qed.

Lemma claim_some B (f : val -> option B) k p v b : dget k p = Some v -> claim f k p = Some (Some b) -> f v = Some b.
Proof. unfold claim. intros ->. destruct (f v); cbn; congruence. Qed.

Lemma claim_get B (f : val -> option B) k p v o : dget k p = Some v -> claim f k p = Some o ->
  exists b, o = Some b /\ f v = Some b.
Proof. unfold claim. intros ->. destruct (f v) as [b|]; cbn; [|discriminate]. intros [= <-]. eauto. Qed.

Lemma claim_none B (f : val -> option B) k p o : dget k p = None -> claim f k p = Some o -> o = None.
Proof. unfold claim. intros ->. congruence. Qed.

End Reads.

(** ** The entity configuration endpoint *)

Lemma marks_keys s a : marks_args s = Ok a -> a = [] \/ exists v, a = [("trust_marks", v)].
Proof.
  unfold marks_args. destruct s as [|[|x l]|path|[v|e]|]; cbn [get_trust_marks bind]; try discriminate; intros [= <-]; eauto.
  destruct (String.eqb path ""); eauto.
Qed.

Lemma configuration_claims S whole marks now p : entity_configuration S whole marks now = Ok p ->
  exists a, marks_args marks = Ok a /\
  forall k, dget k p = claim_of now (fs_id S) (fs_id S) (fs_jwks S)
    (("metadata", VDict (published_metadata S whole)) ::
     match fs_hints S with Some h => [("authority_hints", h)] | None => [] end ++ a) k.
Proof.
  unfold entity_configuration. intros H. apply bind_ok in H. destruct H as (a & Ha & H). exists a. split; [exact Ha|].
  apply create_claims; [|exact H].
  destruct (marks_keys _ _ Ha) as [->|[v ->]]; destruct (fs_hints S); cbn;
    repeat (constructor; [simpl; intuition discriminate|]); constructor.
Qed.

(** it is only the trust marks that can go wrong *)
Lemma configuration_total S whole marks now a : marks_args marks = Ok a ->
  exists p, entity_configuration S whole marks now = Ok p.
Proof.
  intros Ha. unfold entity_configuration. rewrite Ha. cbn [bind].
  apply create_total.
  - intros k Hk. destruct (marks_keys _ _ Ha) as [->|[v ->]]; destruct (fs_hints S); cbn in Hk |- *;
      repeat destruct Hk as [<-|Hk]; try destruct Hk; reflexivity.
  - intros v Hv. destruct (marks_keys _ _ Ha) as [->|[w ->]]; destruct (fs_hints S); cbn in Hv; discriminate.
Qed.

(** ** Federations of entities that run this library *)

(** the superiors an entity is configured with *)
Definition superiors_of (m : member) : list string :=
  match fs_hints (m_srv m) with
  | Some (VList l) => match omap as_str l with Some hs => hs | None => [] end
  | _ => []
  end.

(** the location of an endpoint: a URL without query and fragment *)
Definition location (u : string) : Prop := u <> "" /\ lacks "?" u /\ lacks "#" u.

Definition locationb (u : string) : bool := negb (String.eqb u "") && negb (has_char "?" u) && negb (has_char "#" u).

Lemma locationb_sound u : locationb u = true -> location u.
Proof.
  unfold locationb. intros H. apply andb_prop in H. destruct H as [H H3]. apply andb_prop in H. destruct H as [H1 H2].
  apply Bool.negb_true_iff in H1, H2, H3. split; [apply String.eqb_neq; exact H1|].
  split; apply has_char_lacks; assumption.
Qed.

Lemma sees_location u i x : location u -> i <> "" -> x <> "" -> server_sees (fetch_url u i x) = (u, [("iss", i); ("sub", x)]).
Proof.
  intros (_ & H1 & H2) Hi Hx. unfold fetch_url, message_request. apply String.eqb_neq in Hi, Hx. rewrite Hi, Hx.
  rewrite (proj2 (has_char_lacks _ _) H1). apply sees_query; assumption.
Qed.

Section Library.
Context (jwks_of : val -> option (list key)).

(** [m'] is able to speak for [m]: it has an endpoint, which it publishes, and [m] is registered with its key *)
Record serves (E : cenv) (m' m : member) : Prop := mkServes {
  sv_endpoint : location (m_fetch m');
  sv_published : exists md, dget "federation_entity" (published_metadata (m_srv m') (m_whole m')) = Some (VDict md) /\
                            dget "federation_fetch_endpoint" md = Some (VStr (m_fetch m'));
  sv_registered : exists e ks v, registered (m_subs m') (m_id m) e /\ plain_registration (m_srv m') (m_id m) e /\
                            dget "jwks" e = Some v /\ jwks_of v = Some ks /\ In (m_key m) ks;
  sv_readable : forall p, snd (fetch (m_srv m') (e_clock E 0) (mkFreq (Some (m_id m')) (Some (m_id m))) (m_subs m')) = Ok p ->
                          decode jwks_of p <> None
}.

(** an entity by itself *)
Record sound (E : cenv) (m : member) : Prop := mkSound {
  so_id : m_id m <> "" /\ clean (m_id m);
  so_key : exists ks, jwks_of (fs_jwks (m_srv m)) = Some ks /\ In (m_key m) ks;
  so_dicts : dicts_ok (m_srv m) (m_subs m);
  so_policies : policies_ok (m_srv m);
  so_marks : exists a, marks_args (m_marks m) = Ok a;
  so_readable : forall p, entity_configuration (m_srv m) (m_whole m) (m_marks m) (e_clock E 0) = Ok p ->
                          decode jwks_of p <> None;
  so_hints : forall a, In a (superiors_of m) -> clean a;
  so_lifetimes : forall sub e v, dget sub (m_subs m) = Some e -> dget "lifetime" e = Some v ->
                                 exists z, v = VInt z /\ (0 < z)%Z /\ (e_delta E < z)%Z
}.

(** the entities of [F] run this library, and there is nobody else *)
Record library_run (F : list member) (E : cenv) : Prop := mkLibrary {
  lf_net : forall n q, e_net E n q = library_net jwks_of F (e_clock E) n q;
  lf_clock : forall n, e_clock E n = e_clock E 0;
  lf_picks : forall k p, lib_picks (e_lib E) (TJws k p) k = true;
  lf_valid : forall n p z, s_exp p = Some z -> (n < z)%Z -> lib_valid (e_lib E) n p = true;
  lf_delta : (e_delta E < 86400)%Z;
  lf_ids : forall m m', In m F -> In m' F -> m_id m = m_id m' -> m = m';
  lf_homes : forall m m', In m F -> In m' F -> m_home m = m_home m' -> m = m';
  lf_fetches : forall m m', In m F -> In m' F -> m_fetch m = m_fetch m' -> m_fetch m <> "" -> m = m';
  lf_place : forall m, In m F ->
    m_home m = e_wk E (m_id m) \/
    (m_home m = e_tenant E (m_id m) /\ e_tenant E (m_id m) <> e_wk E (m_id m) /\
     forall m', In m' F -> m_home m' <> e_wk E (m_id m));
  lf_sound : forall m, In m F -> sound E m;
  lf_superiors : forall m a, In m F -> In a (superiors_of m) -> exists m', In m' F /\ m_id m' = a /\ serves E m' m
}.

Definition no_stmt : stmt := mkStmt "" "" None None None None None None.

Definition by_id (F : list member) (e : string) : option member := find (fun m => String.eqb (m_id m) e) F.

Definition reading (r : res (dict val)) : stmt :=
  match r with Ok p => match decode jwks_of p with Some st => st | None => no_stmt end | Err _ => no_stmt end.

(** what they say *)
Definition library_world (F : list member) (now : Z) : world := mkWorld
  (fun e => match by_id F e with
            | Some m => reading (entity_configuration (m_srv m) (m_whole m) (m_marks m) now)
            | None => no_stmt
            end)
  (fun a e => match by_id F a with
              | Some m => reading (snd (fetch (m_srv m) now (mkFreq (Some a) (Some e)) (m_subs m)))
              | None => no_stmt
              end)
  (fun e => match by_id F e with Some m => m_key m | None => 0 end).

Section Run.
Context (F : list member) (E : cenv).
Hypothesis L : library_run F E.

Notation now0 := (e_clock E 0).
Notation W := (library_world F now0).

Lemma by_id_In m : In m F -> by_id F (m_id m) = Some m.
Proof.
  intros Hm. unfold by_id. destruct (find _ F) as [m'|] eqn:Ef.
  - apply find_some in Ef. destruct Ef as [H1 H2]. apply String.eqb_eq in H2. f_equal. apply (lf_ids _ _ L); auto.
  - apply (find_none _ _ Ef) in Hm. rewrite String.eqb_refl in Hm. discriminate.
Qed.

Lemma by_id_some e m : by_id F e = Some m -> In m F /\ m_id m = e.
Proof. unfold by_id. intros H. apply find_some in H. destruct H as [H1 H2]. apply String.eqb_eq in H2. auto. Qed.

(** the configuration of a member *)
Lemma configuration_of_member m : In m F ->
  exists p st, entity_configuration (m_srv m) (m_whole m) (m_marks m) now0 = Ok p /\ decode jwks_of p = Some st /\
    w_config W (m_id m) = st /\ s_iss st = m_id m /\ s_sub st = m_id m /\ vouches_for st (m_key m) /\
    s_exp st = Some (now0 + 86400)%Z /\
    (match s_hints st with Some h => h | None => [] end) = superiors_of m /\
    claim (as_dict_of (as_dict_of Some)) "metadata" p = Some (s_metadata st) /\
    dget "metadata" p = if_truthy (Some (VDict (published_metadata (m_srv m) (m_whole m)))).
Proof.
  intros Hm. destruct (lf_sound _ _ L m Hm) as [_ [ks [Hk Hin]] _ _ [a Ha] Hr _ _].
  destruct (configuration_total (m_srv m) (m_whole m) (m_marks m) now0 a Ha) as [p Hp].
  specialize (Hr p Hp). destruct (decode jwks_of p) as [st|] eqn:Ed; [|congruence].
  exists p, st. split; [exact Hp|]. split; [exact Ed|].
  split. { cbn [library_world w_config]. rewrite (by_id_In m Hm), Hp. cbn [reading]. rewrite Ed. reflexivity. }
  destruct (configuration_claims _ _ _ _ _ Hp) as (a' & Ha' & Hc).
  destruct (decode_fields _ _ _ Ed) as (D1 & D2 & D3 & D4 & D5 & _ & _ & D8).
  assert (A : a' = [] \/ exists v, a' = [("trust_marks", v)]) by exact (marks_keys _ _ Ha').
  set (args := _ :: _ ++ a') in Hc.
  assert (G : dget "iss" args = None /\ dget "jwks" args = None /\ dget "include_jwks" args = None /\
              dget "lifetime" args = None /\ dget "authority_hints" args = fs_hints (m_srv m)).
  { unfold args. destruct A as [->|[v ->]]; destruct (fs_hints (m_srv m)); cbn; auto. }
  destruct G as (_ & G2 & G3 & G4 & G5).
  rewrite Hc in D1, D2. cbn in D1, D2. injection D1 as D1. injection D2 as D2.
  split; [symmetry; exact D1|]. split; [symmetry; exact D2|]. split; [|split; [|split; [|split]]].
  - unfold claim in D4. rewrite Hc in D4. unfold claim_of in D4. cbn -[dget truthy arg_or] in D4. rewrite G2 in D4.
    unfold arg_or in D4. rewrite G3 in D4. cbn [truthy] in D4. rewrite Hk in D4. cbn [option_map] in D4.
    injection D4 as D4. exists ks. split; [symmetry; exact D4|exact Hin].
  - unfold claim in D3. rewrite Hc in D3. unfold claim_of, arg_or in D3. cbn -[dget Z.add] in D3. rewrite G4 in D3.
    cbn -[Z.add] in D3. injection D3 as D3. symmetry. exact D3.
  - unfold claim in D8. rewrite Hc in D8. unfold claim_of in D8. cbn -[dget if_truthy] in D8. rewrite G5 in D8.
    unfold superiors_of. destruct (fs_hints (m_srv m)) as [[|b|z|s|l|d]|]; cbn in D8;
      try (injection D8 as <-; reflexivity).
    + destruct b; cbn in D8; [discriminate|]. injection D8 as <-. reflexivity.
    + destruct (Z.eqb z 0); cbn in D8; [|discriminate]. injection D8 as <-. reflexivity.
    + destruct (String.eqb s ""); cbn in D8; [|discriminate]. injection D8 as <-. reflexivity.
    + destruct l as [|x l]; [cbn in D8 |- *; injection D8 as <-; reflexivity|]. cbn [is_nil negb] in D8.
      change (option_map Some (omap as_str (x :: l)) = Some (s_hints st)) in D8.
      destruct (omap as_str (x :: l)) as [hs|]; [|discriminate]. injection D8 as <-. reflexivity.
    + destruct (is_nil d); cbn in D8; [|discriminate]. injection D8 as <-. reflexivity.
  - exact D5.
  - rewrite Hc. unfold claim_of. reflexivity.
Qed.

Lemma find_home m : In m F -> find (fun x => String.eqb (m_home x) (m_home m)) F = Some m.
Proof.
  intros Hm. destruct (find _ F) as [m'|] eqn:Ef.
  - apply find_some in Ef. destruct Ef as [H1 H2]. apply String.eqb_eq in H2. f_equal. apply (lf_homes _ _ L); auto.
  - apply (find_none _ _ Ef) in Hm. rewrite String.eqb_refl in Hm. discriminate.
Qed.

Lemma home_serves m n : In m F -> e_net E n (QDoc (m_home m)) = RText (Some (own W (m_id m))).
Proof.
  intros Hm. rewrite (lf_net _ _ L). cbn [library_net]. rewrite (find_home m Hm), (lf_clock _ _ L n).
  destruct (configuration_of_member m Hm) as (p & st & Hp & Hd & Hw & _). rewrite Hp. cbn [answer]. rewrite Hd.
  unfold own. rewrite Hw. cbn [library_world w_key]. rewrite (by_id_In m Hm). reflexivity.
Qed.

Lemma member_published m : In m F -> published W E (m_id m).
Proof.
  intros Hm. destruct (lf_place _ _ L m Hm) as [Hp|(Hp & Hne & Hno)].
  - left. rewrite <- Hp. apply home_serves, Hm.
  - right. split; [|split; [exact Hne|rewrite <- Hp; apply home_serves, Hm]].
    rewrite (lf_net _ _ L). cbn [library_net]. destruct (find _ F) as [m'|] eqn:Ef; [|reflexivity].
    apply find_some in Ef. destruct Ef as [H1 H2]. apply String.eqb_eq in H2. exfalso. exact (Hno m' H1 H2).
Qed.

(** the statement of a superior *)
Lemma fetched m' m : In m' F -> In m F -> m_id m <> m_id m' -> serves E m' m ->
  exists p st, snd (fetch (m_srv m') now0 (mkFreq (Some (m_id m')) (Some (m_id m))) (m_subs m')) = Ok p /\
    decode jwks_of p = Some st /\ w_about W (m_id m') (m_id m) = st /\
    s_iss st = m_id m' /\ s_sub st = m_id m /\ vouches_for st (m_key m).
Proof.
  intros Hm' Hm Hne [S1 S2 (e & ks & v & R1 & R2 & R3 & R4 & R5) S4].
  destruct (lf_sound _ _ L m' Hm') as [[I1 _] _ Hd Hp _ _ _ _].
  destruct (lf_sound _ _ L m Hm) as [[I2 _] _ _ _ _ _ _ _].
  set (q := mkFreq (Some (m_id m')) (Some (m_id m))) in *.
  assert (Iq : issuer_of (m_srv m') q = m_id m').
  { unfold issuer_of, q. cbn [fq_iss]. destruct (m_id m') as [|c s] eqn:Em; [contradiction|reflexivity]. }
  assert (Wq : wanted (m_srv m') q = m_id m).
  { unfold wanted, q. cbn [fq_sub]. destruct (String.eqb_spec (m_id m) ""); [contradiction|reflexivity]. }
  assert (Oq : own_request (m_srv m') q = false).
  { unfold own_request. rewrite Iq. unfold q. cbn [fq_sub]. apply orb_false_iff. split; apply String.eqb_neq; assumption. }
  destruct (C50_known_answered (m_srv m') now0 q (m_subs m') e Hd Iq) as (db' & p & Hf).
  { rewrite Wq. exact Hne. } { rewrite Wq. exact R1. } { rewrite Wq. exact R2. }
  assert (Hs : snd (fetch (m_srv m') now0 q (m_subs m')) = Ok p) by (rewrite Hf; reflexivity).
  specialize (S4 p Hs). destruct (decode jwks_of p) as [st|] eqn:Ed; [|congruence].
  exists p, st. split; [exact Hs|]. split; [exact Ed|]. split.
  { cbn [library_world w_about]. rewrite (by_id_In m' Hm'). fold q. rewrite Hs. cbn [reading]. rewrite Ed. reflexivity. }
  destruct (C50_known_subjects_partial _ _ _ _ _ _ Hd Iq Hf) as (K1 & K2 & _).
  assert (K3 := C67_registered_keys_partial (m_srv m') now0 q (m_subs m') db' p v e Hd Hp Oq).
  rewrite Wq in K3. specialize (K3 R1 R3 Hf).
  destruct (decode_fields _ _ _ Ed) as (D1 & D2 & _ & D4 & _).
  rewrite D1 in K1. injection K1 as K1. rewrite D2, Wq in K2. injection K2 as K2.
  split; [exact K1|]. split; [exact K2|].
  destruct (claim_get _ _ _ _ _ _ K3 D4) as (b & Eb & Fb). rewrite R4 in Fb. injection Fb as <-.
  exists ks. auto.
Qed.

Lemma find_fetch m : In m F -> m_fetch m <> "" ->
  find (fun x => negb (String.eqb (m_fetch m) "") && String.eqb (m_fetch x) (m_fetch m)) F = Some m.
Proof.
  intros Hm Hne. apply String.eqb_neq in Hne. rewrite Hne. apply String.eqb_neq in Hne. cbn [negb andb]. destruct (find _ F) as [m'|] eqn:Ef.
  - apply find_some in Ef. destruct Ef as [H1 H2]. apply String.eqb_eq in H2. f_equal. symmetry. apply (lf_fetches _ _ L); auto.
  - apply (find_none _ _ Ef) in Hm. rewrite String.eqb_refl in Hm. discriminate.
Qed.

Lemma member_superiors m : In m F -> superiors W (m_id m) = superiors_of m.
Proof.
  intros Hm. destruct (configuration_of_member m Hm) as (p & st & _ & _ & Hw & _ & _ & _ & _ & Hh & _).
  unfold superiors. rewrite Hw. exact Hh.
Qed.

Lemma reaches_member stop m e : In m F -> reaches W stop (m_id m) e -> exists m', In m' F /\ m_id m' = e.
Proof.
  intros Hm R. induction R as [|a b R IH Hb]; [eauto|]. destruct IH as (m' & Hm' & <-).
  unfold above in Hb. destruct (String.eqb (m_id m') stop); [destruct Hb|].
  rewrite (member_superiors m' Hm') in Hb. destruct (lf_superiors _ _ L m' b Hm' Hb) as (m2 & H1 & H2 & _). eauto.
Qed.

Lemma library_well_run stop m : In m F ->
  (forall x, In x F -> ~ In (m_id x) (superiors_of x)) -> well_run W E stop (m_id m).
Proof.
  intros Hm Hself. constructor.
  - intros e R. destruct (reaches_member stop m e Hm R) as (m' & Hm' & <-).
    destruct (configuration_of_member m' Hm') as (p & st & _ & _ & Hw & H1 & H2 & H3 & _).
    split; [apply member_published, Hm'|]. rewrite Hw. split; [exact H1|]. split; [exact H2|].
    split; [apply (lf_sound _ _ L m' Hm')|]. cbn [library_world w_key]. rewrite (by_id_In m' Hm'). exact H3.
  - intros e a R Ha. destruct (reaches_member stop m e Hm R) as (m1 & Hm1 & <-).
    unfold above in Ha. destruct (String.eqb (m_id m1) stop); [destruct Ha|].
    rewrite (member_superiors m1 Hm1) in Ha.
    destruct (lf_superiors _ _ L m1 a Hm1 Ha) as (m2 & Hm2 & <- & Hs).
    assert (Hne : m_id m1 <> m_id m2).
    { intros Eq. apply (Hself m1 Hm1). rewrite Eq. exact Ha. }
    destruct (fetched m2 m1 Hm2 Hm1 Hne Hs) as (p & st & Hf & Hd & Hw & H1 & H2 & H3).
    rewrite Hw. split; [exact H1|]. split; [exact H2|].
    split. { cbn [library_world w_key]. rewrite (by_id_In m1 Hm1). exact H3. }
    destruct Hs as [S1 (md & M1 & M2) _ _].
    exists (m_fetch m2). split; [|split; [exact (proj1 S1)|]].
    + destruct (configuration_of_member m2 Hm2) as (p2 & st2 & _ & _ & Hw2 & _ & _ & _ & _ & _ & Hc2 & Hg2).
      rewrite Hw2. destruct (published_metadata (m_srv m2) (m_whole m2)) as [|kv rest] eqn:Ep; [discriminate M1|].
      rewrite <- Ep in *. assert (T : truthy (VDict (published_metadata (m_srv m2) (m_whole m2))) = true) by (rewrite Ep; reflexivity).
      unfold if_truthy in Hg2. rewrite T in Hg2.
      destruct (claim_get _ _ _ _ _ _ Hg2 Hc2) as (tm & Et & Ft).
      assert (X := as_dict_get _ _ _ _ "federation_entity" Ft). rewrite M1 in X. destruct X as (fe & Hfe & Gfe).
      assert (Y := as_dict_get _ _ _ _ "federation_fetch_endpoint" Hfe). rewrite M2 in Y. destruct Y as (b & [= <-] & Gb).
      exists tm, fe. auto.
    + rewrite (lf_net _ _ L). cbn [library_net]. rewrite (sees_location _ _ _ S1) by (apply (lf_sound _ _ L); assumption).
      rewrite (find_fetch m2 Hm2 (proj1 S1)). cbn [dget String.eqb Ascii.eqb Bool.eqb]. rewrite Hf. cbn [answer]. rewrite Hd.
      cbn [library_world w_key]. rewrite (by_id_In m2 Hm2). reflexivity.
  - apply (lf_picks _ _ L).
  - intros e R. destruct (reaches_member stop m e Hm R) as (m1 & Hm1 & <-).
    destruct (configuration_of_member m1 Hm1) as (p & st & _ & _ & Hw & _ & _ & _ & Hx & _).
    apply (lf_valid _ _ L _ _ (now0 + 86400)%Z); rewrite ?Hw; [exact Hx|]. lia.
Qed.

(** every statement stays valid for a while *)
Lemma library_fresh : serves_fresh E.
Proof.
  intros n q k p H. rewrite (lf_net _ _ L) in H. destruct q as [u|ep i x]; cbn [library_net] in H.
  - destruct (find _ F) as [m|] eqn:Ef; [|discriminate]. apply find_some in Ef. destruct Ef as [Hm _].
    rewrite (lf_clock _ _ L n) in H. destruct (configuration_of_member m Hm) as (c & st & Hp & Hd & _ & _ & _ & _ & Hx & _).
    rewrite Hp in H. cbn [answer] in H. rewrite Hd in H. injection H as _ <-. exists (now0 + 86400)%Z.
    split; [exact Hx|]. pose proof (lf_delta _ _ L). lia.
  - destruct (server_sees _) as [loc ps].
    destruct (find _ F) as [m|] eqn:Ef; [|discriminate]. apply find_some in Ef. destruct Ef as [Hm _].
    rewrite (lf_clock _ _ L n) in H. set (q := mkFreq (dget "iss" ps) (dget "sub" ps)) in H.
    destruct (fetch (m_srv m) now0 q (m_subs m)) as [db' [c|e]] eqn:Hf; cbn [snd answer] in H; [|discriminate].
    destruct (decode jwks_of c) as [st|] eqn:Hd; [|discriminate]. injection H as _ <-.
    destruct (lf_sound _ _ L m Hm) as [_ _ Hdi Hpo _ _ _ Hl].
    assert (Hl' : forall sub e v, dget sub (m_subs m) = Some e -> dget "lifetime" e = Some v -> exists z, v = VInt z /\ (0 < z)%Z).
    { intros sub e v H1 H2. destruct (Hl sub e v H1 H2) as (z & H3 & H4 & _). eauto. }
    destruct (C70_expires_partial _ _ _ _ _ _ Hdi Hpo Hl' Hf) as (z & Hz & Hpos & Hz').
    destruct (decode_fields _ _ _ Hd) as (_ & _ & D3 & _).
    destruct (claim_get _ _ _ _ _ _ Hz D3) as (b & Eb & [= <-]). exists (now0 + z)%Z. split; [exact Eb|].
    destruct Hz' as [->|(e & H1 & H2)]; [pose proof (lf_delta _ _ L); lia|].
    destruct (Hl _ _ _ H1 H2) as (z' & [= <-] & _ & H3). lia.
Qed.

Lemma library_static : static E.
Proof.
  split; [|apply (lf_clock _ _ L)]. intros n q. rewrite !(lf_net _ _ L).
  destruct q; cbn [library_net]; [|destruct (server_sees _)]; rewrite (lf_clock _ _ L n); reflexivity.
Qed.

(** configurations come from the endpoints of members; statements about others have another issuer *)
Lemma library_clean : clean_federation E (mkState [] [] 0).
Proof.
  intros i c hints a [(t & n & _ & Hs & k & ks & -> & _)|(e & He & _)] Hh Ha; [|discriminate].
  assert (D : exists m, In m F /\ w_config W (m_id m) = c).
  { destruct Hs as [Hs|Hs]; rewrite (lf_net _ _ L) in Hs; cbn [library_net] in Hs;
      (destruct (find _ F) as [m|] eqn:Ef; [|discriminate]; apply find_some in Ef; destruct Ef as [Hm _]; exists m;
       split; [exact Hm|]; rewrite (lf_clock _ _ L n) in Hs;
       destruct (configuration_of_member m Hm) as (p & st & Hp & Hd & Hw & _);
       rewrite Hp in Hs; cbn [answer] in Hs; rewrite Hd in Hs; injection Hs as _ <-; exact Hw). }
  destruct D as (m & Hm & Hw). destruct (configuration_of_member m Hm) as (p & st & _ & _ & Hw' & _ & _ & _ & _ & Hsup & _).
  rewrite Hw in Hw'. subst st. rewrite Hh in Hsup. apply (so_hints _ _ (lf_sound _ _ L m Hm)). rewrite <- Hsup. exact Ha.
Qed.

Lemma library_quiet m : In m F -> quiet E (m_id m).
Proof.
  intros Hm. split; [exact library_static|]. split; [exact library_fresh|]. split; [exact library_clean|].
  apply (lf_sound _ _ L m Hm).
Qed.

End Run.
End Library.
