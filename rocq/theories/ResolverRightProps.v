(** Resolvers in a federation whose requests fail while time passes (C176). *)
From Verif Require Import PyFacts ExampleKit CollectorProps CollectorRepeat CollectorRepeatProps VerifierFacts FetchFacts PolicyProps FederationProps.
From Verif Require Import RpSpec RpFacts ResolveModel ResolveFacts ResolveProps TrustMarkVerifierProps LiveExample LiveResolveProps ClientsRightProps.
From Verif Require Export MotionLive.
From Verif Require Import ResolveFacts.
From Coq Require Import Lia.

(** ** What a resolver does *)
Inductive job :=
| Work (st : step)
| Answer (fuel : nat) (me : string) (jwks : val) (wta : bool) (a id : string) (t : option string).   (* resolve *)

Definition do_job (E : cenv) (O : iter_order) (s : fstate) (j : job) : fstate :=
  match j with
  | Work st => do_step E O s st
  | Answer fuel me jwks wta a id t => fst (resolve E O fuel me jwks wta (ask a id t) s)
  end.

Definition after_jobs (E : cenv) (O : iter_order) (js : list job) (s : fstate) : fstate := fold_left (do_job E O) js s.

(** only members are asked about, and Python's recursion limit is not in the way *)
Definition jobs_about (F : list member) (rank : string -> nat) (js : list job) : Prop :=
  forall j, In j js ->
  match j with
  | Work (Look fuel id) | Work (Ask fuel id) | Answer fuel _ _ _ _ id _ => (exists m, In m F /\ m_id m = id) /\ rank id < fuel
  | Work Wait => True
  end.

Definition all_checkable_upto (jwks_of : val -> option (list key)) (F : list member) (E : cenv) : Prop :=
  forall top m, In m F -> checkable_upto jwks_of F E top (m_id m).

(** [l] has the statements named, or nothing in their place *)
Definition nothing_else (l : list (option esval)) (names : list (option (string * string))) : Prop :=
  Forall2 (fun o n => o = None \/ names_in o = n) l names.

Section Resolver.
Context (jwks_of : val -> option (list key)) (F : list member) (E : cenv) (rank : string -> nat).
Context (L : library_shaky jwks_of F E) (HR : hierarchy F rank) (HU : all_checkable jwks_of F E) (HT : all_checkable_upto jwks_of F E).
Notation N0 := (library_net jwks_of F (e_clock E) 0).
Notation E0 := (freeze N0 E).
Notation W := (library_world jwks_of F (e_clock E 0)).
Let L0 := ls_run jwks_of F E L.

(** what the federation at the beginning shows *)
Lemma standing_upto a O fuel m kj : checkable_upto jwks_of F E a (m_id m) -> In m F -> rank (m_id m) < fuel -> right_keys F kj ->
  exists tr0 leaf0 kj' tcs0,
    pcollect E0 fuel a (m_id m) = Ok (Some (tr0, leaf0)) /\
    verify_trust_chains E0 (map (map tok_of) (tree2chains tr0)) [leaf0] kj = (kj', Ok tcs0) /\
    right_keys F kj' /\ (forall x, In x F -> superiors_of x = [] -> dget (m_id x) kj' = dget (m_id x) kj) /\
    forall cs0, apply_policies O tcs0 = Ok cs0 -> forall c, In c cs0 ->
      exists rt, usable_upto jwks_of F E kj a (m_id m) rt /\ end_of (m_id m) rt = ch_anchor c /\
        tc_iss_path (ch_tc c) = m_id m :: rt /\ adjusted O jwks_of F E (m_id m) rt (ch_md c) /\
        map s_jwks (ch_verified c) = map s_jwks (said jwks_of F E (m_id m) rt).
Proof.
  intros CK Hm Hf J. assert (Q := library_quiet _ _ _ L0 m Hm). assert (HF := proj1 (proj2 Q)).
  assert (WR' := upto_run _ _ _ rank L0 HR a m Hm). assert (RK := upto_ranked _ _ _ rank L0 HR a m Hm).
  assert (CC : constraints_clear W a (m_id m)).
  { intros rt Hrt. apply CK. exact (route_upto _ _ _ L0 a _ _ Hrt m Hm eq_refl). }
  assert (V : visited E0 (f_col (fresh_start kj))) by constructor.
  destruct (collect_routes E0 W a (m_id m) rank fuel (fresh_start kj) Q V WR' RK Hf) as (s1 & chains & C1 & C2 & C3 & C4 & C6 & C5).
  destruct (verify_routes E0 W a (m_id m) WR' HF kj CC chains) with (kj := kj) (acc := @nil trust_chain)
    as (kj' & tcs & V1 & V2 & V3 & V4 & V5).
  { intros c Hin. apply C5, Hin. }
  { exact (upto_jar _ _ _ L0 a m _ Hm J). }
  { intros e _. reflexivity. }
  cbn [app] in V1. change (verify_trust_chains E0 chains [own W (m_id m)] kj = (kj', Ok tcs)) in V1.
  assert (Q' := Q). destruct Q' as (HS & HF' & HC & Hid). assert (HC' := hints_clean E0 _ HS HC).
  destruct (collect_eq E0 HS HF' HC' a fuel (m_id m) Hid (f_col (fresh_start kj)) (visited_consistent E0 HS HF' HC' _ V)) as (s2 & E1 & _).
  unfold collect_trust_chains, mbind, on_col in C1. rewrite E1 in C1.
  assert (Vr : right_keys F kj').
  { assert (JK : jar_ok W (fun e => exists x, In x F /\ m_id x = e) kj').
    { rewrite (verify_all _ _ _ _ _ _ V1). apply after_calls_jar.
      - intros e ks (x & Hx & <-) Hd. cbn [library_world w_key]. rewrite (by_id_In _ _ _ L0 x Hx). exact (J x ks Hx Hd).
      - intros k p Hin. apply in_flat_map in Hin. destruct Hin as (c & Hc & Hin).
        apply in_map_iff in Hc. destruct Hc as (c' & <- & Hc). rewrite FederationProps.jws_app in Hin. apply in_app_iff in Hin.
        destruct Hin as [Hin|[Hin|[]]].
        + apply C5 in Hc. destruct Hc as (r & Hr & _ & ->).
          exact (along_vouch E0 W a (m_id m) WR' r (m_id m) k p (reaches_self W a (m_id m)) Hr Hin).
        + assert (Ep : p = w_config W (m_id m)) by (injection Hin as _ Hp; symmetry; exact Hp). rewrite Ep.
          destruct (wr_config _ _ _ _ WR' (m_id m) (reaches_self W a (m_id m))) as (_ & _ & Hs & _ & Hv).
          change (e_clock E0 0) with (e_clock E 0) in Hs, Hv. unfold vouched in *. rewrite Hs. exact Hv. }
    intros x ks Hx Hd. assert (G := JK (m_id x) ks (ex_intro _ x (conj Hx eq_refl)) Hd).
    cbn [library_world w_key] in G. rewrite (by_id_In _ _ _ L0 x Hx) in G. exact G. }
  assert (Vt : forall x, In x F -> superiors_of x = [] -> dget (m_id x) kj' = dget (m_id x) kj).
  { intros x Hx Hs. apply V3. assert (A := above_to _ _ _ L0 a x Hx). change (e_clock E0 0) with (e_clock E 0) in A. rewrite A. destruct (String.eqb _ _); [reflexivity|exact Hs]. }
  assert (C5' : forall c, In c chains -> exists r, route W a (m_id m) r /\ r <> [] /\ c = along W (m_id m) r) by (intros c Hc; apply C5, Hc).
  clear C5.
  destruct (pcollect E0 fuel a (m_id m)) as [[[tr leaf]|]|x]; [| |discriminate]; [|discriminate].
  remember (own W (m_id m)) as ow eqn:How. unfold ret in C1.
  assert (C1a : chains = map (map tok_of) (tree2chains tr)) by congruence. assert (C1b : ow = leaf) by congruence. clear C1.
  exists tr, leaf, kj', tcs. split; [reflexivity|]. split; [rewrite <- C1a, <- C1b; exact V1|]. split; [exact Vr|]. split; [exact Vt|].
  intros cs0 Ha c Hc. destruct (proj1 (FederationProps.mapM_In _ _ _ _ _ Ha) c Hc) as (tc & Ht & Hap).
  assert (KJ := apply_keeps_jwks _ _ _ Hap). unfold apply_to_chain in Hap. apply bind_ok in Hap. destruct Hap as ([md ves] & Hp & Eq). injection Eq as Eq.
  destruct (V4 tc Ht) as (rt & R1 & R2 & R3 & R4 & R5 & R6 & R7 & R8). exists rt. rewrite <- Eq. unfold ch_anchor. cbn [ch_tc ch_md tc_anchor tc_iss_path].
  split; [|split; [|split]].
  - apply (usable_route _ _ _ L0 a m kj rt Hm). split; [exact R1|]. split; [exact R2|]. split; [exact R4|exact R5].
  - congruence.
  - pose proof Ht as Hs. apply (verify_chains_spec E0 _ chains _ _ _ V1) in Hs. destruct Hs as (pre & ch & post & _ & Hv).
    apply call_ok in Hv. destruct Hv as (_ & _ & _ & -> & _). rewrite R7. apply (claims_issuers E0 W a (m_id m) WR' rt R1).
  - split; [exists ves; cbn [fst snd] in *; rewrite R7 in Hp; exact Hp|].
    rewrite R7 in KJ. rewrite <- Eq in KJ. exact KJ.
Qed.

(** ** Chains read from the caches *)
Lemma conf_read n0 id s s' r : MotionFacts.J E N0 n0 s -> get_chain_config E id s = (s', r) ->
  MotionFacts.J E N0 n0 s' /\
  forall t, r = Ok t -> exists k p p0, t = TJws k p /\ pverified E0 id = Ok (TJws k p0, p0) /\ settle p = settle p0.
Proof.
  intros Hs. unfold get_chain_config, mbind.
  destruct (r_cfg_getitem E N0 n0 id s Hs) as [(e & G & D)|[[G D]|(s1 & G & _ & J1 & _)]]; rewrite G.
  - destruct (proj1 (proj2 Hs) id e D) as (n & u & k & p & p0 & z & _ & _ & _ & _ & -> & H1 & H2). cbn [ce_jws]. unfold ret.
    intros [= <- <-]. split; [exact Hs|]. intros t [= <-]. exists k, p, p0. auto.
  - unfold raise. intros [= <- <-]. split; [exact Hs|]. discriminate.
  - unfold raise. intros [= <- <-]. split; [exact J1|]. discriminate.
Qed.

Lemma member_clean x : In x F -> clean (m_id x).
Proof. intros Hx. exact (proj2 (so_id _ _ _ (lf_sound _ _ _ L0 x Hx))). Qed.

Lemma names_settle p q : settle p = settle q -> names_of p = names_of q.
Proof. intros H. destruct (settle_fields _ _ H) as (H1 & H2 & _). unfold names_of. rewrite H1, H2. reflexivity. Qed.

Lemma conf_names m k p p0 : In m F -> pverified E0 (m_id m) = Ok (TJws k p0, p0) -> settle p = settle p0 ->
  names_of p = (m_id m, m_id m).
Proof.
  intros Hm Hv Hp. rewrite (names_settle _ _ Hp).
  assert (V := wr_pverified E0 W "" (m_id m) (upto_run _ _ _ rank L0 HR "" m Hm) (m_id m) (reaches_self _ _ _)).
  rewrite V in Hv. assert (X : p0 = w_config W (m_id m)) by congruence. rewrite X. exact (config_names _ _ _ rank L0 HR m Hm).
Qed.

Lemma stmts_read n0 a e rt s : MotionFacts.J E N0 n0 s -> upto F a e rt ->
  exists vs, get_chain_statements E (e :: rt) s = (s, Ok vs) /\ nothing_else vs (map Some (upwards e rt)).
Proof.
  intros Hs. induction 1 as [m Hm Hs'|m b r Hm Hn Hb Hr IH]; [exists []; split; [reflexivity|constructor]|].
  destruct IH as (vs & I1 & I2). destruct (lf_superiors _ _ _ L0 m b Hm Hb) as (m' & Hm' & Eb & _). subst b.
  rewrite chain_statements_cons.
  assert (G : exists o, es_getitem E (cache_key (m_id m') (m_id m)) s = (s, Ok o) /\
                        (o = None \/ names_in o = Some (m_id m', m_id m))).
  { unfold es_getitem, cache_getitem. destruct (dget (cache_key (m_id m') (m_id m)) (st_es s)) as [v|] eqn:Ed.
    2:{ exists None. destruct s; auto. }
    destruct (proj2 (proj2 Hs) _ _ _ (member_clean m' Hm') (member_clean m Hm) Ed) as [(k & p & p0 & z & -> & _ & _ & P & Hp) _].
    exists (Some (ESTok (TJws k p))). split; [destruct s; reflexivity|]. right. cbn [names_in]. f_equal. rewrite (names_settle _ _ Hp).
    assert (Ha : In (m_id m') (above W a (m_id m))).
    { assert (A := above_to _ _ _ L0 a m Hm). change (e_clock E0 0) with (e_clock E 0) in A. rewrite A. destruct (String.eqb_spec (m_id m) a); [contradiction|exact Hb]. }
    assert (WR' := upto_run _ _ _ rank L0 HR a m Hm).
    rewrite (wr_pstatement E0 W a (m_id m) WR' (library_fresh _ _ _ L0) (m_id m) (m_id m') (reaches_self _ _ _) Ha) in P.
    assert (X : p0 = w_about W (m_id m') (m_id m)) by congruence. rewrite X.
    destruct (wr_about _ _ _ _ WR' (m_id m) (m_id m') (reaches_self _ _ _) Ha) as (H1 & H2 & _).
    change (e_clock E0 0) with (e_clock E 0) in H1, H2. unfold names_of. rewrite H1, H2. reflexivity. }
  destruct G as (o & G1 & G2). exists (o :: vs). unfold mbind. rewrite G1, I1. split; [reflexivity|]. cbn [upwards map]. constructor; assumption.
Qed.

Lemma chain_reads n0 a m rt wta s s' r : MotionFacts.J E N0 n0 s -> In m F -> upto F a (m_id m) rt -> (exists x, In x F /\ m_id x = a) ->
  get_chain E (m_id m :: rt) a wta s = (s', r) ->
  MotionFacts.J E N0 n0 s' /\
  forall l, r = Ok l -> nothing_else l (Some (m_id m, m_id m) :: map Some (upwards (m_id m) rt) ++ (if wta then [Some (a, a)] else [])).
Proof.
  intros Hs Hm Hu (x & Hx & <-). unfold get_chain. unfold mbind at 1.
  destruct (get_chain_config E (m_id m) s) as [s1 r1] eqn:E1. destruct (conf_read n0 _ _ _ _ Hs E1) as [J1 C1].
  destruct r1 as [t|y]; [|intros [= <- <-]; split; [exact J1|discriminate]].
  destruct (C1 t eq_refl) as (k & p & p0 & -> & P1 & P2). unfold mbind at 1.
  destruct (stmts_read n0 _ _ rt s1 J1 Hu) as (vs & S1 & S2). rewrite S1.
  assert (HD : Some (ESTok (TJws k p)) = None \/ names_in (Some (ESTok (TJws k p))) = Some (m_id m, m_id m)).
  { right. cbn [names_in]. rewrite (conf_names m k p p0 Hm P1 P2). reflexivity. }
  destruct wta.
  - unfold mbind. destruct (get_chain_config E (m_id x) s1) as [s2 r2] eqn:E2. destruct (conf_read n0 _ _ _ _ J1 E2) as [J2 C2].
    destruct r2 as [t|y]; unfold ret; intros [= <- <-]; (split; [exact J2|]); [|discriminate].
    destruct (C2 t eq_refl) as (k' & q & q0 & -> & Q1 & Q2). intros l [= <-]. constructor; [exact HD|].
    apply Forall2_app; [exact S2|]. constructor; [|constructor]. right. cbn [names_in]. rewrite (conf_names x k' q q0 Hx Q1 Q2). reflexivity.
  - unfold ret. intros [= <- <-]. split; [exact J1|]. intros l [= <-]. rewrite app_nil_r. constructor; [exact HD|exact S2].
Qed.

Lemma upto_end_member a e rt : upto F a e rt -> exists x, In x F /\ m_id x = end_of e rt.
Proof. induction 1 as [x Hx _|x b r _ _ _ _ IH]; [exists x; auto|exact IH]. Qed.

(** ** An answer *)
Lemma resolved n0 kj0 O fuel me jwks wta a m t s s' r : In m F -> rank (m_id m) < fuel -> living jwks_of F E n0 kj0 s ->
  resolve E O fuel me jwks wta (ask a (m_id m) t) s = (s', r) ->
  living jwks_of F E n0 kj0 s' /\ f_chains s' = f_chains s /\
  forall resp, r = Ok resp -> exists rt md v,
      usable_upto jwks_of F E (f_keys s) a (m_id m) rt /\ end_of (m_id m) rt = a /\
      adjusted O jwks_of F E (m_id m) rt md /\ asked_for md t v /\ carries (rr_claims resp) v /\
      dget "iss" (rr_claims resp) = Some (VStr me) /\ dget "sub" (rr_claims resp) = Some (VStr (m_id m)) /\
      nothing_else (rr_chain resp)
        (Some (m_id m, m_id m) :: map Some (upwards (m_id m) rt) ++ (if wta then [Some (a, a)] else [])).
Proof.
  intros Hm Hf (H1 & H2 & H3) H. destruct (standing_upto a O fuel m (f_keys s) (HT a m Hm) Hm Hf H2) as (tr0 & leaf0 & kj' & tcs0 & P1 & P2 & P3 & P4 & P5).
  assert (R := r_collect E N0 n0 (moving_alike _ _ _ L) (moving_apart _ _ _ L) (moving_dated _ _ _ L) (dated0 _ _ _ L) (lf_picks _ _ _ L0)
              (moving_valid _ _ _ L) (moving_valid0 _ _ _ L) (moving_clean _ _ _ L) fuel a (m_id m) (f_col s) (member_clean m Hm) H1). unfold runs in R.
  unfold resolve, ask in H. cbn [rq_anchor rq_sub rq_type] in H. unfold mbind at 1 2, lift at 1 2, given in H. cbn beta iota in H.
  unfold collect_trust_chains, on_col in H. unfold mbind at 1 in H. unfold mbind at 1 in H.
  destruct (collect E fuel a (m_id m) (f_col s)) as [c1 r1]. destruct R as (_ & R2 & R3). rewrite P1 in R3.
  assert (Stop : forall x, r1 = Err x -> living jwks_of F E n0 kj0 s' /\ f_chains s' = f_chains s /\ exists y, r = Err y).
  { intros x ->. injection H as <- <-. split; [|split; [reflexivity|eauto]]. split; [exact R2|]. split; [exact H2|exact H3]. }
  destruct r1 as [x|x].
  2:{ destruct (Stop x eq_refl) as (S1 & S2 & y & ->). split; [exact S1|]. split; [exact S2|]. discriminate. }
  clear Stop. destruct R3 as [[_ R3]|[(_ & y & _ & R3)|[R3 _]]]; [discriminate R3..|].
  cbn in R3. injection R3 as R3. destruct x as [[tr leaf]|]; [|discriminate R3].
  cbn in R3. assert (Etr : tmap esk tr = tmap esk tr0) by congruence. assert (El : tk leaf = tk leaf0) by congruence.
  destruct (verify_chains_near E E0 _ _ leaf leaf0 (f_keys s) kj' tcs0 (lf_picks _ _ _ L0) eq_refl (chains_near _ _ Etr) El P2) as (tcs & V & Ht).
  unfold ret at 1 in H. cbn [fst snd] in H. unfold mbind at 1, on_keys in H. cbn [f_keys] in H. rewrite V in H.
  unfold mbind at 1, lift at 1 in H. cbn [f_col f_chains f_keys] in H.
  assert (PN := policies_near O tcs tcs0 Ht).
  assert (LV : forall c, MotionFacts.J E N0 n0 c -> living jwks_of F E n0 kj0 (mkFed c kj' (f_chains s))).
  { intros c Hc. split; [exact Hc|]. split; [exact P3|]. cbn [f_keys]. intros x Hx Hs. rewrite (P4 x Hx Hs). apply H3; assumption. }
  destruct (apply_policies O tcs) as [cs|x].
  2:{ injection H as <- <-. split; [apply LV, R2|]. split; [reflexivity|discriminate]. }
  destruct (apply_policies O tcs0) as [cs0|x0]; [|discriminate PN]. cbn in PN. injection PN as PN.
  destruct (find (fun c => String.eqb a (ch_anchor c)) cs) as [c|] eqn:Ef.
  2:{ injection H as <- <-. split; [apply LV, R2|]. split; [reflexivity|discriminate]. }
  apply find_some in Ef. destruct Ef as [Hin Eanc]. apply String.eqb_eq in Eanc.
  assert (Hc0 : exists c0, In c0 cs0 /\ cck c = cck c0).
  { apply (in_map cck) in Hin. rewrite PN in Hin. apply in_map_iff in Hin. destruct Hin as (c0 & Ec & Hin). eauto. }
  destruct Hc0 as (c0 & Hin0 & Ec). destruct (P5 cs0 eq_refl c0 Hin0) as (rt & U & Hend & Hpath & Hadj & _).
  assert (Q1 : tc_iss_path (ch_tc c) = m_id m :: rt) by (rewrite <- Hpath; unfold cck, tck in Ec; congruence).
  assert (Q2 : ch_md c = ch_md c0) by (unfold cck in Ec; congruence).
  assert (Q3 : ch_anchor c = ch_anchor c0) by (apply cck_names, Ec).
  assert (Hend' : end_of (m_id m) rt = a) by congruence. rewrite <- Q2 in Hadj.
  change (match t with
          | Some t => let* v := md_index (ch_md c) t in Ok (VDict [(t, v)])
          | None => Ok (md_val (ch_md c))
          end) with (metadata_asked (ch_md c) t) in H.
  unfold mbind at 1, lift at 1 in H. destruct (metadata_asked (ch_md c) t) as [v|x] eqn:Em.
  2:{ injection H as <- <-. split; [apply LV, R2|]. split; [reflexivity|discriminate]. }
  apply metadata_asked_ok in Em. rewrite Q1 in H. unfold mbind at 1 in H. cbn [f_col f_keys f_chains] in H.
  destruct (get_chain E (m_id m :: rt) a wta c1) as [c2 r2] eqn:Eg.
  assert (Hx : exists x, In x F /\ m_id x = a) by (rewrite <- Hend'; exact (upto_end_member _ _ _ (proj1 U))).
  destruct (chain_reads n0 a m rt wta c1 c2 r2 R2 Hm (proj1 U) Hx Eg) as [J2 G2].
  destruct r2 as [l|x].
  2:{ injection H as <- <-. split; [apply LV, J2|]. split; [reflexivity|discriminate]. }
  unfold mbind, now, lift, ret in H. cbn [f_col f_keys f_chains] in H.
  destruct (create_total (e_clock E (st_tick c2)) me (m_id m) jwks [("metadata", v)]) as (p & Hp).
  { intros k [<-|[<-|[<-|[]]]]; reflexivity. }
  { intros w Hw. discriminate Hw. }
  rewrite Hp in H. injection H as <- <-. split; [apply LV, J2|]. split; [reflexivity|]. intros resp [= <-]. exists rt, (ch_md c), v.
  assert (ND : NoDup (dkeys [("metadata", v)])) by (apply nodupb_sound; reflexivity).
  assert (Cl := create_claims _ _ _ _ _ _ ND Hp).
  split; [exact U|]. split; [exact Hend'|]. split; [exact Hadj|]. split; [exact Em|]. cbn [rr_claims rr_chain].
  split. { unfold carries. rewrite Cl. reflexivity. }
  split; [rewrite Cl; reflexivity|]. split; [rewrite Cl; reflexivity|]. exact (G2 l eq_refl).
Qed.

Lemma living_jobs n0 kj0 O js : forall s, living jwks_of F E n0 kj0 s -> jobs_about F rank js -> living jwks_of F E n0 kj0 (after_jobs E O js s).
Proof.
  unfold after_jobs. induction js as [|j js IH]; intros s H A; [exact H|]. cbn [fold_left]. apply IH.
  - assert (A0 := A j (or_introl eq_refl)). destruct j as [st|fuel me jwks wta a id t]; cbn [do_job].
    + apply (living_step jwks_of F E rank L HR HU); [exact H|]. exact A0.
    + destruct A0 as [(m & Hm & <-) Hf]. destruct (resolve E O fuel me jwks wta (ask a (m_id m) t) s) as [s' r] eqn:Er.
      exact (proj1 (resolved n0 kj0 O fuel me jwks wta a m t s s' r Hm Hf H Er)).
  - intros j' Hin. apply A. right. exact Hin.
Qed.
End Resolver.

(** While requests fail and time passes, every answer of a resolver is right: it names the entity, has what the policies
    along a path of it to the anchor make of its metadata, and the statements along that path or nothing in their place.
    The resolver knows the keys at the end of the path. *)
Theorem C176_resolver_right : forall jwks_of F E O rank js s0 fuel me jwks wta a m t s' resp,
  library_shaky jwks_of F E -> hierarchy F rank -> all_checkable jwks_of F E -> all_checkable_upto jwks_of F E ->
  newborn s0 -> right_keys F (f_keys s0) -> jobs_about F rank js -> In m F -> rank (m_id m) < fuel ->
  resolve E O fuel me jwks wta (ask a (m_id m) t) (after_jobs E O js s0) = (s', Ok resp) ->
  exists rt md v,
    usable_upto jwks_of F E (f_keys (after_jobs E O js s0)) a (m_id m) rt /\ end_of (m_id m) rt = a /\
    adjusted O jwks_of F E (m_id m) rt md /\ asked_for md t v /\ carries (rr_claims resp) v /\
    dget "iss" (rr_claims resp) = Some (VStr me) /\ dget "sub" (rr_claims resp) = Some (VStr (m_id m)) /\
    nothing_else (rr_chain resp)
      (Some (m_id m, m_id m) :: map Some (upwards (m_id m) rt) ++ (if wta then [Some (a, a)] else [])).
Proof.
  intros jwks_of F E O rank js s0 fuel me jwks wta a m t s' resp L HR HU HT HB Hk HA Hm Hf H.
  assert (V := living_jobs jwks_of F E rank L HR HU HT _ _ O js s0 (living_start jwks_of F E s0 HB Hk) HA).
  exact (proj2 (proj2 (resolved jwks_of F E rank L HR HT _ _ O fuel me jwks wta a m t _ s' _ Hm Hf V H)) resp eq_refl).
Qed.
Print Assumptions C176_resolver_right.

(** the keys the resolver has are still the members' own, and those of the members without superiors are the ones it
    began with *)
Theorem C176_keys : forall jwks_of F E O rank js s0,
  library_shaky jwks_of F E -> hierarchy F rank -> all_checkable jwks_of F E -> all_checkable_upto jwks_of F E ->
  newborn s0 -> right_keys F (f_keys s0) -> jobs_about F rank js ->
  right_keys F (f_keys (after_jobs E O js s0)) /\
  forall x, In x F -> superiors_of x = [] -> dget (m_id x) (f_keys (after_jobs E O js s0)) = dget (m_id x) (f_keys s0).
Proof.
  intros jwks_of F E O rank js s0 L HR HU HT HB Hk HA.
  exact (proj2 (living_jobs jwks_of F E rank L HR HU HT _ _ O js s0 (living_start jwks_of F E s0 HB Hk) HA)).
Qed.
Print Assumptions C176_keys.

(** ta resolves rp: the first two requests come to nothing, the third is answered, and so is one long after *)
Lemma cr_checkable_upto : all_checkable_upto ex_jwks v_fed cr_env.
Proof.
  intros top m Hm rt H.
  assert (Hta : forall r, upto v_fed top "ta" r -> r = []).
  { intros r Hr. inversion Hr as [m1 Hm1 Hs1 E1 E2|m1 a1 r1 Hm1 Hn1 Ha1 Hr1 E1 E2]; [reflexivity|].
    exfalso. clear Hm H. live_members; try discriminate E1. destruct Ha1. }
  assert (Hrt : rt = [] \/ rt = ["ta"]).
  { inversion H as [m0 Hm0 Hs Em Er|m0 a r Hm0 Hn Ha Hr Em Er]; [left; reflexivity|right].
    live_members; try discriminate Em; cbn in Ha; try contradiction; destruct Ha as [<-|[]]; rewrite (Hta r Hr); reflexivity. }
  destruct Hrt as [->| ->]; live_members; eexists; vm_compute; reflexivity.
Qed.

Definition rr_jobs : list job :=
  [Answer 2 "ta" (VInt 1) true "ta" "rp" None; Answer 2 "ta" (VInt 1) true "ta" "rp" None; Work (Look 2 "tmi"); Work Wait;
   Answer 2 "ta" (VInt 1) false "rp" "tmi" None].

Example C176_ex : library_shaky ex_jwks v_fed cr_env /\ hierarchy v_fed v_rank /\ all_checkable ex_jwks v_fed cr_env /\
  all_checkable_upto ex_jwks v_fed cr_env /\ newborn v_start /\ right_keys v_fed (f_keys v_start) /\ jobs_about v_fed v_rank rr_jobs /\
  snd (resolve cr_env id_order 2 "ta" (VInt 1) true (ask "ta" "rp" None) v_start) = Err ConnectionError /\
  snd (resolve cr_env id_order 2 "ta" (VInt 1) true (ask "ta" "rp" None) (after_jobs cr_env id_order (firstn 1 rr_jobs) v_start)) = Err FailedConfigurationRetrieval /\
  exists s' resp, resolve cr_env id_order 2 "ta" (VInt 1) true (ask "ta" "rp" (Some "openid_relying_party")) (after_jobs cr_env id_order rr_jobs v_start)
      = (s', Ok resp) /\
    map names_in (rr_chain resp) = [Some ("rp", "rp"); Some ("ta", "rp"); Some ("ta", "ta")] /\
    exists md, dget "metadata" (rr_claims resp) = Some (VDict [("openid_relying_party", VDict md)]) /\
               dget "contacts" md = Some (VList [VStr "ta"]).
Proof.
  split; [exact cr_shaky|]. split; [exact v_hierarchy|]. split; [exact cr_checkable|]. split; [exact cr_checkable_upto|].
  split; [repeat split|]. split; [exact v_keys|]. split.
  { intros j [<-|[<-|[<-|[<-|[<-|[]]]]]]; cbn; try exact I; (split; [|vm_compute; lia]).
    1-2: exists v_rp; split; [right; right; left; reflexivity|reflexivity].
    1-2: exists v_tmi; split; [right; left; reflexivity|reflexivity]. }
  split; [vm_compute; reflexivity|]. split; [vm_compute; reflexivity|].
  eexists _, _. split; [vm_compute; reflexivity|]. split; [reflexivity|]. eexists. split; reflexivity.
Qed.
