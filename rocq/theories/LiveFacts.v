(** Facts about collections in well-run federations and in federations of entities that run this library, for the
    theorems about what is built on trust chains (C139-C143). *)
From Verif Require Import PyFacts CollectorProps FederationProps VerifierFacts VerifierProps RpFacts.
From Verif Require Export PublishModel PublishFacts PublishProps WellRunProps ConstraintsSpec.
From Coq Require Import Lia.

Lemma verify_all E extra chains : forall kj kj' tcs,
  verify_trust_chains E chains extra kj = (kj', Ok tcs) ->
  kj' = after_calls (e_lib E) kj (map (fun c => c ++ extra) chains).
Proof.
  unfold verify_trust_chains.
  assert (G : forall l kj acc kj' tcs,
    mfold (fun acc c => do tc <- run_verifier E (c ++ extra) in
             ret (match tc with Some t => acc ++ [t] | None => acc end)) l acc kj = (kj', Ok tcs) ->
    kj' = after_calls (e_lib E) kj (map (fun c => c ++ extra) l)).
  { induction l as [|c l IH]; intros kj acc kj' tcs H; cbn [mfold] in H.
    - injection H as <- _. reflexivity.
    - unfold mbind at 1 in H. unfold mbind at 1, run_verifier at 1 in H.
      destruct (verifier_call (e_lib E) kj (c ++ extra)) as [kj1 [o|x]] eqn:Ev; [|discriminate H].
      unfold ret at 1 in H. apply IH in H. rewrite H. unfold after_calls. cbn [map fold_left]. rewrite Ev. reflexivity. }
  intros kj kj' tcs H. exact (G _ _ _ _ _ H).
Qed.

(** the keys a verified chain vouches for are in the key jar afterwards *)
Lemma verified_keys E extra chains kj kj' tcs tc e k :
  verify_trust_chains E chains extra kj = (kj', Ok tcs) -> In tc tcs -> vouched (jws (tc_chain tc)) e k -> holds kj' e k.
Proof.
  intros H Hin Hv. rewrite (verify_all _ _ _ _ _ _ H).
  apply (verify_chains_spec _ _ _ _ _ _ H) in Hin. destruct Hin as (pre & ch & post & -> & Hc).
  rewrite map_app. cbn [map]. change (?a ++ ?b :: ?c) with (a ++ [b] ++ c). rewrite app_assoc, after_calls_app.
  apply holds_after. rewrite after_calls_snoc.
  apply (C30_accepted_effect _ _ _ _ _ _ Hc). right. apply call_ok in Hc. destruct Hc as (_ & _ & _ & _ & Ec).
  rewrite <- Ec. exact Hv.
Qed.

(** what get_verified_trust_chains does in a well-run federation *)
Lemma well_run_chains E O W id rank fuel s :
  quiet E id -> visited E (f_col s) -> well_run W E "" id -> ranked W "" id rank -> rank id < fuel ->
  jar_right W "" id (f_keys s) -> constraints_clear W "" id ->
  exists s' tcs,
    get_verified_trust_chains E O fuel id s = (s', apply_policies O tcs) /\
    f_chains s' = f_chains s /\ visited E (f_col s') /\ jar_right W "" id (f_keys s') /\
    (forall rt, route W "" id rt -> (known (f_keys s') (end_of id rt) <-> known (f_keys s) (end_of id rt))) /\
    (forall e k, holds (f_keys s) e k -> holds (f_keys s') e k) /\
    (forall tc, In tc tcs -> holds (f_keys s') id (w_key W id) /\
       exists rt, good_route W (f_keys s) "" id rt /\ tc_chain tc = chain_along W id rt /\
         tc_verified tc = claims_along W id rt /\ tc_anchor tc = end_of id rt) /\
    (forall rt, good_route W (f_keys s) "" id rt ->
       exists tc, In tc tcs /\ tc_chain tc = chain_along W id rt /\ tc_verified tc = claims_along W id rt /\
                  tc_anchor tc = end_of id rt).
Proof.
  intros Q V WR RK Hf J CC. assert (HF := proj1 (proj2 Q)).
  destruct (collect_routes E W "" id rank fuel s Q V WR RK Hf) as (s1 & chains & C1 & C2 & C3 & C4 & C6 & C5).
  destruct (verify_routes E W "" id WR HF (f_keys s) CC chains) with (kj := f_keys s) (acc := @nil trust_chain)
    as (kj' & tcs & V1 & V2 & V3 & V4 & V5).
  { intros c Hin. apply C5, Hin. }
  { exact J. }
  { intros e _. reflexivity. }
  cbn [app] in V1. change (verify_trust_chains E chains [own W id] (f_keys s) = (kj', Ok tcs)) in V1.
  exists (mkFed (f_col s1) kj' (f_chains s1)), tcs. cbn [f_col f_keys f_chains].
  assert (Hg : get_verified_trust_chains E O fuel id s = (mkFed (f_col s1) kj' (f_chains s1), apply_policies O tcs)).
  { unfold get_verified_trust_chains. unfold mbind at 1. rewrite C1. destruct chains as [|c0 chains0].
    - cbn in V1. injection V1 as <- <-. rewrite <- C2. destruct s1; reflexivity.
    - unfold mbind, on_keys. rewrite C2, V1. reflexivity. }
  split; [exact Hg|]. split; [exact C3|]. split; [exact C4|]. split; [exact V2|].
  split.
  { intros rt Hrt. destruct (reach_end W "" id rt id (reaches_self W "" id) Hrt) as [_ Hend].
    unfold known. rewrite (V3 _ Hend). tauto. }
  split.
  { intros e k H. rewrite (verify_all _ _ _ _ _ _ V1). apply holds_after, H. }
  split.
  - intros tc Hin. destruct (V4 tc Hin) as (r & A1 & A2 & A3 & A4 & A5 & A6). split.
    + destruct (wr_config _ _ _ _ WR id (reaches_self W "" id)) as (_ & _ & Hs & _ & ks & Hks & Hk).
      apply (verified_keys _ _ _ _ _ _ tc _ _ V1 Hin). destruct A6 as [-> _].
      exists (w_key W id), (w_config W id), ks. split; [|auto].
      unfold chain_along. rewrite jws_app. apply in_or_app. right. left. reflexivity.
    + exists r. split; [|exact A6]. split; [exact A1|]. split; [exact A2|]. split; [exact A4|exact A5].
  - intros r (B1 & B2 & B3 & B4). apply (V5 r B1 B2); [|exact B3|exact B4]. apply C5. exists r. auto.
Qed.

(** ** Federations of entities that run this library *)

(** the statements along a path: what the superiors say about their subordinates, then the configuration *)
Definition said (jwks_of : val -> option (list key)) (F : list member) (E : cenv) (id : string) (rt : list string) : list stmt :=
  claims_along (library_world jwks_of F (e_clock E 0)) id rt.

(** [rt] leads to an anchor whose keys are known, and the constraints along it are met *)
Definition usable (jwks_of : val -> option (list key)) (F : list member) (E : cenv) (kj : keyjar) (id : string)
    (rt : list string) : Prop :=
  path F id rt /\ rt <> [] /\ VerifierSpec.known kj (end_of id rt) /\ accepted (said jwks_of F E id rt).

(** the constraints along every path can be evaluated (C22) *)
Definition checkable (jwks_of : val -> option (list key)) (F : list member) (E : cenv) (id : string) : Prop :=
  forall rt, path F id rt -> exists b, meets_restrictions (said jwks_of F E id rt) = Ok b.

(** what the policies along a path make of the metadata of the entity *)
Definition adjusted (O : iter_order) (jwks_of : val -> option (list key)) (F : list member) (E : cenv) (id : string)
    (rt : list string) (md : tc_metadata) : Prop :=
  exists ves, policy_call_chain O (said jwks_of F E id rt) = Ok (md, ves).

Section Library.
Context (jwks_of : val -> option (list key)) (F : list member) (E : cenv) (rank : string -> nat).
Hypothesis L : library_run jwks_of F E.
Hypothesis HR : hierarchy F rank.

Notation W := (library_world jwks_of F (e_clock E 0)).

Lemma usable_good m kj rt : In m F -> (good_route W kj "" (m_id m) rt <-> usable jwks_of F E kj (m_id m) rt).
Proof.
  intros Hm. unfold good_route, usable, said. split; intros (G1 & G2 & G3 & G4).
  - split; [exact (route_path _ _ _ L _ _ G1 m Hm eq_refl)|auto].
  - split; [exact (path_route _ _ _ L _ _ G1)|auto].
Qed.

Lemma checkable_clear m : In m F -> checkable jwks_of F E (m_id m) -> constraints_clear W "" (m_id m).
Proof. intros Hm H rt Hrt. apply H. exact (route_path _ _ _ L _ _ Hrt m Hm eq_refl). Qed.

Lemma unconstrained_checkable m : In m F -> unconstrained F -> checkable jwks_of F E (m_id m).
Proof. intros Hm Hu rt Hp. exists true. exact (all_accepted _ _ _ rank L HR m rt Hu Hp). Qed.

Lemma unconstrained_accepted m rt : unconstrained F -> path F (m_id m) rt -> accepted (said jwks_of F E (m_id m) rt).
Proof. intros Hu Hp. exact (all_accepted _ _ _ rank L HR m rt Hu Hp). Qed.

Lemma runs_chain m rt c : In m F -> path F (m_id m) rt -> ch_anchor c = end_of (m_id m) rt ->
  tc_chain (ch_tc c) = chain_along W (m_id m) rt -> runs_along c (m_id m) rt.
Proof.
  intros Hm Hp B2 B1. split; [exact B2|]. rewrite B1. unfold chain_along.
  rewrite jws_app, !map_app, (claims_names _ _ _ rank L HR rt _ Hp). f_equal. cbn [jws own map snd].
  rewrite (config_names _ _ _ rank L HR m Hm). reflexivity.
Qed.

(** the keys for the members above [m], and for [m] *)
Definition jar_for (m : member) (kj : keyjar) : Prop := jar_right W "" (m_id m) kj.

Lemma right_jar m kj : In m F -> right_keys F kj -> jar_for m kj.
Proof. intros Hm H. exact (world_jar _ _ _ L m _ Hm H). Qed.

(** what get_verified_trust_chains does *)
Lemma library_chains O fuel m s : In m F -> rank (m_id m) < fuel -> visited E (f_col s) ->
  jar_for m (f_keys s) -> checkable jwks_of F E (m_id m) ->
  exists s' tcs,
    get_verified_trust_chains E O fuel (m_id m) s = (s', apply_policies O tcs) /\
    f_chains s' = f_chains s /\ visited E (f_col s') /\ jar_for m (f_keys s') /\
    (forall rt, usable jwks_of F E (f_keys s') (m_id m) rt <-> usable jwks_of F E (f_keys s) (m_id m) rt) /\
    (forall tc, In tc tcs -> holds (f_keys s') (m_id m) (m_key m) /\
       exists rt, usable jwks_of F E (f_keys s) (m_id m) rt /\ tc_chain tc = chain_along W (m_id m) rt /\
         tc_verified tc = said jwks_of F E (m_id m) rt /\ tc_anchor tc = end_of (m_id m) rt) /\
    (forall rt, usable jwks_of F E (f_keys s) (m_id m) rt ->
       exists tc, In tc tcs /\ tc_chain tc = chain_along W (m_id m) rt /\ tc_verified tc = said jwks_of F E (m_id m) rt /\
                  tc_anchor tc = end_of (m_id m) rt).
Proof.
  intros Hm Hf V J CC.
  destruct (well_run_chains E O W (m_id m) rank fuel s (library_quiet _ _ _ L m Hm) V (WR _ _ _ rank L HR m Hm)
              (world_ranked _ _ _ rank L HR m Hm) Hf J (checkable_clear m Hm CC))
    as (s' & tcs & G1 & G2 & G3 & G4 & G5 & _ & G6 & G7).
  exists s', tcs. split; [exact G1|]. split; [exact G2|]. split; [exact G3|]. split; [exact G4|]. split; [|split].
  - intros rt. rewrite <- !(usable_good m) by exact Hm.
    split; intros (A1 & A2 & A3 & A4); (split; [exact A1|]; split; [exact A2|]; split; [|exact A4]; apply (G5 rt A1), A3).
  - intros tc Hin. destruct (G6 tc Hin) as (H1 & rt & H2 & H3).
    cbn [library_world w_key] in H1. rewrite (by_id_In _ _ _ L m Hm) in H1. split; [exact H1|].
    exists rt. split; [apply (usable_good m _ _ Hm), H2|exact H3].
  - intros rt Hu. apply G7. apply (usable_good m _ _ Hm), Hu.
Qed.

(** the trust chains, policies applied *)
Lemma applied_of O tcs cs : apply_policies O tcs = Ok cs ->
  (forall c, In c cs -> exists tc, In tc tcs /\ ch_anchor c = tc_anchor tc /\ tc_chain (ch_tc c) = tc_chain tc /\
     exists ves, policy_call_chain O (tc_verified tc) = Ok (ch_md c, ves)) /\
  (forall tc, In tc tcs -> exists c, In c cs /\ ch_anchor c = tc_anchor tc /\ tc_chain (ch_tc c) = tc_chain tc /\
     exists ves, policy_call_chain O (tc_verified tc) = Ok (ch_md c, ves)).
Proof.
  intros H. destruct (mapM_In _ _ _ _ _ H) as [M1 M2]. split.
  - intros c Hc. destruct (M2 c Hc) as (tc & Ht & Ha). exists tc. split; [exact Ht|].
    unfold apply_to_chain in Ha. apply bind_ok in Ha. destruct Ha as ([md ves] & Hp & [= <-]).
    unfold ch_anchor. cbn. split; [reflexivity|]. split; [reflexivity|]. exists ves. exact Hp.
  - intros tc Ht. destruct (M1 tc Ht) as (c & Hc & Ha). exists c. split; [exact Hc|].
    unfold apply_to_chain in Ha. apply bind_ok in Ha. destruct Ha as ([md ves] & Hp & [= <-]).
    unfold ch_anchor. cbn. split; [reflexivity|]. split; [reflexivity|]. exists ves. exact Hp.
Qed.

Lemma applied_err O tcs x : apply_policies O tcs = Err x ->
  exists tc, In tc tcs /\ policy_call_chain O (tc_verified tc) = Err x.
Proof.
  intros H. destruct (mapM_Err _ _ _ _ _ H) as (tc & Ht & Ha). exists tc. split; [exact Ht|].
  unfold apply_to_chain in Ha. destruct (policy_call_chain O (tc_verified tc)) as [r|e]; [discriminate Ha|].
  cbn [bind] in Ha. congruence.
Qed.

Lemma applied_total O tcs : (forall tc, In tc tcs -> exists r, policy_call_chain O (tc_verified tc) = Ok r) ->
  exists cs, apply_policies O tcs = Ok cs.
Proof.
  intros H. destruct (apply_policies O tcs) as [cs|x] eqn:E0; [eauto|].
  destruct (applied_err _ _ _ E0) as (tc & Ht & Hp). destruct (H tc Ht) as (r & Hr). congruence.
Qed.

End Library.
