(** Registration responses are taken as soon as requests do not fail any more (C183). *)
From Verif Require Import PyFacts ExampleKit CollectorProps FederationProps CollectorRepeat CollectorRepeatProps WellRunFacts WellRunProps.
From Verif Require Import ClientFacts RpSpec RpFacts RpProps LiveExample LiveResolveProps LiveRegisterProps LiveAnswerProps ClientsRightProps GetInProps.
From Verif Require Export AnswersRightProps.
From Coq Require Import Lia.

(** the OP [mo] has made the answer [a] for the member [m]; it names [ta] and is good until [z] *)
Definition made_by (mo m : member) (ta : string) (z : Z) (a : RpModel.answer) : Prop :=
  an_anchor a = Some ta /\ s_iss (an_claims a) = m_id mo /\ s_sub (an_claims a) = m_id m /\ an_signer a = m_key mo /\
  vouches_for (an_claims a) (m_key mo) /\ s_exp (an_claims a) = Some z.

(** ** Verification *)
Lemma verify_chains_with E E0 chains extra : forall chains0 kj kj' tcs0,
  (forall k p, lib_picks (e_lib E) (TJws k p) k = true) -> e_lib E0 = e_lib E ->
  map (map tk) chains = map (map tk) chains0 ->
  verify_trust_chains E0 chains0 extra kj = (kj', Ok tcs0) ->
  exists tcs, verify_trust_chains E chains extra kj = (kj', Ok tcs) /\ map tck tcs = map tck tcs0.
Proof.
  intros chains0 kj kj' tcs0 HP HL Hc. unfold verify_trust_chains.
  cut (forall acc acc0 kj, map tck acc = map tck acc0 ->
    mfold (fun acc c => do tc <- run_verifier E0 (c ++ extra) in ret (match tc with Some t => acc ++ [t] | None => acc end)) chains0 acc0 kj = (kj', Ok tcs0) ->
    exists tcs, mfold (fun acc c => do tc <- run_verifier E (c ++ extra) in ret (match tc with Some t => acc ++ [t] | None => acc end)) chains acc kj = (kj', Ok tcs) /\
                map tck tcs = map tck tcs0).
  { intros G. apply G. reflexivity. }
  clear kj. revert chains0 Hc. induction chains as [|c chains IH]; intros [|c0 chains0] Hc acc acc0 kj Ha H; try discriminate Hc.
  { cbn in H |- *. injection H as <- <-. exists acc. auto. }
  cbn [map] in Hc. assert (Hc1 : map tk c = map tk c0) by congruence. assert (Hc2 : map (map tk) chains = map (map tk) chains0) by congruence.
  cbn [mfold] in H |- *. unfold mbind at 1 in H. unfold mbind at 1 in H. unfold run_verifier at 1 in H. rewrite HL in H.
  destruct (verifier_call (e_lib E) kj (c0 ++ extra)) as [kj1 [o0|x]] eqn:Ev; [|discriminate].
  destruct (verifier_near (e_lib E) HP kj (c ++ extra) (c0 ++ extra) kj1 o0) as (o & Eo & Ho); [rewrite !map_app, Hc1; reflexivity|exact Ev|].
  unfold mbind at 1. unfold mbind at 1. unfold run_verifier at 1. rewrite Eo. unfold ret at 1. unfold ret at 1 in H.
  eapply IH; [exact Hc2| |exact H]. destruct o as [t|], o0 as [t0|]; try discriminate Ho; [|exact Ha].
  rewrite !map_app, Ha. cbn [map]. cbn in Ho. congruence.
Qed.

Lemma set_leaf_near mm tc tc0 : tck tc = tck tc0 -> rmap tck (set_leaf_metadata mm tc) = rmap tck (set_leaf_metadata mm tc0).
Proof.
  intros H. assert (Hv : map settle (tc_verified tc) = map settle (tc_verified tc0)) by (unfold tck in H; congruence).
  assert (Hr : map settle (rev (tc_verified tc)) = map settle (rev (tc_verified tc0))) by (rewrite !map_rev, Hv; reflexivity).
  unfold set_leaf_metadata. destruct (rev (tc_verified tc)) as [|p f], (rev (tc_verified tc0)) as [|p0 f0]; try discriminate Hr; [reflexivity|].
  cbn [map] in Hr. assert (H1 : settle p = settle p0) by congruence. assert (H2 : map settle f = map settle f0) by congruence.
  cbn [rmap]. unfold tck in *. cbn [tc_anchor tc_chain tc_iss_path tc_verified]. rewrite !map_app, !map_rev, H2. cbn [map].
  assert (H3 : settle (set_metadata mm p) = settle (set_metadata mm p0)) by (unfold settle, set_metadata in *; cbn [s_iss s_sub s_exp s_jwks s_policy s_constraints s_hints s_metadata]; congruence).
  rewrite H3. congruence.
Qed.

Section Taken.
Context (jwks_of : val -> option (list key)) (F : list member) (E : cenv) (rank : string -> nat).
Context (L : library_shaky jwks_of F E) (HR : hierarchy F rank) (m : member) (Hm : In m F) (n0 : nat).
Notation N0 := (library_net jwks_of F (e_clock E) 0).
Notation E0 := (freeze N0 E).
Let L0 := ls_run jwks_of F E L.

(** a collection goes as it would at the beginning, or a request failed, or a day is over *)
Lemma collected_near top fuel x s s' r s0 : In x F -> rank (m_id x) < fuel -> MotionFacts.J E N0 n0 (f_col s) -> visited E0 (f_col s0) ->
  collect_trust_chains E fuel (m_id x) top s = (s', r) ->
  MotionFacts.J E N0 n0 (f_col s') /\ f_keys s' = f_keys s /\ st_tick (f_col s) <= st_tick (f_col s') /\
  exists s0' chains0 leaf0, collect_trust_chains E0 fuel (m_id x) top s0 = (s0', Ok (chains0, leaf0)) /\
    visited E0 (f_col s0') /\ f_keys s0' = f_keys s0 /\
    ((exists chains leaf, r = Ok (chains, leaf) /\ map (map tk) chains = map (map tk) chains0) \/
     (exists e, r = Err e /\ net_error e /\ outage jwks_of F E (st_tick (f_col s)) (st_tick (f_col s'))) \/
     (exists e, r = Err e /\ aged E n0 (st_tick (f_col s')))).
Proof.
  intros Hx Hf HJ V H. assert (Q := library_quiet _ _ _ L0 x Hx).
  assert (WR := upto_run _ _ _ rank L0 HR top x Hx). assert (RK := upto_ranked _ _ _ rank L0 HR top x Hx).
  destruct (collect_routes E0 _ top (m_id x) rank fuel s0 Q V WR RK Hf) as (s1 & chains0 & C1 & C2 & _ & C4 & _).
  assert (Q' := Q). destruct Q' as (HS & HF' & HC & Hid). assert (HC' := hints_clean E0 _ HS HC).
  destruct (collect_eq E0 HS HF' HC' top fuel (m_id x) Hid (f_col s0) (visited_consistent E0 HS HF' HC' _ V)) as (s2 & E1 & _).
  assert (C1' := C1). unfold collect_trust_chains, mbind, on_col in C1. rewrite E1 in C1.
  assert (R := r_collect E N0 n0 (moving_alike _ _ _ L) (moving_apart _ _ _ L) (moving_dated _ _ _ L) (dated0 _ _ _ L) (lf_picks _ _ _ L0)
     (moving_valid _ _ _ L) (moving_valid0 _ _ _ L) (moving_clean _ _ _ L) fuel top (m_id x) (f_col s) (proj2 (so_id _ _ _ (lf_sound _ _ _ L0 x Hx))) HJ).
  unfold runs in R. unfold collect_trust_chains, mbind, on_col in H.
  destruct (collect E fuel top (m_id x) (f_col s)) as [c1 r1]. destruct R as (R1 & R2 & R3).
  destruct (pcollect E0 fuel top (m_id x)) as [[[tr0 leaf0]|]|y]; [|unfold ret in C1; discriminate C1|discriminate C1].
  unfold ret in C1. assert (C1a : chains0 = map (map tok_of) (tree2chains tr0)) by congruence. clear C1.
  assert (Hs : s' = mkFed c1 (f_keys s) (f_chains s)) by (destruct r1 as [[[]|]|]; injection H as <- _; reflexivity).
  subst s'. cbn [f_col f_keys]. split; [exact R2|]. split; [reflexivity|]. split; [exact R1|].
  eexists s1, chains0, _. split; [exact C1'|]. split; [exact C4|]. split; [exact C2|].
  destruct R3 as [[R3 ->]|[(R3 & e & NE & ->)|[R3 _]]].
  - injection H as <-. right. right. eauto.
  - injection H as <-. right. left. exists e. split; [reflexivity|]. split; [exact NE|]. exact (outage_down _ _ _ _ _ R3).
  - destruct r1 as [o|y]; [|discriminate R3]. cbn in R3. injection R3 as R3. destruct o as [[tr leaf]|]; [|discriminate R3].
    cbn in R3. assert (Etr : tmap esk tr = tmap esk tr0) by congruence. unfold ret in H. injection H as <-.
    left. eexists _, _. split; [reflexivity|]. rewrite C1a. exact (chains_near _ _ Etr).
Qed.

Lemma outage_more n n' k k' : k <= n -> n' <= k' -> outage jwks_of F E n n' -> outage jwks_of F E k k'.
Proof. intros H1 H2 (i & q & H3 & H4 & H5). exists i, q. split; [lia|]. split; [lia|exact H5]. Qed.

(** what would have been taken at the beginning is taken *)
Lemma taken O fuel a mo s s' r md : In mo F -> m_id mo = s_iss (an_claims a) -> rank (m_id mo) < fuel -> rank (m_id m) < fuel ->
  MotionFacts.J E N0 n0 (f_col s) -> lib_valid (e_lib E) (e_clock E (st_tick (f_col s))) (an_claims a) = true ->
  snd (parse_oidc E0 O fuel (m_id m) a (fresh_start (f_keys s))) = Ok md ->
  parse_oidc E O fuel (m_id m) a s = (s', r) ->
  r = Ok md \/
  (outage jwks_of F E (st_tick (f_col s)) (st_tick (f_col s')) /\ exists e, net_error e /\ r = Err e) \/
  aged E n0 (st_tick (f_col s')).
Proof.
  intros Hmo Eo Fo Fm HJ LV H0 H. unfold parse_oidc, open_response in H0, H. unfold mbind at 1 in H0. unfold mbind at 1 in H. rewrite opened_fed in H0, H.
  change (e_lib E0) with (e_lib E) in *.
  destruct (verify_self_signed E0 (e_clock E0 (st_tick (f_col (fresh_start (f_keys s))))) (Some (an_tok a))) as [tp0|y] eqn:Es0; [|discriminate H0].
  assert (Es : verify_self_signed E (e_clock E (st_tick (f_col s))) (Some (an_tok a)) = Ok (an_tok a, an_claims a) /\ tp0 = (an_tok a, an_claims a)).
  { unfold verify_self_signed, an_tok in Es0 |- *. change (e_lib E0) with (e_lib E) in Es0. rewrite LV. revert Es0.
    destruct (s_jwks (an_claims a)) as [ks|]; [|discriminate]. destruct (kmem _ _); [|discriminate].
    match goal with |- context [if ?b then _ else _] => destruct b end; [|discriminate]. intros X. split; [reflexivity|congruence]. }
  destruct Es as [Es ->]. rewrite Es in H. cbn [snd] in H0, H. unfold mbind at 1, lift at 1 in H0. unfold mbind at 1, lift at 1 in H.
  destruct (an_anchor a) as [ta|]; [|discriminate H0]. change (e_anchors E0) with (e_anchors E) in H0.
  destruct (smem ta (e_anchors E)); [|discriminate H0]. cbn [negb] in H0, H.
  unfold mbind at 1, signature_verifies in H0. unfold mbind at 1 in H0. unfold mbind at 1, signature_verifies in H. unfold mbind at 1 in H. rewrite <- Eo in H0, H.
  assert (V0 : visited E0 (f_col (fresh_start (f_keys s)))) by constructor.
  destruct (collect_trust_chains E fuel (m_id mo) ta s) as [s1 r1] eqn:C1.
  destruct (collected_near ta fuel mo s s1 r1 (fresh_start (f_keys s)) Hmo Fo HJ V0 C1) as (J1 & K1 & T1 & z1 & ch1 & lf1 & D1 & V1 & K1' & R1).
  rewrite D1 in H0. cbn [fst] in H0.
  destruct R1 as [(chains & leaf & -> & N1)|[(e & -> & NE & OU)|(e & -> & AG)]];
    [|injection H as <- <-; right; left; split; [exact OU|eauto]|injection H as <- <-; right; right; exact AG].
  cbn [fst] in H. destruct ch1 as [|c1 ch1]; [discriminate H0|]. destruct chains as [|c chains]; [discriminate N1|]. cbn [is_nil] in H0, H.
  unfold mbind at 1, on_keys at 1 in H0. unfold mbind at 1, on_keys at 1 in H.
  cbn [fresh_start f_keys] in K1'. rewrite K1' in H0. rewrite K1 in H.
  destruct (verify_trust_chains E0 (c1 :: ch1) [] (f_keys s)) as [kj1 [tcs1|y]] eqn:W1; [|discriminate H0].
  destruct (verify_chains_with E E0 (c :: chains) [] _ _ _ _ (lf_picks _ _ _ L0) eq_refl N1 W1) as (tcs1' & W1' & _). rewrite W1' in H.
  unfold ret at 1 in H0. unfold ret at 1 in H. unfold ret at 1 in H0. unfold ret at 1 in H. cbn [snd fst] in H0, H.
  unfold mbind at 1 in H0. unfold mbind at 1 in H.
  set (s1' := mkFed (f_col s1) kj1 (f_chains s1)) in *. set (z1' := mkFed (f_col z1) kj1 (f_chains z1)) in *.
  destruct (collect_trust_chains E fuel (m_id m) ta s1') as [s2 r2] eqn:C2.
  destruct (collected_near ta fuel m s1' s2 r2 z1' Hm Fm J1 V1 C2) as (J2 & K2 & T2 & z2 & ch2 & lf2 & D2 & V2 & K2' & R2).
  rewrite D2 in H0. cbn [fst] in H0. cbn [s1' z1' f_keys f_col] in *.
  destruct R2 as [(chains2 & leaf2 & -> & N2)|[(e & -> & NE & OU)|(e & -> & AG)]];
    [|injection H as <- <-; right; left; split; [exact (outage_more _ _ _ _ T1 (le_n _) OU)|eauto]|injection H as <- <-; right; right; exact AG].
  left. cbn [fst] in H. unfold mbind at 1, on_keys at 1 in H0. unfold mbind at 1, on_keys at 1 in H. rewrite K2' in H0. rewrite K2 in H.
  destruct (verify_trust_chains E0 ch2 [an_tok a] kj1) as [kj2 [tcs0|y]] eqn:W2; [|discriminate H0].
  destruct (verify_chains_with E E0 chains2 [an_tok a] _ _ _ _ (lf_picks _ _ _ L0) eq_refl N2 W2) as (tcs & W2' & Htc). rewrite W2' in H.
  destruct tcs0 as [|tc0 [|]]; [discriminate H0| |discriminate H0]. destruct tcs as [|tc [|]]; try discriminate Htc.
  assert (Et : tck tc = tck tc0) by (cbn [map] in Htc; congruence).
  unfold mbind at 1, lift at 1 in H0. unfold mbind at 1, lift at 1 in H.
  set (f := fun tc => match given_metadata (an_claims a) with Some mm => set_leaf_metadata mm tc | None => Ok tc end) in *.
  assert (Ef : rmap tck (f tc) = rmap tck (f tc0)).
  { unfold f. destruct (given_metadata (an_claims a)); [apply set_leaf_near, Et|cbn [rmap]; rewrite Et; reflexivity]. }
  change (match given_metadata (an_claims a) with Some mm => set_leaf_metadata mm tc | None => Ok tc end) with (f tc) in H.
  change (match given_metadata (an_claims a) with Some mm => set_leaf_metadata mm tc0 | None => Ok tc0 end) with (f tc0) in H0.
  destruct (f tc0) as [uc0|y]; [|discriminate H0]. destruct (f tc) as [uc|y]; [|discriminate Ef].
  assert (Eu : tck uc = tck uc0) by (cbn [rmap] in Ef; congruence). assert (Ea := apply_near O uc uc0 Eu).
  unfold mbind at 1, lift at 1 in H0. unfold mbind at 1, lift at 1 in H.
  destruct (apply_to_chain O uc0) as [k0|y]; [|discriminate H0]. destruct (apply_to_chain O uc) as [k|y]; [|discriminate Ea].
  assert (Ek : ch_md k = ch_md k0) by (cbn [rmap] in Ea; unfold cck in Ea; congruence).
  unfold mbind at 1, lift at 1, type_of_chain in H0. unfold mbind at 1, lift at 1, type_of_chain in H. rewrite Ek in H.
  destruct (match ch_md k0 with ByType mm => _ | Flat mm => _ end) as [o|y]; [|discriminate H0].
  destruct o as [[|y ys]|]; [discriminate H0| |discriminate H0]. cbn in H0. injection H0 as <-. injection H as _ <-. reflexivity.
Qed.
End Taken.

Lemma upto_top F top e rt : upto F top e rt -> (forall x, In x F -> m_id x = top -> superiors_of x = []) ->
  exists x, In x F /\ m_id x = end_of e rt /\ superiors_of x = [].
Proof.
  induction 1 as [x Hx [Ht|Hs]|x a r Hx _ _ _ IH]; intros Top; [exists x; auto|exists x; auto|]. exact (IH Top).
Qed.

(** the same in any state that does no harm *)
Lemma takes jwks_of F E O rank good m n0 kj0 s fuel a mo ta z ro rt md s' r :
  library_shaky jwks_of F E -> forwards E -> hierarchy F rank -> In m F -> alive jwks_of F E good n0 kj0 s ->
  In mo F -> rank (m_id mo) < fuel -> rank (m_id m) < fuel -> made_by mo m ta z a ->
  In ta (e_anchors E) -> (forall x, In x F -> m_id x = ta -> superiors_of x = []) ->
  upto F ta (m_id mo) ro -> ro <> [] -> VerifierSpec.known kj0 (end_of (m_id mo) ro) ->
  checkable_above jwks_of F E ta (m_id mo) -> checkable_upto jwks_of F E ta (m_id m) ->
  usable_upto jwks_of F E kj0 ta (m_id m) rt ->
  (forall q, usable_upto jwks_of F E kj0 ta (m_id m) q -> q = rt) ->
  left_over O jwks_of F E (m_id m) rt a md -> md <> [] ->
  (e_clock E (st_tick (f_col s)) < z)%Z ->
  parse_oidc E O fuel (m_id m) a s = (s', r) ->
  r = Ok md \/
  (outage jwks_of F E (st_tick (f_col s)) (st_tick (f_col s')) /\ exists e, net_error e /\ r = Err e) \/
  (e_clock E n0 + 86400 - e_delta E <= e_clock E (st_tick (f_col s')))%Z.
Proof.
  intros L HF HR Hm [HJ (S1 & S2 & _)] Hmo Fo Fm (A1 & A2 & A3 & A4 & A5 & A6) HA Top R1 R2 R3 CA CU U1 U2 HM Hne NX H.
  assert (L0 := ls_run jwks_of F E L). set (E0 := freeze (library_net jwks_of F (e_clock E) 0) E) in *.
  assert (LV : forall n, (e_clock E n < z)%Z -> lib_valid (e_lib E) (e_clock E n) (an_claims a) = true).
  { intros n Hn. exact (lf_valid _ _ _ L0 _ _ _ A6 Hn). }
  assert (Kn : forall e q, upto F ta e q -> (VerifierSpec.known (f_keys s) (end_of e q) <-> VerifierSpec.known (kj0) (end_of e q))).
  { intros e q Hq. destruct (upto_top F ta e q Hq Top) as (x & X1 & X2 & X3). unfold VerifierSpec.known. rewrite <- X2, (S2 x X1 X3). tauto. }
  assert (Us : forall q, usable_upto jwks_of F E0 (f_keys s) ta (m_id m) q <-> usable_upto jwks_of F E (kj0) ta (m_id m) q).
  { intros q. unfold usable_upto. change (said jwks_of F E0 (m_id m) q) with (said jwks_of F E (m_id m) q).
    split; intros (G1 & G2 & G3 & G4); (split; [exact G1|]; split; [exact G2|]; split; [apply (Kn _ _ G1), G3|exact G4]). }
  assert (H0 : snd (parse_oidc E0 O fuel (m_id m) a (fresh_start (f_keys s))) = Ok md).
  { assert (N0 : (e_clock E0 0 < z)%Z) by (change (e_clock E0 0) with (e_clock E 0); assert (X := HF 0 (st_tick (f_col s)) (Nat.le_0_l _)); lia).
    assert (FI := member_fine jwks_of F E0 rank L0 HR ta mo m fuel (fresh_start (f_keys s)) a Hmo Hm Fo Fm (visited_none _ _) S1 HA A1 A2 A3 A4 A5
      (ex_intro _ _ (conj A6 N0)) (ex_intro _ ro (conj R1 (conj R2 (proj2 (Kn _ _ R1) R3)))) CA CU).
    apply (C99_honest_answer_partial E0 O _ ta (m_id mo) (m_id m) rank fuel _ a rt md FI).
    - apply (allows_usable jwks_of F E0 rank L0 HR ta m _ a rt Hm A3), Us, U1.
    - intros q Hq. apply U2, Us, (allows_usable jwks_of F E0 rank L0 HR ta m _ a q Hm A3), Hq.
    - unfold left_over in HM. change (said jwks_of F E (m_id m) rt) with (said jwks_of F E0 (m_id m) rt) in HM. rewrite said_front in HM. unfold client_metadata.
      destruct U1 as (U11 & U12 & _). apply (upto_route jwks_of F E0 L0) in U11.
      destruct (first_issuer E0 _ ta (m_id m) (upto_run jwks_of F E0 rank L0 HR ta m Hm) rt (m_id m) (reaches_self _ _ _) U11 U12)
        as (k & p & l & X & _).
      destruct (claims_up _ (m_id m) rt) as [|q l'] eqn:Eq; [|exact HM].
      unfold claims_up in Eq. rewrite X in Eq. discriminate Eq.
    - exact Hne. }
  destruct (taken jwks_of F E rank L HR m Hm n0 O fuel a mo s s' r md Hmo (eq_sym A2) Fo Fm HJ (LV _ NX) H0 H) as [X|[X|X]].
  - left. exact X.
  - right. left. exact X.
  - right. right. exact (aged_day jwks_of F E L _ _ HF X).
Qed.

(** C183: after whatever has happened, an answer that an OP has made for the client is taken before it expires if the client trusts the
    anchor it names, with the metadata that the policies along the client's way up leave of it; unless one of the requests fails,
    or a day has passed since the client began *)
Theorem C183_taken : forall jwks_of F E O rank good made m s0 evs fuel a mo ta z ro rt md s' r,
  library_shaky jwks_of F E -> forwards E -> hierarchy F rank -> In m F -> newborn s0 -> right_keys F (f_keys s0) ->
  signatures_mean jwks_of F E good made (m_id m) (f_keys s0) -> events_about F rank good made (m_id m) evs ->
  In mo F -> rank (m_id mo) < fuel -> rank (m_id m) < fuel -> made_by mo m ta z a ->
  In ta (e_anchors E) -> (forall x, In x F -> m_id x = ta -> superiors_of x = []) ->
  upto F ta (m_id mo) ro -> ro <> [] -> VerifierSpec.known (f_keys s0) (end_of (m_id mo) ro) ->
  checkable_above jwks_of F E ta (m_id mo) -> checkable_upto jwks_of F E ta (m_id m) ->
  usable_upto jwks_of F E (f_keys s0) ta (m_id m) rt ->
  (forall q, usable_upto jwks_of F E (f_keys s0) ta (m_id m) q -> q = rt) ->
  left_over O jwks_of F E (m_id m) rt a md -> md <> [] ->
  let s := after_events E O (m_id m) evs s0 in
  (e_clock E (st_tick (f_col s)) < z)%Z ->
  parse_oidc E O fuel (m_id m) a s = (s', r) ->
  r = Ok md \/
  (outage jwks_of F E (st_tick (f_col s)) (st_tick (f_col s')) /\ exists e, net_error e /\ r = Err e) \/
  (e_clock E (st_tick (f_col s0)) + 86400 - e_delta E <= e_clock E (st_tick (f_col s')))%Z.
Proof.
  intros jwks_of F E O rank good made m s0 evs fuel a mo ta z ro rt md s' r L HF HR Hm NB RK SM EV Hmo Fo Fm MB
    HA Top R1 R2 R3 CA CU U1 U2 HM Hne s NX H.
  assert (A := alive_start jwks_of F E good made m (st_tick (f_col s0)) (f_keys s0) SM s0 NB eq_refl eq_refl RK).
  apply (alive_events jwks_of F E rank L HR good made m Hm _ _ SM O evs) in A; [|exact EV]. fold s in A.
  exact (takes jwks_of F E O rank good m _ _ s fuel a mo ta z ro rt md s' r L HF HR Hm A Hmo Fo Fm MB HA Top R1 R2 R3 CA CU U1 U2 HM Hne NX H).
Qed.
Print Assumptions C183_taken.

(** the federation and the events of C179: the answer that could not be taken at first is taken in the end *)
Definition tk_after (n : nat) : fstate := after_events cr_env id_order "rp" (firstn n aw_events) v_start.

Example C183_ex : library_shaky ex_jwks v_fed cr_env /\ forwards cr_env /\ hierarchy v_fed v_rank /\ newborn v_start /\
  right_keys v_fed (f_keys v_start) /\
  signatures_mean ex_jwks v_fed cr_env aw_good aw_made "rp" (f_keys v_start) /\ events_about v_fed v_rank aw_good aw_made "rp" aw_events /\
  made_by v_tmi v_rp "ta" 50000 (aw_answer 5 "rp") /\
  (forall x, In x v_fed -> m_id x = "ta" -> superiors_of x = []) /\ upto v_fed "ta" "tmi" ["ta"] /\
  checkable_above ex_jwks v_fed cr_env "ta" "tmi" /\ checkable_upto ex_jwks v_fed cr_env "ta" "rp" /\
  usable_upto ex_jwks v_fed cr_env (f_keys v_start) "ta" "rp" ["ta"] /\
  (forall q, usable_upto ex_jwks v_fed cr_env (f_keys v_start) "ta" "rp" q -> q = ["ta"]) /\
  left_over id_order ex_jwks v_fed cr_env "rp" ["ta"] (aw_answer 5 "rp") [("client_id", VStr "rp"); ("contacts", VList [VStr "rp"; VStr "ta"])] /\
  (* before anything else, and after the forged ones *)
  snd (parse_oidc cr_env id_order 2 "rp" (aw_answer 5 "rp") (tk_after 0)) = Err ConnectionError /\
  snd (parse_oidc cr_env id_order 2 "rp" (aw_answer 5 "rp") (tk_after 6)) = Ok [("client_id", VStr "rp"); ("contacts", VList [VStr "rp"; VStr "ta"])] /\
  (e_clock cr_env (st_tick (f_col (tk_after 6%nat))) < 50000)%Z /\
  (e_clock cr_env (st_tick (f_col (fst (parse_oidc cr_env id_order 2%nat "rp" (aw_answer 5%nat "rp") (tk_after 6%nat))))) < e_clock cr_env (st_tick (f_col v_start)) + 86400 - e_delta cr_env)%Z.
Proof.
  assert (Hr : In v_rp v_fed) by (simpl; auto). assert (Ht : In v_tmi v_fed) by (simpl; auto).
  destruct C179_ex as (X1 & X2 & _ & X4 & X5 & X6 & X7 & _ & X9).
  split; [exact X1|]. split; [exact cr_forwards|]. split; [exact X2|]. split; [exact X4|]. split; [exact v_keys|]. split; [exact X5|]. split; [exact X6|].
  split. { repeat (split; [reflexivity|]). split; [eexists; split; [reflexivity|left; reflexivity]|reflexivity]. }
  split. { intros x Hx E. live_members; try discriminate E; reflexivity. }
  split; [exact (v_upto_ta v_tmi Ht ltac:(discriminate))|]. split.
  { intros rt Hp Hn. destruct (v_upto v_tmi rt Ht Hp) as [-> | ->]; [contradiction Hn; reflexivity|eexists; vm_compute; reflexivity]. }
  split. { intros rt Hp. destruct (v_upto v_rp rt Hr Hp) as [-> | ->]; eexists; vm_compute; reflexivity. }
  split.
  { destruct (v_usable v_rp Hr ltac:(discriminate)) as (_ & U2 & U3 & U4).
    split; [exact (v_upto_ta v_rp Hr ltac:(discriminate))|]. split; [exact U2|]. split; [exact U3|exact U4]. }
  split.
  { intros q (Hp & Hn & _). destruct (v_upto v_rp q Hr Hp) as [-> | ->]; [contradiction Hn; reflexivity|reflexivity]. }
  split. { eexists _, _. split; vm_compute; reflexivity. }
  split; [exact X7|]. split; [exact X9|]. split; vm_compute; reflexivity.
Qed.
