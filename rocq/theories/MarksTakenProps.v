(** Trust marks are accepted as soon as requests do not fail any more (C185). *)
From Verif Require Import PyFacts ExampleKit CollectorProps CollectorRepeat CollectorRepeatProps VerifierFacts FederationProps.
From Verif Require Import RpSpec RpFacts TrustMarkVerifierModel TrustMarkSpec TrustMarkFacts TrustMarkProps TrustMarkVerifierProps.
From Verif Require Import LiveExample LiveMarkProps LiveResolveProps ClientsRightProps ResolverRightProps GetInProps.
From Verif Require Export MarksRightProps.
From Coq Require Import Lia.

Section Accepted.
Context (jwks_of : val -> option (list key)) (F : list member) (E : cenv) (rank : string -> nat).
Context (L : library_shaky jwks_of F E) (HR : hierarchy F rank) (HU : all_checkable jwks_of F E).
Context (O : iter_order) (n0 : nat) (kj0 : keyjar).
Notation N0 := (library_net jwks_of F (e_clock E) 0).
Notation E0 := (freeze N0 E).
Let L0 := ls_run jwks_of F E L.

(** who has a trust chain is known by their key *)
Lemma key_there fuel m s s' c cs : In m F -> rank (m_id m) < fuel -> living jwks_of F E n0 kj0 s ->
  get_verified_trust_chains E O fuel (m_id m) s = (s', Ok (c :: cs)) -> VerifierSpec.holds (f_keys s') (m_id m) (m_key m).
Proof.
  intros Hm Hf (H1 & H2 & H3) H. destruct (standing jwks_of F E rank L HR HU O fuel m (f_keys s) Hm Hf H2) as (tr0 & leaf0 & kj' & tcs0 & s1 & P1 & P2 & P3 & _).
  destruct (get_verified_near E N0 n0 O fuel (m_id m) s s' _ tr0 leaf0 kj' tcs0 (moving_alike _ _ _ L) (moving_apart _ _ _ L) (moving_dated _ _ _ L)
              (dated0 _ _ _ L) (lf_picks _ _ _ L0) (moving_valid _ _ _ L) (moving_valid0 _ _ _ L) (moving_clean _ _ _ L)
              (proj2 (so_id _ _ _ (lf_sound _ _ _ L0 m Hm))) H1 P1 P2 H)
    as (_ & _ & [(_ & X & _)|[((_ & x & _ & X) & _)|[N3 N4]]]); [discriminate X..|].
  assert (V : visited E0 (f_col (fresh_start (f_keys s)))) by constructor.
  destruct (library_chains jwks_of F E0 rank L0 HR O fuel m (fresh_start (f_keys s)) Hm Hf V (right_jar _ _ _ L0 m _ Hm H2) (HU m Hm))
    as (s2 & tcs & G1 & _ & _ & _ & _ & G2 & _).
  assert (Hk : f_keys s2 = kj' /\ tcs0 <> []).
  { assert (Q := library_quiet _ _ _ L0 m Hm). destruct Q as (HS & HF' & HC & Hid). assert (HC' := hints_clean E0 _ HS HC).
    destruct (collect_eq E0 HS HF' HC' "" fuel (m_id m) Hid (f_col (fresh_start (f_keys s))) (visited_consistent E0 HS HF' HC' _ V)) as (z2 & E1 & _).
    assert (Ne : tcs0 <> []) by (intros ->; discriminate N4). split; [|exact Ne].
    unfold get_verified_trust_chains, collect_trust_chains, on_col in G1. unfold mbind at 1 in G1. unfold mbind at 1 in G1. rewrite E1, P1 in G1.
    unfold ret at 1 in G1. cbn [fst snd] in G1.
    destruct (map (map tok_of) (tree2chains tr0)) as [|ch chs] eqn:Ech.
    { exfalso. apply Ne. cbn in P2. injection P2 as _ <-. reflexivity. }
    cbn [is_nil] in G1. unfold mbind at 1, on_keys in G1. cbn [f_keys fresh_start] in G1. rewrite P2 in G1.
    unfold lift in G1. injection G1 as <- _. reflexivity. }
  destruct Hk as [Hk Ne]. rewrite N3, <- Hk. rewrite P3 in G1. assert (Ga : apply_policies O tcs0 = apply_policies O tcs) by congruence.
  rewrite Ga in N4. destruct tcs as [|tc tcs]; [cbn in N4; discriminate N4|]. exact (proj1 (G2 tc (or_introl eq_refl))).
Qed.

Lemma unexpired_before n n' p : forwards E -> n <= n' -> unexpired (e_clock E n') p -> unexpired (e_clock E n) p.
Proof.
  intros HF Hn. unfold unexpired. destruct (dget "exp" p) as [v|]; [|auto]. intros (e & He & Hl). exists e. split; [exact He|].
  assert (A := HF n n' Hn). lia.
Qed.

(** what is wanted of an issuer: the policies on its ways up are not in conflict, and its status endpoint, if it is to be asked, stays and says that the mark is active *)
Definition issuer_answers (m : member) (ask : string -> string -> string -> res (dict val)) (status : bool) (p : tmark) : Prop :=
  (forall rt, usable jwks_of F E kj0 (m_id m) rt -> exists x, policy_call_chain O (said jwks_of F E (m_id m) rt) = Ok x) /\
  (status = true -> exists u, endpoint_stays O jwks_of F E kj0 (m_id m) u /\ u <> "" /\ said_active ask u p).

Lemma mark_taken fuel V ask m p status s s' r :
  forwards E -> In m F -> rank (m_id m) < fuel -> fine jwks_of F E O n0 kj0 s ->
  (exists rt, usable jwks_of F E kj0 (m_id m) rt) -> issuer_answers m ask status p ->
  tm_schema p = true -> dget "delegation" p = None -> dget "iss" p = Some (VStr (m_id m)) ->
  tm_picks V (TMJws (m_key m) p) (m_key m) = true ->
  verify_trust_mark E O fuel V ask (TMJws (m_key m) p) status s = (s', r) -> unexpired (e_clock E (st_tick (f_col s'))) p ->
  r = Ok (Some p) \/
  (outage jwks_of F E (st_tick (f_col s)) (st_tick (f_col s')) /\ exists e, net_error e /\ r = Err e) \/
  aged E n0 (st_tick (f_col s')).
Proof.
  intros HF Hm Hf HFi (rt0 & U0) (Pol & Sta) H1 H2 H3 H4 H HX.
  unfold verify_trust_mark in H. rewrite H3 in H. unfold mbind at 1 in H.
  assert (S1 := safe_chains jwks_of F E rank L HR HU O n0 kj0 fuel m s Hm Hf HFi). unfold safe in S1.
  destruct (get_trust_chains E O fuel (m_id m) s) as [s1 r1] eqn:Eg. destruct S1 as (F1 & T1 & _).
  destruct (asked jwks_of F E rank L HR HU n0 kj0 O fuel m s s1 r1 Hm Hf (proj1 HFi) (proj1 (proj2 HFi)) Eg) as [_ [A|[(OU & x & NE & ->)|[AG ->]]]].
  2:{ injection H as <- <-. right. left. split; [exact OU|eauto]. }
  2:{ injection H as <- <-. right. right. exact AG. }
  destruct r1 as [cs|x].
  2:{ exfalso. destruct A as (rt & U & X). destruct (Pol rt U) as (y & Y). congruence. }
  destruct A as (A1 & A2 & _). destruct cs as [|c cs]; [destruct (A1 rt0 U0) as (c & [] & _)|].
  destruct (A2 c (or_introl eq_refl)) as (rt & U & (Hend & Hch) & (ves & Ad)).
  unfold mbind at 1 in H.
  destruct (get_verified_trust_chains E O fuel (m_id m) s1) as [s2 r2] eqn:Ev.
  assert (S2 := safe_verified jwks_of F E rank L HR HU O n0 kj0 fuel m s1 Hm Hf F1). unfold safe in S2. rewrite Ev in S2. destruct S2 as (F2 & T2 & _).
  assert (Tk : st_tick (f_col s1) <= st_tick (f_col s')).
  { assert (X := safe_mark jwks_of F E rank L HR HU O n0 kj0 fuel V (TMJws (m_key m) p)).
    destruct (rank_end F rank HR _ _ (proj1 U)) as [Rk (x & Hx & Hs & Ex)].
    specialize (X x m (m_key m) p s1 Hx Hs ltac:(rewrite Ex; lia) Hm Hf F1 eq_refl H3). unfold safe in X. rewrite Ex, <- Hend in X.
    destruct (tm_verifier E O fuel V (TMJws (m_key m) p) (ch_anchor c) false "" s1) as [s3 [v|x3]]; destruct X as (_ & X & _).
    2:{ injection H as <- _. exact X. }
    destruct status; [|injection H as <- _; exact X]. destruct v as [p'|]; [|injection H as <- _; exact X].
    destruct (dget "sub" p') as [[| | |sub| |]|]; try (injection H as <- _; exact X).
    destruct (dget "id" p') as [[| | |id| |]|]; try (injection H as <- _; exact X).
    unfold mbind at 1, lift at 1 in H. destruct (TrustMarkVerifierModel.chain_metadata c _ _); [|injection H as <- _; exact X].
    unfold mbind, lift, ret in H. destruct (status_of ask _ sub id); injection H as <- _; exact X. }
  assert (UX := unexpired_before _ _ p HF Tk HX).
  destruct (looked_should jwks_of F E rank L HR HU n0 kj0 O fuel m s1 s2 r2 Hm Hf (proj1 F1) Ev) as [B|B].
  - destruct r2 as [cs2|x].
    2:{ exfalso. destruct B as (rt' & U' & X). destruct (Pol rt' U') as (y & Y). congruence. }
    destruct B as (B1 & _). destruct (B1 rt U) as (c2 & Hc2 & (Hend2 & _) & _).
    assert (Hk : VerifierSpec.holds (f_keys s2) (m_id m) (m_key m)).
    { destruct cs2 as [|d cs2]; [destruct Hc2|]. exact (key_there fuel m s1 s2 d cs2 Hm Hf (proj1 F1) Ev). }
    left.
    rewrite (C49_valid_marks_accepted E O fuel V s1 (m_key m) p (ch_anchor c) false "" (m_id m) s2 cs2 H1 H2 H3 UX Ev) in H;
      [|apply in_map_iff; exists c2; split; [congruence|exact Hc2]|exact Hk|exact H4].
    destruct status; [|injection H as <- <-; reflexivity].
    destruct (Sta eq_refl) as (u & St & Hu & (sub & id & resp & a & Q1 & Q2 & Q3 & Q4 & Q5)). rewrite Q1, Q2 in H.
    destruct (St rt U) as (md & ves' & fe & Hpol & Hfe & Hep). rewrite Hpol in Ad. injection Ad as Hmd _.
    assert (Hcm : TrustMarkVerifierModel.chain_metadata c "federation_entity" "federation_trust_mark_status_endpoint" = Ok (VStr u)).
    { unfold TrustMarkVerifierModel.chain_metadata. rewrite <- Hmd. unfold dindex. rewrite Hfe. cbn [bind]. rewrite Hep. reflexivity. }
    rewrite Hcm in H. unfold mbind at 1, lift at 1 in H. unfold status_of in H. destruct (String.eqb_spec u "") as [|_]; [contradiction|].
    rewrite Q3 in H. unfold mbind, lift, ret in H. rewrite Q4, Q5 in H. injection H as <- <-. reflexivity.
  - right.
    assert (Er : exists x, r2 = Err x) by (destruct B as [(_ & x & _ & X)|[_ X]]; eauto). destruct Er as [x ->].
    rewrite (tm_verifier_err E O fuel V s1 (m_key m) p (ch_anchor c) false "" (m_id m) s2 x H1 H2 H3 UX Ev) in H.
    injection H as <- <-. destruct B as [(OU & y & NE & X)|[AG _]].
    + left. split; [|exists y; split; [exact NE|congruence]]. destruct OU as (i & q & O1 & O2 & O3). exists i, q. split; [lia|]. split; [exact O2|exact O3].
    + right. exact AG.
Qed.
End Accepted.

Lemma fine_start jwks_of F E O s0 : newborn s0 -> right_keys F (f_keys s0) -> fine jwks_of F E O (st_tick (f_col s0)) (f_keys s0) s0.
Proof.
  intros HB Hk. split; [exact (living_start jwks_of F E s0 HB Hk)|]. split; [|intros x k _ Hh; left; exact Hh].
  intros x cs Hx D. rewrite (proj2 (proj2 HB)) in D. discriminate D.
Qed.

(** C185: after whatever has happened, a trust mark that a member of the federation has signed, that says what marks have to say and that does
    not expire meanwhile is accepted, if the issuer has a usable way up, no policies on such ways are in conflict, and the issuer, if it is to be
    asked, says that the mark is active; unless one of the requests fails, or a day has passed since the beginning *)
Theorem C185_accepted : forall jwks_of F E O rank ds s0 fuel V ask m p status s' r,
  library_shaky jwks_of F E -> forwards E -> hierarchy F rank -> all_checkable jwks_of F E ->
  newborn s0 -> right_keys F (f_keys s0) -> deeds_about F rank ds -> In m F -> rank (m_id m) < fuel ->
  (exists rt, usable jwks_of F E (f_keys s0) (m_id m) rt) ->
  (forall rt, usable jwks_of F E (f_keys s0) (m_id m) rt -> exists x, policy_call_chain O (said jwks_of F E (m_id m) rt) = Ok x) ->
  (status = true -> exists u, endpoint_stays O jwks_of F E (f_keys s0) (m_id m) u /\ u <> "" /\ said_active ask u p) ->
  tm_schema p = true -> dget "delegation" p = None -> dget "iss" p = Some (VStr (m_id m)) ->
  tm_picks V (TMJws (m_key m) p) (m_key m) = true ->
  let s := after_deeds E O ds s0 in
  verify_trust_mark E O fuel V ask (TMJws (m_key m) p) status s = (s', r) -> unexpired (e_clock E (st_tick (f_col s'))) p ->
  r = Ok (Some p) \/
  (outage jwks_of F E (st_tick (f_col s)) (st_tick (f_col s')) /\ exists e, net_error e /\ r = Err e) \/
  (e_clock E (st_tick (f_col s0)) + 86400 - e_delta E <= e_clock E (st_tick (f_col s')))%Z.
Proof.
  intros jwks_of F E O rank ds s0 fuel V ask m p status s' r L HF HR HU HB Hk HA Hm Hf HW HP HS H1 H2 H3 H4 s H HX.
  assert (Fi := fine_deeds jwks_of F E rank L HR HU O _ _ ds s0 (fine_start jwks_of F E O s0 HB Hk) HA).
  destruct (mark_taken jwks_of F E rank L HR HU O _ _ fuel V ask m p status s s' r HF Hm Hf Fi HW (conj HP HS) H1 H2 H3 H4 H HX) as [X|[X|X]].
  - left. exact X.
  - right. left. exact X.
  - right. right. exact (aged_day jwks_of F E L _ _ HF X).
Qed.
Print Assumptions C185_accepted.

(** The same from the issue of the mark on: the mark has come from the issuer, whatever it has issued before and after, and its status endpoint is the one of this
    library. *)
Theorem C185_issued : forall jwks_of F E O rank ds s0 fuel V ask m I cfg h held now u t id sub more mark status s' r,
  library_shaky jwks_of F E -> forwards E -> hierarchy F rank -> all_checkable jwks_of F E ->
  newborn s0 -> right_keys F (f_keys s0) -> deeds_about F rank ds -> In m F -> rank (m_id m) < fuel ->
  (exists rt, usable jwks_of F E (f_keys s0) (m_id m) rt) -> endpoint_stays O jwks_of F E (f_keys s0) (m_id m) u -> u <> "" ->
  i_id I = m_id m -> i_key I = m_key m -> own_files cfg -> orderly h -> no_own_exp h ->
  issued I (fresh cfg) h t id sub more mark -> unexpired now (claims_of mark) -> status_at I cfg h held now u ask ->
  tm_schema (claims_of mark) = true -> dget "delegation" (claims_of mark) = None -> tm_picks V mark (m_key m) = true ->
  let s := after_deeds E O ds s0 in
  verify_trust_mark E O fuel V ask mark status s = (s', r) -> unexpired (e_clock E (st_tick (f_col s'))) (claims_of mark) ->
  r = Ok (Some (claims_of mark)) \/
  (outage jwks_of F E (st_tick (f_col s)) (st_tick (f_col s')) /\ exists e, net_error e /\ r = Err e) \/
  (e_clock E (st_tick (f_col s0)) + 86400 - e_delta E <= e_clock E (st_tick (f_col s')))%Z.
Proof.
  intros jwks_of F E O rank ds s0 fuel V ask m I cfg h held now u t id sub more mark status s' r
    L HF HR HU HB Hk HA Hm Hf HW Hst Hune Ei Ek Hown Hord Hnx Hiss Hnow Hask Hsc Hdel Hp s H HX.
  assert (Hid0 : exists p, mark = TMJws (i_key I) p /\ dget "iss" p = Some (VStr (i_id I)) /\
            dget "id" p = Some (VStr id) /\ dget "sub" p = Some (VStr sub)).
  { pose proof Hiss as Hi. apply issued_file in Hi. destruct Hi as (c & _ & Hc & -> & _).
    destruct (pack_schema _ _ _ _ _ _ Hc Hsc) as [E1 E2]. unfold pack in *. cbn [claims_of] in *.
    eexists. split; [reflexivity|].
    split; [rewrite dget_dset_other by discriminate; apply dget_dset_same|auto]. }
  destruct Hid0 as (p & -> & Eiss & Eid & Esub). cbn [claims_of] in *. rewrite Ei in Eiss. rewrite Ek in *.
  assert (Hidne : id <> "").
  { intros ->. unfold tm_schema in Hsc. assert (X : has_str "id" p = false) by (unfold has_str; rewrite Eid; reflexivity).
    rewrite X in Hsc. rewrite !Bool.andb_false_r in Hsc. discriminate Hsc. }
  assert (Hact : trust_mark_status held (run I (fresh cfg) h) now (by_ids id sub) = Ok Active).
  { apply (C44_active_partial I cfg h held now id sub Hown Hidne Hord Hnx). exists t, more, (TMJws (m_key m) p). auto. }
  apply (C185_accepted jwks_of F E O rank ds s0 fuel V ask m p status s' r L HF HR HU HB Hk HA Hm Hf HW); try assumption.
  - intros rt U. destruct (Hst rt U) as (md & ves & fe & X & _). eauto.
  - intros _. exists u. split; [exact Hst|]. split; [exact Hune|]. exists sub, id, [("active", VBool true)], (VBool true).
    split; [exact Esub|]. split; [exact Eid|]. split; [rewrite Hask, Hact; reflexivity|]. split; reflexivity.
Qed.
Print Assumptions C185_issued.

(** the federation and the deeds of C177: tmi's mark cannot be checked at first, and is accepted in the end *)
Definition mt_after (n : nat) : fstate := after_deeds cr_env id_order (firstn n mr_deeds) v_start.

Example C185_ex : library_shaky ex_jwks v_fed cr_env /\ forwards cr_env /\ hierarchy v_fed v_rank /\ all_checkable ex_jwks v_fed cr_env /\
  newborn v_start /\ right_keys v_fed (f_keys v_start) /\ deeds_about v_fed v_rank mr_deeds /\
  usable ex_jwks v_fed cr_env (f_keys v_start) "tmi" ["ta"] /\
  endpoint_stays id_order ex_jwks v_fed cr_env (f_keys v_start) "tmi" "tmi/status" /\
  said_active mr_ask "tmi/status" (claims_of (mr_mark 5)) /\
  tm_schema (claims_of (mr_mark 5)) = true /\ dget "delegation" (claims_of (mr_mark 5)) = None /\
  tm_picks ex_tmenv (mr_mark (m_key v_tmi)) (m_key v_tmi) = true /\
  snd (verify_trust_mark cr_env id_order 2 ex_tmenv mr_ask (mr_mark 5) true (mt_after 0)) = Err ConnectionError /\
  (exists s', verify_trust_mark cr_env id_order 2 ex_tmenv mr_ask (mr_mark 5) true (mt_after 5) = (s', Ok (Some (claims_of (mr_mark 5)))) /\
     unexpired (e_clock cr_env (st_tick (f_col s'))) (claims_of (mr_mark 5)) /\
     (e_clock cr_env (st_tick (f_col s')) < e_clock cr_env (st_tick (f_col v_start)) + 86400 - e_delta cr_env)%Z).
Proof.
  destruct C177_ex as (X1 & X2 & X3 & X4 & X5 & X6 & _ & X8 & _). assert (Ht : In v_tmi v_fed) by (simpl; auto).
  split; [exact X1|]. split; [exact cr_forwards|]. split; [exact X2|]. split; [exact X3|]. split; [exact X4|]. split; [exact X5|].
  split; [exact X6|]. split. { exact (v_usable v_tmi Ht ltac:(discriminate)). }
  split.
  { intros rt (Hp & Hne & _). destruct (v_path v_tmi rt Ht Hp) as [-> | ->]; [contradiction Hne; reflexivity|].
    eexists _, _, _. split; [vm_compute; reflexivity|]. split; reflexivity. }
  split. { exists "rp1", "sirtfi", [("active", VBool true)], (VBool true). repeat split. }
  split; [reflexivity|]. split; [reflexivity|]. split; [reflexivity|]. split; [exact X8|].
  eexists. split; [vm_compute; reflexivity|]. split; [exists 50000%Z; split; [reflexivity|vm_compute; discriminate]|vm_compute; reflexivity].
Qed.
