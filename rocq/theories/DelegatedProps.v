(** Trust marks with delegations are accepted as soon as requests do not fail any more (C185). *)
From Verif Require Import PyFacts ExampleKit CollectorProps CollectorRepeat CollectorRepeatProps VerifierFacts FederationProps.
From Verif Require Import RpSpec RpFacts TrustMarkVerifierModel TrustMarkSpec TrustMarkFacts TrustMarkProps TrustMarkVerifierProps.
From Verif Require Import LiveExample LiveMarkProps LiveResolveProps ClientsRightProps ResolverRightProps GetInProps.
From Verif Require Export MarksTakenProps.
From Coq Require Import Lia.

Lemma minv {S A B} (m : M S A) (f : A -> M S B) s s' b :
  mbind m f s = (s', Ok b) -> exists s1 a, m s = (s1, Ok a) /\ f a s1 = (s', Ok b).
Proof. unfold mbind. destruct (m s) as [s1 [a|e]]; intros H; [exists s1, a; auto|discriminate H]. Qed.

(** marks with a delegation whose verification fails because of requests *)
Lemma delegated_err E O fuel V s k p anchor check ent iss id d s1 r1 :
  tm_schema p = true -> dget "iss" p = Some (VStr iss) -> dget "id" p = Some (VStr id) -> dget "delegation" p = Some (VStr d) ->
  unexpired (e_clock E (st_tick (f_col s))) p -> get_metadata E fuel anchor s = (s1, r1) ->
  (forall e, r1 = Err e -> tm_verifier E O fuel V (TMJws k p) anchor check ent s = (s1, Err e)) /\
  (forall m fe s2 x, r1 = Ok m -> dget "federation_entity" m = Some fe -> anchor_agrees V fe id d ->
     get_verified_trust_chains E O fuel iss s1 = (s2, Err x) -> tm_verifier E O fuel V (TMJws k p) anchor check ent s = (s2, Err x)).
Proof.
  intros Hs Hi Hid Hd Hu Hm.
  assert (Ex : mark_expired (e_clock E (st_tick (f_col s))) p = Ok false).
  { unfold mark_expired, unexpired in *. destruct (dget "exp" p) as [v|]; [|reflexivity].
    destruct Hu as (e & -> & Hle). cbn [bind]. destruct (Z.ltb_spec e (e_clock E (st_tick (f_col s)))); [lia|reflexivity]. }
  assert (Es : mkFed (f_col s) (f_keys s) (f_chains s) = s) by (destruct s; reflexivity).
  split.
  - intros e ->. unfold tm_verifier, tm_verify. rewrite Hs. unfold mbind at 1. unfold lift at 1.
    unfold mbind at 1. unfold on_col at 1, now at 1. cbn beta iota. unfold mbind at 1. unfold lift at 1.
    rewrite Es, Ex. unfold dmem. rewrite Hd. unfold mbind at 1.
    assert (Hv : verify_delegation E fuel V p anchor s = (s1, Err e)) by (unfold verify_delegation, mbind at 1; rewrite Hm; reflexivity).
    rewrite Hv. reflexivity.
  - intros m fe s2 x -> Hfe Hag Hg. unfold tm_verifier, tm_verify. rewrite Hs. unfold mbind at 1. unfold lift at 1.
    unfold mbind at 1. unfold on_col at 1, now at 1. cbn beta iota. unfold mbind at 1. unfold lift at 1.
    rewrite Es, Ex. unfold dmem. rewrite Hd. unfold mbind at 1.
    destruct (check_delegation_agrees _ _ _ _ Hag) as [b Hb].
    assert (Hv : verify_delegation E fuel V p anchor s = (s1, Ok b)).
    { unfold verify_delegation, mbind at 1. rewrite Hm. unfold mbind, lift. unfold dindex. rewrite Hfe, Hid, Hd, Hb. reflexivity. }
    rewrite Hv, Hi. unfold mbind at 1. rewrite Hg. reflexivity.
Qed.

(** the trust anchors above [m] publish what makes marks with this id and delegation acceptable *)
Definition anchors_agree (jwks_of : val -> option (list key)) (F : list member) (E : cenv) (kj0 : keyjar) (V : tmenv) (m : member) (id d : string) : Prop :=
  forall rt, usable jwks_of F E kj0 (m_id m) rt ->
    exists md fe, s_metadata (w_config (library_world jwks_of F (e_clock E 0)) (end_of (m_id m) rt)) = Some md /\
      dget "federation_entity" md = Some fe /\ anchor_agrees V fe id d.

Section Delegated.
Context (jwks_of : val -> option (list key)) (F : list member) (E : cenv) (rank : string -> nat).
Context (L : library_shaky jwks_of F E) (HR : hierarchy F rank) (HU : all_checkable jwks_of F E).
Context (O : iter_order) (n0 : nat) (kj0 : keyjar).
Notation N0 := (library_net jwks_of F (e_clock E) 0).
Notation E0 := (freeze N0 E).
Notation W := (library_world jwks_of F (e_clock E 0)).
Let L0 := ls_run jwks_of F E L.
Notation JJ := (MotionFacts.J E N0 n0).

Lemma top_hints x p : In x F -> superiors_of x = [] -> settle p = settle (w_config W (m_id x)) -> s_hints p = None \/ s_hints p = Some [].
Proof.
  intros Hx Hs Hp. assert (A := above_member _ _ _ L0 x Hx). change (e_clock E0 0) with (e_clock E 0) in A. rewrite Hs in A.
  unfold above in A. destruct (String.eqb_spec (m_id x) "") as [Hn|_]; [destruct (proj1 (so_id _ _ _ (lf_sound _ _ _ L0 x Hx)) Hn)|].
  unfold superiors in A. assert (H := f_equal s_hints Hp). cbn [settle s_hints] in H. rewrite H.
  destruct (s_hints (w_config W (m_id x))) as [h|]; [right; congruence|left; reflexivity].
Qed.

Lemma tree_top fuel id p s : s_hints p = None \/ s_hints p = Some [] -> 0 < fuel -> collect_tree E fuel "" id (Some p) s = (s, Ok (T [])).
Proof.
  intros H Hf. destruct fuel as [|fuel]; [lia|]. cbn [collect_tree]. destruct H as [-> | ->]; [reflexivity|].
  destruct (String.eqb (s_iss p) ""); reflexivity.
Qed.

Lemma config_is x k p p0 : In x F -> pverified E0 (m_id x) = Ok (TJws k p0, p0) -> settle p = settle p0 -> settle p = settle (w_config W (m_id x)).
Proof.
  intros Hx H Hp. assert (PV : pverified E0 (m_id x) = Ok (own W (m_id x), w_config W (m_id x))).
  { exact (wr_pverified E0 W "" (m_id x) (WR _ _ _ rank L0 HR x Hx) (m_id x) (reaches_self _ _ _)). }
  rewrite PV in H. assert (X := f_equal (fun r => match r with Ok y => Some (snd y) | Err _ => None end) H). change (Some (w_config W (m_id x)) = Some p0) in X. assert (Y : w_config W (m_id x) = p0) by congruence. rewrite Y. exact Hp.
Qed.

(** who collects chains of a member without superiors has its configuration afterwards *)
Lemma collect_top fuel x s c r : In x F -> superiors_of x = [] -> rank (m_id x) < fuel -> JJ s ->
  collect E fuel "" (m_id x) s = (c, r) ->
  JJ c /\ st_tick s <= st_tick c /\
  ((aged E n0 (st_tick c) /\ r = Err TypeError) \/ (down E N0 (st_tick s) (st_tick c) /\ exists e, net_error e /\ r = Err e) \/
   exists tr t e, r = Ok (Some (tr, t)) /\ tree2chains tr = [] /\ dget (m_id x) (st_cfg c) = Some e).
Proof.
  intros Hx Hs Hf Js H. assert (R := runs_collect jwks_of F E L n0 fuel x s Hx Js). unfold runs in R. rewrite H in R.
  destruct (standing_upto jwks_of F E rank L HR "" O fuel x [] (checkable_all jwks_of F E L HU x Hx) Hx Hf) as (tr0 & leaf0 & kj' & tcs0 & P1 & _).
  { intros y ks _ D. discriminate D. }
  destruct (chains_there jwks_of F E rank L HR fuel x tr0 leaf0 Hx Hf P1) as [Ce _]. rewrite P1 in R.
  destruct R as (R1 & R2 & R3). split; [exact R2|]. split; [exact R1|].
  destruct R3 as [R3|[R3|[R3 _]]]; [left; exact R3|right; left; exact R3|]. right. right.
  destruct r as [[[tr t]|]|y]; cbn in R3; try discriminate R3. injection R3 as Rt Rk. rewrite Ce in Rk.
  destruct t as [|k p]; [discriminate Rk|].
  assert (Hc : settle p = settle (w_config W (m_id x))) by exact (f_equal (fun t => match t with TJws _ q => q | TJunk => settle p end) Rk).
  assert (Hh := top_hints x p Hx Hs Hc). assert (Hp := fun s => tree_top fuel (m_id x) p s Hh ltac:(lia)).
  unfold collect in H. apply minv in H. destruct H as (s1 & a & H1 & H). injection H1 as <- <-.
  apply minv in H. destruct H as (s2 & ca & H2 & H).
  assert (Fetch : forall s3, (do signed <- get_entity_configuration E (m_id x) in
      match signed with
      | None => ret None
      | Some _ => do tp <- open_self_signed E signed in
                  do _ <- cfg_set (m_id x) (mkEntry (snd tp) (Some (fst tp)) CDict) in
                  do tr <- collect_tree E fuel "" (m_id x) (Some (snd tp)) in ret (Some (tr, fst tp))
      end) s3 = (c, Ok (Some (tr, TJws k p))) -> tree2chains tr = [] /\ exists e, dget (m_id x) (st_cfg c) = Some e).
  { intros s3 G. apply minv in G. destruct G as (s4 & sg & _ & G). destruct sg as [sg|]; [|discriminate G].
    apply minv in G. destruct G as (s5 & [t q] & G5 & G). assert (G5' := f_equal snd G5). cbn [open_self_signed snd] in G5'.
    apply verify_self_signed_ok in G5'. destruct G5' as [_ (k' & keys & Et & _)].
    apply minv in G. destruct G as (s6 & u & G6 & G). injection G6 as <- _.
    apply minv in G. destruct G as (s7 & tr' & G7 & G). cbn [fst snd] in *. injection G as <- <- G.
    assert (q = p) by congruence. subst q. rewrite Hp in G7. injection G7 as <- <-. split; [reflexivity|].
    eexists. apply dget_dset_same. }
  exists tr, (TJws k p). cut (tree2chains tr = [] /\ exists e, dget (m_id x) (st_cfg c) = Some e).
  { intros [X [e Y]]. exists e. auto. }
  unfold cache_get in H2. destruct (dget (m_id x) (st_cfg s)) as [e|] eqn:Ed.
  2:{ injection H2 as <- <-. exact (Fetch _ H). }
  apply minv in H2. destruct H2 as (s3 & n & H3 & H2). injection H3 as <- _.
  apply minv in H2. destruct H2 as (s4 & old & H4 & H2). unfold lift in H4. injection H4 as <- _.
  destruct old; [injection H2 as <- <-; exact (Fetch _ H)|].
  destruct (proj1 (proj2 Js) (m_id x) e Ed) as (n1 & u & k' & p' & p0 & z & _ & _ & _ & _ & -> & _).
  cbn [ce_jws ce_stmt] in H2. injection H2 as <- <-.
  apply minv in H. destruct H as (s7 & tr' & H7 & H). injection H as <- <- _ ->. rewrite Hp in H7. injection H7 as <- <-.
  split; [reflexivity|eauto].
Qed.

(** the metadata of a member without superiors are what it publishes *)
Definition says_metadata (x : member) : res (dict metadata) :=
  match s_metadata (w_config W (m_id x)) with Some m => Ok m | None => Err KeyError end.

Lemma metadata_there fuel x s s' r : In x F -> superiors_of x = [] -> rank (m_id x) < fuel -> fine jwks_of F E O n0 kj0 s ->
  get_metadata E fuel (m_id x) s = (s', r) ->
  r = says_metadata x \/ (outage jwks_of F E (st_tick (f_col s)) (st_tick (f_col s')) /\ exists e, net_error e /\ r = Err e) \/
  (aged E n0 (st_tick (f_col s')) /\ r = Err TypeError).
Proof.
  intros Hx Hs Hf H Hg.
  assert (Fin : forall c e, JJ c -> dget (m_id x) (st_cfg c) = Some e ->
            match s_metadata (ce_stmt e) with Some m => Ok m | None => Err KeyError end = says_metadata x).
  { intros c e Jc D. destruct (proj1 (proj2 Jc) _ _ D) as (n1 & u & k' & p' & p0 & z & _ & _ & _ & _ & -> & V & P).
    assert (X := f_equal s_metadata (config_is x k' p' p0 Hx V P)). cbn [settle s_metadata] in X. cbn [ce_stmt]. unfold says_metadata.
    rewrite X. reflexivity. }
  assert (Refetch : forall s1, fine jwks_of F E O n0 kj0 s1 -> st_tick (f_col s1) = st_tick (f_col s) ->
    (do e <- (do r <- collect_trust_chains E fuel (m_id x) "" in
              do _ <- on_keys (verify_trust_chains E (fst r) []) in
              do e <- on_col (cfg_getitem E (m_id x)) in
              match e with None => raise TypeError | Some e => ret e end) in
     match s_metadata (ce_stmt e) with Some m => ret m | None => raise KeyError end) s1 = (s', r) ->
    r = says_metadata x \/ (outage jwks_of F E (st_tick (f_col s)) (st_tick (f_col s')) /\ exists e, net_error e /\ r = Err e) \/
    (aged E n0 (st_tick (f_col s')) /\ r = Err TypeError)).
  { intros s1 H1 T1 G. unfold collect_trust_chains, on_col in G. unfold mbind in G.
    destruct (collect E fuel "" (m_id x) (f_col s1)) as [c r1] eqn:Ec.
    destruct (collect_top fuel x (f_col s1) c r1 Hx Hs Hf (fine_J _ _ _ _ _ _ _ H1) Ec) as (Jc & Tc & D).
    destruct D as [[AG ->]|[(DN & y & NE & ->)|(tr & t & e & -> & C0 & De)]].
    - injection G as <- <-. right. right. split; [exact AG|reflexivity].
    - injection G as <- <-. right. left. split; [|eauto]. rewrite <- T1. apply outage_down. exact DN.
    - unfold ret in G. cbn [fst] in G. rewrite C0 in G. cbn in G.
      destruct (r_cfg_getitem E N0 n0 (m_id x) c Jc) as [(e' & C & D')|[[_ C]|(s2 & C & T & _ & AG & _)]]; [|congruence|].
      + rewrite C in G. left. rewrite <- (Fin c e' Jc D'). destruct (s_metadata (ce_stmt e')); injection G as _ <-; reflexivity.
      + rewrite C in G. injection G as <- <-. right. right. cbn. rewrite T. split; [exact AG|reflexivity]. }
  unfold get_metadata in Hg. unfold mbind at 1, StateM.get in Hg. unfold mbind at 1 in Hg.
  unfold cache_contains in Hg. destruct (dmem (m_id x) (st_cfg (f_col s))) eqn:Em.
  2:{ exact (Refetch s H eq_refl Hg). }
  unfold mbind at 1, on_col at 1 in Hg. assert (HJ := fine_J _ _ _ _ _ _ _ H).
  assert (Es : mkFed (f_col s) (f_keys s) (f_chains s) = s) by (destruct s; reflexivity).
  destruct (r_cfg_getitem E N0 n0 (m_id x) (f_col s) HJ) as [(e & C & D)|[[_ C]|(s2 & C & T & _ & AG & _)]].
  - rewrite C, Es in Hg. unfold mbind at 1, on_col at 1, now at 1 in Hg. rewrite Es in Hg. unfold ret at 1 in Hg.
    destruct (proj1 (proj2 HJ) _ _ D) as (n1 & u & k' & p' & p0 & z & _ & _ & _ & Hz & He & _).
    assert (Hz' : s_exp (ce_stmt e) = Some z) by (rewrite He; exact Hz). rewrite Hz' in Hg.
    destruct (Z.ltb z (e_clock E (st_tick (f_col s)))); [exact (Refetch s H eq_refl Hg)|].
    left. rewrite <- (Fin _ e HJ D). unfold mbind, ret, raise in Hg. destruct (s_metadata (ce_stmt e)); injection Hg as _ <-; reflexivity.
  - unfold dmem in Em. rewrite C in Em. discriminate Em.
  - rewrite C in Hg. injection Hg as <- <-. right. right. cbn. rewrite T. split; [exact AG|reflexivity].
Qed.

Lemma delegated_taken fuel V ask m p id d status s s' r :
  forwards E -> In m F -> rank (m_id m) < fuel -> fine jwks_of F E O n0 kj0 s ->
  (exists rt, usable jwks_of F E kj0 (m_id m) rt) -> issuer_answers jwks_of F E O kj0 m ask status p ->
  tm_schema p = true -> dget "id" p = Some (VStr id) -> dget "delegation" p = Some (VStr d) ->
  anchors_agree jwks_of F E kj0 V m id d -> dget "iss" p = Some (VStr (m_id m)) ->
  tm_picks V (TMJws (m_key m) p) (m_key m) = true ->
  verify_trust_mark E O fuel V ask (TMJws (m_key m) p) status s = (s', r) -> unexpired (e_clock E (st_tick (f_col s'))) p ->
  r = Ok (Some p) \/
  (outage jwks_of F E (st_tick (f_col s)) (st_tick (f_col s')) /\ exists e, net_error e /\ r = Err e) \/
  aged E n0 (st_tick (f_col s')).
Proof.
  intros HF Hm Hf HFi (rt0 & U0) (Pol & Sta) H1 Hid H2 HAG H3 H4 H HX.
  unfold verify_trust_mark in H. rewrite H3 in H. unfold mbind at 1 in H.
  assert (S1 := safe_chains jwks_of F E rank L HR HU O n0 kj0 fuel m s Hm Hf HFi). unfold safe in S1.
  destruct (get_trust_chains E O fuel (m_id m) s) as [s1 r1] eqn:Eg. destruct S1 as (F1 & T1 & _).
  destruct (asked jwks_of F E rank L HR HU n0 kj0 O fuel m s s1 r1 Hm Hf (proj1 HFi) (proj1 (proj2 HFi)) Eg) as [_ [A|[(OU & x & NE & ->)|[AG ->]]]].
  2:{ injection H as <- <-. right. left. split; [exact OU|eauto]. }
  2:{ injection H as <- <-. right. right. exact AG. }
  destruct r1 as [cs|x].
  2:{ exfalso. destruct A as (rt & U & X). destruct (Pol rt U) as (y & Y). congruence. }
  destruct A as (A1 & A2 & _). destruct cs as [|c cs]; [destruct (A1 rt0 U0) as (c & [] & _)|].
  destruct (A2 c (or_introl eq_refl)) as (rt & U & (Hend & Hch) & (ves & Ad)).
  unfold mbind at 1 in H.
  destruct (rank_end F rank HR _ _ (proj1 U)) as [Rk (x & Hx & Hs & Ex)].
  destruct (get_metadata E fuel (ch_anchor c) s1) as [sm rm] eqn:Em.
  assert (Fm : fine jwks_of F E O n0 kj0 sm /\ st_tick (f_col s1) <= st_tick (f_col sm)).
  { assert (X := safe_metadata jwks_of F E rank L HR HU O n0 kj0 fuel x s1 Hx Hs ltac:(rewrite Ex; lia) F1). unfold safe in X.
    rewrite Ex, <- Hend, Em in X. destruct X as (X1 & X2 & _). auto. }
  destruct Fm as [Fm Tm].
  assert (Tk : st_tick (f_col s1) <= st_tick (f_col s')).
  { assert (X := safe_mark jwks_of F E rank L HR HU O n0 kj0 fuel V (TMJws (m_key m) p)).
    specialize (X x m (m_key m) p s1 Hx Hs ltac:(rewrite Ex; lia) Hm Hf F1 eq_refl H3). unfold safe in X. rewrite Ex, <- Hend in X.
    destruct (tm_verifier E O fuel V (TMJws (m_key m) p) (ch_anchor c) false "" s1) as [s3 [v|x3]]; destruct X as (_ & X & _).
    2:{ injection H as <- _. exact X. }
    destruct status; [|injection H as <- _; exact X]. destruct v as [p'|]; [|injection H as <- _; exact X].
    destruct (dget "sub" p') as [[| | |sub| |]|]; try (injection H as <- _; exact X).
    destruct (dget "id" p') as [[| | |id'| |]|]; try (injection H as <- _; exact X).
    unfold mbind at 1, lift at 1 in H. destruct (TrustMarkVerifierModel.chain_metadata c _ _); [|injection H as <- _; exact X].
    unfold mbind, lift, ret in H. destruct (status_of ask _ sub id'); injection H as <- _; exact X. }
  assert (UX := unexpired_before E _ _ p HF Tk HX).
  destruct (delegated_err E O fuel V s1 (m_key m) p (ch_anchor c) false "" (m_id m) id d sm rm H1 H3 Hid H2 UX Em) as [DE1 DE2].
  assert (MT : rm = says_metadata x \/ (outage jwks_of F E (st_tick (f_col s1)) (st_tick (f_col sm)) /\ exists e, net_error e /\ rm = Err e) \/
            (aged E n0 (st_tick (f_col sm)) /\ rm = Err TypeError)).
  { apply (metadata_there fuel x s1 sm rm Hx Hs); [rewrite Ex; lia|exact F1|rewrite Ex, <- Hend; exact Em]. }
  destruct MT as [MT|[(OU & e & NE & Er)|[AG Er]]].
  2:{ rewrite (DE1 e Er) in H. injection H as <- <-. right. left. split; [|eauto].
      destruct OU as (i & q & O1 & O2 & O3). exists i, q. split; [lia|]. split; [exact O2|exact O3]. }
  2:{ rewrite (DE1 _ Er) in H. injection H as <- <-. right. right. exact AG. }
  destruct (HAG rt U) as (md & fe & Hmd & Hfe & Hag). rewrite <- Ex in Hmd. unfold says_metadata in MT. rewrite Hmd in MT. subst rm.
  destruct (get_verified_trust_chains E O fuel (m_id m) sm) as [s2 r2] eqn:Ev.
  destruct (looked_should jwks_of F E rank L HR HU n0 kj0 O fuel m sm s2 r2 Hm Hf (proj1 Fm) Ev) as [B|B].
  - destruct r2 as [cs2|y].
    2:{ exfalso. destruct B as (rt' & U' & X). destruct (Pol rt' U') as (z & Z). congruence. }
    destruct B as (B1 & _). destruct (B1 rt U) as (c2 & Hc2 & (Hend2 & _) & _).
    assert (Hk : VerifierSpec.holds (f_keys s2) (m_id m) (m_key m)).
    { destruct cs2 as [|c3 cs2]; [destruct Hc2|]. exact (key_there jwks_of F E rank L HR HU O n0 kj0 fuel m sm s2 c3 cs2 Hm Hf (proj1 Fm) Ev). }
    left.
    rewrite (C49_delegated_marks_accepted E O fuel V s1 (m_key m) p (ch_anchor c) false "" (m_id m) id d sm md fe s2 cs2 H1 H3 Hid H2 UX Em Hfe Hag Ev) in H;
      [|apply in_map_iff; exists c2; split; [congruence|exact Hc2]|exact Hk|exact H4].
    destruct status; [|injection H as <- <-; reflexivity].
    destruct (Sta eq_refl) as (u & St & Hu & (sub & id' & resp & a & Q1 & Q2 & Q3 & Q4 & Q5)). rewrite Q1, Q2 in H.
    destruct (St rt U) as (md' & ves' & fe' & Hpol & Hfe' & Hep). rewrite Hpol in Ad. injection Ad as Hmd' _.
    assert (Hcm : TrustMarkVerifierModel.chain_metadata c "federation_entity" "federation_trust_mark_status_endpoint" = Ok (VStr u)).
    { unfold TrustMarkVerifierModel.chain_metadata. rewrite <- Hmd'. unfold dindex. rewrite Hfe'. cbn [bind]. rewrite Hep. reflexivity. }
    rewrite Hcm in H. unfold mbind at 1, lift at 1 in H. unfold status_of in H. destruct (String.eqb_spec u "") as [|_]; [contradiction|].
    rewrite Q3 in H. unfold mbind, lift, ret in H. rewrite Q4, Q5 in H. injection H as <- <-. reflexivity.
  - right.
    assert (Er : exists y, r2 = Err y) by (destruct B as [(_ & y & _ & X)|[_ X]]; eauto). destruct Er as [y ->].
    rewrite (DE2 md fe s2 y eq_refl Hfe Hag eq_refl) in H.
    injection H as <- <-. destruct B as [(OU & z & NE & X)|[AG _]].
    + left. split; [|exists z; split; [exact NE|congruence]]. destruct OU as (i & q & O1 & O2 & O3). exists i, q. split; [lia|]. split; [exact O2|exact O3].
    + right. exact AG.
Qed.
End Delegated.

(** C185 for marks with a delegation: the mark is accepted if the trust anchors that the issuer has usable ways to name the owner who signed the
    delegation, or do not list the id; otherwise as in [C185_accepted] *)
Theorem C185_delegated : forall jwks_of F E O rank ds s0 fuel V ask m p id d status s' r,
  library_shaky jwks_of F E -> forwards E -> hierarchy F rank -> all_checkable jwks_of F E ->
  newborn s0 -> right_keys F (f_keys s0) -> deeds_about F rank ds -> In m F -> rank (m_id m) < fuel ->
  (exists rt, usable jwks_of F E (f_keys s0) (m_id m) rt) ->
  (forall rt, usable jwks_of F E (f_keys s0) (m_id m) rt -> exists x, policy_call_chain O (said jwks_of F E (m_id m) rt) = Ok x) ->
  (status = true -> exists u, endpoint_stays O jwks_of F E (f_keys s0) (m_id m) u /\ u <> "" /\ said_active ask u p) ->
  tm_schema p = true -> dget "id" p = Some (VStr id) -> dget "delegation" p = Some (VStr d) ->
  anchors_agree jwks_of F E (f_keys s0) V m id d -> dget "iss" p = Some (VStr (m_id m)) ->
  tm_picks V (TMJws (m_key m) p) (m_key m) = true ->
  let s := after_deeds E O ds s0 in
  verify_trust_mark E O fuel V ask (TMJws (m_key m) p) status s = (s', r) -> unexpired (e_clock E (st_tick (f_col s'))) p ->
  r = Ok (Some p) \/
  (outage jwks_of F E (st_tick (f_col s)) (st_tick (f_col s')) /\ exists e, net_error e /\ r = Err e) \/
  (e_clock E (st_tick (f_col s0)) + 86400 - e_delta E <= e_clock E (st_tick (f_col s')))%Z.
Proof.
  intros jwks_of F E O rank ds s0 fuel V ask m p id d status s' r L HF HR HU HB Hk HA Hm Hf HW HP HS H1 Hid H2 HAG H3 H4 s H HX.
  assert (Fi := fine_deeds jwks_of F E rank L HR HU O _ _ ds s0 (fine_start jwks_of F E O s0 HB Hk) HA).
  destruct (delegated_taken jwks_of F E rank L HR HU O _ _ fuel V ask m p id d status s s' r HF Hm Hf Fi HW (conj HP HS) H1 Hid H2 HAG H3 H4 H HX) as [X|[X|X]].
  - left. exact X.
  - right. left. exact X.
  - right. right. exact (aged_day jwks_of F E L _ _ HF X).
Qed.
Print Assumptions C185_delegated.

(** The federation of C139 with a trust anchor who says that sirtfi is own's, and own signs delegations with 8. The second request gets no connection and the
    fourth gets status 500. *)
Definition d_ta : member := mkMember
  (mkFserver "ta" (VInt 1)
     [("federation_entity", VDict [("federation_fetch_endpoint", VStr "ta/fetch"); ("trust_mark_issuers", VDict [("sirtfi", VList [VStr "tmi"])]);
       ("trust_mark_owners", VDict [("sirtfi", VDict [("jwks", VInt 8); ("sub", VStr "own")])])])] None [])
  None SrcNone [("tmi", [("jwks", VInt 5)])] 1 "ta/wk" "ta/fetch".
Definition d_fed : list member := [d_ta; v_tmi].
Definition d_net (n : nat) (q : request) : response :=
  if Nat.eqb n 1 then RNoConnection else if Nat.eqb n 3 then RStatus else library_net ex_jwks d_fed cr_clock n q.
Definition d_env : cenv := mkEnv 300 ["ta"] d_net cr_clock all_keys wk_url tenant_url.
Definition d_claims (d : string) : tmark :=
  [("ref", VStr "https://refeds.org/sirtfi"); ("iat", VInt 1090); ("id", VStr "sirtfi"); ("sub", VStr "rp1");
   ("exp", VInt 50000); ("delegation", VStr d); ("iss", VStr "tmi")].
Definition d_deeds : list deed := [Check 2 ex_tmenv mr_ask (TMJws 5 (d_claims "good")) true; Check 2 ex_tmenv mr_ask (TMJws 5 (d_claims "good")) true; Do Wait].

Ltac d_members := repeat match goal with H : In _ d_fed |- _ => destruct H as [<-|[<-|[]]] end.

Lemma d_shaky : library_shaky ex_jwks d_fed d_env.
Proof.
  constructor.
  - constructor.
    + reflexivity.
    + reflexivity.
    + reflexivity.
    + intros n p z Hz Hn. cbn. unfold within_skew. rewrite Hz. apply Z.ltb_lt. lia.
    + reflexivity.
    + intros m m' Hm Hm' H. d_members; try reflexivity; discriminate H.
    + intros m m' Hm Hm' H. d_members; try reflexivity; discriminate H.
    + intros m m' Hm Hm' H N. d_members; try reflexivity; try discriminate H; cbn in N; contradiction N; reflexivity.
    + intros m Hm. d_members; left; reflexivity.
    + intros m Hm. d_members; (apply mkSound;
      [split; [discriminate|reflexivity]
      |eexists; split; [reflexivity|left; reflexivity]
      |split; intros x e H; apply dget_In in H; simpl in H;
        repeat destruct H as [H|H]; try contradiction; injection H as <- <-; apply nodupb_sound; reflexivity
      |intros x p k H Hk; apply dget_In in H; simpl in H;
        repeat destruct H as [H|H]; try contradiction; injection H as <- <-; simpl in Hk; intuition auto
      |eexists; reflexivity
      |intros p Hp; vm_compute in Hp; injection Hp as <-; vm_compute; discriminate
      |intros a Ha; simpl in Ha; repeat destruct Ha as [<-|Ha]; try destruct Ha; reflexivity
      |intros sub e v H Hv; apply dget_In in H; simpl in H; repeat destruct H as [H|H]; try contradiction;
        injection H as <- <-; vm_compute in Hv; discriminate Hv]).
    + intros m a Hm Ha. d_members; simpl in Ha; repeat destruct Ha as [<-|Ha]; try destruct Ha.
      exists d_ta. split; [left; reflexivity|]. split; [reflexivity|]. constructor.
      * apply locationb_sound. reflexivity.
      * eexists. split; reflexivity.
      * eexists _, _, _. split; [split; [reflexivity|discriminate]|]. split; [|split; [reflexivity|split; [reflexivity|left; reflexivity]]].
        split; [intros k Hk; simpl in Hk; repeat destruct Hk as [<-|Hk]; try destruct Hk; reflexivity|].
        split; [intros v Hv; discriminate Hv|]. split; [intros v Hv; discriminate Hv|]. intros p k v Hp; discriminate Hp.
      * intros p Hp. vm_compute in Hp; injection Hp as <-; vm_compute; discriminate.
  - intros n q. cbn [e_net d_env]. unfold d_net, failed. destruct (Nat.eqb n 1); [auto|]. destruct (Nat.eqb n 3); [auto|]. left. reflexivity.
  - intros n. cbn [e_clock d_env]. unfold cr_clock. destruct (Nat.ltb (S n) 6), (Nat.ltb n 6); lia.
  - intros id m m' n I1 I2 H1 H2 _. exfalso. cbn [e_wk e_tenant d_env] in H1, H2. unfold wk_url in H1. unfold tenant_url in H2.
    apply (f_equal String.length) in H1, H2.
    assert (Hap : forall a b, String.length (a ++ b) = String.length a + String.length b).
    { intros a b. induction a as [|c a IH]; cbn; [reflexivity|]. rewrite IH. reflexivity. }
    rewrite Hap in H1, H2. d_members; cbn in H1, H2; lia.
Qed.

Lemma d_path m rt : In m d_fed -> path d_fed (m_id m) rt -> rt = [] \/ rt = ["ta"].
Proof.
  intros Hm H. inversion H as [m0 Hm0 Hs Em Er|m0 a r Hm0 Ha Hr Em Er]; subst; [left; reflexivity|right].
  assert (a = "ta") as -> by (d_members; simpl in Ha; repeat destruct Ha as [<-|Ha]; try destruct Ha; reflexivity).
  f_equal. inversion Hr as [m1 Hm1 Hs1 E1 E2|m1 a1 r1 Hm1 Ha1 Hr1 E1 E2]; [reflexivity|].
  exfalso. d_members; try discriminate E1; destruct Ha1.
Qed.

Definition d_after (n : nat) : fstate := after_deeds d_env id_order (firstn n d_deeds) v_start.

Example C185_delegated_ex : library_shaky ex_jwks d_fed d_env /\ forwards d_env /\ hierarchy d_fed v_rank /\ all_checkable ex_jwks d_fed d_env /\
  newborn v_start /\ right_keys d_fed (f_keys v_start) /\ deeds_about d_fed v_rank d_deeds /\
  usable ex_jwks d_fed d_env (f_keys v_start) "tmi" ["ta"] /\
  endpoint_stays id_order ex_jwks d_fed d_env (f_keys v_start) "tmi" "tmi/status" /\
  said_active mr_ask "tmi/status" (d_claims "good") /\ tm_schema (d_claims "good") = true /\
  anchors_agree ex_jwks d_fed d_env (f_keys v_start) ex_tmenv v_tmi "sirtfi" "good" /\
  (* the first time there is no connection; in the end the mark is accepted, and one whose delegation own has not signed is not *)
  snd (verify_trust_mark d_env id_order 2 ex_tmenv mr_ask (TMJws 5 (d_claims "good")) true (d_after 0)) = Err ConnectionError /\
  (exists s', verify_trust_mark d_env id_order 2 ex_tmenv mr_ask (TMJws 5 (d_claims "good")) true (d_after 3) = (s', Ok (Some (d_claims "good"))) /\
     unexpired (e_clock d_env (st_tick (f_col s'))) (d_claims "good") /\
     (e_clock d_env (st_tick (f_col s')) < e_clock d_env (st_tick (f_col v_start)) + 86400 - e_delta d_env)%Z) /\
  (forall p, snd (verify_trust_mark d_env id_order 2 ex_tmenv mr_ask (TMJws 5 (d_claims "bad")) true (d_after 3)) <> Ok (Some p)).
Proof.
  assert (Ht : In v_tmi d_fed) by (simpl; auto).
  split; [exact d_shaky|]. split; [exact cr_forwards|].
  split. { intros m a Hm Ha. d_members; simpl in Ha; repeat destruct Ha as [<-|Ha]; try destruct Ha; vm_compute; lia. }
  split. { intros m Hm rt Hp. destruct (d_path m rt Hm Hp) as [-> | ->]; d_members; eexists; vm_compute; reflexivity. }
  split; [repeat split|].
  split. { intros m ks Hm H. d_members; cbn in H; [injection H as <-; left; reflexivity|discriminate H]. }
  split.
  { assert (BM : by_member d_fed v_rank 2 (TMJws 5 (d_claims "good"))).
    { intros k' q iss [= <- <-] [= <-]. split; [|vm_compute; lia]. exists v_tmi. split; [right; left; reflexivity|reflexivity]. }
    intros d [<-|[<-|[<-|[]]]]; try exact I; exact BM. }
  split.
  { split; [apply (path_up _ v_tmi); [exact Ht|left; reflexivity|apply (path_end _ d_ta); [left; reflexivity|reflexivity]]|].
    split; [discriminate|]. split; [exists [1]; reflexivity|vm_compute; reflexivity]. }
  split.
  { intros rt (Hp & Hne & _). destruct (d_path v_tmi rt Ht Hp) as [-> | ->]; [contradiction Hne; reflexivity|].
    eexists _, _, _. split; [vm_compute; reflexivity|]. split; reflexivity. }
  split. { exists "rp1", "sirtfi", [("active", VBool true)], (VBool true). repeat split. }
  split; [reflexivity|].
  split.
  { intros rt (Hp & Hne & _). destruct (d_path v_tmi rt Ht Hp) as [-> | ->]; [contradiction Hne; reflexivity|].
    eexists _, _. split; [vm_compute; reflexivity|]. split; [vm_compute; reflexivity|].
    eexists. split; [vm_compute; reflexivity|]. right. eexists. split; [vm_compute; reflexivity|]. right.
    eexists _, _, _, _, _. split; [reflexivity|]. split; [reflexivity|]. split; [reflexivity|]. split; [reflexivity|]. split; [reflexivity|]. left. reflexivity. }
  split; [vm_compute; reflexivity|].
  split.
  { eexists. split; [vm_compute; reflexivity|]. split; [exists 50000%Z; split; [reflexivity|vm_compute; discriminate]|vm_compute; reflexivity]. }
  intros p. vm_compute. discriminate.
Qed.
