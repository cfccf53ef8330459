(** What an authorization server learns about keys (C194). *)
From Verif Require Import PyFacts ExampleKit CollectorProps CollectorRepeatProps FederationProps LiveFacts WellRunFacts.
From Verif Require Import ClientFacts ClientProps RegistrationFacts RegistrationProps RegistrationGrantProps RpSpec RpFacts RpProps.
From Verif Require Import LiveExample LiveResolveProps LiveRegisterProps LiveAnswerProps GetInProps TakenProps.
From Verif Require Import OauthModel OauthProps.
From Verif Require Export PoisonProps.
From Coq Require Import Lia.

(** [k] is one of the keys in the entity configuration of [x] *)
Definition published_key (jwks_of : val -> option (list key)) (F : list member) (E : cenv) (x : member) (k : key) : Prop :=
  exists ks, s_jwks (config jwks_of F E (m_id x)) = Some ks /\ In k ks.

(** a request with [k] in it asked for the registration of [x]; it was signed with one of the keys in it *)
Definition claimed_key (cs : list ocall) (x : member) (k : key) : Prop :=
  exists fuel P prio k0 p ks, In (OEnlist fuel P prio (TJws k0 p)) cs /\ s_sub p = m_id x /\ s_jwks p = Some ks /\ In k0 ks /\ In k ks.

Section Op.
Context (jwks_of : val -> option (list key)) (F : list member) (E : cenv) (rank : string -> nat).
Hypothesis L : library_shaky jwks_of F E.
Hypothesis HR : hierarchy F rank.
Hypothesis HU : all_checkable jwks_of F E.
Context (O : iter_order) (R : reg_env).
Hypothesis KI : keeps_id R.
Hypothesis PC : passed_on R "client_id".
Context (n0 : nat) (kj0 : keyjar).
Notation N0 := (library_net jwks_of F (e_clock E) 0).
Notation E0 := (freeze N0 E).
Notation L0 := (ls_run _ _ _ L).
Notation W := (library_world jwks_of F (e_clock E 0)).

(** nothing but what [src] has is added, and only under the names of members *)
Definition grew (src : member -> key -> Prop) (kj kj' : keyjar) : Prop :=
  (forall e k, VerifierSpec.holds kj' e k -> VerifierSpec.holds kj e k \/ exists x, In x F /\ m_id x = e /\ src x k) /\
  (forall e, (forall x, In x F -> m_id x <> e) -> dget e kj' = dget e kj).

Lemma grew_refl src kj : grew src kj kj.
Proof. split; auto. Qed.

Lemma grew_trans src kj1 kj2 kj3 : grew src kj1 kj2 -> grew src kj2 kj3 -> grew src kj1 kj3.
Proof.
  intros [A1 A2] [B1 B2]. split.
  - intros e k H. destruct (B1 e k H) as [H'|H']; [exact (A1 e k H')|auto].
  - intros e H. rewrite (B2 e H). exact (A2 e H).
Qed.

Lemma grew_more (src src' : member -> key -> Prop) kj kj' : (forall x k, In x F -> src x k -> src' x k) -> grew src kj kj' -> grew src' kj kj'.
Proof.
  intros I [A1 A2]. split; [|exact A2]. intros e k H. destruct (A1 e k H) as [H'|(x & H1 & H2 & H3)]; [auto|]. right. exists x. auto.
Qed.

(** where keys come from in a chain of [m] that ends with [p] *)
Definition in_chain (m : member) (p : stmt) (x : member) (k : key) : Prop :=
  registered_key jwks_of F E x k \/ (x = m /\ exists ks, s_jwks p = Some ks /\ In k ks).

Lemma call_grew m r c k p kj : In m F -> route W "" (m_id m) r -> map tk c = map tk (along W (m_id m) r) -> s_sub p = m_id m ->
  grew (in_chain m p) kj (fst (verifier_call (e_lib E) kj (c ++ [TJws k p]))).
Proof.
  intros Hm Hr Hc Es. split.
  - intros e y H.
    assert (M : VerifierSpec.holds kj e y \/ exists x, In x F /\ m_id x = e).
    { revert H. rewrite call_fst. destruct (verify_effect (e_lib E) kj (c ++ [TJws k p])) as (pre & post & Ej & _ & Hh & _).
      intros H. apply Hh in H. destruct H as [H|(k0 & p0 & jw & I1 & E1 & _)]; [auto|]. right.
      assert (I3 : In (k0, p0) (jws c ++ [(k, p)])).
      { rewrite FederationProps.jws_app in Ej. cbn [jws] in Ej. rewrite Ej. apply in_or_app. auto. }
      apply in_app_or in I3. destruct I3 as [I3|[[= <- <-]|[]]]; [|exists m; split; [exact Hm|congruence]].
      destruct (near_jws c _ Hc k0 p0 I3) as (p1 & I4 & S1). destruct (settle_fields _ _ S1) as (_ & Hs & _).
      destruct (proj1 (up_about jwks_of F E rank L HR r m Hm Hr) k0 p1 I4) as (x & X1 & X2 & _). exists x. split; [exact X1|congruence]. }
    destruct M as [M|(x & Hx & <-)]; [auto|].
    destruct (call_keys jwks_of F E rank L HR m r c k p kj x y Hm Hr Hc Es Hx H) as [A|A]; [auto|]. right. exists x. auto.
  - intros e He. rewrite call_fst. destruct (verify_effect (e_lib E) kj (c ++ [TJws k p])) as (pre & post & Ej & _ & _ & _ & Hd & _).
    apply Hd. intros k0 p0 Hin E1. rewrite FederationProps.jws_app in Ej. cbn [jws] in Ej.
    assert (I3 : In (k0, p0) (jws c ++ [(k, p)])) by (rewrite Ej; apply in_or_app; auto).
    apply in_app_or in I3. destruct I3 as [I3|[[= <- <-]|[]]]; [|exact (He m Hm ltac:(congruence))].
    destruct (near_jws c _ Hc k0 p0 I3) as (p1 & I4 & S1). destruct (settle_fields _ _ S1) as (_ & Hs & _).
    destruct (proj1 (up_about jwks_of F E rank L HR r m Hm Hr) k0 p1 I4) as (x & X1 & X2 & _). apply (He x X1). congruence.
Qed.

Lemma all_grew m k p chains : In m F -> s_sub p = m_id m ->
  (forall c, In c chains -> exists r, route W "" (m_id m) r /\ r <> [] /\ map tk c = map tk (along W (m_id m) r)) ->
  forall kj, grew (in_chain m p) kj (fst (verify_trust_chains E chains [TJws k p] kj)).
Proof.
  intros Hm Es Hc. unfold verify_trust_chains.
  cut (forall acc kj, grew (in_chain m p) kj (fst (mfold (fun acc c => do tc <- run_verifier E (c ++ [TJws k p]) in
      ret (match tc with Some t => acc ++ [t] | None => acc end)) chains acc kj))).
  { intros G. exact (G []). }
  induction chains as [|c chains IH]; intros acc kj; [apply grew_refl|].
  cbn [mfold]. unfold mbind at 1. unfold mbind at 1. unfold run_verifier at 1.
  destruct (Hc c (or_introl eq_refl)) as (r & Hr & _ & Hck).
  assert (K := call_grew m r c k p kj Hm Hr Hck Es).
  destruct (verifier_call (e_lib E) kj (c ++ [TJws k p])) as [kj1 [o|e]]; cbn [fst] in K; [|exact K].
  unfold ret at 1. eapply grew_trans; [exact K|]. apply IH. intros c' Hc'. apply Hc. right. exact Hc'.
Qed.

(** ** Looking up a member *)

Definition known_to (x : member) (k : key) : Prop := registered_key jwks_of F E x k \/ published_key jwks_of F E x k.

Lemma looked_grew fuel m f f1 r : In m F -> rank (m_id m) < fuel -> living jwks_of F E n0 kj0 f ->
  get_verified_trust_chains E O fuel (m_id m) f = (f1, r) -> grew known_to (f_keys f) (f_keys f1).
Proof.
  intros Hm Hf (H1 & H2 & _) H.
  destruct (standing jwks_of F E rank L HR HU O fuel m (f_keys f) Hm Hf H2) as (tr0 & leaf0 & kj' & tcs0 & s1 & P1 & P2 & _).
  destruct (get_verified_near E N0 n0 O fuel (m_id m) f f1 r tr0 leaf0 kj' tcs0 (moving_alike jwks_of F E L) (moving_apart jwks_of F E L)
              (moving_dated jwks_of F E L) (dated0 jwks_of F E L) (lf_picks _ _ _ L0) (moving_valid jwks_of F E L) (moving_valid0 jwks_of F E L)
              (moving_clean jwks_of F E L) (proj2 (so_id _ _ _ (lf_sound _ _ _ L0 m Hm))) H1 P1 P2 H)
    as (_ & _ & [(_ & _ & ->)|[(_ & ->)|[-> _]]]); [apply grew_refl..|].
  assert (WR' := WR _ _ _ rank L0 HR m Hm). assert (Re := reaches_self W "" (m_id m)).
  assert (PV : pverified E0 (m_id m) = Ok (own W (m_id m), config jwks_of F E (m_id m))) by exact (wr_pverified E0 W "" (m_id m) WR' (m_id m) Re).
  assert (PT : ptree E0 fuel "" (m_id m) (config jwks_of F E (m_id m)) = Ok tr0 /\ leaf0 = own W (m_id m)).
  { unfold pcollect in P1. unfold pverified in PV. destruct (pconf E0 (m_id m)) as [[t0|]|]; try discriminate P1. cbn [bind] in P1, PV.
    rewrite PV in P1. cbn [bind fst snd] in P1. destruct (ptree E0 fuel "" (m_id m) (config jwks_of F E (m_id m))) as [tr|]; [|discriminate P1].
    cbn [bind] in P1. split; congruence. }
  destruct PT as [PT ->].
  destruct (wr_ptree E0 W "" (m_id m) rank WR' (world_ranked _ _ _ rank L0 HR m Hm) (proj1 (proj2 (library_quiet _ _ _ L0 m Hm))) fuel (m_id m) Re Hf)
    as (tr1 & PT1 & _ & _ & Hch).
  assert (Et : tr1 = tr0) by (assert (X : Ok tr1 = Ok tr0) by (rewrite <- PT1; exact PT); congruence). subst tr1.
  assert (Cs : s_sub (config jwks_of F E (m_id m)) = m_id m) by exact (proj1 (proj2 (proj2 (wr_config _ _ _ _ WR' (m_id m) Re)))).
  assert (G := all_grew m (w_key W (m_id m)) (config jwks_of F E (m_id m)) (map (map tok_of) (tree2chains tr0)) Hm Cs).
  assert (G1 := fun H => G H (f_keys f)). clear G.
  change (verify_trust_chains E0) with (verify_trust_chains E) in P2.
  change [own W (m_id m)] with [TJws (w_key W (m_id m)) (config jwks_of F E (m_id m))] in P2. rewrite P2 in G1. cbn [fst] in G1.
  apply (grew_more (in_chain m (config jwks_of F E (m_id m)))).
  - intros x k Hx [A|(-> & ks & A)]; [left; exact A|right; exists ks; exact A].
  - apply G1. intros c Hin. apply in_map_iff in Hin. destruct Hin as (c2 & <- & I2). apply Hch in I2. destruct I2 as (r0 & A1 & A2 & ->).
    exists r0. split; [exact A1|]. split; [exact A2|]. rewrite (map_map ESTok tok_of). cbn [tok_of]. rewrite map_id. reflexivity.
Qed.

Lemma visit_grew v s : by_members F rank [v] -> living jwks_of F E n0 kj0 (a_fed s) ->
  grew known_to (f_keys (a_fed s)) (f_keys (a_fed (do_visit E O R s v))).
Proof.
  intros Hv V. specialize (Hv v (or_introl eq_refl)). destruct v as [[fuel id|fuel id|]|Fl new automatic fuel id]; cbn [do_visit do_step a_fed].
  - destruct Hv as [(m & Hm & <-) Hf]. destruct (get_verified_trust_chains E O fuel (m_id m) (a_fed s)) as [f1 r] eqn:Eg.
    exact (looked_grew fuel m _ f1 r Hm Hf V Eg).
  - destruct Hv as [(m & Hm & <-) Hf]. unfold get_trust_chains. unfold mbind at 1. unfold StateM.get at 1.
    destruct (dget (m_id m) (f_chains (a_fed s))) as [cs|]; [apply grew_refl|]. unfold mbind.
    destruct (get_verified_trust_chains E O fuel (m_id m) (a_fed s)) as [f1 r] eqn:Eg.
    assert (G := looked_grew fuel m _ f1 r Hm Hf V Eg). destruct r as [cs|x]; [|exact G]. destruct (is_nil cs); exact G.
  - apply grew_refl.
  - destruct Hv as [(m & Hm & <-) Hf].
    destruct (client_authentication E O fuel R Fl new automatic (m_id m) [] s) as [s' v] eqn:Eq. cbn [fst].
    destruct (authentication_cases _ _ _ _ _ _ _ _ _ _ _ _ Eq) as [(_ & -> & _)|[(_ & _ & -> & _)|(_ & _ & s1 & r & AE & X)]]; [apply grew_refl..|].
    set (f0 := forget Fl (m_id m) s) in *.
    assert (EF : a_fed f0 = a_fed s) by (unfold f0, forget; destruct (dget (m_id m) (r_cdb (a_reg s))); reflexivity).
    assert (SC : forall cs f, f_keys (stored_chains Fl (m_id m) cs f) = f_keys f) by (intros cs f; unfold stored_chains; destruct Fl; reflexivity).
    assert (G : forall f1 r1, chains_for E O fuel (m_id m) [] (a_fed f0) = (f1, r1) -> grew known_to (f_keys (a_fed s)) (f_keys f1)).
    { intros f1 r1 EC. rewrite EF in EC. exact (looked_grew fuel m _ f1 r1 Hm Hf V EC). }
    inversion AE as [f1 r0 e EC _ E1 E2|f1 c rest e EC E1 E2|f1 c rest md k1 r2 o r0 EC EM EK E2 An E3 E4]; subst.
    + destruct X as [-> _]. exact (G f1 _ EC).
    + destruct X as [-> _]. cbn [a_fed]. rewrite SC. exact (G f1 _ EC).
    + assert (F1 : a_fed s' = stored_chains Fl (m_id m) (c :: rest) f1).
      { destruct o as [|args].
        - cbn [ClientFacts.answer] in An. rewrite An in X. destruct X as [-> _]. reflexivity.
        - destruct (step2_entry _ _ _ _ _ _ _ _ _ KI E2) as (rid & ci & ci1 & D1 & Edb). cbn [r_cdb] in Edb.
          unfold ClientFacts.answer in An. rewrite D1 in An. rewrite An in X. cbn [a_reg a_fed] in X.
          destruct X as (ci0 & [[D0 [_ ->]]|D0]); [reflexivity|]. exfalso. rewrite Edb, dget_dset_same in D0. discriminate D0. }
      rewrite F1, SC. exact (G f1 _ EC).
Qed.

(** ** Requests *)

Lemma request_grew fuel m k p f : In m F -> rank (m_id m) < fuel -> MotionFacts.J E N0 n0 (f_col f) -> s_sub p = m_id m ->
  (forall hints a, s_hints p = Some hints -> In a hints -> may_name F E m a) ->
  verify_self_signed E (e_clock E (st_tick (f_col f))) (Some (TJws k p)) = Ok (TJws k p, p) ->
  grew (in_chain m p) (f_keys f) (f_keys (fst (chains_from E O fuel (m_id m) (TJws k p) f))).
Proof.
  intros Hm Hf H1 Es Hp HV.
  assert (Hch := forged_tree jwks_of F E rank L HR fuel m p Hm Hf Hp).
  assert (RT := forged_collected jwks_of F E rank L HR n0 fuel m p (f_col f) Hm Hf Hp H1).
  unfold runs in RT. unfold chains_from, collect_trust_chains_signed. unfold mbind at 1. rewrite opened_fed, HV. cbn [snd is_nil].
  unfold mbind at 1, on_col at 1. destruct (collect_tree E fuel "" (m_id m) (Some p) (f_col f)) as [c1 rt]. destruct RT as (_ & _ & R3).
  destruct rt as [tr|e]; [|apply grew_refl].
  destruct R3 as [[_ R3]|[(_ & e & _ & R3)|[R3 _]]]; [discriminate R3|discriminate R3|].
  destruct (ptree E0 fuel "" (m_id m) p) as [tr0|x0]; [|discriminate R3]. specialize (Hch tr0 eq_refl). cbn in R3. injection R3 as R3.
  assert (CN := chains_near _ _ R3).
  assert (HC : forall c, In c (map (map tok_of) (tree2chains tr)) ->
    exists r, route W "" (m_id m) r /\ r <> [] /\ map tk c = map tk (along W (m_id m) r)).
  { intros c Hin. assert (I2 := in_map (map tk) _ _ Hin). rewrite CN in I2. apply in_map_iff in I2. destruct I2 as (c0 & E1 & I2).
    apply in_map_iff in I2. destruct I2 as (c2 & <- & I2). destruct (Hch c2 I2) as (r0 & A1 & A2 & ->). exists r0. split; [exact A1|].
    split; [exact A2|]. rewrite <- E1, (map_map ESTok tok_of). cbn [tok_of]. rewrite map_id. reflexivity. }
  assert (G := all_grew m k p _ Hm Es HC (f_keys f)).
  unfold ret at 1, mbind, on_keys. cbn [fst f_keys].
  destruct (verify_trust_chains E (map (map tok_of) (tree2chains tr)) [TJws k p] (f_keys f)) as [kj' [tcs|e]]; exact G.
Qed.

Definition learnt_from (cs : list ocall) (x : member) (k : key) : Prop := known_to x k \/ claimed_key cs x k.

Lemma enlist_grew fuel P prio t s : living jwks_of F E n0 kj0 (a_fed s) ->
  (exists m, In m F /\ rank (m_id m) < fuel /\ in_name_of F E m t) \/ (forall k p ks, t = TJws k p -> s_jwks p = Some ks -> ~ In k ks) ->
  grew (learnt_from [OEnlist fuel P prio t]) (f_keys (a_fed s)) (f_keys (a_fed (do_ocall E O R s (OEnlist fuel P prio t)))).
Proof.
  intros (V1 & _) Hn. cbn [do_ocall]. destruct (answer_oauth E O fuel R P prio t s) as [s' r] eqn:Eq. cbn [fst].
  destruct (oanswer_cases E O R _ _ _ _ _ _ _ Eq) as [[-> _]|(k & p & ks & f1 & rc & -> & EJ & IK & EV & EG & X)]; [apply grew_refl|].
  destruct Hn as [(m & Hm & Hf & HS)|Hn]; [|destruct (Hn k p ks eq_refl EJ IK)].
  destruct HS as (k' & p' & [= <- <-] & Es & Hh). rewrite Es in EG.
  assert (G := request_grew fuel m k p (a_fed s) Hm Hf V1 Es Hh EV). rewrite EG in G. cbn [fst] in G.
  assert (Ef : a_fed s' = f1) by (destruct X as [[-> _]|(? & ? & ? & ? & ? & ? & ? & _ & _ & _ & _ & _ & _ & _ & _ & -> & _)]; reflexivity).
  rewrite Ef. refine (grew_more _ _ _ _ _ G). intros x y Hx [A|(-> & ks' & A & B)]; [left; left; exact A|]. right.
  exists fuel, P, prio, k, p, ks'. split; [left; reflexivity|]. split; [exact Es|]. split; [exact A|]. split; [congruence|exact B].
Qed.

Lemma calls_grew db0 cs : forall done s, ocalls_any F E rank cs -> fkeeping jwks_of F E O R n0 kj0 db0 done s ->
  grew (learnt_from cs) (f_keys (a_fed s)) (f_keys (a_fed (after_ocalls E O R cs s))).
Proof.
  unfold after_ocalls. induction cs as [|c cs IH]; intros done s A K; [apply grew_refl|]. cbn [fold_left].
  assert (Ac := A c (or_introl eq_refl)). assert (A' : ocalls_any F E rank cs) by (intros c' Hc; apply A; right; exact Hc).
  assert (I0 : forall c0, incl c0 (c :: cs) -> forall x k, In x F -> learnt_from c0 x k -> learnt_from (c :: cs) x k).
  { intros c0 I x k Hx [B|(fuel & P & prio & k0 & p & ks & B1 & B2)]; [left; exact B|right]. exists fuel, P, prio, k0, p, ks. auto. }
  assert (Itl : incl cs (c :: cs)) by (intros y Hy; right; exact Hy).
  destruct c as [v|fuel P prio t].
  - apply (grew_trans _ _ (f_keys (a_fed (do_visit E O R s v)))).
    + refine (grew_more _ _ _ _ _ (visit_grew v s Ac (proj1 K))). intros x k Hx B. left. exact B.
    + refine (grew_more _ _ _ _ (I0 cs Itl) (IH done _ A' _)).
      exact (fvisit_keeps jwks_of F E rank L HR HU O R KI PC n0 kj0 db0 done v s Ac K).
  - apply (grew_trans _ _ (f_keys (a_fed (do_ocall E O R s (OEnlist fuel P prio t))))).
    + refine (grew_more _ _ _ _ (I0 [_] _) (enlist_grew fuel P prio t s (proj1 K) Ac)). intros y [<-|[]]. left. reflexivity.
    + refine (grew_more _ _ _ _ (I0 cs Itl) (IH _ _ A' _)).
      exact (fenlist_keeps jwks_of F E rank L HR O R KI PC n0 kj0 db0 done fuel P prio t s Ac K).
Qed.

(** requests with configurations of members are requests in their name *)
Lemma sends_named m t : In m F -> sends jwks_of F E m t -> in_name_of F E m t.
Proof.
  intros Hm HS. assert (HS' := HS). destruct HS as (p & -> & Hp & _). exists (m_key m), p. split; [reflexivity|].
  destruct (sent_about jwks_of F E rank L HR m _ p Hm HS') as (Es & _). split; [exact Es|].
  intros hints a Hh Ha. left. destruct (settle_fields _ _ Hp) as (_ & _ & _ & _ & _ & _ & Eh). rewrite Eh in Hh.
  assert (HA : above W "" (m_id m) = superiors_of m) by exact (above_member _ _ _ L0 m Hm). rewrite <- HA.
  unfold above, superiors. fold (config jwks_of F E (m_id m)). rewrite Hh.
  destruct (String.eqb_spec (m_id m) "") as [En|_]; [|exact Ha]. exfalso.
  exact (proj1 (so_id _ _ _ (lf_sound _ _ _ L0 m Hm)) En).
Qed.
Lemma about_any cs : ocalls_about jwks_of F E rank cs -> ocalls_any F E rank cs.
Proof.
  intros HA c Hc. assert (A := HA c Hc). destruct c as [v|fuel P prio t]; [exact A|].
  destruct A as [(m & Hm & Hf & HS)|A]; [left|right; exact A]. exists m. split; [exact Hm|]. split; [exact Hf|]. exact (sends_named m t Hm HS).
Qed.

Lemma claimed_published cs x k : ocalls_about jwks_of F E rank cs -> In x F -> claimed_key cs x k -> published_key jwks_of F E x k.
Proof.
  intros HA Hx (fuel & P & prio & k0 & p & ks & A1 & A2 & A3 & A4 & A5).
  destruct (HA _ A1) as [(m & Hm & _ & HS)|B]; [|destruct (B k0 p ks eq_refl A3 A4)].
  destruct (sent_about jwks_of F E rank L HR m _ p Hm HS) as (Es & _).
  assert (x = m) as -> by (apply (lf_ids _ _ _ L0); [exact Hx|exact Hm|congruence]).
  destruct HS as (p' & [= _ <-] & Hp & _). destruct (settle_fields _ _ Hp) as (_ & _ & Ej & _). exists ks. split; [congruence|exact A5].
Qed.
End Op.

(** ** C194: what an authorization server learns about keys *)

(** Whatever is asked in the name of members: keys are added only to those of members, and what is added for a member is registered with
    one of its superiors, published by itself, or given in a request for its registration. *)
Theorem C194_where_from : forall jwks_of F E O R rank s0 cs,
  library_shaky jwks_of F E -> hierarchy F rank -> all_checkable jwks_of F E -> keeps_id R -> passed_on R "client_id" ->
  newborn (a_fed s0) -> right_keys F (f_keys (a_fed s0)) -> ocalls_any F E rank cs ->
  let s := after_ocalls E O R cs s0 in
  (forall e, (forall x, In x F -> m_id x <> e) -> dget e (f_keys (a_fed s)) = dget e (f_keys (a_fed s0))) /\
  forall x k, In x F -> VerifierSpec.holds (f_keys (a_fed s)) (m_id x) k ->
    VerifierSpec.holds (f_keys (a_fed s0)) (m_id x) k \/ registered_key jwks_of F E x k \/ published_key jwks_of F E x k \/ claimed_key cs x k.
Proof.
  intros jwks_of F E O R rank s0 cs L HR HU KI PC HB Hk HA s.
  destruct (calls_grew jwks_of F E rank L HR HU O R KI PC _ _ _ cs [] s0 HA (fkeeping_start jwks_of F E O R s0 HB Hk)) as [G1 G2].
  split; [exact G2|]. intros x k Hx H. destruct (G1 _ _ H) as [A|(x' & Hx' & Ex & A)]; [auto|].
  assert (x' = x) as -> by (apply (lf_ids _ _ _ (ls_run _ _ _ L)); assumption). destruct A as [[A|A]|A]; auto.
Qed.
Print Assumptions C194_where_from.

(** If requests are made by members only, nobody else's keys come to be held for a member. *)
Theorem C194_honest : forall jwks_of F E O R rank s0 cs,
  library_shaky jwks_of F E -> hierarchy F rank -> all_checkable jwks_of F E -> keeps_id R -> passed_on R "client_id" ->
  newborn (a_fed s0) -> right_keys F (f_keys (a_fed s0)) -> ocalls_about jwks_of F E rank cs ->
  forall x k, In x F -> VerifierSpec.holds (f_keys (a_fed (after_ocalls E O R cs s0))) (m_id x) k ->
    VerifierSpec.holds (f_keys (a_fed s0)) (m_id x) k \/ registered_key jwks_of F E x k \/ published_key jwks_of F E x k.
Proof.
  intros jwks_of F E O R rank s0 cs L HR HU KI PC HB Hk HA x k Hx H.
  assert (HA' : ocalls_any F E rank cs) by exact (about_any jwks_of F E rank L HR cs HA).
  destruct (proj2 (C194_where_from jwks_of F E O R rank s0 cs L HR HU KI PC HB Hk HA') x k Hx H) as [A|[A|[A|A]]]; [auto..|].
  right. right. exact (claimed_published jwks_of F E rank L HR cs x k HA Hx A).
Qed.
Print Assumptions C194_honest.

(** The histories of C192 and C190: after the first, two keys are held for the client, one registered with [ta], one from the request of
    [gone]; after the second, only its own. *)
Example C194_ex :
  ocalls_any oa_fed fo_env oa_rank fo_calls /\ newborn (a_fed fo_server) /\ right_keys oa_fed (f_keys (a_fed fo_server)) /\
  f_keys (a_fed fo_server) = [("ta", [1]); ("gone", [7])] /\
  f_keys (a_fed (after_ocalls fo_env id_order fo_reg fo_calls fo_server)) = [("ta", [1]); ("gone", [7]); ("client", [3; 7])] /\
  registered_key ex_jwks oa_fed fo_env oa_client 3 /\ published_key ex_jwks oa_fed fo_env oa_client 3 /\ claimed_key fo_calls oa_client 7 /\
  ~ registered_key ex_jwks oa_fed fo_env oa_client 7 /\ ~ published_key ex_jwks oa_fed fo_env oa_client 7 /\
  ocalls_about ex_jwks oa_fed oo_env oa_rank (oo_calls ++ [OEnlist 2 oa_op [] oo_token]) /\
  f_keys (a_fed (after_ocalls oo_env id_order ex_reg (oo_calls ++ [OEnlist 2 oa_op [] oo_token]) oa_server)) = [("ta", [1]); ("client", [3])].
Proof.
  destruct C192_ex as (_ & _ & _ & _ & _ & _ & E7 & E8 & E9 & _). destruct C190_ex as (_ & _ & _ & _ & _ & _ & _ & _ & F9 & _ & F11 & _).
  split; [exact E9|]. split; [exact E7|]. split; [exact E8|]. split; [reflexivity|]. split; [vm_compute; reflexivity|].
  split; [exists "ta", [3]; split; [left; reflexivity|split; [vm_compute; reflexivity|left; reflexivity]]|].
  split; [exists [3]; split; [vm_compute; reflexivity|left; reflexivity]|].
  split; [eexists 2, oa_op, [], 7, _, [7]; split; [left; reflexivity|]; split; [reflexivity|]; split; [reflexivity|]; split; left; reflexivity|].
  split.
  { intros (a & ks & Ha & D & I). change (superiors_of oa_client) with ["ta"] in Ha. destruct Ha as [<-|[]]. vm_compute in D. injection D as <-.
    destruct I as [I|[]]. discriminate I. }
  split; [intros (ks & D & I); vm_compute in D; injection D as <-; destruct I as [I|[]]; discriminate I|].
  split; [|vm_compute; reflexivity].
  intros c Hc. apply in_app_or in Hc. destruct Hc as [Hc|[<-|[]]]; [exact (F9 c Hc)|]. left. exists oa_client.
  split; [simpl; auto|]. split; [vm_compute; lia|exact F11].
Qed.
