(** Who has signed a request for registration that is answered (C195). *)
From Verif Require Import PyFacts ExampleKit CollectorProps CollectorRepeatProps FederationProps LiveFacts WellRunFacts.
From Verif Require Import ClientFacts ClientProps RegistrationFacts RegistrationProps RegistrationGrantProps RpSpec RpFacts RpProps.
From Verif Require Import LiveExample LiveResolveProps LiveRegisterProps LiveAnswerProps GetInProps TakenProps.
From Verif Require Import OauthModel OauthProps.
From Verif Require Export KeysGrowProps.
From Coq Require Import Lia.

Section Op.
Context (jwks_of : val -> option (list key)) (F : list member) (E : cenv) (rank : string -> nat).
Hypothesis L : library_shaky jwks_of F E.
Hypothesis HR : hierarchy F rank.
Context (O : iter_order) (R : reg_env) (n0 : nat).
Notation N0 := (library_net jwks_of F (e_clock E) 0).
Notation E0 := (freeze N0 E).
Notation L0 := (ls_run _ _ _ L).
Notation W := (library_world jwks_of F (e_clock E 0)).

(** [k] is held for [e] in [kj] or registered with a superior *)
Definition credible (kj : keyjar) (e : string) (k : key) : Prop :=
  VerifierSpec.holds kj e k \/ exists x, In x F /\ m_id x = e /\ registered_key jwks_of F E x k.

(** as long as the signature of the request has not been checked, only registered keys are added *)
Lemma call_signed m r c k p kj kj1 : In m F -> route W "" (m_id m) r -> map tk c = map tk (along W (m_id m) r) ->
  grew F (registered_key jwks_of F E) kj kj1 ->
  credible kj (s_iss p) k \/
  (grew F (registered_key jwks_of F E) kj (fst (verifier_call (e_lib E) kj1 (c ++ [TJws k p]))) /\
   forall tc, snd (verifier_call (e_lib E) kj1 (c ++ [TJws k p])) <> Ok (Some tc)).
Proof.
  intros Hm Hr Hc G. assert (CF := call_fst (e_lib E) kj1 (c ++ [TJws k p])).
  destruct (verify_effect (e_lib E) kj1 (c ++ [TJws k p])) as (pre & post & Ej & PS & Hh & _ & Hd & Hv).
  rewrite FederationProps.jws_app in Ej. cbn [jws] in Ej.
  assert (Reg : forall k0 p0 e jw y, In (k0, p0) (jws c) -> s_sub p0 = e -> s_jwks p0 = Some jw -> In y jw ->
            exists x, In x F /\ m_id x = e /\ registered_key jwks_of F E x y).
  { intros k0 p0 e jw y Hin <- EJ Hy. destruct (near_jws c _ Hc k0 p0 Hin) as (p1 & I4 & S1). destruct (settle_fields _ _ S1) as (_ & Hs & Hj & _).
    destruct (proj1 (up_about jwks_of F E rank L HR r m Hm Hr) k0 p1 I4) as (x & X1 & X2 & _). exists x. split; [exact X1|]. split; [congruence|].
    refine (up_keys jwks_of F E rank L HR r m Hm Hr k0 p1 I4 x jw y X1 X2 _ Hy). congruence. }
  destruct post as [|y post _] using rev_ind.
  - left. rewrite app_nil_r in Ej. destruct (PS (jws c) k p [] (eq_sym Ej)) as [H|(k0 & p0 & jw & I1 & E1 & E2 & I2)].
    + destruct G as [G _]. exact (G _ _ H).
    + right. exact (Reg k0 p0 _ jw k I1 E1 E2 I2).
  - right. rewrite app_assoc in Ej. apply app_inj_tail in Ej. destruct Ej as [Ej _]. split.
    + eapply grew_trans; [exact G|]. rewrite CF. split.
      * intros e z H. apply Hh in H. destruct H as [H|(k0 & p0 & jw & I1 & E1 & E2 & I2)]; [auto|]. right.
        refine (Reg k0 p0 e jw z _ E1 E2 I2). rewrite Ej. apply in_or_app. auto.
      * intros e He. apply Hd. intros k0 p0 I1 E1. assert (I3 : In (k0, p0) (jws c)) by (rewrite Ej; apply in_or_app; auto).
        destruct (near_jws c _ Hc k0 p0 I3) as (p1 & I4 & S1). destruct (settle_fields _ _ S1) as (_ & Hs & _).
        destruct (proj1 (up_about jwks_of F E rank L HR r m Hm Hr) k0 p1 I4) as (x & X1 & X2 & _). apply (He x X1). congruence.
    + intros tc X. unfold verifier_call in X. unfold verified in Hv.
      destruct (verify_trust_chain (e_lib E) kj1 (c ++ [TJws k p])) as [kj2 [[|s ves]|e]]; cbn [snd] in X, Hv; try discriminate X.
      assert (NN : s :: ves <> []) by (intros Z; discriminate Z). assert (NN' := Hv (s :: ves) (conj eq_refl NN)).
      destruct post; discriminate NN'.
Qed.

Lemma all_signed m k p chains : In m F ->
  (forall c, In c chains -> exists r, route W "" (m_id m) r /\ r <> [] /\ map tk c = map tk (along W (m_id m) r)) ->
  forall kj tc tcs, snd (verify_trust_chains E chains [TJws k p] kj) = Ok tcs -> In tc tcs -> credible kj (s_iss p) k.
Proof.
  intros Hm Hc kj tc tcs. unfold verify_trust_chains.
  cut (forall acc kj1, credible kj (s_iss p) k \/ (grew F (registered_key jwks_of F E) kj kj1 /\ acc = []) ->
    snd (mfold (fun acc c => do tc <- run_verifier E (c ++ [TJws k p]) in
      ret (match tc with Some t => acc ++ [t] | None => acc end)) chains acc kj1) = Ok tcs -> In tc tcs -> credible kj (s_iss p) k).
  { intros G. apply (G [] kj). right. split; [apply grew_refl|reflexivity]. }
  induction chains as [|c chains IH]; intros acc kj1 [B|[B Ba]]; try (intros; exact B).
  - subst acc. cbn. intros [= <-] [].
  - cbn [mfold]. unfold mbind at 1. unfold mbind at 1. unfold run_verifier at 1.
    destruct (Hc c (or_introl eq_refl)) as (r & Hr & _ & Hck).
    destruct (call_signed m r c k p kj kj1 Hm Hr Hck B) as [S|[S1 S2]]; [intros; exact S|].
    destruct (verifier_call (e_lib E) kj1 (c ++ [TJws k p])) as [kj2 [o|e]]; cbn [fst snd] in S1, S2; [|intros X; discriminate X].
    unfold ret at 1. apply IH; [intros c' Hc'; apply Hc; right; exact Hc'|]. right. split; [exact S1|].
    destruct o as [t|]; [destruct (S2 t eq_refl)|exact Ba].
Qed.

Lemma request_signed fuel m k p f f1 cs c : In m F -> rank (m_id m) < fuel -> MotionFacts.J E N0 n0 (f_col f) ->
  (forall hints a, s_hints p = Some hints -> In a hints -> may_name F E m a) ->
  verify_self_signed E (e_clock E (st_tick (f_col f))) (Some (TJws k p)) = Ok (TJws k p, p) ->
  chains_from E O fuel (m_id m) (TJws k p) f = (f1, Ok cs) -> In c cs -> credible (f_keys f) (s_iss p) k.
Proof.
  intros Hm Hf H1 Hp HV.
  assert (Hch := forged_tree jwks_of F E rank L HR fuel m p Hm Hf Hp).
  assert (RT := forged_collected jwks_of F E rank L HR n0 fuel m p (f_col f) Hm Hf Hp H1).
  unfold runs in RT. unfold chains_from, collect_trust_chains_signed. unfold mbind at 1. rewrite opened_fed, HV. cbn [snd is_nil].
  unfold mbind at 1, on_col at 1. destruct (collect_tree E fuel "" (m_id m) (Some p) (f_col f)) as [c1 rt]. destruct RT as (_ & _ & R3).
  destruct rt as [tr|e]; [|intros X; discriminate X].
  destruct R3 as [[_ R3]|[(_ & e & _ & R3)|[R3 _]]]; [discriminate R3|discriminate R3|].
  destruct (ptree E0 fuel "" (m_id m) p) as [tr0|x0]; [|discriminate R3]. specialize (Hch tr0 eq_refl). cbn in R3. injection R3 as R3.
  assert (CN := chains_near _ _ R3).
  assert (HC : forall c, In c (map (map tok_of) (tree2chains tr)) ->
    exists r, route W "" (m_id m) r /\ r <> [] /\ map tk c = map tk (along W (m_id m) r)).
  { intros c' Hin. assert (I2 := in_map (map tk) _ _ Hin). rewrite CN in I2. apply in_map_iff in I2. destruct I2 as (c0 & E1 & I2).
    apply in_map_iff in I2. destruct I2 as (c2 & <- & I2). destruct (Hch c2 I2) as (r0 & A1 & A2 & ->). exists r0. split; [exact A1|].
    split; [exact A2|]. rewrite <- E1, (map_map ESTok tok_of). cbn [tok_of]. rewrite map_id. reflexivity. }
  assert (G := all_signed m k p _ Hm HC (f_keys f)).
  unfold ret at 1, mbind, on_keys. cbn [fst f_keys].
  destruct (verify_trust_chains E (map (map tok_of) (tree2chains tr)) [TJws k p] (f_keys f)) as [kj' [tcs|e]]; [|intros X; discriminate X].
  unfold lift. intros [= _ EP] Hin. destruct (applied_of O tcs cs EP) as [A1 _]. destruct (A1 c Hin) as (tc & I1 & _). exact (G tc tcs eq_refl I1).
Qed.
End Op.

(** ** C195: an answer goes to somebody whose key has signed the request *)

(** Whatever was asked before in the name of members: a request that is answered to a member is signed with a key that was held for the
    member from the beginning, that a superior has registered, that the member publishes, or that an earlier request for its registration
    gave. One that is answered to anybody else is signed with a key held for them from the beginning. *)
Theorem C195_signed : forall jwks_of F E O R rank s0 cs fuel P prio m k p s' a,
  library_shaky jwks_of F E -> hierarchy F rank -> all_checkable jwks_of F E -> keeps_id R -> passed_on R "client_id" ->
  newborn (a_fed s0) -> right_keys F (f_keys (a_fed s0)) -> ocalls_any F E rank cs -> In m F -> rank (m_id m) < fuel -> in_name_of F E m (TJws k p) ->
  answer_oauth E O fuel R P prio (TJws k p) (after_ocalls E O R cs s0) = (s', Ok (Some a)) ->
  VerifierSpec.holds (f_keys (a_fed s0)) (s_sub (an_claims a)) k \/
  exists x, In x F /\ m_id x = s_sub (an_claims a) /\
    (registered_key jwks_of F E x k \/ published_key jwks_of F E x k \/ claimed_key cs x k).
Proof.
  intros jwks_of F E O R rank s0 cs fuel P prio m k p s' a L HR HU KI PC HB Hk HA Hm Hf HN H.
  destruct (fcalls_keep jwks_of F E rank L HR HU O R KI PC _ _ _ cs [] s0 HA (fkeeping_start jwks_of F E O R s0 HB Hk)) as ((V1 & _) & _).
  destruct (calls_grew jwks_of F E rank L HR HU O R KI PC _ _ _ cs [] s0 HA (fkeeping_start jwks_of F E O R s0 HB Hk)) as [G1 _].
  destruct (oanswer_cases E O R _ _ _ _ _ _ _ H) as [[_ [x X]]|(k' & p' & ks & f1 & rc & [= <- <-] & EJ & IK & EV & EG & X)]; [discriminate X|].
  destruct HN as (k' & p' & [= <- <-] & Es & Hh). rewrite Es in EG.
  destruct X as [[_ [x X]]|(l & c & mm & ty & md & r2 & o & -> & Ic & _ & _ & _ & _ & _ & _ & _ & X)]; [discriminate X|].
  destruct o as [|args]; [discriminate X|]. destruct X as (a' & [= <-] & _ & Ea). rewrite Ea.
  destruct (request_signed jwks_of F E rank L HR O _ fuel m k p _ f1 l c Hm Hf V1 Hh EV EG Ic) as [A|(x & X1 & X2 & A)].
  - destruct (G1 _ _ A) as [B|(x & X1 & X2 & [[B|B]|B])]; [left; exact B|right; exists x; auto..].
  - right. exists x. auto.
Qed.
Print Assumptions C195_signed.

(** If requests were made by members only, nobody can be answered in the name of a member without a key of that member. *)
Theorem C195_honest : forall jwks_of F E O R rank s0 cs fuel P prio m k p s' a x,
  library_shaky jwks_of F E -> hierarchy F rank -> all_checkable jwks_of F E -> keeps_id R -> passed_on R "client_id" ->
  newborn (a_fed s0) -> right_keys F (f_keys (a_fed s0)) -> ocalls_about jwks_of F E rank cs ->
  In m F -> rank (m_id m) < fuel -> in_name_of F E m (TJws k p) ->
  answer_oauth E O fuel R P prio (TJws k p) (after_ocalls E O R cs s0) = (s', Ok (Some a)) ->
  In x F -> s_sub (an_claims a) = m_id x ->
  VerifierSpec.holds (f_keys (a_fed s0)) (m_id x) k \/ registered_key jwks_of F E x k \/ published_key jwks_of F E x k.
Proof.
  intros jwks_of F E O R rank s0 cs fuel P prio m k p s' a x L HR HU KI PC HB Hk HA Hm Hf HN H Hx Ex.
  assert (HA' : ocalls_any F E rank cs) by exact (about_any jwks_of F E rank L HR cs HA).
  destruct (C195_signed jwks_of F E O R rank s0 cs fuel P prio m k p s' a L HR HU KI PC HB Hk HA' Hm Hf HN H) as [A|(y & Hy & Ey & A)].
  { left. rewrite <- Ex. exact A. }
  assert (y = x) as -> by (apply (lf_ids _ _ _ (ls_run _ _ _ L)); [exact Hy|exact Hx|congruence]).
  destruct A as [A|[A|A]]; [auto..|]. right. right. exact (claimed_published jwks_of F E rank L HR cs x k HA Hx A).
Qed.
Print Assumptions C195_honest.

(** The client is answered in its own name; a request that [gone] signs in the name of the client is refused, until the one of C192 *)
Example C195_ex : ocalls_about ex_jwks oa_fed oo_env oa_rank oo_calls /\ in_name_of oa_fed oo_env oa_client oo_token /\ in_name_of oa_fed fo_env oa_client po_request /\
  (exists s' a, answer_oauth oo_env id_order 2 ex_reg oa_op [] oo_token (after_ocalls oo_env id_order ex_reg oo_calls oa_server) = (s', Ok (Some a)) /\
     s_sub (an_claims a) = m_id oa_client) /\
  published_key ex_jwks oa_fed oo_env oa_client 3 /\
  (exists s' x, answer_oauth oo_env id_order 2 ex_reg oa_op [] po_request (after_ocalls oo_env id_order ex_reg oo_calls oa_server) = (s', Err x)) /\
  ocalls_any oa_fed fo_env oa_rank fo_calls /\
  (exists s' a, answer_oauth fo_env id_order 2 fo_reg oa_op [] po_request (after_ocalls fo_env id_order fo_reg fo_calls fo_server) = (s', Ok (Some a)) /\
     s_sub (an_claims a) = m_id oa_client) /\
  claimed_key fo_calls oa_client 7.
Proof.
  destruct C190_ex as (_ & _ & _ & _ & _ & _ & _ & _ & F9 & _ & F11 & _). destruct C194_ex as (A1 & _ & _ & _ & _ & _ & _ & A8 & _).
  destruct C193_ex as (_ & B2 & _).
  split; [exact F9|]. split; [exact (sends_named ex_jwks oa_fed oo_env oa_rank oo_shaky oa_hierarchy oa_client _ ltac:(simpl; auto) F11)|].
  split; [exact B2|]. split; [eexists _, _; split; vm_compute; reflexivity|]. split; [exists [3]; split; [vm_compute; reflexivity|left; reflexivity]|].
  split; [eexists _, _; vm_compute; reflexivity|]. split; [exact A1|]. split; [eexists _, _; split; vm_compute; reflexivity|exact A8].
Qed.
