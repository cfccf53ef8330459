(** Whose keys are held for a member after a request for registration (C193). *)
From Verif Require Import PyFacts ExampleKit CollectorProps CollectorRepeatProps FederationProps LiveFacts WellRunFacts.
From Verif Require Import ClientFacts ClientProps RegistrationFacts RegistrationProps RegistrationGrantProps RpSpec RpFacts RpProps.
From Verif Require Import LiveExample LiveResolveProps LiveRegisterProps LiveAnswerProps GetInProps TakenProps.
From Verif Require Import OauthModel OauthProps.
From Verif Require Export ForgedProps.
From Coq Require Import Lia.

(** a superior of [x] has registered [k] as a key of [x] *)
Definition registered_key (jwks_of : val -> option (list key)) (F : list member) (E : cenv) (x : member) (k : key) : Prop :=
  exists a ks, In a (superiors_of x) /\
    s_jwks (w_about (library_world jwks_of F (e_clock E 0)) a (m_id x)) = Some ks /\ In k ks.

(** after a request in the name of [m] only keys that are registered with their superiors have been added to those of members *)
Definition C193_full : Prop := forall jwks_of F E O R rank fuel P prio m t s0 cs s' v,
  library_shaky jwks_of F E -> hierarchy F rank -> all_checkable jwks_of F E -> keeps_id R -> passed_on R "client_id" ->
  newborn (a_fed s0) -> right_keys F (f_keys (a_fed s0)) -> ocalls_any F E rank cs -> In m F -> rank (m_id m) < fuel -> in_name_of F E m t ->
  let s := after_ocalls E O R cs s0 in
  answer_oauth E O fuel R P prio t s = (s', v) ->
  forall x k, In x F -> VerifierSpec.holds (f_keys (a_fed s')) (m_id x) k ->
  VerifierSpec.holds (f_keys (a_fed s)) (m_id x) k \/ registered_key jwks_of F E x k.

Section Op.
Context (jwks_of : val -> option (list key)) (F : list member) (E : cenv) (rank : string -> nat).
Hypothesis L : library_shaky jwks_of F E.
Hypothesis HR : hierarchy F rank.
Context (O : iter_order) (R : reg_env) (n0 : nat).
Notation N0 := (library_net jwks_of F (e_clock E) 0).
Notation E0 := (freeze N0 E).
Notation L0 := (ls_run _ _ _ L).
Notation W := (library_world jwks_of F (e_clock E 0)).

Lemma up_keys r : forall m, In m F -> route W "" (m_id m) r -> forall k p, In (k, p) (jws (along W (m_id m) r)) ->
  forall x ks y, In x F -> s_sub p = m_id x -> s_jwks p = Some ks -> In y ks -> registered_key jwks_of F E x y.
Proof.
  induction r as [|a r IH]; intros m Hm Hr k p; cbn [along]; [intros []|].
  inversion Hr as [|? ? ? Ha Hr']; subst.
  assert (HA : above W "" (m_id m) = superiors_of m) by exact (above_member _ _ _ L0 m Hm).
  destruct (wr_about _ _ _ _ (WR _ _ _ rank L0 HR m Hm) (m_id m) a (reaches_self _ "" (m_id m)) Ha) as (_ & As & _).
  rewrite HA in Ha. rewrite FederationProps.jws_app. cbn [jws]. intros Hin x ks y Hx Es Ej Hy.
  apply in_app_or in Hin. destruct Hin as [Hin|[[= <- <-]|[]]].
  - destruct (lf_superiors _ _ _ L0 m a Hm Ha) as (m2 & H2 & <- & _). exact (IH m2 H2 Hr' k p Hin x ks y Hx Es Ej Hy).
  - assert (x = m) as -> by (apply (lf_ids _ _ _ L0); [exact Hx|exact Hm|rewrite <- Es; exact As]).
    exists a, ks. auto.
Qed.

Lemma call_keys m r c k p kj x y : In m F -> route W "" (m_id m) r -> map tk c = map tk (along W (m_id m) r) -> s_sub p = m_id m -> In x F ->
  VerifierSpec.holds (fst (verifier_call (e_lib E) kj (c ++ [TJws k p]))) (m_id x) y ->
  VerifierSpec.holds kj (m_id x) y \/ registered_key jwks_of F E x y \/ (x = m /\ exists ks, s_jwks p = Some ks /\ In y ks).
Proof.
  intros Hm Hr Hc Es Hx. rewrite call_fst.
  destruct (verify_effect (e_lib E) kj (c ++ [TJws k p])) as (pre & post & Ej & _ & Hh & _).
  intros H. apply Hh in H. destruct H as [H|(k0 & p0 & jw & I1 & E1 & E2 & I2)]; [auto|]. right.
  assert (I3 : In (k0, p0) (jws c ++ [(k, p)])).
  { rewrite FederationProps.jws_app in Ej. cbn [jws] in Ej. rewrite Ej. apply in_or_app. auto. }
  apply in_app_or in I3. destruct I3 as [I3|[[= <- <-]|[]]].
  - left. destruct (near_jws c _ Hc k0 p0 I3) as (p1 & I4 & S1). destruct (settle_fields _ _ S1) as (_ & Hs & Hj & _).
    refine (up_keys r m Hm Hr k0 p1 I4 x jw y Hx _ _ I2); congruence.
  - right. split; [apply (lf_ids _ _ _ L0); [exact Hx|exact Hm|congruence]|eauto].
Qed.

Lemma all_keys_from m k p chains x y : In m F -> s_sub p = m_id m -> In x F ->
  (forall c, In c chains -> exists r, route W "" (m_id m) r /\ r <> [] /\ map tk c = map tk (along W (m_id m) r)) ->
  forall kj, VerifierSpec.holds (fst (verify_trust_chains E chains [TJws k p] kj)) (m_id x) y ->
  VerifierSpec.holds kj (m_id x) y \/ registered_key jwks_of F E x y \/ (x = m /\ exists ks, s_jwks p = Some ks /\ In y ks).
Proof.
  intros Hm Es Hx Hc. unfold verify_trust_chains.
  cut (forall acc kj, VerifierSpec.holds (fst (mfold (fun acc c => do tc <- run_verifier E (c ++ [TJws k p]) in
      ret (match tc with Some t => acc ++ [t] | None => acc end)) chains acc kj)) (m_id x) y ->
    VerifierSpec.holds kj (m_id x) y \/ registered_key jwks_of F E x y \/ (x = m /\ exists ks, s_jwks p = Some ks /\ In y ks)).
  { intros G. exact (G []). }
  induction chains as [|c chains IH]; intros acc kj; [cbn; auto|].
  cbn [mfold]. unfold mbind at 1. unfold mbind at 1. unfold run_verifier at 1.
  destruct (Hc c (or_introl eq_refl)) as (r & Hr & _ & Hck).
  assert (K := call_keys m r c k p kj x y Hm Hr Hck Es Hx).
  destruct (verifier_call (e_lib E) kj (c ++ [TJws k p])) as [kj1 [o|e]]; cbn [fst] in K; [|exact K].
  unfold ret at 1. intros H. destruct (IH (fun c' Hc' => Hc c' (or_intror Hc')) _ _ H) as [A|A]; [exact (K A)|auto].
Qed.

Lemma forged_keys fuel m k p f x y : In m F -> rank (m_id m) < fuel -> MotionFacts.J E N0 n0 (f_col f) -> s_sub p = m_id m ->
  (forall hints a, s_hints p = Some hints -> In a hints -> may_name F E m a) ->
  verify_self_signed E (e_clock E (st_tick (f_col f))) (Some (TJws k p)) = Ok (TJws k p, p) -> In x F ->
  VerifierSpec.holds (f_keys (fst (chains_from E O fuel (m_id m) (TJws k p) f))) (m_id x) y ->
  VerifierSpec.holds (f_keys f) (m_id x) y \/ registered_key jwks_of F E x y \/ (x = m /\ exists ks, s_jwks p = Some ks /\ In y ks).
Proof.
  intros Hm Hf H1 Es Hp HV Hx.
  assert (Hch := forged_tree jwks_of F E rank L HR fuel m p Hm Hf Hp).
  assert (RT := forged_collected jwks_of F E rank L HR n0 fuel m p (f_col f) Hm Hf Hp H1).
  unfold runs in RT. unfold chains_from, collect_trust_chains_signed. unfold mbind at 1. rewrite opened_fed, HV. cbn [snd is_nil].
  unfold mbind at 1, on_col at 1. destruct (collect_tree E fuel "" (m_id m) (Some p) (f_col f)) as [c1 rt]. destruct RT as (_ & _ & R3).
  destruct rt as [tr|e]; [|cbn; auto].
  destruct R3 as [[_ R3]|[(_ & e & _ & R3)|[R3 _]]]; [discriminate R3|discriminate R3|].
  destruct (ptree E0 fuel "" (m_id m) p) as [tr0|x0]; [|discriminate R3]. specialize (Hch tr0 eq_refl). cbn in R3. injection R3 as R3.
  assert (CN := chains_near _ _ R3).
  assert (HC : forall c, In c (map (map tok_of) (tree2chains tr)) ->
    exists r, route W "" (m_id m) r /\ r <> [] /\ map tk c = map tk (along W (m_id m) r)).
  { intros c Hin. assert (I2 := in_map (map tk) _ _ Hin). rewrite CN in I2. apply in_map_iff in I2. destruct I2 as (c0 & E1 & I2).
    apply in_map_iff in I2. destruct I2 as (c2 & <- & I2). destruct (Hch c2 I2) as (r0 & A1 & A2 & ->). exists r0. split; [exact A1|].
    split; [exact A2|]. rewrite <- E1, (map_map ESTok tok_of). cbn [tok_of]. rewrite map_id. reflexivity. }
  assert (G := all_keys_from m k p _ x y Hm Es Hx HC (f_keys f)).
  unfold ret at 1, mbind, on_keys. cbn [fst f_keys].
  destruct (verify_trust_chains E (map (map tok_of) (tree2chains tr)) [TJws k p] (f_keys f)) as [kj' [tcs|e]]; exact G.
Qed.
End Op.

(** ** C193: whose keys are held for a member *)

(** Missing: the keys in the request are added too, if it names the member as its subject; whoever signed it. *)
Theorem C193_keys_added_partial : forall jwks_of F E O R rank fuel P prio m t s0 cs s' v,
  library_shaky jwks_of F E -> hierarchy F rank -> all_checkable jwks_of F E -> keeps_id R -> passed_on R "client_id" ->
  newborn (a_fed s0) -> right_keys F (f_keys (a_fed s0)) -> ocalls_any F E rank cs -> In m F -> rank (m_id m) < fuel -> in_name_of F E m t ->
  let s := after_ocalls E O R cs s0 in
  answer_oauth E O fuel R P prio t s = (s', v) ->
  forall x k, In x F -> VerifierSpec.holds (f_keys (a_fed s')) (m_id x) k ->
  VerifierSpec.holds (f_keys (a_fed s)) (m_id x) k \/ registered_key jwks_of F E x k \/
  (x = m /\ exists k0 p ks, t = TJws k0 p /\ s_jwks p = Some ks /\ In k0 ks /\ In k ks).
Proof.
  intros jwks_of F E O R rank fuel P prio m t s0 cs s' v L HR HU KI PC HB Hk HA Hm Hf HN s H x y Hx.
  destruct (fcalls_keep jwks_of F E rank L HR HU O R KI PC _ _ _ cs [] s0 HA (fkeeping_start jwks_of F E O R s0 HB Hk)) as ((V1 & _) & _).
  fold s in V1. destruct (oanswer_cases E O R _ _ _ _ _ _ _ H) as [[-> _]|(k & p & ks & f1 & rc & -> & EJ & IK & EV & EG & X)]; [auto|].
  destruct HN as (k' & p' & [= <- <-] & Es & Hh). rewrite Es in EG.
  assert (G := forged_keys jwks_of F E rank L HR O _ fuel m k p (a_fed s) x y Hm Hf V1 Es Hh EV Hx). rewrite EG in G. cbn [fst] in G.
  assert (Ef : a_fed s' = f1) by (destruct X as [[-> _]|(? & ? & ? & ? & ? & ? & ? & _ & _ & _ & _ & _ & _ & _ & _ & -> & _)]; reflexivity).
  rewrite Ef. intros Hy. destruct (G Hy) as [A|[A|(-> & ks' & A & B)]]; [auto|auto|]. right. right. split; [reflexivity|].
  exists k, p, ks'. split; [reflexivity|]. split; [exact A|]. split; [congruence|exact B].
Qed.
Print Assumptions C193_keys_added_partial.

(** The request of [gone] in the name of the client (C192) *)
Theorem C193_keys_added_refuted : ~ C193_full.
Proof.
  intros H. destruct C192_ex as (E1 & _ & E3 & E4 & E5 & E6 & E7 & E8 & _).
  assert (A0 : ocalls_any oa_fed fo_env oa_rank []) by (intros c []).
  assert (Hr : In oa_client oa_fed) by (simpl; auto).
  assert (Hf : oa_rank (m_id oa_client) < 2) by (vm_compute; lia).
  destruct (answer_oauth fo_env id_order 2 fo_reg oa_op [] fo_request (after_ocalls fo_env id_order fo_reg [] fo_server)) as [s' v] eqn:Eq.
  assert (X := H ex_jwks oa_fed fo_env id_order fo_reg oa_rank 2 oa_op [] oa_client fo_request fo_server [] s' v
    E1 E3 E4 E5 E6 E7 E8 A0 Hr Hf fo_named Eq oa_client 7 Hr).
  assert (K : dget "client" (f_keys (a_fed (fst (answer_oauth fo_env id_order 2 fo_reg oa_op [] fo_request (after_ocalls fo_env id_order fo_reg [] fo_server))))) = Some [3; 7])
    by (vm_compute; reflexivity).
  rewrite Eq in K. cbn [fst] in K.
  destruct X as [(l & D & _)|(a & ks & Ha & D & I)].
  - exists [3; 7]. split; [exact K|right; left; reflexivity].
  - vm_compute in D. discriminate D.
  - change (superiors_of oa_client) with ["ta"] in Ha. destruct Ha as [<-|[]]. vm_compute in D. injection D as <-. destruct I as [I|[]]. discriminate I.
Qed.
Print Assumptions C193_keys_added_refuted.

(** What [gone] can do then: sign as the client. The server answers as if the client had asked. *)
Definition po_request : token :=
  TJws 7 (mkStmt "client" "client" (Some 4700%Z) (Some [7])
    (Some [("oauth_client", [("redirect_uris", VList [VStr "https://rp/cb"]); ("jwks", VInt 7); ("contacts", VList [VStr "gone"])])])
    None None (Some ["ta"])).
Definition po_ask (s : astate) : astate * res (option RpModel.answer) := answer_oauth fo_env id_order 2 fo_reg oa_op [] po_request s.

Example C193_ex :
  in_name_of oa_fed fo_env oa_client fo_request /\ in_name_of oa_fed fo_env oa_client po_request /\
  (* before *)
  snd (po_ask fo_server) = Err BadSignature /\
  (* after the request in the name of the client *)
  (exists a, snd (po_ask (fo_after 1)) = Ok (Some a) /\ s_sub (an_claims a) = "client" /\ an_anchor a = Some "ta") /\
  (exists ci, dget "op1op1xx" (r_cdb (a_reg (fst (po_ask (fo_after 1))))) = Some ci /\ dget "jwks" ci = Some (VInt 7)) /\
  (exists ks, registered_key ex_jwks oa_fed fo_env oa_client 3 /\ dget "client" (f_keys (a_fed (fo_after 1))) = Some ks /\ In 3 ks).
Proof.
  split; [exact fo_named|]. split.
  { eexists _, _. split; [reflexivity|]. split; [reflexivity|]. cbn [s_hints]. intros hints a [= <-] Ha. left. exact Ha. }
  split; [vm_compute; reflexivity|]. split; [eexists; split; [vm_compute; reflexivity|split; reflexivity]|].
  split; [eexists; split; vm_compute; reflexivity|].
  exists [3; 7]. split; [|split; [vm_compute; reflexivity|left; reflexivity]].
  exists "ta", [3]. split; [left; reflexivity|]. split; [vm_compute; reflexivity|left; reflexivity].
Qed.
