(** Explicit registration at an OP whose requests fail while time passes (C186). *)
From Verif Require Import PyFacts ExampleKit CollectorProps FederationProps.
From Verif Require Import ClientFacts ClientProps RegistrationFacts RegistrationProps RegistrationGrantProps RpSpec RpFacts RpProps.
From Verif Require Import LiveExample LiveResolveProps LiveRegisterProps LiveAnswerProps GetInProps TakenProps.
From Verif Require Export ClientsRightProps.
From Coq Require Import Lia.

(** ** What happens at an OP *)

(** the federation part is used or a client comes (C175), or a request for explicit registration arrives *)
Inductive call :=
| Visit (v : visit)
| Enlist (fuel : nat) (P : op) (prio : list string) (t : token).   (* answer_oidc *)

Definition do_call (E : cenv) (O : iter_order) (R : reg_env) (s : astate) (c : call) : astate :=
  match c with
  | Visit v => do_visit E O R s v
  | Enlist fuel P prio t => fst (answer_oidc E O fuel R P prio t s)
  end.

Definition after_calls (E : cenv) (O : iter_order) (R : reg_env) (cs : list call) (s : astate) : astate :=
  fold_left (do_call E O R) cs s.

(** Only members are asked about, and Python's recursion limit is not in the way. Requests may come from anybody, signed by anybody and
    with anything in them, as long as they are about members. *)
Definition names_member (F : list member) (rank : string -> nat) (fuel : nat) (t : token) : Prop :=
  forall k p, t = TJws k p -> (exists m, In m F /\ m_id m = s_sub p) /\ rank (s_sub p) < fuel.

Definition calls_about (F : list member) (rank : string -> nat) (cs : list call) : Prop :=
  forall c, In c cs ->
  match c with
  | Visit v => by_members F rank [v]
  | Enlist fuel P prio t => names_member F rank fuel t
  end.

(** The request [t] puts [ci] under [x]: [t] is about the member [x], there is a way from [x] up to somebody whose keys are in [kj], and
    what is stored is what [t] says. *)
Definition enlisted (jwks_of : val -> option (list key)) (F : list member) (E : cenv) (R : reg_env) (kj : keyjar) (t : token)
    (x : string) (ci : dict val) : Prop :=
  exists k p m rt mm ty d, t = TJws k p /\ In m F /\ s_sub p = m_id m /\ x = m_id m /\ usable jwks_of F E kj (m_id m) rt /\
    s_metadata p = Some mm /\ dget ty mm = Some d /\ stored_from R d ci.

(** [m] asks to be registered and the OP may see it until [z] *)
Definition asks_until (jwks_of : val -> option (list key)) (F : list member) (E : cenv) (m : member) (z : Z) (t : token) : Prop :=
  exists p, t = TJws (m_key m) p /\ s_iss p = m_id m /\ s_sub p = m_id m /\
    s_metadata p = s_metadata (config jwks_of F E (m_id m)) /\ vouches_for p (m_key m) /\ s_exp p = Some z.

(** ** One request *)

Lemma answer_cases E O fuel R P prio t s s' r : answer_oidc E O fuel R P prio t s = (s', r) ->
  (s' = s /\ exists x, r = Err x) \/
  exists k p f1 rc, t = TJws k p /\ get_verified_trust_chains E O fuel (s_sub p) (a_fed s) = (f1, rc) /\
    ((s' = mkA f1 (a_reg s) /\ exists x, r = Err x) \/
     exists cs c m ty md r2 o, rc = Ok cs /\ In c cs /\ s_metadata p = Some m /\ dget ty m = Some md /\
       step2_process_request O R (dset "client_id" (VStr (s_sub p)) (request_of md)) false true [] (a_reg s) = (r2, Ok o) /\
       s' = mkA f1 r2 /\
       match o with
       | Failed => r = Ok None
       | Done _ => exists a, r = Ok (Some a) /\ an_anchor a = Some (ch_anchor c) /\ s_sub (an_claims a) = s_iss p
       end).
Proof.
  unfold answer_oidc. rewrite ClientProps.opened.
  destruct (verify_self_signed E _ (Some t)) as [[t' p]|e] eqn:EV; [|intros [= <- <-]; left; eauto]. cbn [snd].
  assert (T : exists k, t = TJws k p).
  { apply verify_self_signed_ok in EV. destruct EV as [[= <-] (k' & ks & -> & _)]. eauto. }
  destruct T as [k ->]. unfold mbind at 1, lift at 1. destruct (metadata_of p) as [m|e] eqn:Em; [|intros [= <- <-]; left; eauto].
  unfold mbind at 1, lift at 1. destruct (opponent_type O (dkeys m)) as [ty|e]; [|intros [= <- <-]; left; eauto].
  unfold mbind at 1, on_fed. destruct (get_verified_trust_chains E O fuel (s_sub p) (a_fed s)) as [f1 rc] eqn:EG. intros H. right.
  exists k, p, f1, rc. split; [reflexivity|]. split; [exact EG|].
  destruct rc as [cs|e]; [|injection H as <- <-; left; eauto].
  destruct (is_nil cs) eqn:En; [unfold raise in H; injection H as <- <-; left; eauto|].
  unfold mbind at 1, lift at 1 in H. destruct (pick_trust_chain prio cs) as [c|e] eqn:Ep; [|injection H as <- <-; left; eauto].
  unfold mbind at 1, lift at 1, dindex in H. destruct (dget ty m) as [md|] eqn:Ed; [|injection H as <- <-; left; eauto].
  unfold mbind at 1, on_reg in H. cbn [a_reg a_fed] in H.
  destruct (step2_process_request O R (dset "client_id" (VStr (s_sub p)) (request_of md)) false true [] (a_reg s)) as [r2 ro] eqn:E2.
  right. assert (X : exists o, ro = Ok o).
  { unfold step2_process_request in E2. destruct (client_registration_setup _ _ _ _ _ _ _) as [? [?|?]]; injection E2 as _ <-; eauto. }
  destruct X as [o ->]. exists cs, c, m, ty, md, r2, o. split; [reflexivity|]. split; [exact (pick_In _ _ _ Ep)|].
  split; [unfold metadata_of in Em; destruct (s_metadata p); congruence|]. split; [exact Ed|]. split; [exact E2|].
  destruct o as [|args]; unfold ret in H; injection H as <- <-; (split; [reflexivity|]); [reflexivity|]. eexists. split; [reflexivity|]. auto.
Qed.

Section Op.
Context (jwks_of : val -> option (list key)) (F : list member) (E : cenv) (rank : string -> nat).
Context (L : library_shaky jwks_of F E) (HR : hierarchy F rank) (HU : all_checkable jwks_of F E).
Context (O : iter_order) (R : reg_env) (KI : keeps_id R) (PC : passed_on R "client_id").
Context (n0 : nat) (kj0 : keyjar).

(** what there is in the database is old, right, or was asked for *)
Definition keeping (db0 : dict (dict val)) (done : list call) (s : astate) : Prop :=
  living jwks_of F E n0 kj0 (a_fed s) /\ stored_right jwks_of F E O kj0 (a_fed s) /\
  forall x ci, dget x (r_cdb (a_reg s)) = Some ci ->
    dget x db0 = Some ci \/ client_right jwks_of F E O R kj0 x ci \/
    exists fuel P prio t, In (Enlist fuel P prio t) done /\ enlisted jwks_of F E R kj0 t x ci.

Lemma more_done db0 done done' s : incl done done' -> keeping db0 done s -> keeping db0 done' s.
Proof.
  intros I (V & S & G). split; [exact V|]. split; [exact S|]. intros x ci D.
  destruct (G x ci D) as [A|[A|(fuel & P & prio & t & A & B)]]; [auto..|]. right. right. exists fuel, P, prio, t. auto.
Qed.

Lemma visit_keeps db0 done v s : by_members F rank [v] -> keeping db0 done s -> keeping db0 done (do_visit E O R s v).
Proof.
  intros Hv (V & S & G).
  destruct (visited_right jwks_of F E rank L HR HU O R KI PC n0 kj0 (r_cdb (a_reg s)) v s (Hv v (or_introl eq_refl))) as (V' & S' & G').
  { split; [exact V|]. split; [exact S|]. intros x ci D. left. exact D. }
  split; [exact V'|]. split; [exact S'|]. intros x ci D. destruct (G' x ci D) as [A|A]; [exact (G x ci A)|auto].
Qed.

Lemma looked_right fuel m f f1 r : In m F -> rank (m_id m) < fuel ->
  living jwks_of F E n0 kj0 f -> stored_right jwks_of F E O kj0 f ->
  get_verified_trust_chains E O fuel (m_id m) f = (f1, r) ->
  living jwks_of F E n0 kj0 f1 /\ stored_right jwks_of F E O kj0 f1 /\
  forall cs, r = Ok cs -> as_it_should jwks_of F E O kj0 m (Ok cs).
Proof.
  intros Hm Hf V S H. apply (fed_looked jwks_of F E rank L HR HU O n0 kj0 fuel m f f1 r Hm Hf V S). unfold chains_for. exact H.
Qed.

Lemma enlist_keeps db0 done fuel P prio t s : names_member F rank fuel t -> keeping db0 done s ->
  keeping db0 (Enlist fuel P prio t :: done) (do_call E O R s (Enlist fuel P prio t)).
Proof.
  intros Hn K. cbn [do_call]. destruct (answer_oidc E O fuel R P prio t s) as [s' r] eqn:Eq. cbn [fst].
  assert (K' : keeping db0 (Enlist fuel P prio t :: done) s) by (apply (more_done db0 done); [intros c Hc; right; exact Hc|exact K]).
  destruct (answer_cases _ _ _ _ _ _ _ _ _ _ Eq) as [[-> _]|(k & p & f1 & rc & -> & EG & X)]; [exact K'|].
  destruct (Hn k p eq_refl) as ((m & Hm & En) & Hf). rewrite <- En in EG, Hf. destruct K' as (V & S & G).
  destruct (looked_right fuel m _ _ _ Hm Hf V S EG) as (V1 & S1 & A).
  destruct X as [[-> _]|(cs & c & mm & ty & md & r2 & o & -> & Ic & Em & Ed & E2 & -> & X)];
    [split; [exact V1|split; [exact S1|exact G]]|].
  split; [exact V1|]. split; [exact S1|]. cbn [a_reg]. intros x ci D. destruct o as [|args].
  - destruct (C57_entry_left_partial _ _ _ _ _ _ _ _ E2 (NoDup_dset _ _ _ _ (request_nodup md)) PC) as [_ [->|(id & ci' & _ & B & Edb)]].
    + exact (G x ci D).
    + rewrite Edb in D. destruct (string_dec x id) as [->|N].
      * rewrite dget_dset_same in D. injection D as <-. right. left. left. exact B.
      * rewrite dget_dset_other in D by exact N. exact (G x ci D).
  - destruct (A _ eq_refl) as (_ & A2 & _). destruct (A2 c Ic) as (rt & U & _ & _).
    destruct (step2_stored O R md _ _ _ _ _ _ _ (request_get "client_id" (VStr (s_sub p)) md) (NoDup_dset _ _ _ _ (request_nodup md)) KI E2)
      as (rid & ci2 & D1 & D2 & CL & SF & Dc).
    destruct (step2_entry _ _ _ _ _ _ _ _ _ KI E2) as (rid' & ci3 & ci1 & D1' & Edb).
    assert (rid' = rid) by congruence. subst rid'. rewrite Edb, dget_dset_same in D2. injection D2 as ->.
    specialize (CL PC). unfold client_of in CL. rewrite dget_dset_same in CL.
    assert (rid = s_sub p) by congruence. subst rid.
    rewrite Edb in D. destruct (string_dec x (s_sub p)) as [->|N].
    + rewrite dget_dset_same in D. injection D as <-. right. right. exists fuel, P, prio, (TJws k p). split; [left; reflexivity|].
      exists k, p, m, rt, mm, ty, md. auto 10.
    + rewrite !dget_dset_other in D by exact N. exact (G x ci D).
Qed.

Lemma calls_keep db0 cs : forall done s, calls_about F rank cs -> keeping db0 done s -> keeping db0 (rev cs ++ done) (after_calls E O R cs s).
Proof.
  unfold after_calls. induction cs as [|c cs IH]; intros done s A K; [exact K|]. cbn [fold_left rev]. rewrite <- app_assoc. cbn [app].
  apply IH; [intros c' Hc; apply A; right; exact Hc|]. assert (Ac := A c (or_introl eq_refl)). destruct c as [v|fuel P prio t].
  - apply (more_done db0 done); [intros x Hx; right; exact Hx|]. exact (visit_keeps db0 done v s Ac K).
  - exact (enlist_keeps db0 done fuel P prio t s Ac K).
Qed.
End Op.

Lemma keeping_start jwks_of F E O R s0 : newborn (a_fed s0) -> right_keys F (f_keys (a_fed s0)) ->
  keeping jwks_of F E O R (st_tick (f_col (a_fed s0))) (f_keys (a_fed s0)) (r_cdb (a_reg s0)) [] s0.
Proof.
  intros HB Hk. split; [exact (living_start jwks_of F E _ HB Hk)|]. split; [|intros x ci D; left; exact D].
  intros x cs Hx D. rewrite (proj2 (proj2 HB)) in D. discriminate D.
Qed.

(** ** C186: explicit registration while requests fail and time passes *)

(** Whatever fails, however time passes and whoever asks for whatever: every client in the database was there before, is right (C175), or
    is a member with a way up that was the subject of a request, with what that request said. *)
Theorem C186_only_asked_for : forall jwks_of F E O R rank s0 cs,
  library_shaky jwks_of F E -> hierarchy F rank -> all_checkable jwks_of F E -> keeps_id R -> passed_on R "client_id" ->
  newborn (a_fed s0) -> right_keys F (f_keys (a_fed s0)) -> calls_about F rank cs ->
  forall x ci, dget x (r_cdb (a_reg (after_calls E O R cs s0))) = Some ci ->
  dget x (r_cdb (a_reg s0)) = Some ci \/ client_right jwks_of F E O R (f_keys (a_fed s0)) x ci \/
  exists fuel P prio t, In (Enlist fuel P prio t) cs /\ enlisted jwks_of F E R (f_keys (a_fed s0)) t x ci.
Proof.
  intros jwks_of F E O R rank s0 cs L HR HU KI PC HB Hk HA x ci D.
  destruct (calls_keep jwks_of F E rank L HR HU O R KI PC _ _ _ cs [] s0 HA (keeping_start jwks_of F E O R s0 HB Hk)) as (_ & _ & G).
  destruct (G x ci D) as [A|[A|(fuel & P & prio & t & A & B)]]; [auto..|]. right. right. exists fuel, P, prio, t. split; [|exact B].
  rewrite app_nil_r in A. apply in_rev. exact A.
Qed.
Print Assumptions C186_only_asked_for.

(** What the OP says about the subject of a request that names it as issuer, too: it has a way up, and the anchor in the answer is where
    such a way ends. *)
Theorem C186_only_members : forall jwks_of F E O R rank s0 cs fuel P prio k p s' a,
  library_shaky jwks_of F E -> hierarchy F rank -> all_checkable jwks_of F E -> keeps_id R -> passed_on R "client_id" ->
  newborn (a_fed s0) -> right_keys F (f_keys (a_fed s0)) -> calls_about F rank cs -> names_member F rank fuel (TJws k p) ->
  answer_oidc E O fuel R P prio (TJws k p) (after_calls E O R cs s0) = (s', Ok (Some a)) ->
  s_sub (an_claims a) = s_iss p /\
  exists rt, usable jwks_of F E (f_keys (a_fed s0)) (s_sub p) rt /\ an_anchor a = Some (end_of (s_sub p) rt).
Proof.
  intros jwks_of F E O R rank s0 cs fuel P prio k p s' a L HR HU KI PC HB Hk HA HN H.
  destruct (calls_keep jwks_of F E rank L HR HU O R KI PC _ _ _ cs [] s0 HA (keeping_start jwks_of F E O R s0 HB Hk)) as (V & S & _).
  destruct (answer_cases _ _ _ _ _ _ _ _ _ _ H) as [[_ [x X]]|(k' & p' & f1 & rc & T & EG & X)]; [discriminate X|].
  injection T as <- <-. destruct (HN k p eq_refl) as ((m & Hm & En) & Hf). rewrite <- En in EG, Hf |- *.
  destruct (looked_right jwks_of F E rank L HR HU O _ _ fuel m _ _ _ Hm Hf V S EG) as (_ & _ & A).
  destruct X as [[_ [x X]]|(l & c & mm & ty & md & r2 & o & -> & Ic & _ & _ & _ & _ & X)]; [discriminate X|].
  destruct o as [|args]; [discriminate X|]. destruct X as (a' & [= <-] & X1 & X2). split; [exact X2|].
  destruct (A _ eq_refl) as (_ & A2 & _). destruct (A2 c Ic) as (rt & U & An & _). exists rt. split; [exact U|]. rewrite X1. f_equal. exact (proj1 An).
Qed.
Print Assumptions C186_only_members.

(** A member that asks is answered and registered with what it published, unless a request that is made for it now fails; then the caller
    is told so and the clients are as they were. *)
Theorem C186_answered : forall jwks_of F E O R rank s0 cs fuel P prio mo m d z t s' v,
  library_shaky jwks_of F E -> forwards E -> hierarchy F rank -> all_checkable jwks_of F E -> keeps_id R -> passed_on R "client_id" ->
  newborn (a_fed s0) -> right_keys F (f_keys (a_fed s0)) -> calls_about F rank cs ->
  In m F -> rank (m_id m) < fuel -> is_member P mo -> asks_until jwks_of F E m z t ->
  only_client (s_metadata (config jwks_of F E (m_id m))) d -> good_client R false (m_id m) d ->
  (exists rt, usable jwks_of F E (f_keys (a_fed s0)) (m_id m) rt) ->
  (forall rt, usable jwks_of F E (f_keys (a_fed s0)) (m_id m) rt -> exists md, adjusted O jwks_of F E (m_id m) rt md) ->
  let s := after_calls E O R cs s0 in
  (e_clock E (st_tick (f_col (a_fed s))) < z)%Z ->
  answer_oidc E O fuel R P prio t s = (s', v) ->
  (* less than a day after the beginning *)
  (e_clock E (st_tick (f_col (a_fed s'))) < e_clock E (st_tick (f_col (a_fed s0))) + 86400 - e_delta E)%Z ->
  (exists a rt ci md, v = Ok (Some a) /\ usable jwks_of F E (f_keys (a_fed s0)) (m_id m) rt /\
     made_by mo m (end_of (m_id m) rt) (op_now P + op_lifetime P) a /\
     s_metadata (an_claims a) = Some [("openid_relying_party", md)] /\
     dget (m_id m) (r_cdb (a_reg s')) = Some ci /\
     (forall k v, dget k d = Some v -> ~ In k RegistrationFacts.checked ->
        ~ In k ["client_id"; "client_salt"; "client_id_issued_at"; "client_secret"; "client_secret_expires_at"] ->
        granted R k v (dget k ci))) \/
  (outage jwks_of F E (st_tick (f_col (a_fed s))) (st_tick (f_col (a_fed s'))) /\ (exists x, net_error x /\ v = Err x) /\ a_reg s' = a_reg s).
Proof.
  intros jwks_of F E O R rank s0 cs fuel P prio mo m d z t s' v L HF HR HU KI PC HB Hk HA Hm Hf (P1 & P2 & P3)
    (pt & -> & T1 & T2 & T3 & (kt & T4 & T5) & T6) (mm & Em & Nm & Dm & Tm) Hgood [rt0 Hu0] HG s HZ H HT.
  destruct (calls_keep jwks_of F E rank L HR HU O R KI PC _ _ _ cs [] s0 HA (keeping_start jwks_of F E O R s0 HB Hk)) as (V & S & _).
  fold s in V, S. assert (L0 := ls_run _ _ _ L).
  unfold answer_oidc in H. rewrite ClientProps.opened in H.
  unfold verify_self_signed in H. rewrite T4 in H.
  assert (K : kmem (m_key m) (filter (lib_picks (e_lib E) (TJws (m_key m) pt)) kt) = true).
  { apply kmem_In, filter_In. split; [exact T5|]. exact (lf_picks _ _ _ L0 (m_key m) pt). }
  assert (VA : lib_valid (e_lib E) (e_clock E (st_tick (f_col (a_fed s)))) pt = true) by exact (lf_valid _ _ _ L0 _ _ _ T6 HZ).
  rewrite K, VA in H. cbv zeta in H. cbn [snd] in H.
  unfold mbind at 1, lift at 1, metadata_of in H. rewrite T3, Em in H.
  unfold mbind at 1, lift at 1 in H. rewrite (only_client_type O mm d Nm Dm Tm) in H.
  unfold mbind at 1, on_fed in H. rewrite T2 in H.
  destruct (get_verified_trust_chains E O fuel (m_id m) (a_fed s)) as [f1 rc] eqn:EG.
  destruct (looked_should jwks_of F E rank L HR HU _ _ O fuel m _ f1 rc Hm Hf V EG) as [A|[(OU & x & NE & ->)|[AG ->]]].
  - destruct rc as [l|x].
    + destruct A as (A1 & A2 & _). destruct (A1 rt0 Hu0) as (c0 & I0 & _).
      destruct (is_nil l) eqn:En; [destruct l; [destruct I0|discriminate En]|].
      assert (Hl : l <> []) by (intros ->; discriminate En).
      destruct (pick_some prio l Hl) as [c Hc]. destruct (A2 c (pick_In prio l c Hc)) as (rt & U & [An _] & _).
      destruct (good_step O R false true (m_id m) d (a_reg s) KI Hgood) as (r2 & args & rid & ci & H2 & Di & CL & D2 & K2 & _).
      assert (rid = m_id m).
      { unfold client_of in CL. unfold request_for in CL. rewrite dget_dset_same in CL. congruence. }
      subst rid. unfold mbind at 1, lift at 1 in H. rewrite Hc in H. unfold mbind at 1, lift at 1, dindex in H. rewrite Dm in H.
      fold (request_for (m_id m) d) in H. unfold mbind at 1, on_reg in H. cbn [a_reg a_fed] in H. rewrite H2 in H.
      unfold ret in H. injection H as <- <-. left. eexists _, rt, ci, _. split; [reflexivity|]. split; [exact U|].
      unfold made_by. cbn [an_anchor an_claims an_signer s_iss s_sub s_exp s_metadata a_reg]. rewrite P1, T1, P2, An.
      split; [repeat (split; [reflexivity|]); split; [exists (op_jwks P); split; [reflexivity|exact P3]|reflexivity]|].
      split; [reflexivity|]. split; [exact D2|exact K2].
    + exfalso. destruct A as (rt & U & PE). destruct (HG rt U) as (md & [w Ad]). congruence.
  - right. injection H as <- <-. cbn [a_fed a_reg]. split; [exact OU|]. split; [eauto|reflexivity].
  - exfalso. injection H as <- _. cbn [a_fed] in HT. assert (Z := aged_day jwks_of F E L _ _ HF AG). lia.
Qed.
Print Assumptions C186_answered.

(** The federation of C175: tmi is an OP. rp asks twice while requests fail, then somebody else asks in its name (C82), and then it comes
    itself once more. *)
Definition xp_token : token := asking_token ex_jwks v_fed cr_env "rp".
Definition xp_forged : token :=
  TJws 9 (mkStmt "rp" "rp" (Some 90000%Z) (Some [9]) (Some [("openid_relying_party", [("redirect_uris", VList [VStr "https://rp/cb"]); ("jwks", VInt 9); ("contacts", VList [VStr "evil"])])]) None None None).
Definition xp_calls : list call :=
  [Enlist 2 v_op [] xp_token; Enlist 2 v_op [] TJunk; Enlist 2 v_op [] xp_token; Visit (Fed Wait); Enlist 2 v_op [] xp_forged; Visit (Knock OIDC false true 2 "tmi")].
Definition xp_after (n : nat) : astate := after_calls cr_env id_order ex_reg (firstn n xp_calls) v_server.
Definition xp_ask (s : astate) : astate * res (option RpModel.answer) := answer_oidc cr_env id_order 2 ex_reg v_op [] xp_token s.

Example C186_ex : library_shaky ex_jwks v_fed cr_env /\ forwards cr_env /\ hierarchy v_fed v_rank /\ all_checkable ex_jwks v_fed cr_env /\
  keeps_id ex_reg /\ passed_on ex_reg "client_id" /\ newborn (a_fed v_server) /\ right_keys v_fed (f_keys (a_fed v_server)) /\
  calls_about v_fed v_rank xp_calls /\ is_member v_op v_tmi /\ asks_until ex_jwks v_fed cr_env v_rp 87500 xp_token /\
  only_client (s_metadata (config ex_jwks v_fed cr_env "rp")) v_published /\ good_client ex_reg false "rp" v_published /\
  (exists rt, usable ex_jwks v_fed cr_env (f_keys (a_fed v_server)) "rp" rt) /\
  (forall rt, usable ex_jwks v_fed cr_env (f_keys (a_fed v_server)) "rp" rt -> exists md, adjusted id_order ex_jwks v_fed cr_env "rp" rt md) /\
  (* what rp is told *)
  snd (xp_ask (xp_after 0)) = Err ConnectionError /\ snd (xp_ask (xp_after 1)) = Err FailedConfigurationRetrieval /\
  (exists a, snd (xp_ask (xp_after 6)) = Ok (Some a) /\ an_anchor a = Some "ta") /\
  (* what is stored meanwhile *)
  dmem "rp" (r_cdb (a_reg (xp_after 4))) = false /\
  (exists ci, dget "rp" (r_cdb (a_reg (xp_after 6))) = Some ci /\ dget "contacts" ci = Some (VList [VStr "evil"])) /\
  (exists ci, dget "rp" (r_cdb (a_reg (fst (xp_ask (xp_after 6))))) = Some ci /\ dget "contacts" ci = None) /\
  (e_clock cr_env (st_tick (f_col (a_fed (xp_after 6%nat)))) < 87500)%Z /\
  (e_clock cr_env (st_tick (f_col (a_fed (fst (xp_ask (xp_after 6%nat)))))) < e_clock cr_env (st_tick (f_col (a_fed v_server))) + 86400 - e_delta cr_env)%Z.
Proof.
  assert (Hr : In v_rp v_fed) by (simpl; auto).
  split; [exact cr_shaky|]. split; [exact cr_forwards|]. split; [exact v_hierarchy|]. split; [exact cr_checkable|]. split; [exact ex_keeps_id|].
  split; [reflexivity|]. split; [repeat split|]. split; [exact v_keys|]. split.
  { assert (N : forall t, (forall k p, t = TJws k p -> s_sub p = "rp") -> names_member v_fed v_rank 2 t).
    { intros t Ht k p Et. rewrite (Ht k p Et). split; [exists v_rp; auto|vm_compute; lia]. }
    assert (N1 : names_member v_fed v_rank 2 xp_token).
    { apply N. intros k p Et. vm_compute in Et. injection Et as _ <-. reflexivity. }
    assert (N2 : names_member v_fed v_rank 2 xp_forged).
    { apply N. intros k p Et. injection Et as _ <-. reflexivity. }
    intros c [<-|[<-|[<-|[<-|[<-|[<-|[]]]]]]]; try assumption.
    - apply N. intros k p Et. discriminate Et.
    - intros v [<-|[]]. exact I.
    - intros v [<-|[]]. split; [exists v_tmi; simpl; auto|vm_compute; lia]. }
  split; [split; [reflexivity|split; [reflexivity|left; reflexivity]]|]. split.
  { eexists. split; [vm_compute; reflexivity|]. repeat (split; [reflexivity|]).
    split; [eexists; split; [reflexivity|left; reflexivity]|]. reflexivity. }
  split.
  { eexists. split; [vm_compute; reflexivity|]. split; [apply nodupb_sound; reflexivity|]. split; [reflexivity|].
    intros t [<-|[]]. left. reflexivity. }
  split; [exact v_published_good|]. split; [exists ["ta"]; exact (v_usable v_rp Hr ltac:(discriminate))|]. split.
  { intros rt (Hp & Hn & _). destruct (v_path v_rp rt Hr Hp) as [-> | ->]; [contradiction Hn; reflexivity|].
    destruct v_adjusted as (md & H & _). exists md. exact H. }
  split; [vm_compute; reflexivity|]. split; [vm_compute; reflexivity|]. split; [eexists; split; vm_compute; reflexivity|].
  split; [vm_compute; reflexivity|]. split; [eexists; split; vm_compute; reflexivity|]. split; [eexists; split; vm_compute; reflexivity|].
  split; vm_compute; reflexivity.
Qed.
