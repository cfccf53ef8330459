(** Explicit registration with OAuth 2 at a server whose requests fail while time passes (C190). *)
From Verif Require Import PyFacts ExampleKit CollectorProps CollectorRepeatProps FederationProps LiveFacts.
From Verif Require Import ClientFacts ClientProps RegistrationFacts RegistrationProps RegistrationGrantProps RpSpec RpFacts RpProps.
From Verif Require Import LiveExample LiveResolveProps LiveRegisterProps LiveAnswerProps GetInProps TakenProps.
From Verif Require Import OauthModel OauthProps.
From Verif Require Export ClientsRightProps.
From Coq Require Import Lia.

(** ** What happens at an authorization server *)

(** the federation part is used or a client comes (C175), or a request for explicit registration arrives *)
Inductive ocall :=
| OVisit (v : visit)
| OEnlist (fuel : nat) (P : op) (prio : list string) (t : token).   (* answer_oauth *)

Definition do_ocall (E : cenv) (O : iter_order) (R : reg_env) (s : astate) (c : ocall) : astate :=
  match c with
  | OVisit v => do_visit E O R s v
  | OEnlist fuel P prio t => fst (answer_oauth E O fuel R P prio t s)
  end.

Definition after_ocalls (E : cenv) (O : iter_order) (R : reg_env) (cs : list ocall) (s : astate) : astate :=
  fold_left (do_ocall E O R) cs s.

(** [t] is the entity configuration of the member [m], made at whatever time *)
Definition sends (jwks_of : val -> option (list key)) (F : list member) (E : cenv) (m : member) (t : token) : Prop :=
  exists p, t = TJws (m_key m) p /\ settle p = settle (config jwks_of F E (m_id m)) /\ s_exp p <> None.

(** Only members are asked about, and Python's recursion limit is not in the way. What asks for registration is the entity
    configuration of a member, as old as may be, or nothing that anybody has signed with keys in it. *)
Definition ocalls_about (jwks_of : val -> option (list key)) (F : list member) (E : cenv) (rank : string -> nat) (cs : list ocall) : Prop :=
  forall c, In c cs ->
  match c with
  | OVisit v => by_members F rank [v]
  | OEnlist fuel P prio t =>
      (exists m, In m F /\ rank (m_id m) < fuel /\ sends jwks_of F E m t) \/
      (forall k p ks, t = TJws k p -> s_jwks p = Some ks -> ~ In k ks)
  end.

(** The request [t] puts [ci] under [x]: [t] is the configuration of a member with a way up to somebody whose keys are in [kj], and
    what is stored is what the policies along that way make of one of the protocol roles in the configuration. *)
Definition oenlisted (jwks_of : val -> option (list key)) (F : list member) (E : cenv) (O : iter_order) (R : reg_env) (kj : keyjar)
    (t : token) (x : string) (ci : dict val) : Prop :=
  exists m rt md ty d, In m F /\ sends jwks_of F E m t /\ usable jwks_of F E kj (m_id m) rt /\
    adjusted O jwks_of F E (m_id m) rt md /\ ty <> "federation_entity" /\ ty <> "trust_mark_issuer" /\
    (exists mm, s_metadata (config jwks_of F E (m_id m)) = Some mm /\ In ty (dkeys mm)) /\
    claims_for md ty d /\ stored_from R d ci /\ dget "client_id" ci = Some (VStr x).

(** ** One request *)

Section Op.
Context (jwks_of : val -> option (list key)) (F : list member) (E : cenv) (rank : string -> nat).
Hypothesis L : library_shaky jwks_of F E.
Hypothesis HR : hierarchy F rank.
Hypothesis HU : all_checkable jwks_of F E.
Context (O : iter_order) (R : reg_env).
Hypothesis KI : keeps_id R.
Hypothesis PC : passed_on R "client_id".
Context (n0 : nat) (kj0 : keyjar).
Notation N0 := (library_net jwks_of F (e_clock E) 0).
Notation E0 := (freeze N0 E).
Notation L0 := (ls_run _ _ _ L).
Notation W := (library_world jwks_of F (e_clock E 0)).

(** the chains for a request *)
Definition chains_from (fuel : nat) (id : string) (t : token) : M fstate (list tchain) :=
  do r <- collect_trust_chains_signed E fuel id t "" [] in
  do tcs <- on_keys (verify_trust_chains E (fst r) [t]) in
  lift (apply_policies O tcs).

Lemma own_settled m t : In m F -> sends jwks_of F E m t -> tk t = tk (own W (m_id m)).
Proof.
  intros Hm (p & -> & Hp & _). unfold own. cbn [tk]. fold (config jwks_of F E (m_id m)). rewrite Hp. f_equal.
  cbn [library_world w_key]. rewrite (by_id_In _ _ _ L0 m Hm). reflexivity.
Qed.

Lemma signed_looked fuel m t p f f1 r : In m F -> rank (m_id m) < fuel -> living jwks_of F E n0 kj0 f ->
  sends jwks_of F E m t -> verify_self_signed E (e_clock E (st_tick (f_col f))) (Some t) = Ok (t, p) -> t = TJws (m_key m) p ->
  chains_from fuel (m_id m) t f = (f1, r) ->
  living jwks_of F E n0 kj0 f1 /\ f_chains f1 = f_chains f /\
  (as_it_should jwks_of F E O kj0 m r \/
   (outage jwks_of F E (st_tick (f_col f)) (st_tick (f_col f1)) /\ exists x, net_error x /\ r = Err x) \/
   (aged E n0 (st_tick (f_col f1)) /\ r = Err TypeError)).
Proof.
  intros Hm Hf (H1 & H2 & H3) HS HV Ht H.
  destruct (standing jwks_of F E rank L HR HU O fuel m (f_keys f) Hm Hf H2) as (tr0 & leaf0 & kj' & tcs0 & s1 & P1 & P2 & P3 & P4 & P5).
  assert (Hid := proj2 (so_id _ _ _ (lf_sound _ _ _ L0 m Hm))).
  assert (PV : pverified E0 (m_id m) = Ok (own W (m_id m), config jwks_of F E (m_id m))).
  { exact (wr_pverified E0 W "" (m_id m) (WR _ _ _ rank L0 HR m Hm) (m_id m) (reaches_self W "" (m_id m))). }
  assert (PT : ptree E0 fuel "" (m_id m) (config jwks_of F E (m_id m)) = Ok tr0 /\ leaf0 = own W (m_id m)).
  { unfold pcollect in P1. unfold pverified in PV. destruct (pconf E0 (m_id m)) as [[t0|]|]; try discriminate P1. cbn [bind] in P1, PV.
    rewrite PV in P1. cbn [bind fst snd] in P1. destruct (ptree E0 fuel "" (m_id m) (config jwks_of F E (m_id m))) as [tr|]; [|discriminate P1].
    cbn [bind] in P1. split; congruence. }
  destruct PT as [PT ->].
  assert (Hp : settle p = settle (config jwks_of F E (m_id m))).
  { destruct HS as (p' & Et & Hp & _). rewrite Ht in Et. injection Et as <-. exact Hp. }
  assert (RT := r_tree E N0 n0 (moving_alike jwks_of F E L) (moving_apart jwks_of F E L) (moving_dated jwks_of F E L) (dated0 jwks_of F E L)
             (lf_picks _ _ _ L0) (moving_valid jwks_of F E L) (moving_valid0 jwks_of F E L) (moving_clean jwks_of F E L)
             "" fuel (m_id m) _ _ p (f_col f) Hid H1 PV Hp).
  unfold runs in RT. unfold chains_from, collect_trust_chains_signed in H. unfold mbind at 1 in H. rewrite opened_fed, HV in H. cbn [snd is_nil] in H.
  unfold mbind at 1, on_col at 1 in H. destruct (collect_tree E fuel "" (m_id m) (Some p) (f_col f)) as [c1 rt]. destruct RT as (_ & R2 & R3).
  rewrite PT in R3. destruct R3 as [[R3 ->]|[(R3 & x & R4 & ->)|[R3 _]]].
  { injection H as <- <-. cbn [f_col f_chains f_keys]. split; [|split; [reflexivity|auto]]. split; [exact R2|]. auto. }
  { injection H as <- <-. cbn [f_col f_chains f_keys]. split; [|split; [reflexivity|]].
    - split; [exact R2|]. auto.
    - right. left. split; [exact (outage_down jwks_of F E _ _ R3)|eauto]. }
  destruct rt as [tr|x]; [|discriminate R3]. cbn in R3. injection R3 as R3.
  destruct (verify_chains_near E E0 _ _ t (own W (m_id m)) (f_keys f) kj' tcs0 (lf_picks _ _ _ L0) eq_refl (chains_near _ _ R3)
              (own_settled m t Hm HS) P2) as (tcs & V & HT).
  unfold ret at 1, mbind, on_keys in H. cbn [fst f_keys] in H. rewrite V in H. unfold lift in H. injection H as <- <-. cbn [f_col f_chains f_keys].
  split; [|split; [reflexivity|]].
  - split; [exact R2|]. split; [exact P4|]. intros x Hx Hs. cbn [f_keys]. rewrite (P5 x Hx Hs). apply H3; assumption.
  - left. destruct (standing_should jwks_of F E rank L HR HU O fuel m _ kj0 s1 _ Hm Hf H2 H3 P3) as [S1 S2].
    exact (should_near jwks_of F E O kj0 m _ _ (policies_near O _ _ HT) S1 S2).
Qed.

(** what an answer goes through *)
Lemma oanswer_cases fuel P prio t s s' r : answer_oauth E O fuel R P prio t s = (s', r) ->
  (s' = s /\ exists x, r = Err x) \/
  exists k p ks f1 rc, t = TJws k p /\ s_jwks p = Some ks /\ In k ks /\
    verify_self_signed E (e_clock E (st_tick (f_col (a_fed s)))) (Some t) = Ok (t, p) /\
    chains_from fuel (s_sub p) t (a_fed s) = (f1, rc) /\
    ((s' = mkA f1 (a_reg s) /\ exists x, r = Err x) \/
     exists cs c m ty md r2 o, rc = Ok cs /\ In c cs /\ s_metadata p = Some m /\ In ty (dkeys m) /\
       ty <> "federation_entity" /\ ty <> "trust_mark_issuer" /\ ClientModel.chain_metadata c ty = Ok md /\
       step2_process_request O R (request_of md) true true [] (a_reg s) = (r2, Ok o) /\ s' = mkA f1 r2 /\
       match o with
       | Failed => r = Ok None
       | Done _ => exists a, r = Ok (Some a) /\ an_anchor a = Some (ch_anchor c) /\ s_sub (an_claims a) = s_iss p
       end).
Proof.
  unfold answer_oauth. rewrite ClientProps.opened.
  destruct (verify_self_signed E _ (Some t)) as [[t' p]|e] eqn:EV; [|intros [= <- <-]; left; eauto]. cbn [snd].
  assert (SS := verify_self_signed_ok E _ (Some t) t' p EV). destruct SS as [[= <-] SS].
  destruct (metadata_of p) as [m|] eqn:EM; [|unfold mbind at 1, lift at 1; intros [= <- <-]; left; eauto].
  unfold mbind at 1, lift at 1.
  destruct (some_of O (filter _ (dkeys m))) as [ty|] eqn:ET; [|unfold mbind at 1, lift at 1; intros [= <- <-]; left; eauto].
  unfold mbind at 1, lift at 1. intros H. right.
  unfold verify_self_signed in EV. destruct t as [|k p0]; [discriminate EV|].
  destruct (s_jwks p0) as [ks|] eqn:EJ; [|discriminate EV].
  destruct (kmem k (filter (lib_picks (e_lib E) (TJws k p0)) ks)) eqn:EK; [|discriminate EV].
  assert (IK : In k ks) by (apply kmem_In, filter_In in EK; exact (proj1 EK)).
  destruct (lib_valid _ _ p0) eqn:EL; [|discriminate EV]. injection EV as <-.
  assert (EV' : verify_self_signed E (e_clock E (st_tick (f_col (a_fed s)))) (Some (TJws k p0)) = Ok (TJws k p0, p0)).
  { unfold verify_self_signed. rewrite EJ, EK, EL. reflexivity. }
  assert (T : In ty (dkeys m) /\ ty <> "federation_entity" /\ ty <> "trust_mark_issuer").
  { unfold some_of in ET. destruct (ios O _) as [|y l] eqn:Ei in ET; [discriminate ET|]. injection ET as ->.
    assert (I : In ty (ios O (filter (fun t => negb (smem t ["federation_entity"; "trust_mark_issuer"])) (dkeys m)))) by (rewrite Ei; left; reflexivity).
    apply (ios_In O), filter_In in I. destruct I as [I S]. split; [exact I|]. split; intros ->; discriminate S. }
  destruct T as (T1 & T2 & T3). assert (EM' : s_metadata p0 = Some m) by (unfold metadata_of in EM; destruct (s_metadata p0); congruence).
  unfold mbind at 1, on_fed at 1 in H. unfold chains_from. 
  destruct (collect_trust_chains_signed E fuel (s_sub p0) (TJws k p0) "" [] (a_fed s)) as [f1 [rc|x]] eqn:EC.
  2:{ injection H as <- <-. exists k, p0, ks, f1, (Err x). split; [reflexivity|]. split; [exact EJ|]. split; [exact IK|]. split; [reflexivity|].
      split; [unfold mbind; rewrite EC; reflexivity|]. left. split; [reflexivity|eauto]. }
  unfold mbind at 1, on_fed at 1 in H. cbn [a_fed a_reg] in H.
  destruct (on_keys (verify_trust_chains E (fst rc) [TJws k p0]) f1) as [f2 [tcs|x]] eqn:EK2.
  2:{ injection H as <- <-. exists k, p0, ks, f2, (Err x). split; [reflexivity|]. split; [exact EJ|]. split; [exact IK|]. split; [reflexivity|].
      split; [unfold mbind; rewrite EC, EK2; reflexivity|]. left. split; [reflexivity|eauto]. }
  exists k, p0, ks, f2, (apply_policies O tcs). split; [reflexivity|]. split; [exact EJ|]. split; [exact IK|]. split; [reflexivity|].
  split; [unfold mbind; rewrite EC, EK2; reflexivity|].
  unfold mbind at 1, lift at 1 in H. destruct (apply_policies O tcs) as [cs|x]; [|injection H as <- <-; left; split; [reflexivity|eauto]].
  unfold mbind at 1, lift at 1 in H. destruct (pick_trust_chain prio cs) as [c|x] eqn:EP; [|injection H as <- <-; left; split; [reflexivity|eauto]].
  unfold mbind at 1, lift at 1 in H. destruct (ClientModel.chain_metadata c ty) as [md|x] eqn:ED; [|injection H as <- <-; left; split; [reflexivity|eauto]].
  unfold mbind at 1, on_reg in H. cbn [a_fed a_reg] in H.
  destruct (step2_process_request O R (request_of md) true true [] (a_reg s)) as [r2 [o|x]] eqn:E2.
  2:{ unfold step2_process_request in E2. destruct (client_registration_setup _ _ _ _ _ _ _) as [? [?|?]]; discriminate E2. }
  right. exists cs, c, m, ty, md, r2, o. split; [reflexivity|]. split; [exact (pick_In prio cs c EP)|]. split; [exact EM'|].
  split; [exact T1|]. split; [exact T2|]. split; [exact T3|]. split; [exact ED|]. split; [exact E2|].
  destruct o as [|args]; unfold ret in H; injection H as <- <-; (split; [reflexivity|]); [reflexivity|]. eexists. split; [reflexivity|]. split; reflexivity.
Qed.

(** what there is in the database is old, right, or was asked for *)
Definition okeeping (db0 : dict (dict val)) (done : list ocall) (s : astate) : Prop :=
  living jwks_of F E n0 kj0 (a_fed s) /\ stored_right jwks_of F E O kj0 (a_fed s) /\
  forall x ci, dget x (r_cdb (a_reg s)) = Some ci ->
    dget x db0 = Some ci \/ client_right jwks_of F E O R kj0 x ci \/
    exists fuel P prio t, In (OEnlist fuel P prio t) done /\ oenlisted jwks_of F E O R kj0 t x ci.

Lemma omore_done db0 done done' s : incl done done' -> okeeping db0 done s -> okeeping db0 done' s.
Proof.
  intros I (V & S & G). split; [exact V|]. split; [exact S|]. intros x ci D.
  destruct (G x ci D) as [A|[A|(fuel & P & prio & t & A & B)]]; [auto..|]. right. right. exists fuel, P, prio, t. auto.
Qed.

Lemma ovisit_keeps db0 done v s : by_members F rank [v] -> okeeping db0 done s -> okeeping db0 done (do_visit E O R s v).
Proof.
  intros Hv (V & S & G).
  destruct (visited_right jwks_of F E rank L HR HU O R KI PC n0 kj0 (r_cdb (a_reg s)) v s (Hv v (or_introl eq_refl))) as (V' & S' & G').
  { split; [exact V|]. split; [exact S|]. intros x ci D. left. exact D. }
  split; [exact V'|]. split; [exact S'|]. intros x ci D. destruct (G' x ci D) as [A|A]; [exact (G x ci A)|auto].
Qed.

Lemma sent_about m k p : In m F -> sends jwks_of F E m (TJws k p) ->
  s_sub p = m_id m /\ s_iss p = m_id m /\ s_metadata p = s_metadata (config jwks_of F E (m_id m)) /\ k = m_key m.
Proof.
  intros Hm (p' & [= <- <-] & Hp & _). destruct (settle_fields _ _ Hp) as (H1 & H2 & _ & H4 & _).
  destruct (wr_config _ _ _ _ (WR _ _ _ rank L0 HR m Hm) (m_id m) (reaches_self W "" (m_id m))) as (_ & Ci & Cs & _).
  cbn [freeze e_clock] in Ci, Cs. unfold config in *.
  split; [congruence|]. split; [congruence|]. split; [congruence|reflexivity].
Qed.

Lemma oenlist_keeps db0 done fuel P prio t s :
  (exists m, In m F /\ rank (m_id m) < fuel /\ sends jwks_of F E m t) \/ (forall k p ks, t = TJws k p -> s_jwks p = Some ks -> ~ In k ks) ->
  okeeping db0 done s -> okeeping db0 (OEnlist fuel P prio t :: done) (do_ocall E O R s (OEnlist fuel P prio t)).
Proof.
  intros Hn K. cbn [do_ocall]. destruct (answer_oauth E O fuel R P prio t s) as [s' r] eqn:Eq. cbn [fst].
  assert (K' : okeeping db0 (OEnlist fuel P prio t :: done) s) by (apply (omore_done db0 done); [intros c Hc; right; exact Hc|exact K]).
  destruct (oanswer_cases _ _ _ _ _ _ _ Eq) as [[-> _]|(k & p & ks & f1 & rc & -> & EJ & IK & EV & EG & X)]; [exact K'|].
  destruct Hn as [(m & Hm & Hf & HS)|Hn]; [|destruct (Hn k p ks eq_refl EJ IK)].
  destruct (sent_about m k p Hm HS) as (Es & Ei & Emd & ->). rewrite Es in EG. destruct K' as (V & S & G).
  destruct (signed_looked fuel m _ p _ f1 rc Hm Hf V HS EV eq_refl EG) as (V1 & Hc & A).
  assert (S1 : stored_right jwks_of F E O kj0 f1) by (intros x cs Hx D; rewrite Hc in D; exact (S x cs Hx D)).
  destruct X as [[-> _]|(cs & c & mm & ty & md & r2 & o & -> & Ic & Em & Ed & T2 & T3 & Ecm & E2 & -> & X)];
    [split; [exact V1|split; [exact S1|exact G]]|].
  split; [exact V1|]. split; [exact S1|]. cbn [a_reg]. intros x ci D. destruct o as [|args].
  - destruct (C57_entry_left_partial _ _ _ _ _ _ _ _ E2 (request_nodup md) PC) as [_ [->|(id & ci' & _ & B & Edb)]].
    + exact (G x ci D).
    + rewrite Edb in D. destruct (string_dec x id) as [->|N].
      * rewrite dget_dset_same in D. injection D as <-. right. left. left. exact B.
      * rewrite dget_dset_other in D by exact N. exact (G x ci D).
  - assert (A' : as_it_should jwks_of F E O kj0 m (Ok cs)).
    { destruct A as [A|[(_ & y & _ & A)|[_ A]]]; [exact A|discriminate A|discriminate A]. }
    destruct A' as (_ & A2 & _). destruct (A2 c Ic) as (rt & U & _ & Ad).
    assert (RQ : NoDup (dkeys md) -> forall y, y <> "client_id" -> dget y (request_of md) = dget y md).
    { intros N y _. unfold request_of. rewrite dget_dupdate by exact N. destruct (dget y md); reflexivity. }
    destruct (step2_stored O R md _ _ _ _ _ _ _ RQ (request_nodup md) KI E2) as (rid & ci2 & D1 & D2 & _ & SF & Dc).
    destruct (step2_entry _ _ _ _ _ _ _ _ _ KI E2) as (rid' & ci3 & ci1 & D1' & Edb).
    assert (rid' = rid) by congruence. subst rid'. rewrite Edb, dget_dset_same in D2. injection D2 as ->.
    rewrite Edb in D. destruct (string_dec x rid) as [->|N].
    + rewrite dget_dset_same in D. injection D as <-. right. right. exists fuel, P, prio, (TJws (m_key m) p). split; [left; reflexivity|].
      exists m, rt, (ch_md c), ty, md. rewrite <- Emd.
      split; [exact Hm|]. split; [exact HS|]. split; [exact U|]. split; [exact Ad|]. split; [exact T2|]. split; [exact T3|].
      split; [exists mm; auto|]. split; [exact (chain_claims c ty md Ecm)|]. split; [exact SF|exact Dc].
    + rewrite !dget_dset_other in D by exact N. exact (G x ci D).
Qed.

Lemma ocalls_keep db0 cs : forall done s, ocalls_about jwks_of F E rank cs -> okeeping db0 done s ->
  okeeping db0 (rev cs ++ done) (after_ocalls E O R cs s).
Proof.
  unfold after_ocalls. induction cs as [|c cs IH]; intros done s A K; [exact K|]. cbn [fold_left rev]. rewrite <- app_assoc. cbn [app].
  apply IH; [intros c' Hc; apply A; right; exact Hc|]. assert (Ac := A c (or_introl eq_refl)). destruct c as [v|fuel P prio t].
  - apply (omore_done db0 done); [intros x Hx; right; exact Hx|]. exact (ovisit_keeps db0 done v s Ac K).
  - exact (oenlist_keeps db0 done fuel P prio t s Ac K).
Qed.
End Op.

Lemma okeeping_start jwks_of F E O R s0 : newborn (a_fed s0) -> right_keys F (f_keys (a_fed s0)) ->
  okeeping jwks_of F E O R (st_tick (f_col (a_fed s0))) (f_keys (a_fed s0)) (r_cdb (a_reg s0)) [] s0.
Proof.
  intros HB Hk. split; [exact (living_start jwks_of F E _ HB Hk)|]. split; [|intros x ci D; left; exact D].
  intros x cs Hx D. rewrite (proj2 (proj2 HB)) in D. discriminate D.
Qed.

(** a member that asks a server that has come to no harm *)
Lemma oanswered : forall jwks_of F E O R rank n0 kj0 s fuel P prio mo m z p s' v,
  library_shaky jwks_of F E -> forwards E -> hierarchy F rank -> all_checkable jwks_of F E -> keeps_id R -> passed_on R "client_id" ->
  living jwks_of F E n0 kj0 (a_fed s) ->
  In m F -> rank (m_id m) < fuel -> is_member P mo ->
  sends jwks_of F E m (TJws (m_key m) p) -> s_exp p = Some z ->
  only_oauth (s_metadata (config jwks_of F E (m_id m))) ->
  (exists rt, usable jwks_of F E kj0 (m_id m) rt) ->
  (forall rt, usable jwks_of F E kj0 (m_id m) rt -> exists d, leaves O jwks_of F E (m_id m) rt d /\ good_oauth R d) ->
  (e_clock E (st_tick (f_col (a_fed s))) < z)%Z ->
  answer_oauth E O fuel R P prio (TJws (m_key m) p) s = (s', v) ->
  (* less than a day after the beginning *)
  (e_clock E (st_tick (f_col (a_fed s'))) < e_clock E n0 + 86400 - e_delta E)%Z ->
  (exists a rt d ci md, v = Ok (Some a) /\ usable jwks_of F E kj0 (m_id m) rt /\
     made_by mo m (end_of (m_id m) rt) (op_now P + op_lifetime P) a /\
     leaves O jwks_of F E (m_id m) rt d /\
     s_metadata (an_claims a) = Some [("oauth_client", md)] /\
     dget (rg_newid R (dkeys (r_cdb (a_reg s)))) (r_cdb (a_reg s')) = Some ci /\
     (forall k v, dget k d = Some v -> ~ In k RegistrationFacts.checked ->
        ~ In k ["client_id"; "client_salt"; "client_id_issued_at"; "client_secret"; "client_secret_expires_at"] ->
        granted R k v (dget k ci))) \/
  (outage jwks_of F E (st_tick (f_col (a_fed s))) (st_tick (f_col (a_fed s'))) /\ (exists x, net_error x /\ v = Err x) /\ a_reg s' = a_reg s).
Proof.
  intros jwks_of F E O R rank n0 kj0 s fuel P prio mo m z p s' v L HF HR HU KI PC V Hm Hf (P1 & P2 & P3) HS T6
    (mm & Em & Nm & Dm & Tm) [rt0 Hu0] HG HZ H HT.
  assert (L0 := ls_run _ _ _ L).
  destruct (sent_about jwks_of F E rank L HR m _ p Hm HS) as (Es & Ei & Emd & _).
  assert (VF : vouches_for p (m_key m)).
  { destruct (wr_config _ _ _ _ (WR _ _ _ rank L0 HR m Hm) (m_id m) (reaches_self _ "" (m_id m))) as (_ & _ & _ & _ & ks & Hj & Hi).
    destruct HS as (p' & [= <-] & Hp & _). destruct (settle_fields _ _ Hp) as (_ & _ & Ej & _). exists ks. split; [rewrite Ej; exact Hj|].
    cbn [library_world w_key] in Hi. rewrite (by_id_In _ _ _ L0 m Hm) in Hi. exact Hi. }
  destruct VF as (kt & T4 & T5).
  assert (EV : verify_self_signed E (e_clock E (st_tick (f_col (a_fed s)))) (Some (TJws (m_key m) p)) = Ok (TJws (m_key m) p, p)).
  { unfold verify_self_signed. rewrite T4.
    assert (K : kmem (m_key m) (filter (lib_picks (e_lib E) (TJws (m_key m) p)) kt) = true).
    { apply kmem_In, filter_In. split; [exact T5|]. exact (lf_picks _ _ _ L0 (m_key m) p). }
    assert (VA : lib_valid (e_lib E) (e_clock E (st_tick (f_col (a_fed s)))) p = true) by exact (lf_valid _ _ _ L0 _ _ _ T6 HZ).
    rewrite K, VA. reflexivity. }
  assert (H0 := H). unfold answer_oauth in H0. rewrite ClientProps.opened, EV in H0. cbv zeta in H0. cbn [snd] in H0.
  unfold mbind at 1, lift at 1, metadata_of in H0. rewrite Emd, Em in H0.
  unfold mbind at 1, lift at 1 in H0. rewrite (only_oauth_type O mm Nm Dm Tm) in H0. rewrite Es in H0.
  destruct (chains_from E O fuel (m_id m) (TJws (m_key m) p) (a_fed s)) as [f1 rc] eqn:EG.
  assert (LS := signed_looked jwks_of F E rank L HR HU O _ _ fuel m _ p _ f1 rc Hm Hf V HS EV eq_refl EG).
  assert (H1 : (do cs <- on_fed (chains_from E O fuel (m_id m) (TJws (m_key m) p)) in
     do c <- lift (pick_trust_chain prio cs) in
     do md <- lift (ClientModel.chain_metadata c "oauth_client") in
     do r <- on_reg (step2_process_request O R (request_of md) true true []) in
     match r with
     | Failed => ret None
     | Done args =>
         ret (Some (mkAnswer (op_key P)
                   (mkStmt (op_id P) (s_iss p) (Some (op_now P + op_lifetime P)%Z) (Some (op_jwks P))
                           (Some [("oauth_client", answer_metadata_oauth R (request_of md) args)]) None None
                           (if is_nil (op_hints P) then None else Some (op_hints P)))
                   (Some (ch_anchor c))))
     end) s = (s', v)).
  { rewrite <- H0. unfold chains_from, mbind, on_fed, on_keys, lift. cbn [a_fed a_reg].
    destruct (collect_trust_chains_signed E fuel (m_id m) (TJws (m_key m) p) "" [] (a_fed s)) as [g1 [rr|x]]; [|reflexivity].
    cbn [a_fed a_reg]. destruct (verify_trust_chains E (fst rr) [TJws (m_key m) p] (f_keys g1)) as [kj1 [tcs|x]]; [|reflexivity].
    destruct (apply_policies O tcs) as [l|x]; reflexivity. }
  clear H0. unfold mbind at 1, on_fed in H1. rewrite EG in H1.
  destruct LS as (_ & _ & [A|[(OU & x & NE & ->)|[AG ->]]]).
  - destruct rc as [l|x].
    + destruct A as (A1 & A2 & _). destruct (A1 rt0 Hu0) as (c0 & I0 & _).
      assert (Hl : l <> []) by (intros ->; destruct I0).
      destruct (pick_some prio l Hl) as [c Hc]. destruct (A2 c (pick_In prio l c Hc)) as (rt & U & [An _] & [w Ad]).
      destruct (HG rt U) as (d & (md0 & [w' Ad'] & Hd) & (ND & Hgood & HAl)).
      assert (Hmd : ch_md c = md0) by congruence. subst md0.
      assert (Hcm := claims_chain c _ d Hd).
      destruct (C141_granted_partial O R (request_of d) true true [] (a_reg s) Hgood) as (r2 & args & rid & ci & H2 & CL & D2 & K2 & _).
      { intros k y Ik Dk. apply (HAl k y Ik). unfold request_of in Dk. rewrite dget_dupdate in Dk by exact ND. destruct (dget k d); [exact Dk|discriminate Dk]. }
      assert (CLe : rid = rg_newid R (dkeys (r_cdb (a_reg s)))) by exact CL.
      unfold mbind at 1, lift at 1 in H1. rewrite Hc in H1. unfold mbind at 1, lift at 1 in H1. rewrite Hcm in H1.
      unfold mbind at 1, on_reg in H1. cbn [a_reg a_fed] in H1. rewrite H2 in H1.
      unfold ret in H1. injection H1 as <- <-. left. eexists _, rt, d, ci, _. split; [reflexivity|]. split; [exact U|].
      unfold made_by. cbn [an_anchor an_claims an_signer s_iss s_sub s_exp s_metadata a_reg]. rewrite P1, Ei, P2, An.
      split; [repeat (split; [reflexivity|]); split; [exists (op_jwks P); split; [reflexivity|exact P3]|reflexivity]|].
      split; [exists (ch_md c); split; [exists w'; exact Ad'|exact Hd]|]. split; [reflexivity|].
      rewrite <- CLe. split; [exact D2|].
      intros k y Dk N1 N2. apply (K2 k y); [|exact N1|exact N2]. unfold request_of. rewrite dget_dupdate by exact ND. rewrite Dk. reflexivity.
    + exfalso. destruct A as (rt & U & PE). destruct (HG rt U) as (d & (md & [w Ad] & _) & _). congruence.
  - right. injection H1 as <- <-. cbn [a_fed a_reg]. split; [exact OU|]. split; [eauto|reflexivity].
  - exfalso. injection H1 as <- _. cbn [a_fed] in HT. assert (Z := aged_day jwks_of F E L _ _ HF AG). lia.
Qed.

(** ** C190: explicit registration with OAuth 2 while requests fail and time passes *)

(** Whatever fails and however time passes: every client in the database was there before, is right (C175), or has what the policies make
    of the metadata of a member with a way up that asked for it. *)
Theorem C190_only_asked_for : forall jwks_of F E O R rank s0 cs,
  library_shaky jwks_of F E -> hierarchy F rank -> all_checkable jwks_of F E -> keeps_id R -> passed_on R "client_id" ->
  newborn (a_fed s0) -> right_keys F (f_keys (a_fed s0)) -> ocalls_about jwks_of F E rank cs ->
  forall x ci, dget x (r_cdb (a_reg (after_ocalls E O R cs s0))) = Some ci ->
  dget x (r_cdb (a_reg s0)) = Some ci \/ client_right jwks_of F E O R (f_keys (a_fed s0)) x ci \/
  exists fuel P prio t, In (OEnlist fuel P prio t) cs /\ oenlisted jwks_of F E O R (f_keys (a_fed s0)) t x ci.
Proof.
  intros jwks_of F E O R rank s0 cs L HR HU KI PC HB Hk HA x ci D.
  destruct (ocalls_keep jwks_of F E rank L HR HU O R KI PC _ _ _ cs [] s0 HA (okeeping_start jwks_of F E O R s0 HB Hk)) as (_ & _ & G).
  destruct (G x ci D) as [A|[A|(fuel & P & prio & t & A & B)]]; [auto..|]. right. right. exists fuel, P, prio, t. split; [|exact B].
  rewrite app_nil_r in A. apply in_rev. exact A.
Qed.
Print Assumptions C190_only_asked_for.

(** A member that asks is answered and registered under a new name with what the policies along one of its ways up leave of what it
    published, unless a request that is made for it now fails; then the caller is told so and the clients are as they were. *)
Theorem C190_answered : forall jwks_of F E O R rank s0 cs fuel P prio mo m z p s' v,
  library_shaky jwks_of F E -> forwards E -> hierarchy F rank -> all_checkable jwks_of F E -> keeps_id R -> passed_on R "client_id" ->
  newborn (a_fed s0) -> right_keys F (f_keys (a_fed s0)) -> ocalls_about jwks_of F E rank cs ->
  In m F -> rank (m_id m) < fuel -> is_member P mo ->
  sends jwks_of F E m (TJws (m_key m) p) -> s_exp p = Some z ->
  only_oauth (s_metadata (config jwks_of F E (m_id m))) ->
  (exists rt, usable jwks_of F E (f_keys (a_fed s0)) (m_id m) rt) ->
  (forall rt, usable jwks_of F E (f_keys (a_fed s0)) (m_id m) rt -> exists d, leaves O jwks_of F E (m_id m) rt d /\ good_oauth R d) ->
  let s := after_ocalls E O R cs s0 in
  (e_clock E (st_tick (f_col (a_fed s))) < z)%Z ->
  answer_oauth E O fuel R P prio (TJws (m_key m) p) s = (s', v) ->
  (* less than a day after the beginning *)
  (e_clock E (st_tick (f_col (a_fed s'))) < e_clock E (st_tick (f_col (a_fed s0))) + 86400 - e_delta E)%Z ->
  (exists a rt d ci md, v = Ok (Some a) /\ usable jwks_of F E (f_keys (a_fed s0)) (m_id m) rt /\
     made_by mo m (end_of (m_id m) rt) (op_now P + op_lifetime P) a /\
     leaves O jwks_of F E (m_id m) rt d /\
     s_metadata (an_claims a) = Some [("oauth_client", md)] /\
     dget (rg_newid R (dkeys (r_cdb (a_reg s)))) (r_cdb (a_reg s')) = Some ci /\
     (forall k v, dget k d = Some v -> ~ In k RegistrationFacts.checked ->
        ~ In k ["client_id"; "client_salt"; "client_id_issued_at"; "client_secret"; "client_secret_expires_at"] ->
        granted R k v (dget k ci))) \/
  (outage jwks_of F E (st_tick (f_col (a_fed s))) (st_tick (f_col (a_fed s'))) /\ (exists x, net_error x /\ v = Err x) /\ a_reg s' = a_reg s).
Proof.
  intros jwks_of F E O R rank s0 cs fuel P prio mo m z p s' v L HF HR HU KI PC HB Hk HA Hm Hf HP HS T6 HO HX HG s HZ H HT.
  destruct (ocalls_keep jwks_of F E rank L HR HU O R KI PC _ _ _ cs [] s0 HA (okeeping_start jwks_of F E O R s0 HB Hk)) as (V & _ & _).
  exact (oanswered jwks_of F E O R rank _ _ s fuel P prio mo m z p s' v L HF HR HU KI PC V Hm Hf HP HS T6 HO HX HG HZ H HT).
Qed.
Print Assumptions C190_answered.

(** The federation of C189 with failures and time passing: the server gets no connection at its first request and status 500 at its
    third. The client asks three times; in between comes something unsigned. *)
Definition oo_net (n : nat) (q : request) : response :=
  if Nat.eqb n 0 then RNoConnection else if Nat.eqb n 2 then RStatus else library_net ex_jwks oa_fed cr_clock n q.
Definition oo_env : cenv := mkEnv 300 ["ta"] oo_net cr_clock all_keys wk_url tenant_url.

Lemma oo_shaky : library_shaky ex_jwks oa_fed oo_env.
Proof.
  constructor.
  - exact oa_run.
  - intros n q. cbn [e_net oo_env]. unfold oo_net, failed. destruct (Nat.eqb n 0); [auto|]. destruct (Nat.eqb n 2); [auto|]. left. reflexivity.
  - intros n. cbn [e_clock oo_env]. unfold cr_clock. destruct (Nat.ltb (S n) 6), (Nat.ltb n 6); lia.
  - intros id m m' n I1 I2 H1 H2 _. exfalso. cbn [e_wk e_tenant oo_env] in H1, H2. unfold wk_url in H1. unfold tenant_url in H2.
    apply (f_equal String.length) in H1, H2.
    assert (Hap : forall a b, String.length (a ++ b) = String.length a + String.length b).
    { intros a b. induction a as [|c a IH]; cbn; [reflexivity|]. rewrite IH. reflexivity. }
    rewrite Hap in H1, H2. oa_members; cbn in H1, H2; lia.
Qed.

Lemma oo_forwards : forwards oo_env.
Proof. exact cr_forwards. Qed.

Lemma oo_checkable : all_checkable ex_jwks oa_fed oo_env.
Proof. intros m Hm. exact (oa_checkable m Hm). Qed.

Definition oo_later : stmt :=
  let c := config ex_jwks oa_fed oo_env "client" in
  mkStmt (s_iss c) (s_sub c) (Some 87000%Z) (s_jwks c) (s_metadata c) (s_policy c) (s_constraints c) (s_hints c).
Definition oo_token : token := TJws 3 oo_later.
Definition oo_calls : list ocall :=
  [OEnlist 2 oa_op [] oo_token; OEnlist 2 oa_op [] (asking_token ex_jwks oa_fed oo_env "client"); OEnlist 2 oa_op [] TJunk; OVisit (Fed Wait)].
Definition oo_after (n : nat) : astate := after_ocalls oo_env id_order ex_reg (firstn n oo_calls) oa_server.
Definition oo_ask (s : astate) : astate * res (option RpModel.answer) := answer_oauth oo_env id_order 2 ex_reg oa_op [] oo_token s.

Example C190_ex : library_shaky ex_jwks oa_fed oo_env /\ forwards oo_env /\ hierarchy oa_fed oa_rank /\ all_checkable ex_jwks oa_fed oo_env /\
  keeps_id ex_reg /\ passed_on ex_reg "client_id" /\ newborn (a_fed oa_server) /\ right_keys oa_fed (f_keys (a_fed oa_server)) /\
  ocalls_about ex_jwks oa_fed oo_env oa_rank oo_calls /\ is_member oa_op oa_as /\ sends ex_jwks oa_fed oo_env oa_client oo_token /\
  s_exp oo_later = Some 87000%Z /\ only_oauth (s_metadata (config ex_jwks oa_fed oo_env "client")) /\
  (exists rt, usable ex_jwks oa_fed oo_env (f_keys (a_fed oa_server)) "client" rt) /\
  (forall rt, usable ex_jwks oa_fed oo_env (f_keys (a_fed oa_server)) "client" rt ->
     exists d, leaves id_order ex_jwks oa_fed oo_env "client" rt d /\ good_oauth ex_reg d) /\
  (* what the client is told *)
  snd (oo_ask (oo_after 0)) = Err ConnectionError /\ snd (oo_ask (oo_after 1)) = Err FailedConfigurationRetrieval /\
  (exists a, snd (oo_ask (oo_after 4)) = Ok (Some a) /\ an_anchor a = Some "ta") /\
  (* what is stored *)
  r_cdb (a_reg (oo_after 4)) = r_cdb (a_reg oa_server) /\
  (exists ci, dget "client1" (r_cdb (a_reg (fst (oo_ask (oo_after 4))))) = Some ci /\ dget "contacts" ci = Some (VList [VStr "ta"])) /\
  (e_clock oo_env (st_tick (f_col (a_fed (oo_after 4%nat)))) < 87000)%Z /\
  (e_clock oo_env (st_tick (f_col (a_fed (fst (oo_ask (oo_after 4%nat)))))) < e_clock oo_env (st_tick (f_col (a_fed oa_server))) + 86400 - e_delta oo_env)%Z.
Proof.
  assert (Hr : In oa_client oa_fed) by (simpl; auto).
  assert (S1 : sends ex_jwks oa_fed oo_env oa_client oo_token).
  { exists oo_later. split; [reflexivity|]. split; [vm_compute; reflexivity|discriminate]. }
  assert (S2 : sends ex_jwks oa_fed oo_env oa_client (asking_token ex_jwks oa_fed oo_env "client")).
  { eexists. split; [reflexivity|]. split; [reflexivity|vm_compute; discriminate]. }
  split; [exact oo_shaky|]. split; [exact oo_forwards|]. split; [exact oa_hierarchy|]. split; [exact oo_checkable|]. split; [exact ex_keeps_id|].
  split; [reflexivity|]. split; [repeat split|]. split; [exact oa_keys|]. split.
  { intros c [<-|[<-|[<-|[<-|[]]]]].
    - left. exists oa_client. split; [exact Hr|]. split; [vm_compute; lia|exact S1].
    - left. exists oa_client. split; [exact Hr|]. split; [vm_compute; lia|exact S2].
    - right. intros k p ks H. discriminate H.
    - intros v [<-|[]]. exact I. }
  split; [split; [reflexivity|split; [reflexivity|left; reflexivity]]|]. split; [exact S1|]. split; [reflexivity|]. split.
  { eexists. split; [vm_compute; reflexivity|]. split; [apply nodupb_sound; reflexivity|]. split; [left; reflexivity|].
    intros t [<-|[]]. left. reflexivity. }
  split; [exists ["ta"]; exact (oa_usable oa_client Hr ltac:(discriminate))|]. split.
  { intros rt Hu. rewrite (oa_only rt Hu). exists oa_claims. split; [exact oa_leaves|exact oa_good]. }
  split; [vm_compute; reflexivity|]. split; [vm_compute; reflexivity|]. split; [eexists; split; vm_compute; reflexivity|].
  split; [vm_compute; reflexivity|]. split; [eexists; split; vm_compute; reflexivity|]. split; vm_compute; reflexivity.
Qed.
