(** Trust marks in federations under attack (C147): vocabulary and lemmas. *)
From Verif Require Import PyFacts CollectorFacts VerifierFacts FederationProps.
From Verif Require Export TrustMarkVerifierModel TrustMarkVerifierProps AttackFacts.

(** ** Vocabulary *)

(** no two have the same key, if one of them is a member *)
Definition separate (W : world) : Prop := forall e e' k,
  fair W e k -> fair W e' k -> in_fed W e = true -> e = e'.

(** [t] came in and verifies with a key in it *)
Definition self_made (W : world) (t : token) : Prop :=
  wire W t /\ exists k p jw, t = TJws k p /\ s_jwks p = Some jw /\ In k jw.

(** as [sound], and all cached configurations are self-signed *)
Definition sound_own (W : world) : iter_order -> fstate -> Prop := sound_with (self_made W) W.

(** what is done, with trust marks *)
Inductive mact :=
| Fed (a : act)
| Check (t : tmtoken) (anchor : string)        (* the trust mark verifier *)
| Verify (t : tmtoken) (with_issuer : bool).   (* verify_trust_mark *)

Section MarkActs.
Context (E : cenv) (O : iter_order) (fuel : nat) (me : string) (jwks : val) (wta : bool) (V : tmenv)
        (ask : string -> string -> string -> res (dict val)).

(** the trust mark an act accepts *)
Definition mark_act (a : mact) : M fstate (option tmark) :=
  match a with
  | Fed a => do _ <- perform E O fuel me jwks wta a in ret None
  | Check t anchor => tm_verifier E O fuel V t anchor false ""
  | Verify t w => verify_trust_mark E O fuel V ask t w
  end.

Definition mact_from (W : world) (a : mact) : Prop := match a with Fed a => act_from W a | _ => True end.

Definition after_marks (acts : list mact) (s : fstate) : fstate := fold_left (fun s a => fst (mark_act a s)) acts s.

Definition shown (a : mact) : option tmtoken :=
  match a with Fed _ => None | Check t _ => Some t | Verify t _ => Some t end.
End MarkActs.

(** ** Lemmas *)

Section Marks.
Context (W : world) (E : cenv) (HE : exposed W E).
Context (U : unforgeable W) (TR : truthful W) (D : discreet W) (S : separate W).
Context (O : iter_order) (fuel : nat) (V : tmenv).

Lemma self_made_wire t : self_made W t -> wire W t.
Proof. intros [H _]. exact H. Qed.

Lemma self_made_mine n t tp : wire W t -> verify_self_signed E n (Some t) = Ok tp -> self_made W t.
Proof.
  intros Hw H. split; [exact Hw|]. unfold verify_self_signed in H. destruct t as [|k p]; [discriminate|].
  destruct (s_jwks p) as [jw|] eqn:Ej; [|discriminate]. destruct (kmem _ _) eqn:Ek; [|discriminate].
  apply kmem_In in Ek. apply filter_In in Ek. exists k, p, jw. split; [reflexivity|]. split; [exact Ej|]. tauto.
Qed.

(** a self-signed statement gives the keys of the issuer *)
Lemma self_made_keys k p jw : wire W (TJws k p) -> fair W (s_iss p) k -> s_jwks p = Some jw -> In k jw ->
  forall k', In k' jw -> fair W (s_iss p) k'.
Proof.
  intros Hw Hf Ej Hk k' Hk'. assert (Hv := step_vouches W U TR D k p Hw Hf jw).
  assert (H1 := Hv k Ej Hk). assert (H2 := Hv k' Ej Hk').
  destruct (in_fed W (s_iss p)) eqn:Ei.
  - rewrite (S _ _ _ Hf H1 Ei). exact H2.
  - destruct (in_fed W (s_sub p)) eqn:Es.
    + rewrite (S _ _ _ H1 Hf Es) in Es. congruence.
    + unfold fair in *. rewrite Ei. rewrite Es in H2. exact H2.
Qed.

(** the keys in the last statement of a chain are those of its issuer *)
Definition leaf_fair (l : list stmt) : Prop := forall q rest jw k, rev l = q :: rest -> s_jwks q = Some jw -> In k jw -> fair W (s_iss q) k.

Lemma verify_tokens_last L n t k p : t = TJws k p -> forall ts kj ves l, jar_fair W kj ->
  (forall x, In x ts -> tok_from W x) -> snd (verify_tokens L kj n ves (ts ++ [t])) = Ok l ->
  fair W (s_iss p) k /\ exists l', l = l' ++ [p].
Proof.
  intros ->. induction ts as [|[|k1 p1] ts IH]; intros kj ves l Hj Ht; cbn [app verify_tokens].
  - destruct (is_nil _); [intros [=]|]. destruct (kmem k _) eqn:Ek; [|intros [=]].
    apply kmem_In in Ek. apply verify_keys_held in Ek. apply Hj in Ek. intros H. split; [exact Ek|].
    exists ves. destruct (s_jwks p).
    + cbn in H. injection H as <-. reflexivity.
    + destruct (Nat.eqb _ _); [|discriminate H]. cbn in H. injection H as <-. reflexivity.
  - apply IH; [exact Hj|]. intros x Hx. apply Ht. right. exact Hx.
  - destruct (is_nil _); [intros [=]|]. destruct (kmem k1 _) eqn:Ek; [|intros [=]].
    apply kmem_In in Ek. apply verify_keys_held in Ek. apply Hj in Ek.
    assert (Hw : wire W (TJws k1 p1)) by exact (Ht _ (or_introl eq_refl)).
    assert (Ht' : forall x, In x ts -> tok_from W x) by (intros x H; apply Ht; right; exact H).
    destruct (s_jwks p1) as [jw|] eqn:Ej.
    + apply IH; [|exact Ht']. apply add_keys_fair; [exact Hj|]. intros k' Hk'.
      exact (step_vouches W U TR D _ _ Hw Ek jw k' Ej Hk').
    + destruct (Nat.eqb _ _); [|intros [=]]. apply IH; assumption.
Qed.

Lemma k_run_leaf ch t : (forall x, In x ch -> tok_from W x) -> self_made W t ->
  keeps (jar_fair W) (run_verifier E (ch ++ [t])) (fun o => forall tc, o = Some tc -> leaf_fair (tc_verified tc)).
Proof.
  intros Hch Hm kj Hj.
  assert (Hall : forall x, In x (ch ++ [t]) -> tok_from W x).
  { intros x Hx. apply in_app_or in Hx. destruct Hx as [Hx|[<-|[]]]; [exact (Hch x Hx)|]. apply wire_tok, self_made_wire, Hm. }
  split; [exact (proj1 (k_run_verifier W E U TR D (ch ++ [t]) Hall kj Hj))|].
  intros o Ho tc ->. destruct Hm as (Hw & k & p & jw & Et & Ej & Hk).
  unfold run_verifier, verifier_call, verify_trust_chain in Ho.
  remember (ch ++ [t]) as ts eqn:Ets. destruct ts as [|t0 ts]; [destruct ch; discriminate|].
  destruct (trusted_anchor kj t0) as [[|]|x]; [|discriminate Ho|discriminate Ho].
  rewrite Ets in Ho.
  assert (HL := fun l => verify_tokens_last (e_lib E) (length (ch ++ [t]) - 1) t k p Et ch kj [] l Hj Hch).
  destruct (verify_tokens _ _ _ _ _) as [kj' [ves|x]]; cbn [fst snd] in *; [|discriminate].
  destruct (HL ves eq_refl) as [Hf (l' & ->)].
  destruct (is_nil (l' ++ [p])); [discriminate|]. destruct (meets_restrictions _) as [[|]|x]; try discriminate.
  cbn [bind] in Ho.
  assert (Ev : tc_verified tc = l' ++ [p]).
  { destruct (l' ++ [p]) as [|q0 l0]; [discriminate|]. cbn [snd] in Ho. apply bind_ok in Ho.
    destruct Ho as (ex & _ & Ho). injection Ho as <-. reflexivity. }
  rewrite Ev. intros q rest jw' k' Hq Ej' Hk'. rewrite rev_app_distr in Hq. cbn in Hq. injection Hq as <- _.
  rewrite Ej in Ej'. injection Ej' as <-. rewrite Et in Hw. exact (self_made_keys k p jw Hw Hf Ej Hk k' Hk').
Qed.

Definition tc_leaf (tc : trust_chain) : Prop := leaf_fair (tc_verified tc).

Lemma leaf_fair_same l l' : map s_iss l = map s_iss l' -> map s_jwks l = map s_jwks l' -> leaf_fair l -> leaf_fair l'.
Proof.
  intros Hi Hj H q rest jw k Hq Ej Hk. rewrite <- (rev_involutive l), <- (rev_involutive l') in Hi, Hj. rewrite Hq in Hi, Hj.
  destruct (rev l) as [|q0 r0] eqn:El.
  - cbn in Hi. rewrite map_app in Hi. destruct (map s_iss (rev rest)); discriminate.
  - cbn [rev] in Hi, Hj. rewrite !map_app in Hi, Hj. apply app_inj_tail in Hi, Hj. destruct Hi as [_ Hi]. destruct Hj as [_ Hj].
    cbn in Hi, Hj. rewrite <- Hi. apply (H q0 r0 jw k El); [congruence|exact Hk].
Qed.

Lemma applied_leaf tcs cs : apply_policies O tcs = Ok cs -> (forall tc, In tc tcs -> tc_leaf tc) ->
  forall c, In c cs -> tc_leaf (ch_tc c).
Proof.
  intros Ha H c Hc. destruct (proj1 (mapM_In _ _ _ _ _ Ha) c Hc) as (tc & Htc & Hap).
  assert (J := apply_keeps_jwks _ _ _ Hap). apply apply_keeps in Hap. destruct Hap as (_ & _ & _ & _ & A5 & _).
  exact (leaf_fair_same _ _ (eq_sym A5) (eq_sym J) (H tc Htc)).
Qed.

Let si := sound_own W O.
Let own := self_made W.

Lemma k_get_verified_leaf id : keeps si (get_verified_trust_chains E O fuel id) (fun cs => forall c, In c cs -> tc_leaf (ch_tc c)).
Proof.
  unfold get_verified_trust_chains.
  eapply k_bind; [apply (k_collect_trust_chains own W E HE self_made_mine O fuel)|].
  intros [chains leaf] [H1 H2]. cbn [fst snd] in H1, H2.
  destruct chains as [|ch chains]; [apply k_ret; intros c []|]. destruct leaf as [leaf|]; [|apply k_ret; intros c []].
  eapply k_bind with (Q := fun tcs => forall tc, In tc tcs -> tc_leaf tc).
  - apply k_on_keys. unfold verify_trust_chains. apply k_mfold; [|intros tc []].
    intros acc c Hc Hacc. eapply k_bind; [apply k_run_leaf; [exact (fun x => H1 c x Hc)|exact (H2 _ eq_refl)]|].
    intros [tc|] Ho; apply k_ret; [|exact Hacc]. intros tc' Hin. apply in_app_or in Hin.
    destruct Hin as [Hin|[<-|[]]]; [exact (Hacc _ Hin)|exact (Ho _ eq_refl)].
  - intros tcs Htcs. apply k_lift. intros cs Hcs. exact (applied_leaf tcs cs Hcs Htcs).
Qed.

Lemma k_import_leaf cs : (forall c, In c cs -> tc_leaf (ch_tc c)) ->
  (forall c, In c cs -> tc_iss_path (ch_tc c) = rev (map s_iss (tc_verified (ch_tc c)))) ->
  keeps si (import_leaf_keys O cs) (fun _ => True).
Proof.
  intros H HP. unfold import_leaf_keys. eapply k_bind with (Q := fun cs' => forall c, In c cs' -> tc_leaf (ch_tc c) /\ tc_iss_path (ch_tc c) = rev (map s_iss (tc_verified (ch_tc c)))).
  - apply k_lift. intros cs' Ha c Hc. split.
    + apply (applied_leaf _ _ Ha); [|exact Hc]. intros tc Htc. apply in_map_iff in Htc. destruct Htc as (c0 & <- & Hc0). exact (H c0 Hc0).
    + destruct (proj1 (mapM_In _ _ _ _ _ Ha) c Hc) as (tc & Htc & Hap). apply apply_keeps in Hap.
      destruct Hap as (_ & _ & A3 & _ & A5 & _). apply in_map_iff in Htc. destruct Htc as (c0 & <- & Hc0).
      rewrite A3. unfold ch_verified in A5. rewrite A5. exact (HP c0 Hc0).
  - intros [|c cs'] Hcs; [apply k_raise|]. destruct (Hcs c (or_introl eq_refl)) as [Hl Hp].
    destruct (rev (ch_verified c)) as [|leaf rest] eqn:Er; [apply k_raise|].
    destruct (tc_iss_path (ch_tc c)) as [|owner path] eqn:Eo; [apply k_raise|].
    destruct (s_jwks leaf) as [ks|] eqn:Ek; [|apply k_raise].
    unfold ch_verified in Er. rewrite <- map_rev, Er in Hp. cbn in Hp. injection Hp as -> _.
    intros s (H1 & H2 & H3). split; [|trivial]. unfold modify. cbn [fst f_keys f_col f_chains].
    split; [|split; [exact H2|exact H3]]. cbn [f_keys].
    intros e k (l & El & Hk). rewrite dget_dset in El. destruct (String.eqb_spec e (s_iss leaf)) as [->|N].
    + injection El as <-. apply in_app_or in Hk. destruct Hk as [Hk|Hk]; [apply H1, keys_of_holds, Hk|].
      exact (Hl leaf rest ks k Er Ek Hk).
    + apply H1. exists l. auto.
Qed.

Lemma keeps_and {St A} (I : St -> Prop) (m : M St A) (P Q : A -> Prop) :
  keeps I m P -> keeps I m Q -> keeps I m (fun a => P a /\ Q a).
Proof. intros H1 H2 s Hs. destruct (H1 s Hs) as [G1 G2]. destruct (H2 s Hs) as [_ G3]. split; auto. Qed.

(** the path of a returned chain *)
Lemma k_get_verified_path id : keeps si (get_verified_trust_chains E O fuel id)
  (fun cs => forall c, In c cs -> tc_iss_path (ch_tc c) = rev (map s_iss (tc_verified (ch_tc c)))).
Proof.
  intros s Hs. split; [exact (proj1 (k_get_verified_leaf id s Hs))|]. intros cs Hcs c Hc.
  destruct (get_verified_trust_chains E O fuel id s) as [s' r] eqn:Eg. cbn [snd] in Hcs. subst r.
  destruct (returned_chain _ _ _ _ _ _ _ _ Eg Hc) as (chains & lf & pre & ch & post & tc & _ & _ & Hv & Ha).
  apply apply_keeps in Ha. destruct Ha as (_ & _ & A3 & _ & A5 & _). apply call_ok in Hv. destruct Hv as (_ & _ & _ & Hip & _).
  rewrite A3, Hip. unfold ch_verified in A5. rewrite A5. reflexivity.
Qed.

Lemma k_get_config_metadata id : keeps si (get_metadata E fuel id) (fun _ => True).
Proof.
  assert (KC := fun i => k_on_col own W O _ _ _ (k_cfg_getitem own W E i)).
  unfold get_metadata. eapply k_bind; [apply k_get|]. intros s0 _.
  eapply k_bind with (Q := fun _ => True).
  { destruct (cache_contains _ _); [|apply k_ret; trivial]. eapply k_bind; [apply KC|]. intros [e|] _; [|apply k_raise].
    eapply k_bind; [apply k_on_col, k_now|]. intros n _. apply k_ret. trivial. }
  intros usable _. eapply k_bind with (Q := fun _ => True).
  { destruct usable as [e|]; [apply k_ret; trivial|].
    eapply k_bind; [apply (k_collect_trust_chains own W E HE self_made_mine O fuel)|]. intros r [H1 H2].
    eapply k_bind.
    - apply k_on_keys. apply (k_verify_chains W E U TR D). intros ch t Hch Ht. rewrite app_nil_r in Ht. exact (H1 ch t Hch Ht).
    - intros tcs _. eapply k_bind; [apply KC|]. intros [e|] _; [apply k_ret; trivial|apply k_raise]. }
  intros e _. destruct (s_metadata _); [apply k_ret; trivial|apply k_raise].
Qed.

Lemma k_verify_delegation p anchor : keeps si (verify_delegation E fuel V p anchor) (fun _ => True).
Proof.
  unfold verify_delegation. eapply k_bind; [apply k_get_config_metadata|]. intros m _.
  eapply k_bind with (Q := fun _ => True); [apply k_lift; trivial|]. intros fe _.
  destruct (dget "id" p) as [[| | |id| |]|]; try apply k_raise. destruct (dget "delegation" p) as [[| | |d| |]|]; try apply k_raise.
  apply k_lift. trivial.
Qed.

Lemma k_mark_keys t iss : keeps si (mark_keys V t iss) (fun ks => forall k, In k ks -> fair W iss k).
Proof.
  intros s Hs. split; [exact Hs|]. cbn. intros ks [= <-] k Hk. apply filter_In in Hk. destruct Hk as [Hk _].
  apply (proj1 Hs). apply keys_of_holds. exact Hk.
Qed.

(** an accepted mark is signed with a key that may be held for its issuer *)
Definition accepted (t : tmtoken) (p : tmark) : Prop :=
  exists k iss, t = TMJws k p /\ dget "iss" p = Some (VStr iss) /\ fair W iss k.

Lemma k_tm_verifier t anchor check ent : keeps si (tm_verifier E O fuel V t anchor check ent)
  (fun o => forall p, o = Some p -> accepted t p).
Proof.
  unfold tm_verifier. destruct t as [|k p]; [apply k_raise|].
  eapply k_bind with (Q := fun _ => True); [apply k_lift; trivial|]. intros _ _.
  eapply k_bind; [apply k_on_col, k_now|]. intros n _.
  eapply k_bind with (Q := fun _ => True); [apply k_lift; trivial|]. intros [|] _; [apply k_ret; intros p' [=]|].
  eapply k_bind with (Q := fun _ => True).
  { destruct (dmem _ _); [apply k_verify_delegation|apply k_ret; trivial]. }
  intros _ _. destruct (dget "iss" p) as [[| | |iss| |]|] eqn:Ei; try apply k_raise.
  eapply k_bind; [apply keeps_and; [apply k_get_verified_leaf|apply k_get_verified_path]|]. intros cs [Hl Hp].
  destruct (is_nil cs); [apply k_ret; intros p' [=]|]. destruct (negb _); [apply k_ret; intros p' [=]|].
  eapply k_bind; [apply k_mark_keys|]. intros ks Hks.
  eapply k_bind with (Q := fun ks => forall k, In k ks -> fair W iss k).
  { destruct (is_nil ks); [|apply k_ret; exact Hks]. eapply k_bind; [apply k_import_leaf; assumption|].
    intros _ _. apply k_mark_keys. }
  intros ks' Hks'. apply k_ret. intros p' H. destruct (kmem k ks') eqn:Ek; [|discriminate]. injection H as <-.
  apply kmem_In in Ek. exists k, iss. split; [reflexivity|]. split; [exact Ei|exact (Hks' k Ek)].
Qed.

Lemma k_verify_trust_mark ask t w : keeps si (verify_trust_mark E O fuel V ask t w)
  (fun o => forall p, o = Some p -> accepted t p).
Proof.
  unfold verify_trust_mark. destruct t as [|k p]; [apply k_raise|].
  destruct (dget "iss" p) as [[| | |iss| |]|]; try apply k_raise.
  eapply k_bind; [apply (k_get_chains own W E HE self_made_wire self_made_mine U TR D O fuel)|]. intros [|c cs] _; [apply k_ret; intros p' [=]|].
  eapply k_bind; [apply k_tm_verifier|]. intros v Hv. destruct w; [|apply k_ret; exact Hv].
  destruct v as [p'|]; [|apply k_raise]. destruct (dget "sub" p') as [[| | |sub| |]|]; try apply k_raise.
  destruct (dget "id" p') as [[| | |id| |]|]; try apply k_raise.
  eapply k_bind with (Q := fun _ => True); [apply k_lift; trivial|]. intros ep _.
  eapply k_bind with (Q := fun _ => True); [apply k_lift; trivial|]. intros resp _. apply k_ret.
  intros p2 H. destruct (dget "active" resp) as [a|]; [|discriminate]. destruct (py_eqb _ _); [|discriminate].
  injection H as <-. exact (Hv p' eq_refl).
Qed.

Lemma k_mark_act me jwks wta ask a : mact_from W a -> keeps si (mark_act E O fuel me jwks wta V ask a)
  (fun o => forall p, o = Some p -> exists t, shown a = Some t /\ accepted t p).
Proof.
  destruct a as [a|t anchor|t w]; cbn [mact_from mark_act shown]; intros H.
  - eapply k_bind; [apply (k_perform own W E HE self_made_wire self_made_mine U TR D O fuel); exact H|].
    intros cs _. apply k_ret. intros p [=].
  - eapply k_weaken; [apply k_tm_verifier|]. intros o Ho p Hp. exists t. split; [reflexivity|exact (Ho p Hp)].
  - eapply k_weaken; [apply k_verify_trust_mark|]. intros o Ho p Hp. exists t. split; [reflexivity|exact (Ho p Hp)].
Qed.

Lemma after_marks_sound me jwks wta ask acts : forall s, (forall a, In a acts -> mact_from W a) -> si s ->
  si (after_marks E O fuel me jwks wta V ask acts s).
Proof.
  induction acts as [|a acts IH]; intros s H Hs; cbn; [exact Hs|]. apply IH.
  - intros b Hb. apply H. right. exact Hb.
  - exact (proj1 (k_mark_act me jwks wta ask a (H a (or_introl eq_refl)) s Hs)).
Qed.

End Marks.
