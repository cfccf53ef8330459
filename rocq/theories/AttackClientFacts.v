(** Relying parties in federations under attack (C149): vocabulary and lemmas. *)
From Verif Require Import PyFacts CollectorFacts VerifierFacts FederationProps RegistrationFacts RpFacts AttackMarkFacts.
From Verif Require Export RpModel AttackServerFacts.

(** ** Vocabulary *)

(** what a relying party does *)
Inductive ract :=
| Party (a : act)                    (* as a federation entity *)
| Learn                              (* do_provider_info *)
| Ask_user (state : string)          (* init_authorization *)
| AnswerOIDC (a : answer)            (* registration responses *)
| AnswerOAuth (a : answer).

Section ClientActs.
Context (E : cenv) (O : iter_order) (fuel : nat) (me : string) (jwks : val) (wta : bool) (K : key_sources) (prio : list string).

Definition act_rp (a : ract) : M rp unit :=
  match a with
  | Party a => do _ <- rp_fed (perform E O fuel me jwks wta a) in ret tt
  | Learn => do _ <- do_provider_info E O fuel K prio in ret tt
  | Ask_user state => init_authorization state
  | AnswerOIDC a => do _ <- rp_fed (parse_oidc E O fuel me a) in ret tt
  | AnswerOAuth a => do _ <- rp_fed (parse_oauth E O fuel me a) in ret tt
  end.

Definition ract_from (W : world) (a : ract) : Prop :=
  match a with
  | Party a => act_from W a
  | AnswerOIDC a | AnswerOAuth a => wire W (an_tok a)
  | _ => True
  end.

Definition after_rp (acts : list ract) (s : rp) : rp := fold_left (fun s a => fst (act_rp a s)) acts s.
End ClientActs.

(** provider information out of metadata of a chain that is made of genuine statements, unless it is that of the configuration *)
Definition info_genuine (W : world) (O : iter_order) (info0 info : dict val) : Prop :=
  info = info0 \/ exists c, made_of W O c /\ chain_metadata c "openid_provider" = Ok info.

(** the keys kept for an issuer are out of such metadata that name this issuer, unless they are those of the configuration *)
Definition op_keys_genuine (W : world) (O : iter_order) (K : key_sources) (kj0 kj : ckeyjar) : Prop :=
  forall iss k, In (KPub k) (ckeys_of kj iss) -> In (KPub k) (ckeys_of kj0 iss) \/
    exists c md, made_of W O c /\ chain_metadata c "openid_provider" = Ok md /\ dget "issuer" md = Some (VStr iss) /\ key_in K md k.

(** ** Lemmas *)

Section Client.
Context (W : world) (E : cenv) (HE : exposed W E).
Context (U : unforgeable W) (TR : truthful W) (D : discreet W).
Context (O : iter_order) (fuel : nat) (K : key_sources) (prio : list string).
Context (kj0 : ckeyjar) (info0 : dict val).

Let own := wire W.
Let Hown : forall t, own t -> wire W t := fun t h => h.
Let Hmine : forall n t tp, wire W t -> verify_self_signed E n (Some t) = Ok tp -> own t := fun n t tp h _ => h.

(** ** Answers *)

Lemma k_signature_verifies id anchor : keeps (sound W O) (signature_verifies E fuel id anchor) (fun _ => True).
Proof.
  unfold signature_verifies. eapply k_bind; [apply (k_collect_trust_chains own W E HE Hmine O fuel)|]. intros r [H1 H2].
  destruct (is_nil _); [apply k_ret; trivial|].
  eapply k_bind.
  - apply k_on_keys. apply (k_verify_chains W E U TR D). intros ch t Hch Ht. rewrite app_nil_r in Ht. exact (H1 ch t Hch Ht).
  - intros tcs _. apply k_ret. trivial.
Qed.

Lemma k_open_response a : keeps (sound W O) (open_response E fuel a) (fun pa => fst pa = an_claims a).
Proof.
  unfold open_response. eapply k_bind with (Q := fun tp => snd tp = an_claims a).
  { apply k_on_col, k_open. intros n tp H. unfold verify_self_signed, an_tok in H. destruct (s_jwks _); [|discriminate].
    destruct (kmem _ _); [|discriminate]. destruct (lib_valid _ _ _); [|discriminate]. injection H as <-. reflexivity. }
  intros tp Htp. eapply k_bind with (Q := fun _ => True); [apply k_lift; trivial|]. intros ta _.
  destruct (negb _); [apply k_raise|]. eapply k_bind; [apply k_signature_verifies|]. intros [|] _; [|apply k_raise].
  apply k_ret. exact Htp.
Qed.

(** the last of the verified statements is the answer *)
Definition ends_with (p : stmt) (tc : trust_chain) : Prop := exists l, tc_verified tc = l ++ [p].

Lemma k_run_ends ch k p : (forall x, In x ch -> tok_from W x) -> wire W (TJws k p) ->
  keeps (jar_fair W) (run_verifier E (ch ++ [TJws k p])) (fun o => forall tc, o = Some tc -> tc_from W tc /\ ends_with p tc).
Proof.
  intros Hch Hw kj Hj.
  assert (Hall : forall x, In x (ch ++ [TJws k p]) -> tok_from W x).
  { intros x Hx. apply in_app_or in Hx. destruct Hx as [Hx|[<-|[]]]; [exact (Hch x Hx)|exact Hw]. }
  destruct (k_run_verifier W E U TR D (ch ++ [TJws k p]) Hall kj Hj) as [K1 K2].
  split; [exact K1|]. intros o Ho tc ->. split; [exact (K2 _ Ho tc eq_refl)|].
  unfold run_verifier, verifier_call, verify_trust_chain in Ho.
  remember (ch ++ [TJws k p]) as ts eqn:Ets. destruct ts as [|t0 ts]; [destruct ch; discriminate|].
  destruct (trusted_anchor kj t0) as [[|]|x]; [|discriminate Ho|discriminate Ho].
  rewrite Ets in Ho.
  assert (HL := fun l => verify_tokens_last W U TR D (e_lib E) (length (ch ++ [TJws k p]) - 1) (TJws k p) k p eq_refl ch kj [] l Hj Hch).
  destruct (verify_tokens _ _ _ _ _) as [kj' [ves|x]]; cbn [fst snd] in *; [|discriminate].
  destruct (HL ves eq_refl) as [Hf (l' & ->)]. exists l'.
  destruct (is_nil (l' ++ [p])); [discriminate|]. destruct (meets_restrictions _) as [[|]|x]; try discriminate.
  cbn [bind] in Ho. destruct (l' ++ [p]) as [|q0 l0]; [discriminate|]. cbn [snd] in Ho. apply bind_ok in Ho.
  destruct Ho as (ex & _ & Ho). injection Ho as <-. reflexivity.
Qed.

(** an accepted answer is by its issuer, and the metadata are made of it and genuine statements *)
Definition answer_genuine (a : answer) (md : metadata) : Prop :=
  exists tc c, tc_from W tc /\ ends_with (an_claims a) tc /\ apply_to_chain O tc = Ok c /\ type_of_chain c "openid_relying_party" = Ok (Some md).

Lemma k_parse_oidc me a : wire W (an_tok a) -> keeps (sound W O) (parse_oidc E O fuel me a) (answer_genuine a).
Proof.
  intros Hw. unfold parse_oidc. eapply k_bind; [apply k_open_response|]. intros [p ta] Hp. cbn [fst snd] in *. subst p.
  eapply k_bind; [apply (k_collect_trust_chains own W E HE Hmine O fuel)|]. intros r [H1 H2].
  eapply k_bind with (Q := fun tcs => forall tc, In tc tcs -> tc_from W tc /\ ends_with (an_claims a) tc).
  { apply k_on_keys. unfold verify_trust_chains. apply k_mfold; [|intros tc []].
    intros acc c Hc Hacc. eapply k_bind; [apply k_run_ends; [exact (fun x => H1 c x Hc)|exact Hw]|].
    intros [tc|] Ho; apply k_ret; [|exact Hacc]. intros tc' Hin. apply in_app_or in Hin.
    destruct Hin as [Hin|[<-|[]]]; [exact (Hacc _ Hin)|exact (Ho _ eq_refl)]. }
  intros tcs Htcs. destruct tcs as [|tc [|tc2 tcs]]; try apply k_raise.
  destruct (Htcs tc (or_introl eq_refl)) as [Hf [l He]].
  eapply k_bind with (Q := fun tc' => tc' = tc).
  { apply k_lift. intros tc' H. destruct (given_metadata (an_claims a)) as [m|] eqn:Eg; [|injection H as <-; reflexivity].
    rewrite (set_leaf_same m tc l (an_claims a) He (given_same _ _ Eg)) in H. injection H as <-. reflexivity. }
  intros tc' ->. eapply k_bind with (Q := fun c => apply_to_chain O tc = Ok c); [apply k_lift; trivial|]. intros c Hc.
  eapply k_bind with (Q := fun md => type_of_chain c "openid_relying_party" = Ok md); [apply k_lift; trivial|].
  intros [[|x md]|] Hmd; try apply k_raise. apply k_ret. exists tc, c. split; [exact Hf|]. split; [exists l; exact He|]. split; assumption.
Qed.

Lemma k_parse_oauth me a : keeps (sound W O) (parse_oauth E O fuel me a) (fun _ => True).
Proof.
  unfold parse_oauth. eapply k_bind; [apply k_open_response|]. intros pa _.
  eapply k_bind; [apply (k_get_verified own W E HE Hown Hmine U TR D O fuel)|]. intros cs _.
  destruct cs as [|c [|c2 cs]]; try apply k_raise.
  eapply k_bind with (Q := fun _ => True).
  { destruct (given_metadata _); [apply k_lift|apply k_ret]; trivial. }
  intros c' _. destruct (no_metadata _); [apply k_raise|apply k_ret; trivial].
Qed.

(** ** The relying party *)

Definition store_genuine (d : option chain_store) : Prop := forall d' ent m ta c, d = Some d' -> dget ent d' = Some m -> dget ta m = Some c -> made_of W O c.

Definition ri (s : rp) : Prop :=
  sound W O (p_fed s) /\ op_keys_genuine W O K kj0 (p_keys s) /\ info_genuine W O info0 (p_info s) /\ store_genuine (p_store s).

Lemma k_rp_fed A (m : M fstate A) Q : keeps (sound W O) m Q -> keeps ri (rp_fed m) Q.
Proof.
  intros H s (H1 & H2 & H3 & H4). unfold rp_fed. destruct (H _ H1) as [G1 G2].
  destruct (m (p_fed s)) as [f r]; cbn [fst snd] in *. split; [|exact G2]. split; [exact G1|]. repeat split; assumption.
Qed.

Lemma chains2dict_In cs ta c : dget ta (chains2dict cs) = Some c -> In c cs.
Proof.
  unfold chains2dict.
  assert (G : forall l acc, (forall ta c, dget ta acc = Some c -> In c cs) -> (forall c, In c l -> In c cs) ->
    forall ta c, dget ta (fold_left (fun acc c => match dget (ch_anchor c) acc with
      | Some old => if Nat.ltb (length (ch_verified c)) (length (ch_verified old)) then dset (ch_anchor c) c acc else acc
      | None => dset (ch_anchor c) c acc end) l acc) = Some c -> In c cs).
  { induction l as [|x l IH]; intros acc Ha Hl ta' c'; cbn [fold_left]; [apply Ha|].
    assert (Hd : forall ta c, dget ta (dset (ch_anchor x) x acc) = Some c -> In c cs).
    { intros t0 c0 Hg. rewrite dget_dset in Hg. destruct (String.eqb t0 (ch_anchor x)); [injection Hg as <-; apply Hl; left; reflexivity|exact (Ha _ _ Hg)]. }
    apply IH; [|intros y Hy; apply Hl; right; exact Hy].
    destruct (dget (ch_anchor x) acc); [destruct (Nat.ltb _ _)|]; assumption. }
  apply G; [intros t0 c0 Hg; discriminate|trivial].
Qed.

Lemma chains2dict_nodup cs : NoDup (dkeys (chains2dict cs)).
Proof.
  unfold chains2dict. rewrite <- fold_left_rev_right. induction (rev cs) as [|x l IH]; cbn [fold_right]; [constructor|].
  destruct (dget (ch_anchor x) _); [destruct (Nat.ltb _ _)|]; auto using NoDup_dset.
Qed.

Lemma saved_genuine st cs d : store_genuine st -> (forall c, In c cs -> made_of W O c) -> save_trust_chains st cs = Ok d -> store_genuine (Some d).
Proof.
  intros Hs Hc H. unfold save_trust_chains in H.
  assert (G : forall ent m ta c, dget ent d = Some m -> dget ta m = Some c -> made_of W O c).
  { revert H. apply (foldM_inv _ _ _ (fun d : chain_store => forall ent m ta c, dget ent d = Some m -> dget ta m = Some c -> made_of W O c)).
    - intros acc p acc' Hp I G ent m ta c. destruct (tc_iss_path _) as [|e path]; [discriminate|]. injection G as <-.
      assert (Hm : made_of W O (snd p)).
      { apply Hc, (chains2dict_In cs (fst p)). apply In_dget_nodup; [apply chains2dict_nodup|]. destruct p; exact Hp. }
      destruct (dget e acc) as [m0|] eqn:Ee; rewrite dget_dset; destruct (String.eqb ent e).
      + intros [= <-] Hg. rewrite dget_dset in Hg. destruct (String.eqb ta (fst p)); [injection Hg as <-; exact Hm|exact (I e m0 ta c Ee Hg)].
      + apply I.
      + intros [= <-] Hg. destruct p as [x y]. cbn [dget snd] in Hg, Hm. destruct (String.eqb ta x); [injection Hg as <-; exact Hm|discriminate].
      + apply I.
    - intros ent m ta c. destruct st as [d0|]; [exact (Hs d0 ent m ta c eq_refl)|discriminate]. }
  intros d' ent m ta c [= <-]. apply G.
Qed.

Lemma imported info iss kj c : made_of W O c -> chain_metadata c "openid_provider" = Ok info -> dget "issuer" info = Some (VStr iss) ->
  op_keys_genuine W O K kj0 kj -> op_keys_genuine W O K kj0 (fst (import_keys K info iss kj)).
Proof.
  intros Hm Hmd Hi Hk.
  assert (Add : forall ks, (forall k, In k ks -> key_in K info k) -> op_keys_genuine W O K kj0 (add_ckeys iss (map KPub ks) kj)).
  { intros ks Hks e k Hin. rewrite ckeys_add in Hin. apply in_app_or in Hin. destruct Hin as [Hin|Hin]; [exact (Hk e k Hin)|].
    destruct (String.eqb_spec e iss) as [->|]; [|destruct Hin]. right. exists c, info. repeat (split; [assumption|]).
    apply Hks, pub_in, Hin. }
  assert (Nil := Add [] (fun k h => match h with end)). cbn [map] in Nil.
  unfold import_keys. destruct (dmem "jwks_uri" info) eqn:E1.
  - destruct (truthy _); cbn [fst]; [|exact Nil]. apply Add. intros k Hin. unfold field in Hin.
    apply dmem_some in E1. destruct (dget "jwks_uri" info) as [v|] eqn:Ed; [|destruct E1; discriminate].
    exists v. left. split; [apply dget_In; exact Ed|exact Hin].
  - destruct (dmem "jwks" info) eqn:E2; [|exact Hk]. destruct (truthy _); [|exact Nil].
    destruct (ks_jwks K (field "jwks" info)) as [ks|x] eqn:Ej; [|exact Nil]. apply Add. intros k Hin. unfold field in Ej.
    apply dmem_some in E2. destruct (dget "jwks" info) as [v|] eqn:Ed; [|destruct E2; discriminate].
    exists v. right. split; [apply dget_In; exact Ed|]. exists ks. auto.
Qed.

Lemma k_collect_metadata : keeps ri (collect_metadata E O fuel K prio) (fun _ => True).
Proof.
  unfold collect_metadata. eapply k_bind; [apply k_get|]. intros s0 I0.
  eapply k_bind; [apply k_rp_fed, (k_get_verified own W E HE Hown Hmine U TR D O fuel)|]. intros cs Hcs.
  destruct (is_nil cs); [apply k_raise|].
  eapply k_bind with (Q := fun d => store_genuine (Some d)).
  { apply k_lift. intros d. apply saved_genuine; [apply I0|exact Hcs]. }
  intros d Hd. eapply k_bind with (Q := fun _ => True).
  { intros s (H1 & H2 & H3 & H4). split; [|trivial]. unfold modify. cbn [fst]. split; [exact H1|]. repeat split; assumption. }
  intros _ _. eapply k_bind with (Q := fun c => made_of W O c).
  { apply k_lift. intros c H. apply Hcs. exact (pick_In _ _ _ H). }
  intros c Hc. eapply k_bind with (Q := fun info => chain_metadata c "openid_provider" = Ok info); [apply k_lift; trivial|].
  intros info Hinfo. eapply k_bind with (Q := fun iss => dget "issuer" info = Some (VStr iss)).
  { apply k_lift. intros iss H. apply bind_ok in H. destruct H as (v & Hv & H). apply dindex_ok in Hv. destruct v; try discriminate.
    injection H as <-. exact Hv. }
  intros iss Hiss. eapply k_bind with (Q := fun _ => True).
  { intros s (H1 & H2 & H3 & H4). split; [|trivial]. unfold modify. cbn [fst]. split; [exact H1|]. split; [exact H2|]. split; [|exact H4].
    right. exists c. split; assumption. }
  intros _ _. eapply k_bind with (Q := fun _ => True); [|intros _ _; apply k_ret; trivial].
  intros s (H1 & H2 & H3 & H4). assert (HI := imported info iss (p_keys s) c Hc Hinfo Hiss H2).
  destruct (import_keys K info iss (p_keys s)) as [kj r]. cbn [fst] in *. split; [|trivial]. split; [exact H1|]. repeat split; assumption.
Qed.

Lemma k_do_provider_info : keeps ri (do_provider_info E O fuel K prio) (fun _ => True).
Proof.
  unfold do_provider_info. eapply k_bind; [apply k_get|]. intros s0 I0.
  eapply k_bind with (Q := fun _ => True).
  { destruct (is_nil _); [apply k_collect_metadata|]. destruct (bare_issuer _) as [i|]; [|apply k_ret; trivial].
    eapply k_bind with (Q := fun _ => True); [|intros _ _; apply k_collect_metadata].
    intros s (H1 & H2 & H3 & H4). split; [|trivial]. unfold modify. cbn [fst]. split; [exact H1|]. repeat split; assumption. }
  intros _ _. eapply k_bind; [apply k_get|]. intros s _. apply k_ret. trivial.
Qed.

Lemma k_act_rp me jwks wta a : ract_from W a -> keeps ri (act_rp E O fuel me jwks wta K prio a) (fun _ => True).
Proof.
  destruct a as [a| |st|a|a]; cbn [act_rp ract_from]; intros H.
  - eapply k_bind; [apply k_rp_fed, (k_perform own W E HE Hown Hmine U TR D O fuel me jwks wta a H)|]. intros; apply k_ret; trivial.
  - eapply k_bind; [apply k_do_provider_info|]. intros; apply k_ret; trivial.
  - intros s (H1 & H2 & H3 & H4). split; [|trivial]. unfold init_authorization, modify. cbn [fst]. split; [exact H1|]. repeat split; assumption.
  - eapply k_bind; [apply k_rp_fed, k_parse_oidc, H|]. intros; apply k_ret; trivial.
  - eapply k_bind; [apply k_rp_fed, k_parse_oauth|]. intros; apply k_ret; trivial.
Qed.

Lemma after_rp_genuine me jwks wta acts : forall s, (forall a, In a acts -> ract_from W a) -> ri s ->
  ri (after_rp E O fuel me jwks wta K prio acts s).
Proof.
  induction acts as [|a acts IH]; intros s H Hs; [exact Hs|]. unfold after_rp in *. cbn [fold_left]. apply IH.
  - intros b Hb. apply H. right. exact Hb.
  - exact (proj1 (k_act_rp me jwks wta a (H a (or_introl eq_refl)) s Hs)).
Qed.
End Client.
