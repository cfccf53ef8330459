(** Properties of the resolve endpoint and the lookup of endpoints (C84-C91). *)
From Verif Require Import PyFacts CollectorProps CollectorRepeat CollectorRepeatProps TreeProps VerifierFacts FetchFacts FetchProps.
From Verif Require Export ResolveFacts.
From Coq Require Import Lia.

Definition ask (anchor sub : string) (type : option string) : rreq := mkRreq (Some anchor) (Some sub) type.

(** ** C84: only configured trust anchors are used *)

(** whatever was asked before, a resolver that is configured with the keys of its trust anchors only answers
    for those *)
Definition C84_full : Prop := forall E O fuel me jwks wta qs q s0 s' resp a,
  (forall e, known (f_keys s0) e -> In e (e_anchors E)) -> honest E (f_col s0) ->
  resolve E O fuel me jwks wta q (answer_all E O fuel me jwks wta qs s0) = (s', Ok resp) ->
  rq_anchor q = Some a -> In a (e_anchors E).

(** after a request for ta the intermediate im is accepted as a trust anchor *)
Theorem C84_configured_anchors_refuted : ~ C84_full.
Proof.
  intros H.
  assert (G : exists s' resp, resolve plain id_order 9 "me" VNull false (ask "im" "rp" None)
    (answer_all plain id_order 9 "me" VNull false [ask "ta" "rp" None] only_ta) = (s', Ok resp)).
  { eexists. eexists. vm_compute. reflexivity. }
  destruct G as (s' & resp & G).
  assert (K : forall e, known (f_keys only_ta) e -> In e (e_anchors plain)).
  { intros e [l El]. simpl in El. destruct (String.eqb_spec e "ta") as [->|]; [left; reflexivity|discriminate]. }
  assert (N := H _ _ _ _ _ _ _ _ only_ta _ _ "im" K plain_honest G eq_refl).
  simpl in N. destruct N as [N|[]]. discriminate N.
Qed.

(** Missing: that the anchor is a configured one.  What holds in general: the first statement of the chain is by
    the anchor and signed with a key that can be traced to the keys of the beginning over statements
    the resolver has collected. *)
Theorem C84_configured_anchors_partial : forall E O fuel me jwks wta qs q s0 s' resp a,
  let s := answer_all E O fuel me jwks wta qs s0 in
  resolve E O fuel me jwks wta q s = (s', Ok resp) -> rq_anchor q = Some a ->
  exists sub pre ch leaf c k p ts, rq_sub q = Some sub /\ chain_to E O fuel a sub s pre ch leaf c /\
    ch ++ [leaf] = TJws k p :: ts /\ s_iss p = a /\
    traceable (f_keys s0) (jws (heard E O fuel me jwks wta (qs ++ [q]) s0)) a k.
Proof.
  intros E O fuel me jwks wta qs q s0 s' resp a s H Ea.
  destruct (resolve_inv _ _ _ _ _ _ _ _ _ _ H) as (a' & sub & s1 & pre & ch & leaf & c & md & Ea' & Es & _ & Hto & _).
  rewrite Ea in Ea'. injection Ea' as <-.
  assert (Hto' := Hto). destruct Hto' as (chains & post & tc & Hcol & Ech & Hv & Ha & Eanc).
  apply apply_keeps in Ha. destruct Ha as (A1 & _).
  apply call_ok in Hv. destruct Hv as (Hv & _ & (p0 & l0 & Ev & Ea0) & _ & _).
  apply verified_iff in Hv. destruct Hv as ((k & p & ts & Et) & Eves & Hps & _).
  rewrite Et in Eves, Hps. cbn [jws map snd] in Eves, Hps. rewrite Ev in Eves. injection Eves as -> _.
  unfold ch_anchor in Eanc. rewrite A1, Ea0 in Eanc.
  exists sub, pre, ch, leaf, c, k, p, ts. split; [exact Es|]. split; [exact Hto|]. split; [exact Et|].
  split; [exact Eanc|].
  destruct (Hps [] k p (jws ts) eq_refl) as [Hk|(k2 & p2 & jw2 & [] & _)]. rewrite Eanc in Hk.
  apply history_traceable in Hk.
  assert (Hheard : forall qs s, heard E O fuel me jwks wta (qs ++ [q]) s
            = heard E O fuel me jwks wta qs s ++ gathered E fuel q (answer_all E O fuel me jwks wta qs s)).
  { clear. induction qs as [|q0 qs IH]; intros s; cbn [app heard answer_all].
    - rewrite app_nil_r. reflexivity.
    - rewrite IH, app_assoc. reflexivity. }
  rewrite Hheard, jws_app. fold s.
  eapply traceable_trans; [|apply incl_appr, incl_refl|].
  { intros e0 k0 Hh. apply answered_keys in Hh. eapply traceable_mono; [|exact Hh]. apply incl_appl, incl_refl. }
  fold s. eapply traceable_mono; [|exact Hk]. intros kp Hkp.
  unfold gathered. rewrite Ea, Es, Hcol, Ech.
  apply in_flat_map in Hkp. destruct Hkp as (ts0 & Hts & Hkp). apply in_map_iff in Hts. destruct Hts as (c0 & <- & Hc0).
  assert (Hjf : forall l, jws (flat_map (fun c => c ++ [leaf]) l) = flat_map (fun c => jws (c ++ [leaf])) l).
  { clear. induction l as [|c0 l IH]; cbn [flat_map]; [reflexivity|]. rewrite jws_app, IH. reflexivity. }
  rewrite Hjf. apply in_flat_map. exists c0. split; [apply in_or_app; left; exact Hc0|exact Hkp].
Qed.

(** in an honest federation the resolver answers for an anchor it had keys of before the request *)
Theorem C84_honest_federation : forall E O fuel me jwks wta q s s' resp a sub,
  clean sub -> clean_federation E (f_col s) -> honest E (f_col s) ->
  rq_anchor q = Some a -> rq_sub q = Some sub ->
  resolve E O fuel me jwks wta q s = (s', Ok resp) -> known (f_keys s) a.
Proof.
  intros E O fuel me jwks wta q s s' resp a sub Hid Hcl Hh Ea Es H.
  destruct (resolve_inv _ _ _ _ _ _ _ _ _ _ H) as (a' & sub' & s1 & pre & ch & leaf & c & md & Ea' & Es' & _ & Hto & _).
  rewrite Ea in Ea'. injection Ea' as <-. rewrite Es in Es'. injection Es' as <-.
  destruct (chain_to_honest _ _ _ _ _ _ _ _ _ _ Hid Hcl Hh Hto)
    as (kc & conf & l & tr & p & -> & Ho & Hi & Hs & Hcol & G & Hp & Ech & El & _ & _ & (k & q0 & l' & El' & Eanc) & _).
  destruct Hto as (chains & post & tc & Hcolc & Echs & Hv & Ha & _).
  apply call_ok in Hv. destruct Hv as (Hv & _). apply verified_iff in Hv. destruct Hv as (_ & _ & Hps & _).
  rewrite Ech, El, El' in Hps. cbn [map fst snd app jws] in Hps.
  destruct (Hps [] k q0 _ eq_refl) as [Hk|(k2 & p2 & jw2 & [] & _)]. rewrite Eanc in Hk. destruct Hk as (ks & Ek & _).
  destruct (known_after_inv _ _ _ _ (ex_intro _ ks Ek)) as [Hk|(ts & k1 & q1 & Hts & Hq1 & Esub)]; [exact Hk|].
  exfalso. apply in_map_iff in Hts. destruct Hts as (ch1 & <- & Hch1).
  destruct (collected_to _ _ _ _ _ _ _ Hid Hcl Hh Hcolc) as (kc' & conf' & tr' & [= <- <-] & _ & _ & _ & _ & Echs' & Hcol').
  rewrite Hcol in Hcol'. injection Hcol' as <-.
  assert (Hch1' : In ch1 (map (map tok_of) (tree2chains tr)))
    by (rewrite <- Echs', Echs; apply in_or_app; left; exact Hch1).
  apply in_map_iff in Hch1'. destruct Hch1' as (p1 & <- & Hp1). apply C31_chains_are_paths in Hp1.
  destruct (grown_path_subjects E (f_col s) a Hh tr sub conf Ho G p1 Hp1) as [Hne Hsubs].
  rewrite jws_app in Hq1. apply in_app_or in Hq1. destruct Hq1 as [Hq1|Hq1].
  - assert (Hin : In (ESTok (TJws k1 q1)) p1).
    { clear -Hq1. induction p1 as [|v p1 IH]; [destruct Hq1|]. cbn [map] in Hq1.
      destruct v as [[|kk pp]|z]; cbn [tok_of jws] in Hq1.
      - right. apply IH, Hq1.
      - destruct Hq1 as [[= -> ->]|Hq1]; [left; reflexivity|right; apply IH, Hq1].
      - right. apply IH, Hq1. }
    exact (Hsubs k1 q1 Hin Esub).
  - cbn [jws] in Hq1. destruct Hq1 as [[= <- <-]|[]]. congruence.
Qed.

Example C84_ex : clean "rp" /\ clean_federation plain (f_col only_ta) /\ honest plain (f_col only_ta) /\
  exists s' resp, resolve plain id_order 9 "me" VNull false (ask "ta" "rp" None) only_ta = (s', Ok resp) /\
                  length (rr_chain resp) = 3.
Proof.
  split; [reflexivity|]. split; [exact plain_clean|]. split; [exact plain_honest|].
  eexists. eexists. split; [vm_compute; reflexivity|reflexivity].
Qed.

(** ** C85: the metadata of a response is the subject's, adjusted by the policies of a chain to the anchor *)

Definition carries (claims : dict val) (md : val) : Prop :=
  dget "metadata" claims = if truthy md then Some md else None.

Definition C85_full : Prop := forall E O fuel me jwks wta q s s' resp a sub,
  resolve E O fuel me jwks wta q s = (s', Ok resp) -> rq_anchor q = Some a -> rq_sub q = Some sub ->
  exists pre ch leaf c md, chain_to E O fuel a sub s pre ch leaf c /\ asked_for (ch_md c) (rq_type q) md /\
    carries (rr_claims resp) md /\ (exists l p, ch_verified c = l ++ [p] /\ s_sub p = sub).

Lemma resolve_claims E O fuel me jwks wta q s s' resp :
  resolve E O fuel me jwks wta q s = (s', Ok resp) ->
  exists a sub pre ch leaf c md, rq_anchor q = Some a /\ rq_sub q = Some sub /\
    chain_to E O fuel a sub s pre ch leaf c /\ asked_for (ch_md c) (rq_type q) md /\ carries (rr_claims resp) md /\
    dget "sub" (rr_claims resp) = Some (VStr sub) /\ dget "iss" (rr_claims resp) = Some (VStr me) /\
    dget "jwks" (rr_claims resp) = Some jwks /\
    dget "iat" (rr_claims resp) = Some (VInt (e_clock E (st_tick (f_col s')))) /\
    dget "exp" (rr_claims resp) = Some (VInt (e_clock E (st_tick (f_col s')) + 86400)).
Proof.
  intros H. destruct (resolve_inv _ _ _ _ _ _ _ _ _ _ H)
    as (a & sub & s1 & pre & ch & leaf & c & md & Ea & Es & _ & Hto & Hmd & _ & Hcr).
  exists a, sub, pre, ch, leaf, c, md. split; [exact Ea|]. split; [exact Es|]. split; [exact Hto|].
  split; [exact Hmd|].
  assert (ND : NoDup (dkeys [("metadata", md)])) by (repeat constructor; intros []).
  assert (C := create_claims _ _ _ _ _ _ ND Hcr).
  unfold carries. rewrite !C. unfold claim_of, arg_or. simpl.
  repeat split; destruct (truthy md); reflexivity.
Qed.

(** ev answers with the configuration of vi; the metadata of vi is returned as that of ev *)
Theorem C85_metadata_of_subject_refuted : ~ C85_full.
Proof.
  intros H.
  assert (G : exists s' resp, resolve replay id_order 9 "me" VNull false (ask "ta" "ev" None) after_vi = (s', Ok resp)).
  { eexists. eexists. vm_compute. reflexivity. }
  destruct G as (s' & resp & G).
  destruct (H _ _ _ _ _ _ _ _ _ _ _ _ G eq_refl eq_refl) as (pre & ch & leaf & c & md & Hto & _ & _ & l & p & Ev & Es).
  destruct Hto as (chains & post & tc & Hcol & Ech & Hv & Ha & _).
  assert (Hc : snd (collect_trust_chains replay 9 "ev" "ta" after_vi)
               = Ok ([[TJws 1 (est "ta" "ev" 900 [6])]], Some (TJws 3 (ec "vi" 3 1000 (Some ["ta"])))))
    by (vm_compute; reflexivity).
  rewrite Hc in Hcol. injection Hcol as <- <-. destruct pre as [|x pre]; [|destruct pre; discriminate Ech].
  injection Ech as <- <-. apply apply_keeps in Ha. destruct Ha as (_ & _ & _ & _ & _ & A6).
  apply call_ok in Hv. destruct Hv as (Hv & _). apply verified_iff in Hv. destruct Hv as (_ & Eves & _).
  rewrite Ev, Eves, map_app in A6. cbn in A6. rewrite Es in A6.
  change ["ev"; "vi"] with (["ev"] ++ ["vi"]) in A6. apply app_inj_tail in A6. destruct A6 as [_ A6]. discriminate A6.
Qed.

(** Missing: that the chain is about the subject.  What holds in general: the metadata is that of a chain collected from
    the subject, verified up to the anchor and adjusted; of one entity type if one was asked for. *)
Theorem C85_metadata_of_subject_partial : forall E O fuel me jwks wta q s s' resp a sub,
  resolve E O fuel me jwks wta q s = (s', Ok resp) -> rq_anchor q = Some a -> rq_sub q = Some sub ->
  exists pre ch leaf c md, chain_to E O fuel a sub s pre ch leaf c /\ asked_for (ch_md c) (rq_type q) md /\
    carries (rr_claims resp) md.
Proof.
  intros E O fuel me jwks wta q s s' resp a sub H Ea Es.
  destruct (resolve_claims _ _ _ _ _ _ _ _ _ _ H) as (a' & sub' & pre & ch & leaf & c & md & Ea' & Es' & Hto & Hmd & Hc & _).
  rewrite Ea in Ea'. injection Ea' as <-. rewrite Es in Es'. injection Es' as <-.
  exists pre, ch, leaf, c, md. auto.
Qed.

(** in an honest federation the chain ends with a statement of the subject about itself, and the others lead from
    there along authority hints to the anchor *)
Theorem C85_honest_federation : forall E O fuel me jwks wta q s s' resp a sub,
  clean sub -> clean_federation E (f_col s) -> honest E (f_col s) ->
  resolve E O fuel me jwks wta q s = (s', Ok resp) -> rq_anchor q = Some a -> rq_sub q = Some sub ->
  exists pre ch leaf c md conf l, chain_to E O fuel a sub s pre ch leaf c /\ asked_for (ch_md c) (rq_type q) md /\
    carries (rr_claims resp) md /\
    obtainable E (f_col s) sub conf /\ s_sub conf = sub /\ climbs E (f_col s) sub l /\
    map s_sub (ch_verified c) = map s_sub (l ++ [conf]) /\ map s_iss (ch_verified c) = map s_iss (l ++ [conf]) /\
    (exists p l', l = p :: l' /\ s_iss p = a).
Proof.
  intros E O fuel me jwks wta q s s' resp a sub Hid Hcl Hh H Ea Es.
  destruct (C85_metadata_of_subject_partial _ _ _ _ _ _ _ _ _ _ _ _ H Ea Es) as (pre & ch & leaf & c & md & Hto & Hmd & Hc).
  destruct (chain_to_honest _ _ _ _ _ _ _ _ _ _ Hid Hcl Hh Hto)
    as (kc & conf & l & tr & p & -> & Ho & Hi & Hs & _ & _ & _ & _ & _ & _ & Hcli & (k & q0 & l' & El & Eanc) & _ & I1 & I2 & _).
  exists pre, ch, (TJws kc conf), c, md, conf, (map snd l). split; [exact Hto|]. split; [exact Hmd|].
  split; [exact Hc|]. split; [exact Ho|]. split; [exact Hs|]. split; [exact Hcli|]. split; [exact I2|].
  split; [exact I1|]. exists q0, (map snd l'). rewrite El. auto.
Qed.

Example C85_ex : exists s' resp,
  resolve plain id_order 9 "me" VNull false (ask "ta" "rp" (Some "federation_entity")) only_ta = (s', Ok resp) /\
  dget "metadata" (rr_claims resp)
  = Some (VDict [("federation_entity", VDict [("federation_fetch_endpoint", VStr "rp/fetch")])]).
Proof. eexists. eexists. split; vm_compute; reflexivity. Qed.

(** ** C86: the chain in a response is the one that was verified *)

(** the verified chain from the subject upwards, then the anchor's configuration if asked for *)
Definition C86_full : Prop := forall E O fuel me jwks wta q s s' resp a sub,
  resolve E O fuel me jwks wta q s = (s', Ok resp) -> rq_anchor q = Some a -> rq_sub q = Some sub ->
  exists pre ch leaf c tail, chain_to E O fuel a sub s pre ch leaf c /\
    rr_chain resp = map (fun t => Some (ESTok t)) (rev (tc_chain (ch_tc c)) ++ tail) /\
    (wta = false -> tail = []) /\ (wta = true -> exists ta p, tail = [ta] /\ self_signed ta p /\ s_sub p = a).

(** a1 is an authority of rp and of a2, the other authority of rp; ta renews its statement about a1 between the two
    visits *)
Definition renewing : cenv := mkEnv 300 ["ta"]
  (fun n q => match q with
              | QDoc u => match dget u
                  [("rp/wk", TJws 3 (ec "rp" 3 1000 (Some ["a1"; "a2"])));
                   ("a1/wk", TJws 4 (ec "a1" 4 1000 (Some ["ta"]))); ("a2/wk", TJws 5 (ec "a2" 5 1000 (Some ["a1"])));
                   ("ta/wk", TJws 1 (ec "ta" 1 1000 None))] with
                  | Some t => RText (Some t) | None => R404 end
              | QFetch ep i s => match dget (ep ++ " " ++ s)
                  [("a1/fetch rp", TJws 4 (est "a1" "rp" 900 [3])); ("a2/fetch rp", TJws 5 (est "a2" "rp" 900 [3]));
                   ("a1/fetch a2", TJws 4 (est "a1" "a2" 900 [5]));
                   ("ta/fetch a1", TJws 1 (est "ta" "a1" (if Nat.leb n 6 then 200 else 201) [4]))] with
                  | Some t => RText (Some t) | None => R404 end
              end) (fun _ => 0%Z) all_keys wk_url tenant_url.

Definition exp_in (v : option esval) : option Z :=
  match v with Some (ESTok (TJws _ p)) => s_exp p | _ => None end.

Theorem C86_verified_chain_refuted : ~ C86_full.
Proof.
  intros H.
  assert (G : exists s' resp, resolve renewing id_order 9 "me" VNull false (ask "ta" "rp" None) only_ta = (s', Ok resp) /\
    rr_chain resp = [Some (ESTok (TJws 3 (ec "rp" 3 1000 (Some ["a1"; "a2"]))));
                     Some (ESTok (TJws 4 (est "a1" "rp" 900 [3]))); Some (ESTok (TJws 1 (est "ta" "a1" 201 [4])))]).
  { eexists. eexists. split; vm_compute; reflexivity. }
  destruct G as (s' & resp & G & Ech).
  destruct (H _ _ _ _ _ _ _ _ _ _ _ _ G eq_refl eq_refl) as (pre & ch & leaf & c & tail & Hto & Er & Ht & _).
  rewrite (Ht eq_refl), Ech in Er.
  destruct Hto as (chains & post & tc & Hcol & Echs & Hv & Ha & _).
  apply apply_keeps in Ha. destruct Ha as (_ & A2 & _). apply call_ok in Hv. destruct Hv as (_ & _ & _ & _ & Etc).
  rewrite A2, Etc, app_nil_r, rev_app_distr in Er. cbn [rev app map] in Er.
  assert (Hc : exists l, snd (collect_trust_chains renewing 9 "rp" "ta" only_ta)
               = Ok ([[TJws 1 (est "ta" "a1" 200 [4]); TJws 4 (est "a1" "rp" 900 [3])];
                      [TJws 1 (est "ta" "a1" 201 [4]); TJws 4 (est "a1" "a2" 900 [5]); TJws 5 (est "a2" "rp" 900 [3])]],
                     Some l)) by (eexists; vm_compute; reflexivity).
  destruct Hc as (l & Hc). rewrite Hc in Hcol. injection Hcol as <- <-.
  destruct pre as [|x pre].
  - injection Echs as <- <-. apply (f_equal (map exp_in)) in Er. discriminate Er.
  - destruct pre as [|y pre]; [|destruct pre; discriminate Echs].
    injection Echs as _ <- _. apply (f_equal (map exp_in)) in Er. discriminate Er.
Qed.

(** Missing: federations in which documents are about to expire or change.  What holds as long as documents are fresh and stay
    the same: the chain is the verified one, from the subject upwards, followed by the anchor's configuration if asked
    for. *)
Theorem C86_verified_chain_partial : forall E O fuel me jwks wta q s s' resp a sub,
  static E -> serves_fresh E -> clean_federation E (f_col s) -> honest E (f_col s) -> clean sub -> visited E (f_col s) ->
  resolve E O fuel me jwks wta q s = (s', Ok resp) -> rq_anchor q = Some a -> rq_sub q = Some sub ->
  exists pre ch leaf c tail, chain_to E O fuel a sub s pre ch leaf c /\
    rr_chain resp = map (fun t => Some (ESTok t)) (rev (tc_chain (ch_tc c)) ++ tail) /\
    (wta = false -> tail = []) /\ (wta = true -> exists ta p, tail = [ta] /\ self_signed ta p /\ s_sub p = a).
Proof.
  intros E O fuel me jwks wta q s s' resp a sub HS HF HC Hh Hid V H Ea Es.
  destruct (resolve_inv _ _ _ _ _ _ _ _ _ _ H) as (a' & sub' & s1 & pre & ch & leaf & c & md & Ea' & Es' & E1 & Hto & _ & Hg & _).
  rewrite Ea in Ea'. injection Ea' as <-. rewrite Es in Es'. injection Es' as <-.
  destruct (chain_from_caches E O fuel a sub s pre ch leaf c wta HS HF HC Hh Hid V Hto) as (ta & tap & Hta & Hg').
  rewrite <- E1, Hg in Hg'. injection Hg' as _ Er.
  exists pre, ch, leaf, c, (if wta then [ta] else []). split; [exact Hto|]. split; [exact Er|].
  split; [intros ->; reflexivity|]. intros ->. exists ta, tap. split; [reflexivity|].
  split; [apply (pverified_inv E a ta tap Hta)|].
  apply (h_config E (f_col s) Hh a tap). apply (pverified_obtainable E HS (f_col s) a ta tap Hta).
Qed.

Lemma plain_fresh : serves_fresh plain.
Proof.
  intros n q k p H. unfold plain, ex_env, static_net in H. cbn [e_net] in H.
  destruct q as [u|ep i s]; simpl in H.
  - repeat match type of H with context [String.eqb ?a ?b] => destruct (String.eqb a b) end;
      try discriminate; injection H as <- <-; eexists; split; reflexivity.
  - repeat match type of H with context [String.eqb ?a ?b] => destruct (String.eqb a b) end;
      try discriminate; injection H as <- <-; eexists; split; reflexivity.
Qed.

Example C86_ex : static plain /\ serves_fresh plain /\ clean_federation plain (f_col only_ta) /\
  honest plain (f_col only_ta) /\ visited plain (f_col only_ta) /\
  exists s' resp, resolve plain id_order 9 "me" VNull true (ask "ta" "rp" None) only_ta = (s', Ok resp) /\
    rr_chain resp = map (fun t => Some (ESTok t))
      [TJws 3 (ec "rp" 3 1000 (Some ["im"])); TJws 2 (est "im" "rp" 900 [3]); TJws 1 (est "ta" "im" 800 [2]);
       TJws 1 (ec "ta" 1 1000 None)].
Proof.
  split; [split; reflexivity|]. split; [exact plain_fresh|]. split; [exact plain_clean|]. split; [exact plain_honest|].
  split; [constructor|]. eexists. eexists. split; vm_compute; reflexivity.
Qed.

(** ** C87: a response does not outlive the statements it is made from *)

Definition C87_full : Prop := forall E O fuel me jwks wta q s s' resp a sub,
  resolve E O fuel me jwks wta q s = (s', Ok resp) -> rq_anchor q = Some a -> rq_sub q = Some sub ->
  exists pre ch leaf c z, chain_to E O fuel a sub s pre ch leaf c /\
    dget "exp" (rr_claims resp) = Some (VInt z) /\ (z <= tc_exp (ch_tc c))%Z.

(** a day is given although the chain expires at 800 *)
Theorem C87_lifetime_refuted : ~ C87_full.
Proof.
  intros H.
  assert (G : exists s' resp, resolve plain id_order 9 "me" VNull false (ask "ta" "rp" None) only_ta = (s', Ok resp) /\
              dget "exp" (rr_claims resp) = Some (VInt 86400)).
  { eexists. eexists. split; vm_compute; reflexivity. }
  destruct G as (s' & resp & G & Ee).
  destruct (H _ _ _ _ _ _ _ _ _ _ _ _ G eq_refl eq_refl) as (pre & ch & leaf & c & z & Hto & Ez & Hz).
  rewrite Ee in Ez. injection Ez as <-.
  destruct Hto as (chains & post & tc & Hcol & Echs & Hv & Ha & _).
  apply apply_keeps in Ha. destruct Ha as (_ & _ & _ & A4 & _). rewrite A4 in Hz.
  assert (Hc : snd (collect_trust_chains plain 9 "rp" "ta" only_ta)
               = Ok ([[TJws 1 (est "ta" "im" 800 [2]); TJws 2 (est "im" "rp" 900 [3])]],
                     Some (TJws 3 (ec "rp" 3 1000 (Some ["im"]))))) by (vm_compute; reflexivity).
  rewrite Hc in Hcol. injection Hcol as <- <-. destruct pre as [|x pre]; [|destruct pre; discriminate Echs].
  injection Echs as <- <-. vm_compute in Hv. injection Hv as <-. cbn in Hz. lia.
Qed.

(** Missing: any relation to the expiry times of the chain.  What holds: the response is by the resolver about the
    subject, made now, and expires a day later. *)
Theorem C87_lifetime_partial : forall E O fuel me jwks wta q s s' resp,
  resolve E O fuel me jwks wta q s = (s', Ok resp) ->
  let now := e_clock E (st_tick (f_col s')) in
  dget "iat" (rr_claims resp) = Some (VInt now) /\ dget "exp" (rr_claims resp) = Some (VInt (now + 86400)) /\
  dget "iss" (rr_claims resp) = Some (VStr me) /\
  exists sub, rq_sub q = Some sub /\ dget "sub" (rr_claims resp) = Some (VStr sub).
Proof.
  intros E O fuel me jwks wta q s s' resp H. cbn zeta.
  destruct (resolve_claims _ _ _ _ _ _ _ _ _ _ H) as (a & sub & pre & ch & leaf & c & md & _ & Es & _ & _ & _ & H1 & H2 & _ & H3 & H4).
  split; [exact H3|]. split; [exact H4|]. split; [exact H2|]. eauto.
Qed.

Example C87_ex : exists s' resp,
  resolve plain id_order 9 "me" VNull false (ask "ta" "rp" None) only_ta = (s', Ok resp) /\
  dget "exp" (rr_claims resp) = Some (VInt 86400).
Proof. eexists. eexists. split; vm_compute; reflexivity. Qed.

(** ** C88: a subject with a chain to the anchor is resolved *)

Definition C88_full : Prop := forall E O fuel me jwks wta q s a sub pre ch leaf c md,
  rq_anchor q = Some a -> rq_sub q = Some sub ->
  chain_to E O fuel a sub s pre ch leaf c -> asked_for (ch_md c) (rq_type q) md ->
  exists s' resp, resolve E O fuel me jwks wta q s = (s', Ok resp).

(** the configuration of the leaf expires within allowed_delta; it is good enough for collection, but the cache does
    not return it any more *)
Definition soon : cenv := ex_env
  [("rp/wk", TJws 3 (ec "rp" 3 200 (Some ["ta"]))); ("ta/wk", TJws 1 (ec "ta" 1 1000 None))]
  [("ta/fetch rp", TJws 1 (est "ta" "rp" 900 [3]))] ["ta"].

Theorem C88_answers_refuted : ~ C88_full.
Proof.
  intros H.
  assert (G : exists c, chain_to soon id_order 9 "ta" "rp" only_ta [] [TJws 1 (est "ta" "rp" 900 [3])]
                (TJws 3 (ec "rp" 3 200 (Some ["ta"]))) c).
  { eexists. eexists. exists []. eexists. split; [vm_compute; reflexivity|]. split; [reflexivity|].
    split; [vm_compute; reflexivity|]. split; vm_compute; reflexivity. }
  destruct G as (c & G).
  destruct (H soon id_order 9 "me" VNull false (ask "ta" "rp" None) only_ta _ _ _ _ _ _ _ eq_refl eq_refl G eq_refl)
    as (s' & resp & R).
  apply (f_equal snd) in R. vm_compute in R. discriminate R.
Qed.

(** Missing: documents that are about to expire or change; other chains that cannot be verified or adjusted (C62).
    What holds as long as documents are fresh and stay the same: if all chains can be processed and one leads to the
    anchor, there is an answer, provided the requested entity type is there. *)
Theorem C88_answers_partial : forall E O fuel me jwks wta q s a sub chains leaf kj tcs cs,
  static E -> serves_fresh E -> clean_federation E (f_col s) -> honest E (f_col s) -> clean sub -> visited E (f_col s) ->
  rq_anchor q = Some a -> rq_sub q = Some sub ->
  snd (collect_trust_chains E fuel sub a s) = Ok (chains, Some leaf) ->
  verify_trust_chains E chains [leaf] (f_keys s) = (kj, Ok tcs) -> apply_policies O tcs = Ok cs ->
  (exists c, In c cs /\ ch_anchor c = a) ->
  (forall c, In c cs -> exists md, asked_for (ch_md c) (rq_type q) md) ->
  exists s' resp, resolve E O fuel me jwks wta q s = (s', Ok resp).
Proof.
  intros E O fuel me jwks wta q s a sub chains leaf kj tcs cs HS HF HC Hh Hid V Ea Es Hcol Hv Hap (c0 & Hc0 & Ec0) Hmd.
  unfold resolve. rewrite Ea, Es. unfold mbind at 1 2, lift at 1 2, given. cbn beta iota.
  unfold mbind at 1. assert (Hk := collect_keys E fuel sub a s).
  assert (Hfrom := chain_from_caches E O fuel a sub s).
  destruct (collect_trust_chains E fuel sub a s) as [s1 r] eqn:Ec. cbn [fst snd] in *. subst r.
  cbn [fst snd]. unfold mbind at 1, on_keys. rewrite Hk, Hv.
  unfold mbind at 1, lift at 1. rewrite Hap.
  destruct (find (fun c => String.eqb a (ch_anchor c)) cs) as [c|] eqn:Ef.
  2:{ exfalso. apply (find_none _ _ Ef) in Hc0. rewrite Ec0, String.eqb_refl in Hc0. discriminate. }
  apply find_some in Ef. destruct Ef as [Hin Eanc]. apply String.eqb_eq in Eanc.
  change (match rq_type q with
          | Some t => let* v := md_index (ch_md c) t in Ok (VDict [(t, v)])
          | None => Ok (md_val (ch_md c))
          end) with (metadata_asked (ch_md c) (rq_type q)).
  destruct (Hmd c Hin) as (md & Hm). apply metadata_asked_ok in Hm.
  unfold mbind at 1, lift at 1. rewrite Hm.
  destruct (proj1 (mapM_In _ _ _ _ _ Hap) c Hin) as (tc & Htc & Ha).
  apply (verify_chains_spec E _ chains _ _ _ Hv) in Htc. destruct Htc as (pre & ch & post & Echs & Hvc).
  assert (Hto : chain_to E O fuel a sub s pre ch leaf c).
  { exists chains, post, tc. rewrite Ec. auto. }
  destruct (Hfrom pre ch leaf c wta HS HF HC Hh Hid V Hto) as (ta & tap & _ & Hg).
  unfold mbind at 1, on_col at 1. cbn [f_col f_keys f_chains]. rewrite Hg.
  unfold mbind, on_col, now, lift, ret. cbn [f_col f_keys f_chains].
  destruct (create_total (e_clock E (st_tick (f_col s1))) me sub jwks [("metadata", md)]) as (p & ->).
  - intros k [<-|[<-|[<-|[]]]]; reflexivity.
  - intros v [=].
  - eexists. eexists. reflexivity.
Qed.

(** the converse: without a chain to the anchor there is no answer *)
Theorem C88_no_chain_no_answer : forall E O fuel me jwks wta q s s' resp,
  resolve E O fuel me jwks wta q s = (s', Ok resp) ->
  exists a sub pre ch leaf c, rq_anchor q = Some a /\ rq_sub q = Some sub /\ chain_to E O fuel a sub s pre ch leaf c.
Proof.
  intros E O fuel me jwks wta q s s' resp H.
  destruct (resolve_claims _ _ _ _ _ _ _ _ _ _ H) as (a & sub & pre & ch & leaf & c & md & Ea & Es & Hto & _).
  exists a, sub, pre, ch, leaf, c. auto.
Qed.

Example C88_ex : exists chains leaf kj tcs cs c,
  snd (collect_trust_chains plain 9 "rp" "ta" only_ta) = Ok (chains, Some leaf) /\
  verify_trust_chains plain chains [leaf] (f_keys only_ta) = (kj, Ok tcs) /\ apply_policies id_order tcs = Ok cs /\
  cs = [c] /\ ch_anchor c = "ta" /\
  snd (resolve plain id_order 9 "me" VNull false (ask "tb" "rp" None) only_ta) = Err AttributeError.
Proof.
  do 6 eexists. split; [vm_compute; reflexivity|]. split; [vm_compute; reflexivity|].
  split; [vm_compute; reflexivity|]. split; [reflexivity|]. split; vm_compute; reflexivity.
Qed.

(** ** C89: the endpoints of a trust anchor are taken from a configuration the anchor signed *)

Definition C89_full : Prop := forall E O fuel prio id name s s' v,
  In id (e_anchors E) -> get_verified_endpoint E O fuel prio id name s = (s', Ok (Some v)) ->
  exists k p m fe, holds (f_keys s) id k /\ serves_config E (st_tick (f_col s)) id (TJws k p) /\
    s_metadata p = Some m /\ dget "federation_entity" m = Some fe /\ dget name fe = Some v.

(** there are two anchors, and tb answers with the configuration of ta *)
Definition swapped : cenv := ex_env [("ta/wk", TJws 1 (ec "ta" 1 1000 None)); ("tb/wk", TJws 1 (ec "ta" 1 1000 None))] []
                                    ["ta"; "tb"].
Definition both : fstate := mkFed (mkState [] [] 0) [("ta", [1]); ("tb", [2])] [].

Theorem C89_anchor_endpoint_refuted : ~ C89_full.
Proof.
  intros H.
  assert (G : exists s', get_verified_endpoint swapped id_order 9 [] "tb" "federation_fetch_endpoint" both
                         = (s', Ok (Some (VStr "ta/fetch")))) by (eexists; vm_compute; reflexivity).
  destruct G as (s' & G).
  destruct (H swapped id_order 9 [] "tb" _ both _ _ (or_intror (or_introl eq_refl)) G) as (k & p & m & fe & (l & El & Hk) & Hs & _).
  simpl in El. injection El as <-. destruct Hk as [<-|[]]. destruct Hs as [Hs|Hs]; discriminate Hs.
Qed.

(** Missing: that the issuer named in the configuration is the anchor; whether the configuration has expired is not looked
    at.  What holds: it is signed with a key known for the issuer it names, so if that is the anchor the full statement
    holds. *)
Lemma anchor_statement_inv E id s s' p :
  get_verified_trust_anchor_statement E id s = (s', Ok p) ->
  f_keys s' = f_keys s /\
  exists k n, st_tick (f_col s) <= n /\ serves_config E n id (TJws k p) /\ holds (f_keys s) (s_iss p) k.
Proof.
  unfold get_verified_trust_anchor_statement, mbind, on_col. intros H.
  destruct (get_entity_configuration E id (f_col s)) as [c1 r] eqn:Eg.
  destruct r as [[[|k q]|]|x]; try discriminate. cbn [f_keys] in H.
  destruct (is_nil _); [discriminate|].
  destruct (kmem k _) eqn:Ek; [|discriminate]. injection H as <- <-.
  split; [reflexivity|]. apply kmem_In, verify_keys_In in Ek. destruct Ek as [Hh _].
  assert (Hs : exists n, st_tick (f_col s) <= n /\ serves_config E n id (TJws k q)).
  { unfold get_entity_configuration, get_document in Eg.
    destruct (e_net E (st_tick (f_col s)) (QDoc (e_wk E id))) as [o| | |] eqn:En; try discriminate.
    - injection Eg as _ ->. exists (st_tick (f_col s)). split; [lia|]. left. exact En.
    - destruct (String.eqb _ _); [discriminate|]. cbn [st_cfg st_es st_tick] in Eg.
      destruct (e_net E (S (st_tick (f_col s))) (QDoc (e_tenant E id))) as [o| | |] eqn:En2; try discriminate.
      injection Eg as _ ->. exists (S (st_tick (f_col s))). split; [lia|]. right. exact En2. }
  destruct Hs as (n & Hn & Hs). exists k, n. auto.
Qed.

Theorem C89_anchor_endpoint_partial : forall E O fuel prio id name s s' v,
  In id (e_anchors E) -> get_verified_endpoint E O fuel prio id name s = (s', Ok (Some v)) ->
  f_keys s' = f_keys s /\
  exists k n p m fe, st_tick (f_col s) <= n /\ serves_config E n id (TJws k p) /\
    holds (f_keys s) (s_iss p) k /\
    s_metadata p = Some m /\ dget "federation_entity" m = Some fe /\ dget name fe = Some v.
Proof.
  intros E O fuel prio id name s s' v Hin H. unfold get_verified_endpoint in H. apply smem_In in Hin. rewrite Hin in H.
  unfold mbind in H.
  destruct (get_verified_trust_anchor_statement E id s) as [s1 [p|x]] eqn:Eg; [|discriminate].
  injection H as <- Hv. destruct (anchor_statement_inv E id s s1 p Eg) as (Hk & k & n & H1 & H2 & H3).
  split; [exact Hk|]. unfold fe_get in Hv. destruct (s_metadata p) as [m|] eqn:Em; [|discriminate].
  destruct (dget "federation_entity" m) as [fe|] eqn:Ef; [|discriminate].
  exists k, n, p, m, fe. auto 6.
Qed.

Example C89_ex : In "ta" (e_anchors plain) /\
  exists s', get_verified_endpoint plain id_order 9 [] "ta" "federation_fetch_endpoint" only_ta
             = (s', Ok (Some (VStr "ta/fetch"))).
Proof. split; [left; reflexivity|]. eexists. vm_compute. reflexivity. Qed.

(** ** C90: the keys in a response are the subject's *)

(** create.py says so: "The public signing keys of the subject" *)
Definition C90_full : Prop := forall E O fuel me jwks wta q s s' resp a sub v,
  resolve E O fuel me jwks wta q s = (s', Ok resp) -> rq_anchor q = Some a -> rq_sub q = Some sub ->
  dget "jwks" (rr_claims resp) = Some v ->
  exists pre ch k p c keys, chain_to E O fuel a sub s pre ch (TJws k p) c /\ s_jwks p = Some keys /\
    v = VList (map (fun k => VInt (Z.of_nat k)) keys).

Theorem C90_subject_keys_refuted : ~ C90_full.
Proof.
  intros H.
  assert (G : exists s' resp, resolve plain id_order 9 "me" (VList [VInt 9]) false (ask "ta" "rp" None) only_ta
              = (s', Ok resp) /\ dget "jwks" (rr_claims resp) = Some (VList [VInt 9])).
  { eexists. eexists. split; vm_compute; reflexivity. }
  destruct G as (s' & resp & G & Ej).
  destruct (H _ _ _ _ _ _ _ _ _ _ _ _ _ G eq_refl eq_refl Ej) as (pre & ch & k & p & c & keys & Hto & Ek & Ev).
  destruct Hto as (chains & post & tc & Hcol & _).
  assert (Hc : snd (collect_trust_chains plain 9 "rp" "ta" only_ta)
               = Ok ([[TJws 1 (est "ta" "im" 800 [2]); TJws 2 (est "im" "rp" 900 [3])]],
                     Some (TJws 3 (ec "rp" 3 1000 (Some ["im"]))))) by (vm_compute; reflexivity).
  rewrite Hc in Hcol. injection Hcol as _ _ <-. injection Ek as <-. discriminate Ev.
Qed.

(** Missing: the keys of the subject.  What holds: the claim always has the keys of the resolver, which is the issuer, so
    that the response looks like a statement that vouches for these keys as those of the subject. *)
Theorem C90_subject_keys_partial : forall E O fuel me jwks wta q s s' resp,
  resolve E O fuel me jwks wta q s = (s', Ok resp) -> dget "jwks" (rr_claims resp) = Some jwks.
Proof.
  intros E O fuel me jwks wta q s s' resp H.
  destruct (resolve_claims _ _ _ _ _ _ _ _ _ _ H) as (a & sub & pre & ch & leaf & c & md & _ & _ & _ & _ & _ & _ & _ & H1 & _).
  exact H1.
Qed.

Example C90_ex : exists s' resp,
  resolve plain id_order 9 "me" (VList [VInt 9]) false (ask "ta" "rp" None) only_ta = (s', Ok resp) /\
  dget "iss" (rr_claims resp) = Some (VStr "me") /\ dget "sub" (rr_claims resp) = Some (VStr "rp").
Proof. eexists. eexists. split; [vm_compute; reflexivity|]. split; vm_compute; reflexivity. Qed.

(** ** C91: endpoints of other entities come from verified, adjusted metadata *)

(** what is known about [name] among the federation_entity metadata of [m] *)
Definition fe_entry (m : tc_metadata) (name : string) (v : val) : Prop :=
  exists fe, type_entry m "federation_entity" (VDict fe) /\ dget name fe = Some v.

(** an entity without a trust chain has no endpoint, any other the one of a verified chain *)
Definition C91_full : Prop := forall E O fuel prio id name s s' cs,
  ~ In id (e_anchors E) -> get_verified_trust_chains E O fuel id s = (s', Ok cs) ->
  exists o, snd (get_verified_endpoint E O fuel prio id name s) = Ok o /\
            forall v, o = Some v -> exists c, In c cs /\ fe_entry (ch_md c) name v.

Theorem C91_other_endpoint_refuted : ~ C91_full.
Proof.
  intros H.
  assert (G : exists s', get_verified_trust_chains plain id_order 9 "rp" (mkFed (mkState [] [] 0) [] []) = (s', Ok []))
    by (eexists; vm_compute; reflexivity).
  destruct G as (s' & G).
  destruct (H plain id_order 9 [] "rp" "federation_fetch_endpoint" _ _ _
              ltac:(simpl; intros [N|[]]; discriminate N) G) as (o & Ho & _).
  vm_compute in Ho. discriminate Ho.
Qed.

(** Missing: entities without trust chains, for which IndexError is raised.  What holds: an endpoint that is returned is in the
    adjusted metadata of one of the verified trust chains. *)
Theorem C91_other_endpoint_partial : forall E O fuel prio id name s s' v,
  ~ In id (e_anchors E) -> get_verified_endpoint E O fuel prio id name s = (s', Ok (Some v)) ->
  exists s1 cs c, get_verified_trust_chains E O fuel id s = (s1, Ok cs) /\ In c cs /\ fe_entry (ch_md c) name v.
Proof.
  intros E O fuel prio id name s s' v Hin H. unfold get_verified_endpoint in H. apply smem_false in Hin. rewrite Hin in H.
  unfold mbind in H. destruct (get_verified_trust_chains E O fuel id s) as [s1 [cs|x]]; [|discriminate].
  unfold lift in H. destruct (pick_trust_chain prio cs) as [c|x] eqn:Ep; [|discriminate].
  injection H as <- Hm. exists s1, cs, c. split; [reflexivity|]. split.
  - clear -Ep. unfold pick_trust_chain in Ep. destruct cs as [|c0 [|c1 cs]]; [discriminate| |].
    + injection Ep as <-. left. reflexivity.
    + assert (Hp : forall l cs c, pick_by_priority l cs = Some c -> In c cs).
      { clear. induction l as [|f l IH]; intros cs c H; [discriminate|]. cbn [pick_by_priority] in H.
        destruct (find _ cs) as [c'|] eqn:Ef; [|apply IH, H]. injection H as <-. apply find_some in Ef. apply Ef. }
      destruct (pick_by_priority prio (c0 :: c1 :: cs)) as [c'|] eqn:Eq; injection Ep as <-.
      * apply Hp in Eq. exact Eq.
      * left. reflexivity.
  - unfold md_get in Hm. unfold fe_entry, type_entry. destruct (ch_md c) as [d|d].
    + destruct (dget "federation_entity" d) as [[fe|]|] eqn:Ef; try discriminate. injection Hm as Hm.
      exists fe. split; [|exact Hm]. exists (Some fe). auto.
    + destruct (dget "federation_entity" d) as [w|] eqn:Ef; [|discriminate].
      destruct w; try discriminate. injection Hm as Hm. eexists. split; [reflexivity|exact Hm].
Qed.

(** get_entity_endpoint takes the first chain *)
Theorem C91_first_chain : forall E O fuel id type name s s' v,
  get_entity_endpoint E O fuel id type name s = (s', Ok v) ->
  exists s1 cs, get_verified_trust_chains E O fuel id s = (s1, Ok cs) /\
    ((cs = [] /\ v = VStr "") \/
     exists c cs' d, cs = c :: cs' /\ type_entry (ch_md c) type (VDict d) /\ dget name d = Some v).
Proof.
  intros E O fuel id type name s s' v H. unfold get_entity_endpoint, mbind in H.
  destruct (get_verified_trust_chains E O fuel id s) as [s1 [cs|x]]; [|discriminate].
  exists s1, cs. split; [reflexivity|]. destruct cs as [|c cs].
  - injection H as _ <-. left. auto.
  - right. unfold lift in H. destruct (md_index (ch_md c) type) as [w|x] eqn:Em; [|discriminate].
    destruct w; try discriminate. injection H as _ H. apply md_index_ok in Em. apply dindex_ok in H.
    exists c, cs. eexists. split; [reflexivity|]. split; [exact Em|exact H].
Qed.

(** get_federation_entity_metadata takes the first chain stored for the entity, or else the first one found *)
Theorem C91_stored_chain : forall E O fuel id s s' v,
  get_federation_entity_metadata E O fuel id s = (s', Ok v) ->
  v = VNull \/
  exists c cs,
    (dget id (f_chains s) = Some (c :: cs) \/
     (dget id (f_chains s) = None /\ snd (get_verified_trust_chains E O fuel id s) = Ok (c :: cs))) /\
    (type_entry (ch_md c) "federation_entity" v \/ (md_val (ch_md c) = VDict [] /\ v = VDict [])).
Proof.
  intros E O fuel id s s' v H. unfold get_federation_entity_metadata, get_verified_metadata in H.
  unfold mbind at 1 2, StateM.get in H.
  assert (Fin : forall c cs s1, (match Some (ch_md c) with
            | Some m => if truthy (md_val m) then lift (md_index m "federation_entity") else ret (md_val m)
            | None => ret VNull end : M fstate val) s1 = (s', Ok v) ->
            (dget id (f_chains s) = Some (c :: cs) \/
             (dget id (f_chains s) = None /\ snd (get_verified_trust_chains E O fuel id s) = Ok (c :: cs))) ->
            exists c cs, (dget id (f_chains s) = Some (c :: cs) \/
             (dget id (f_chains s) = None /\ snd (get_verified_trust_chains E O fuel id s) = Ok (c :: cs))) /\
            (type_entry (ch_md c) "federation_entity" v \/ (md_val (ch_md c) = VDict [] /\ v = VDict []))).
  { intros c cs s1 Hf Hc. exists c, cs. split; [exact Hc|].
    destruct (truthy (md_val (ch_md c))) eqn:Et.
    - left. unfold lift in Hf. injection Hf as _ Hf. apply md_index_ok, Hf.
    - right. injection Hf as _ <-. destruct (ch_md c) as [d|d]; simpl in *;
        [destruct d|destruct d]; simpl in *; try discriminate; auto. }
  destruct (dget id (f_chains s)) as [cs|] eqn:Ed.
  - unfold mbind, ret in H. destruct cs as [|c cs].
    + left. injection H as _ <-. reflexivity.
    + right. apply (Fin c cs s H). left. reflexivity.
  - unfold mbind in H. destruct (get_verified_trust_chains E O fuel id s) as [s1 [cs|x]]; [|discriminate].
    destruct cs as [|c cs]; cbn [is_nil] in H.
    + left. injection H as _ <-. reflexivity.
    + right. unfold store_trust_chain, modify, ret in H. cbn beta iota in H.
      eapply (Fin c cs); [exact H|]. right. auto.
Qed.

Example C91_ex : ~ In "rp" (e_anchors plain) /\
  exists s', get_verified_endpoint plain id_order 9 [] "rp" "federation_fetch_endpoint" only_ta
             = (s', Ok (Some (VStr "rp/fetch"))) /\
  snd (get_entity_endpoint plain id_order 9 "rp" "federation_entity" "federation_fetch_endpoint" only_ta)
  = Ok (VStr "rp/fetch") /\
  snd (get_federation_entity_metadata plain id_order 9 "rp" only_ta)
  = Ok (VDict [("federation_fetch_endpoint", VStr "rp/fetch")]).
Proof.
  split; [simpl; intros [N|[]]; discriminate|]. eexists. split; [vm_compute; reflexivity|].
  split; vm_compute; reflexivity.
Qed.

Print Assumptions C84_configured_anchors_refuted.
Print Assumptions C84_configured_anchors_partial.
Print Assumptions C84_honest_federation.
Print Assumptions C85_metadata_of_subject_refuted.
Print Assumptions C85_metadata_of_subject_partial.
Print Assumptions C85_honest_federation.
Print Assumptions C86_verified_chain_refuted.
Print Assumptions C86_verified_chain_partial.
Print Assumptions C87_lifetime_refuted.
Print Assumptions C87_lifetime_partial.
Print Assumptions C88_answers_refuted.
Print Assumptions C88_answers_partial.
Print Assumptions C88_no_chain_no_answer.
Print Assumptions C89_anchor_endpoint_refuted.
Print Assumptions C89_anchor_endpoint_partial.
Print Assumptions C90_subject_keys_refuted.
Print Assumptions C90_subject_keys_partial.
Print Assumptions C91_other_endpoint_refuted.
Print Assumptions C91_other_endpoint_partial.
Print Assumptions C91_first_chain.
Print Assumptions C91_stored_chain.
