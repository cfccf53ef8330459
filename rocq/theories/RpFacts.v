(** Facts about the relying party. *)
From Verif Require Import PyFacts.
From Verif Require Export RpSpec FederationProps WellRunFacts ResolveFacts.
From Coq Require Import Lia.

(** ** What an accepted response went through *)

Lemma open_inv E fuel a s s' p ta : open_response E fuel a s = (s', Ok (p, ta)) ->
  p = an_claims a /\ an_anchor a = Some ta /\ In ta (e_anchors E) /\
  (exists ks, s_jwks p = Some ks /\ In (an_signer a) ks) /\
  lib_valid (e_lib E) (e_clock E (st_tick (f_col s))) p = true /\
  exists s1 chains leaf tcs kj, collect_trust_chains E fuel (s_iss p) ta s = (s1, Ok (chains, leaf)) /\ chains <> [] /\
    verify_trust_chains E chains [] (f_keys s) = (kj, Ok tcs) /\ s' = mkFed (f_col s1) kj (f_chains s1).
Proof.
  unfold open_response. rewrite opened_fed. unfold verify_self_signed, an_tok.
  destruct (s_jwks (an_claims a)) as [ks|] eqn:Ek; [|discriminate].
  destruct (kmem _ _) eqn:Em; [|discriminate]. destruct (lib_valid _ _ _) eqn:El; [|discriminate]. cbn [snd].
  apply kmem_In, filter_In in Em. destruct Em as [Hin _].
  unfold mbind at 1, lift at 1. destruct (an_anchor a) as [t|]; [|discriminate].
  destruct (smem t (e_anchors E)) eqn:Es; [|discriminate]. cbn [negb].
  unfold mbind at 1, signature_verifies, mbind at 1.
  assert (Hk := collect_keys E fuel (s_iss (an_claims a)) t s).
  destruct (collect_trust_chains E fuel (s_iss (an_claims a)) t s) as [s1 [[chains leaf]|x]] eqn:Ec; [|discriminate].
  cbn [fst snd] in *. destruct chains as [|c chains]; [discriminate|]. cbn [is_nil].
  unfold mbind at 1, on_keys. rewrite Hk.
  destruct (verify_trust_chains E (c :: chains) [] (f_keys s)) as [kj [tcs|x]] eqn:Ev; [|discriminate].
  intros [= <- <- <-]. split; [reflexivity|]. split; [reflexivity|]. split; [apply smem_In; exact Es|].
  split; [eauto|]. split; [exact El|]. exists s1, (c :: chains), leaf, tcs, kj. rewrite Ec. split; [reflexivity|].
  split; [discriminate|]. auto.
Qed.

Lemma set_metadata_same p m : s_metadata p = Some m -> set_metadata m p = p.
Proof. intros H. destruct p. cbn in *. subst. reflexivity. Qed.

Lemma given_same p m : given_metadata p = Some m -> s_metadata p = Some m.
Proof.
  unfold given_metadata. destruct (s_metadata p) as [[|x y]|]; [discriminate| |discriminate]. intros [= <-]. reflexivity.
Qed.

(** replacing the metadata of the response by its own changes nothing *)
Lemma set_leaf_same m tc front leaf : tc_verified tc = front ++ [leaf] -> s_metadata leaf = Some m ->
  set_leaf_metadata m tc = Ok tc.
Proof.
  intros E1 E2. unfold set_leaf_metadata. rewrite E1, rev_app_distr. cbn [rev app].
  rewrite rev_involutive, (set_metadata_same _ _ E2), <- E1. destruct tc; reflexivity.
Qed.

Lemma oidc_inv E O fuel me a s s' md : parse_oidc E O fuel me a s = (s', Ok md) ->
  exists ta s1 s2 chains leaf kj pre ch post tc c,
    open_response E fuel a s = (s1, Ok (an_claims a, ta)) /\
    collect_trust_chains E fuel me ta s1 = (s2, Ok (chains, leaf)) /\ chains = pre ++ ch :: post /\
    verify_trust_chains E chains [an_tok a] (f_keys s1) = (kj, Ok [tc]) /\
    snd (verifier_call (e_lib E) (after_calls (e_lib E) (f_keys s1) (map (fun c => c ++ [an_tok a]) pre)) (ch ++ [an_tok a]))
      = Ok (Some tc) /\
    apply_to_chain O tc = Ok c /\ type_of_chain c "openid_relying_party" = Ok (Some md) /\
    s' = mkFed (f_col s2) kj (f_chains s2).
Proof.
  unfold parse_oidc, mbind at 1. destruct (open_response E fuel a s) as [s1 [[p ta]|x]] eqn:Eo; [|discriminate].
  destruct (open_inv _ _ _ _ _ _ _ Eo) as (-> & _). cbn [fst snd].
  unfold mbind at 1. assert (Hk := collect_keys E fuel me ta s1).
  destruct (collect_trust_chains E fuel me ta s1) as [s2 [[chains leaf]|x]] eqn:Ec; [|discriminate]. cbn [fst snd] in *.
  unfold mbind at 1, on_keys. rewrite Hk.
  destruct (verify_trust_chains E chains [an_tok a] (f_keys s1)) as [kj [tcs|x]] eqn:Ev; [|discriminate].
  destruct tcs as [|tc [|]]; try discriminate.
  assert (Hin : In tc [tc]) by (left; reflexivity).
  apply (verify_chains_spec E [an_tok a] chains _ _ _ Ev) in Hin. destruct Hin as (pre & ch & post & Echs & Hv).
  assert (Hves : tc_verified tc = map snd (jws ch) ++ [an_claims a]).
  { apply call_ok in Hv. destruct Hv as (Hv & _). apply verified_iff in Hv. destruct Hv as (_ & Eves & _).
    rewrite Eves, FederationProps.jws_app, map_app. reflexivity. }
  unfold mbind at 1, lift at 1.
  assert (Htc : (match given_metadata (an_claims a) with Some m => set_leaf_metadata m tc | None => Ok tc end) = Ok tc).
  { destruct (given_metadata (an_claims a)) as [m|] eqn:Eg; [|reflexivity].
    exact (set_leaf_same m tc _ _ Hves (given_same _ _ Eg)). }
  rewrite Htc. cbn beta iota. unfold mbind at 1, lift at 1.
  destruct (apply_to_chain O tc) as [c|x] eqn:Ea; [|discriminate].
  unfold mbind at 1, lift at 1. destruct (type_of_chain c "openid_relying_party") as [[[|y l]|]|x] eqn:Et; try discriminate.
  intros [= <- <-]. exists ta, s1, s2, chains, leaf, kj, pre, ch, post, tc, c. auto 12.
Qed.

Lemma oauth_inv E O fuel me a s s' md : parse_oauth E O fuel me a s = (s', Ok md) ->
  exists ta s1 c, open_response E fuel a s = (s1, Ok (an_claims a, ta)) /\
    get_verified_trust_chains E O fuel me s1 = (s', Ok [c]) /\
    match given_metadata (an_claims a) with
    | None => md = ch_md c
    | Some m => exists tc c', set_leaf_metadata m (ch_tc c) = Ok tc /\ apply_to_chain O tc = Ok c' /\ md = ch_md c'
    end.
Proof.
  unfold parse_oauth, mbind at 1. destruct (open_response E fuel a s) as [s1 [[p ta]|x]] eqn:Eo; [|discriminate].
  destruct (open_inv _ _ _ _ _ _ _ Eo) as (-> & _). cbn [fst snd].
  unfold mbind at 1. destruct (get_verified_trust_chains E O fuel me s1) as [s2 [cs|x]] eqn:Eg; [|discriminate].
  destruct cs as [|c [|]]; try discriminate. unfold mbind at 1.
  destruct (given_metadata (an_claims a)) as [m|] eqn:Em.
  - unfold lift. destruct (set_leaf_metadata m (ch_tc c)) as [tc|x] eqn:El; [|discriminate]. cbn [bind].
    destruct (apply_to_chain O tc) as [c'|x] eqn:Ea; [|discriminate]. destruct (no_metadata (ch_md c')); [discriminate|].
    intros [= <- <-]. exists ta, s1, c. split; [reflexivity|]. split; [exact Eg|]. eauto 6.
  - unfold ret at 1. destruct (no_metadata (ch_md c)); [discriminate|]. intros [= <- <-].
    exists ta, s1, c. auto.
Qed.

(** ** Keys *)

Lemma after_calls_app L kj c1 c2 : after_calls L kj (c1 ++ c2) = after_calls L (after_calls L kj c1) c2.
Proof. apply fold_left_app. Qed.

(** verification of chains as a sequence of calls *)
Lemma verify_all_keys E extra chains : forall kj kj' tcs,
  verify_trust_chains E chains extra kj = (kj', Ok tcs) ->
  kj' = after_calls (e_lib E) kj (map (fun c => c ++ extra) chains).
Proof.
  unfold verify_trust_chains.
  cut (forall acc kj kj' tcs,
         mfold (fun acc c => do tc <- run_verifier E (c ++ extra) in
                             ret (match tc with Some t => acc ++ [t] | None => acc end)) chains acc kj = (kj', Ok tcs) ->
         kj' = after_calls (e_lib E) kj (map (fun c => c ++ extra) chains));
    [intros H kj kj' tcs; apply H|].
  induction chains as [|c chains IH]; intros acc kj kj' tcs H; cbn [mfold] in H.
  - injection H as <- _. reflexivity.
  - unfold mbind, run_verifier in H. destruct (verifier_call (e_lib E) kj (c ++ extra)) as [kj1 [o|x]] eqn:Ev; [|discriminate].
    unfold ret in H. cbn beta iota in H. rewrite (IH _ _ _ _ H). cbn [map]. unfold after_calls. cbn [fold_left].
    rewrite Ev. reflexivity.
Qed.

Lemma flat_map_ext_jws (chains : list (list token)) t : 
  flat_map jws (map (fun c => c ++ [t]) chains) = flat_map (fun c => jws c ++ jws [t]) chains.
Proof. induction chains as [|c l IH]; cbn [map flat_map]; [reflexivity|]. rewrite FederationProps.jws_app, IH. reflexivity. Qed.

(** a statement helps to trace a key only if its own key is traced without it *)
Lemma traceable_without kj l k0 p0 e k : traceable kj ((k0, p0) :: l) e k ->
  traceable kj l e k \/ traceable kj l (s_iss p0) k0.
Proof.
  intros H. induction H as [e k H|k1 p jw k Hin _ IH Hj Hk].
  - left. apply tr_initial, H.
  - destruct IH as [IH|IH]; [|right; exact IH]. destruct Hin as [[= -> ->]|Hin]; [right; exact IH|].
    left. eapply tr_vouched; eauto.
Qed.

(** nothing changes about an entity no statement is about *)
Lemma after_calls_other L calls : forall kj e, (forall k p, In (k, p) (flat_map jws calls) -> s_sub p <> e) ->
  dget e (after_calls L kj calls) = dget e kj.
Proof.
  induction calls as [|ts calls IH]; intros kj e H; [reflexivity|].
  unfold after_calls. cbn [fold_left]. fold (after_calls L (fst (verifier_call L kj ts)) calls).
  rewrite IH by (intros k p Hin; apply (H k p); cbn [flat_map]; apply in_or_app; right; exact Hin).
  rewrite call_fst. destruct (verify_effect L kj ts) as (pre & post & Ej & _ & _ & _ & Hd & _). apply Hd.
  intros k p Hin. apply (H k p). cbn [flat_map]. apply in_or_app. left. rewrite Ej. apply in_or_app. left. exact Hin.
Qed.

(** ** Responses in a federation where everybody publishes what they should *)

Lemma after_calls_jar L W (Q : string -> Prop) calls : forall kj, jar_ok W Q kj ->
  (forall k p, In (k, p) (flat_map jws calls) -> vouches_for p (w_key W (s_sub p))) ->
  jar_ok W Q (after_calls L kj calls).
Proof.
  induction calls as [|ts calls IH]; intros kj J H; [exact J|].
  unfold after_calls. cbn [fold_left]. fold (after_calls L (fst (verifier_call L kj ts)) calls).
  apply IH; [|intros k p Hin; apply (H k p); cbn [flat_map]; apply in_or_app; right; exact Hin].
  rewrite call_fst. destruct (verify_effect L kj ts) as (pre & post & Ej & _ & Hh & _ & Hd & _).
  intros e ks He Hk.
  assert (G : holds (fst (verify_trust_chain L kj ts)) e (w_key W e)).
  { apply Hh. destruct (in_dec string_dec e (map (fun kp => s_sub (snd kp)) pre)) as [Hin|Hnin].
    - right. apply in_map_iff in Hin. destruct Hin as ([k p] & Es & Hin). cbn [snd] in Es.
      destruct (H k p) as (jw & Ejw & Hjw).
      { cbn [flat_map]. rewrite Ej. apply in_or_app. left. apply in_or_app. left. exact Hin. }
      exists k, p, jw. rewrite <- Es. auto.
    - left. rewrite Hd in Hk; [exists ks; split; [exact Hk|exact (J e ks He Hk)]|].
      intros k p Hin Es. apply Hnin. apply in_map_iff. exists (k, p). split; [exact Es|exact Hin]. }
  destruct G as (l & El & Hin). rewrite Hk in El. injection El as <-. exact Hin.
Qed.

Lemma expires_all l : forall z0, (forall x, In x l -> s_exp x <> None) -> exists z, expires_from z0 l = Ok z.
Proof.
  induction l as [|x l IH]; intros z0 H; cbn [expires_from]; [eauto|].
  destruct (s_exp x) as [z|] eqn:Ez; [|exfalso; apply (H x); [left; reflexivity|exact Ez]].
  apply IH. intros y Hy. apply H. right. exact Hy.
Qed.

Section Arrivals.
Context (E : cenv) (W : world) (stop id : string).
Hypothesis WR : well_run W E stop id.
Hypothesis HF : serves_fresh E.

Notation above := (WellRunSpec.above W stop).

Lemma along_vouch r : forall e k p, reaches W stop id e -> route W stop e r -> In (k, p) (jws (along W e r)) ->
  vouches_for p (w_key W (s_sub p)).
Proof.
  induction r as [|a r IH]; intros e k p R Hr Hin; cbn [along] in Hin; [destruct Hin|].
  inversion Hr as [|? ? ? Ha Hr']; subst. rewrite FederationProps.jws_app in Hin. apply in_app_or in Hin.
  destruct Hin as [Hin|[[= <- <-]|[]]].
  - apply (IH a k p); [eapply reaches_up; eauto|exact Hr'|exact Hin].
  - destruct (wr_about _ _ _ _ WR e a R Ha) as (_ & -> & Hv & _). exact Hv.
Qed.

Lemma route_above r : route W stop id r -> r <> [] -> above id <> [].
Proof. intros Hr Hne X. inversion Hr as [|? a r' Ha]; subst; [contradiction|]. rewrite X in Ha. destruct Ha. Qed.

(** the statements of a route without a leaf *)
Lemma call_bare kj r : route W stop id r -> r <> [] -> jar_right W stop id kj ->
  (known kj (end_of id r) -> exists b, meets_restrictions (map snd (jws (along W id r))) = Ok b) ->
  exists kj' o, verifier_call (e_lib E) kj (along W id r ++ []) = (kj', Ok o) /\
    jar_right W stop id kj' /\ same_ends W stop kj kj' /\ (known kj (end_of id r) -> known kj' id).
Proof.
  intros Hr Hne J Hb. assert (R := reaches_self W stop id). rewrite app_nil_r.
  destruct (first_issuer E W stop id WR r id R Hr Hne) as (k & p & l & El & Hi).
  unfold verifier_call, verify_trust_chain. rewrite El. unfold trusted_anchor. rewrite Hi.
  destruct (dget (end_of id r) kj) as [ks|] eqn:Ed.
  2:{ rewrite (proj2 (dmem_false _ _ _) Ed). exists kj, None. split; [reflexivity|]. split; [exact J|].
      split; [intros x Hx; reflexivity|]. intros [x Hx]. congruence. }
  assert (Hm : dmem (end_of id r) kj = true) by (unfold dmem; rewrite Ed; reflexivity). rewrite Hm.
  assert (Hk : known kj (end_of id r)) by (exists ks; exact Ed). destruct (Hb Hk) as [b Hb']. rewrite <- El.
  destruct (good_along E W stop id WR r id kj (length (along W id r) - 1) [] [] R Hr Hne J Hk)
    as (kj1 & G1 & J1 & K1 & S1 & M1). rewrite app_nil_r in G1. rewrite G1. cbn [verify_tokens app].
  rewrite Hb', El. cbn [jws map snd is_nil bind]. destruct b.
  - destruct (expires_all (map snd (jws (along W id r))) (-1)%Z) as [z Hz].
    { intros x Hx. exact (along_exp E W stop id WR HF r id x R Hr Hx). }
    unfold trust_chain_expires_at. rewrite El in Hz. cbn [jws map snd] in Hz. rewrite Hz. cbn [bind]. eauto 10.
  - eauto 10.
Qed.

(** the statements of a route and a response about the entity, signed with a known key of its issuer *)
Lemma call_answer kj r k p ks : route W stop id r -> r <> [] -> jar_right W stop id kj ->
  holds kj (s_iss p) k -> s_sub p = id -> s_jwks p = Some ks -> s_exp p <> None ->
  (known kj (end_of id r) -> exists b, meets_restrictions (map snd (jws (along W id r)) ++ [p]) = Ok b) ->
  exists kj' o, verifier_call (e_lib E) kj (along W id r ++ [TJws k p]) = (kj', Ok o) /\
    jar_right W stop id kj' /\ same_ends W stop kj kj' /\ holds kj' (s_iss p) k /\
    ((exists tc, o = Some tc) <->
     known kj (end_of id r) /\ meets_restrictions (map snd (jws (along W id r)) ++ [p]) = Ok true) /\
    (forall tc, o = Some tc -> tc_verified tc = map snd (jws (along W id r)) ++ [p]).
Proof.
  intros Hr Hne J Hh Hs Hj He Hb. assert (R := reaches_self W stop id).
  destruct (first_issuer E W stop id WR r id R Hr Hne) as (k0 & p0 & l & El & Hi).
  unfold verifier_call, verify_trust_chain. rewrite El. cbn [app]. unfold trusted_anchor. rewrite Hi.
  destruct (dget (end_of id r) kj) as [l0|] eqn:Ed.
  2:{ rewrite (proj2 (dmem_false _ _ _) Ed). exists kj, None. split; [reflexivity|]. split; [exact J|].
      split; [intros x Hx; reflexivity|]. split; [exact Hh|]. split; [|discriminate]. split; [intros [tc [=]]|].
      intros [[x Hx] _]. congruence. }
  assert (Hm : dmem (end_of id r) kj = true) by (unfold dmem; rewrite Ed; reflexivity). rewrite Hm.
  assert (Hk : known kj (end_of id r)) by (exists l0; exact Ed). destruct (Hb Hk) as [b Hb'].
  rewrite app_comm_cons, <- El. set (n := length (along W id r ++ [TJws k p]) - 1).
  destruct (good_along E W stop id WR r id kj n [] [TJws k p] R Hr Hne J Hk)
    as (kj1 & G1 & J1 & K1 & S1 & M1).
  rewrite G1. cbn [verify_tokens app].
  assert (Hin : In k (verify_keys (e_lib E) kj1 (TJws k p) (s_iss p))).
  { apply verify_keys_In. split; [apply M1, Hh|]. apply (wr_picks _ _ _ _ WR). }
  destruct (verify_keys (e_lib E) kj1 (TJws k p) (s_iss p)) as [|x y] eqn:Ev; [destruct Hin|]. cbn [is_nil].
  rewrite (proj2 (kmem_In k (x :: y)) Hin), Hj.
  assert (J2 : jar_right W stop id (add_keys (e_lib E) kj1 (s_sub p) ks)).
  { intros e' ks' Re' Hd.
    assert (G : holds (add_keys (e_lib E) kj1 (s_sub p) ks) e' (w_key W e')).
    { apply holds_add. left. destruct (string_dec e' (s_sub p)) as [->|Hn].
      - rewrite Hs in *. destruct K1 as [l1 Hl1]. exists l1. split; [exact Hl1|]. exact (J1 _ _ Re' Hl1).
      - rewrite add_other in Hd by exact Hn. exists ks'. split; [exact Hd|]. exact (J1 _ _ Re' Hd). }
    destruct G as (l1 & Hl1 & Hin1). rewrite Hd in Hl1. injection Hl1 as <-. exact Hin1. }
  assert (S2 : same_ends W stop kj (add_keys (e_lib E) kj1 (s_sub p) ks)).
  { intros e' He'. rewrite add_other; [apply S1, He'|]. intros ->. rewrite Hs in He'. exact (route_above r Hr Hne He'). }
  assert (H2 : holds (add_keys (e_lib E) kj1 (s_sub p) ks) (s_iss p) k) by (apply holds_add; left; apply M1, Hh).
  rewrite Hb'. remember (add_keys (e_lib E) kj1 (s_sub p) ks) as kj2 eqn:E2. clear E2.
  assert (Ecl : exists q ves, map snd (jws (along W id r)) ++ [p] = q :: ves).
  { rewrite El. cbn [jws map app]. eauto. }
  destruct Ecl as (q & ves & Ecl). cbn [app] in *. rewrite Ecl in *. cbn [is_nil bind]. destruct b.
  - destruct (expires_all (q :: ves) (-1)%Z) as [z Hz].
    { rewrite <- Ecl. intros x' Hx. apply in_app_or in Hx. destruct Hx as [Hx|[<-|[]]]; [|exact He].
      exact (along_exp E W stop id WR HF r id x' R Hr Hx). }
    unfold trust_chain_expires_at. rewrite Hz. cbn [bind]. eexists kj2, (Some _).
    split; [reflexivity|]. split; [exact J2|]. split; [exact S2|]. split; [exact H2|]. split; [|intros tc [= <-]; reflexivity].
    split; [auto|]. intros _. eexists. reflexivity.
  - exists kj2, None. split; [reflexivity|]. split; [exact J2|]. split; [exact S2|]. split; [exact H2|]. split; [|discriminate].
    split; [intros [tc [=]]|]. intros [_ [=]].
Qed.

Lemma known_ends kj0 kj r : same_ends W stop kj0 kj -> route W stop id r ->
  (known kj (end_of id r) <-> known kj0 (end_of id r)).
Proof.
  intros S Hr. destruct (reach_end W stop id r id (reaches_self W stop id) Hr) as [_ Hend].
  unfold known. rewrite (S _ Hend). tauto.
Qed.

Definition verify_step extra := fun (acc : list trust_chain) c => do tc <- run_verifier E (c ++ extra) in
                             ret (match tc with Some t => acc ++ [t] | None => acc end).

Lemma verify_bare kj0 chains :
  (forall r, route W stop id r -> r <> [] -> known kj0 (end_of id r) ->
     exists b, meets_restrictions (map snd (jws (along W id r))) = Ok b) ->
  (forall c, In c chains -> exists r, route W stop id r /\ r <> [] /\ c = along W id r) ->
  forall kj acc, jar_right W stop id kj -> same_ends W stop kj0 kj ->
  exists kj' tcs, mfold (verify_step []) chains acc kj = (kj', Ok tcs) /\ jar_right W stop id kj' /\ same_ends W stop kj0 kj' /\
    (known kj id -> known kj' id) /\
    (forall r, route W stop id r -> r <> [] -> known kj0 (end_of id r) -> In (along W id r) chains -> known kj' id).
Proof.
  intros CC. induction chains as [|c chains IH]; intros Hch kj acc J S.
  - exists kj, acc. cbn [mfold]. split; [reflexivity|]. split; [exact J|]. split; [exact S|]. split; [auto|].
    intros r _ _ _ [].
  - destruct (Hch c (or_introl eq_refl)) as (r & Hr & Hne & ->).
    destruct (call_bare kj r Hr Hne J) as (kj1 & o & C1 & J1 & S1 & K1).
    { intros K. apply (CC r Hr Hne). apply (known_ends kj0 kj r S Hr), K. }
    cbn [mfold]. unfold mbind at 1. unfold verify_step at 1, mbind at 1, run_verifier at 1. rewrite C1. unfold ret at 1.
    assert (S' : same_ends W stop kj0 kj1) by (intros x Hx; rewrite (S1 x Hx); apply S, Hx).
    destruct (IH (fun c h => Hch c (or_intror h)) kj1 (match o with Some t => acc ++ [t] | None => acc end) J1 S')
      as (kj2 & tcs & I1 & I2 & I3 & I4 & I5).
    exists kj2, tcs. split; [exact I1|]. split; [exact I2|]. split; [exact I3|]. split.
    + intros K. apply I4. assert (X := known_after (e_lib E) [along W id r ++ []] kj id K).
      unfold after_calls in X. cbn [fold_left] in X. rewrite C1 in X. exact X.
    + intros r' Hr' Hne' K' [Heq|Hin]; [|exact (I5 r' Hr' Hne' K' Hin)]. apply I4, K1.
      assert (Hend : end_of id r = end_of id r').
      { destruct (first_issuer E W stop id WR r id (reaches_self W stop id) Hr Hne) as (k1 & p1 & l1 & F1 & F2).
        destruct (first_issuer E W stop id WR r' id (reaches_self W stop id) Hr' Hne') as (k2 & p2 & l2 & F3 & F4).
        rewrite Heq, F3 in F1. injection F1 as <- <- <-. congruence. }
      apply (known_ends kj0 kj r S Hr). rewrite Hend. exact K'.
Qed.

Lemma verify_answers kj0 k p ks chains rt : s_sub p = id -> s_jwks p = Some ks -> s_exp p <> None ->
  (forall r, route W stop id r -> r <> [] -> known kj0 (end_of id r) ->
     exists b, meets_restrictions (map snd (jws (along W id r)) ++ [p]) = Ok b) ->
  route W stop id rt -> rt <> [] -> known kj0 (end_of id rt) ->
  meets_restrictions (map snd (jws (along W id rt)) ++ [p]) = Ok true ->
  (forall r, route W stop id r -> r <> [] -> known kj0 (end_of id r) ->
     meets_restrictions (map snd (jws (along W id r)) ++ [p]) = Ok true -> r = rt) ->
  (forall c, In c chains -> exists r, route W stop id r /\ r <> [] /\ c = along W id r) -> NoDup chains ->
  forall kj acc, jar_right W stop id kj -> same_ends W stop kj0 kj -> holds kj (s_iss p) k ->
  exists kj' new, mfold (verify_step [TJws k p]) chains acc kj = (kj', Ok (acc ++ new)) /\
    (~ In (along W id rt) chains -> new = []) /\
    (In (along W id rt) chains -> exists tc, new = [tc] /\ tc_verified tc = map snd (jws (along W id rt)) ++ [p]).
Proof.
  intros Hs Hj He CC Ht Htne Htk Htm U. induction chains as [|c chains IH]; intros Hch N kj acc J S Hh.
  - exists kj, []. cbn [mfold]. rewrite app_nil_r. split; [reflexivity|]. split; [auto|intros []].
  - inversion N as [|? ? Hc N']; subst c chains. destruct (Hch _ (or_introl eq_refl)) as (r & Hr & Hne & ->).
    destruct (call_answer kj r k p ks Hr Hne J Hh Hs Hj He) as (kj1 & o & C1 & J1 & S1 & H1 & C2 & C3).
    { intros K. apply (CC r Hr Hne). apply (known_ends kj0 kj r S Hr), K. }
    cbn [mfold]. unfold mbind at 1. unfold verify_step at 1, mbind at 1, run_verifier at 1. rewrite C1. unfold ret at 1.
    assert (S' : same_ends W stop kj0 kj1) by (intros x Hx; rewrite (S1 x Hx); apply S, Hx).
    destruct (IH (fun c h => Hch c (or_intror h)) N' kj1 (match o with Some t => acc ++ [t] | None => acc end) J1 S' H1)
      as (kj2 & new & I1 & I2 & I3).
    destruct o as [t|].
    + destruct (proj1 C2 (ex_intro _ t eq_refl)) as [K M]. apply (known_ends kj0 kj r S Hr) in K.
      assert (r = rt) by (apply U; assumption). subst r. exists kj2, (t :: new).
      split; [rewrite I1, <- app_assoc; reflexivity|]. split; [intros X; exfalso; apply X; left; reflexivity|].
      intros _. rewrite (I2 Hc). exists t. split; [reflexivity|]. exact (C3 t eq_refl).
    + exists kj2, new. split; [exact I1|].
      assert (Hd : along W id r <> along W id rt).
      { intros Heq. destruct (proj2 C2) as [tc [=]]. rewrite Heq. split; [|exact Htm].
        assert (Hend : end_of id r = end_of id rt).
        { destruct (first_issuer E W stop id WR r id (reaches_self W stop id) Hr Hne) as (k1 & p1 & l1 & F1 & F2).
          destruct (first_issuer E W stop id WR rt id (reaches_self W stop id) Ht Htne) as (k2 & p2 & l2 & F3 & F4).
          rewrite Heq, F3 in F1. injection F1 as <- <- <-. congruence. }
        apply (known_ends kj0 kj r S Hr). rewrite Hend. exact Htk. }
      split; [intros X; apply I2; intros Hin; apply X; right; exact Hin|].
      intros [Heq|Hin]; [contradiction|exact (I3 Hin)].
Qed.
End Arrivals.

Lemma pick_In prio cs c : pick_trust_chain prio cs = Ok c -> In c cs.
Proof.
  unfold pick_trust_chain. destruct cs as [|c0 [|c1 cs]]; [discriminate | intros [= <-]; left; reflexivity|].
  destruct (pick_by_priority prio (c0 :: c1 :: cs)) as [x|] eqn:EPP; intros [= <-]; [|left; reflexivity].
  induction prio as [|fid prio IH]; [discriminate|]. cbn [pick_by_priority] in EPP.
  destruct (find (fun c => String.eqb (ch_anchor c) fid) (c0 :: c1 :: cs)) as [y|] eqn:EF; [|exact (IH EPP)].
  injection EPP as <-. exact (proj1 (find_some _ _ EF)).
Qed.
