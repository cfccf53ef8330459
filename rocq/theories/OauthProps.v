(** Explicit registration with OAuth 2 between members of a federation whose entities run this library (C189). *)
From Verif Require Import PyFacts ExampleKit CollectorRepeat CollectorProps FederationProps VerifierFacts.
From Verif Require Import ClientFacts ClientProps RegistrationFacts RegistrationProps RegistrationGrantProps.
From Verif Require Import RpSpec RpFacts RpProps.
From Verif Require Import LiveFacts LiveExample LiveResolveProps LiveRegisterProps LiveAnswerProps.
From Verif Require Import OauthModel CollectorRepeatProps.
From Coq Require Import Lia.

(** an OAuth 2 client: it has metadata of no other type but those for federation entities and trust mark issuers *)
Definition only_oauth (md : option (dict metadata)) : Prop :=
  exists m, md = Some m /\ NoDup (dkeys m) /\ In "oauth_client" (dkeys m) /\
    forall t, In t (dkeys m) -> In t ["oauth_client"; "federation_entity"; "trust_mark_issuer"].

(** nothing is wrong with the metadata [d]: see C141 *)
Definition good_oauth (R : reg_env) (d : dict val) : Prop :=
  NoDup (dkeys d) /\ good_request R true (request_of d) /\
  (forall k v, In k algs -> dget k d = Some v -> dmem k (rg_preferred R) = true).

(** the policies along [rt] leave [d] of what the member publishes for OAuth 2 clients *)
Definition leaves (O : iter_order) (jwks_of : val -> option (list key)) (F : list member) (E : cenv) (id : string)
    (rt : list string) (d : dict val) : Prop :=
  exists md, adjusted O jwks_of F E id rt md /\ claims_for md "oauth_client" d.

(** what the policies along [rt] leave of the metadata of the answer *)
Definition all_left (O : iter_order) (jwks_of : val -> option (list key)) (F : list member) (E : cenv) (id : string)
    (rt : list string) (a : RpModel.answer) (m : dict (option metadata)) : Prop :=
  exists leaf', policy_call O (removelast (said jwks_of F E id rt)) (an_claims a) = Ok (m, leaf').

(** the response has no claim twice *)
Definition tidy (R : reg_env) : Prop := forall d, NoDup (dkeys d) -> NoDup (dkeys (rg_comb R d)).

(** ** Lemmas *)

Lemma only_oauth_type O (m : dict metadata) : NoDup (dkeys m) -> In "oauth_client" (dkeys m) ->
  (forall t, In t (dkeys m) -> In t ["oauth_client"; "federation_entity"; "trust_mark_issuer"]) ->
  some_of O (filter (fun t => negb (smem t ["federation_entity"; "trust_mark_issuer"])) (dkeys m)) = Ok "oauth_client".
Proof.
  intros N D H. set (l := filter _ _).
  assert (A : forall x, In x l -> x = "oauth_client").
  { intros x I. apply filter_In in I as [I S]. destruct (H x I) as [<-|[<-|[<-|[]]]]; [reflexivity|discriminate S|discriminate S]. }
  assert (B : In "oauth_client" l) by (apply filter_In; split; [exact D|reflexivity]).
  unfold some_of. destruct (ios O l) as [|x r] eqn:Ei.
  - apply (ios_In O) in B. rewrite Ei in B. destruct B.
  - f_equal. apply A, (ios_In O). rewrite Ei. left. reflexivity.
Qed.

(** of the leaf, policies look at the metadata only *)
Lemma type_same O front l1 l2 t : s_metadata l1 = s_metadata l2 ->
  match policy_type O front l1 t with
  | Ok (o, r1) => exists r2, policy_type O front l2 t = Ok (o, r2) /\ s_metadata r1 = s_metadata r2
  | Err x => policy_type O front l2 t = Err x
  end.
Proof.
  intros E. unfold policy_type. destruct (gather_policies O front t) as [g|]; cbn [bind]; [|reflexivity].
  rewrite <- E. destruct (s_metadata l1) as [d|] eqn:E1; [|eexists; split; [reflexivity|congruence]].
  destruct (dget t d) as [x|]; [|eexists; split; [reflexivity|congruence]].
  destruct (apply_policy O x g) as [[y b]|]; cbn [bind fst snd]; [|reflexivity].
  eexists. split; [reflexivity|]. destruct b; [|congruence]. unfold set_type_metadata. rewrite E1, <- E. reflexivity.
Qed.

Lemma policy_same O front l1 l2 m r : s_metadata l1 = s_metadata l2 -> policy_call O front l1 = Ok (m, r) ->
  exists r2, policy_call O front l2 = Ok (m, r2).
Proof.
  unfold policy_call. intros E. rewrite <- E. destruct (s_metadata l1) as [d|] eqn:E1; [|discriminate].
  assert (E2 : s_metadata l1 = s_metadata l2) by congruence. clear E E1.
  generalize (@nil (string * option metadata)). revert l1 l2 E2. induction (dkeys d) as [|t ks IH]; intros l1 l2 E acc H; cbn [foldM fst snd] in *.
  - injection H as <- <-. eexists. reflexivity.
  - assert (X := type_same O front l1 l2 t E). destruct (policy_type O front l1 t) as [[o r1]|]; [|discriminate H].
    destruct X as (r2 & -> & E'). cbn [bind fst snd] in *. exact (IH r1 r2 E' _ H).
Qed.

(** a chain is accepted at most once *)
Lemma verified_once E extra chains : forall kj kj' tcs, NoDup chains -> verify_trust_chains E chains extra kj = (kj', Ok tcs) ->
  NoDup (map tc_chain tcs).
Proof.
  assert (G : forall l kj acc kj' tcs, NoDup l -> NoDup (map tc_chain acc) ->
    (forall tc c, In tc acc -> In c l -> tc_chain tc <> c ++ extra) ->
    mfold (fun acc c => do tc <- run_verifier E (c ++ extra) in
             ret (match tc with Some t => acc ++ [t] | None => acc end)) l acc kj = (kj', Ok tcs) ->
    NoDup (map tc_chain tcs)).
  { induction l as [|c l IH]; intros kj acc kj' tcs N NA D H; cbn [mfold] in H.
    - injection H as _ <-. exact NA.
    - unfold mbind at 1 in H. unfold mbind at 1, run_verifier at 1 in H. inversion N as [|? ? Nc Nl]; subst.
      destruct (verifier_call (e_lib E) kj (c ++ extra)) as [kj1 [o|x]] eqn:Ev; [|discriminate H]. unfold ret at 1 in H.
      assert (D' : forall tc c0, In tc acc -> In c0 l -> tc_chain tc <> c0 ++ extra) by (intros tc c0 I1 I2; apply D; [exact I1|right; exact I2]).
      destruct o as [t|]; [|exact (IH _ _ _ _ Nl NA D' H)].
      assert (Et : tc_chain t = c ++ extra).
      { assert (X := call_ok (e_lib E) kj (c ++ extra) (Some t)). rewrite Ev in X. exact (proj2 (proj2 (proj2 (proj2 (X eq_refl))))). }
      refine (IH _ _ _ _ Nl _ _ H).
      + rewrite map_app. cbn [map]. apply NoDup_rev in NA. rewrite <- (rev_involutive (map tc_chain acc ++ [tc_chain t])).
        apply NoDup_rev. rewrite rev_app_distr. cbn [rev app]. constructor; [|exact NA].
        intros I. apply in_rev, in_map_iff in I. destruct I as (tc & X & I). apply (D tc c I (or_introl eq_refl)). congruence.
      + intros tc c0 I1 I2. apply in_app_or in I1. destruct I1 as [I1|[<-|[]]]; [exact (D' tc c0 I1 I2)|].
        rewrite Et. intros X. apply app_inv_tail in X. subst c0. contradiction. }
  intros kj kj' tcs N H. apply (G chains kj [] kj' tcs N); [constructor|intros tc c []|exact H].
Qed.

(** all the same, without repetitions *)
Lemma only_one A (l : list A) x : NoDup l -> (forall y, In y l -> y = x) -> In x l -> l = [x].
Proof.
  intros N H I. destruct l as [|y l]; [destruct I|]. rewrite (H y (or_introl eq_refl)) in *. destruct l as [|z l]; [reflexivity|].
  inversion N as [|? ? Nx _]; subst. destruct Nx. left. apply H. right. left. reflexivity.
Qed.

Section Oauth.
Context (jwks_of : val -> option (list key)) (F : list member) (E : cenv) (rank : string -> nat).
Hypothesis L : library_run jwks_of F E.
Hypothesis HR : hierarchy F rank.

Notation W := (library_world jwks_of F (e_clock E 0)).

(** the chains found from the entity configuration that a member sends *)
Lemma signed_routes m fuel s : In m F -> rank (m_id m) < fuel -> visited E (f_col s) ->
  exists s1 chains,
    collect_trust_chains_signed E fuel (m_id m) (own W (m_id m)) "" [] s = (s1, Ok (chains, Some (own W (m_id m)))) /\
    f_keys s1 = f_keys s /\ f_chains s1 = f_chains s /\
    forall c, In c chains <-> exists r, route W "" (m_id m) r /\ r <> [] /\ c = along W (m_id m) r.
Proof.
  intros Hm Hf V. destruct (library_quiet _ _ _ L m Hm) as (HS & HF & HC & Hid).
  assert (HC' := hints_clean E _ HS HC). assert (WR := upto_run jwks_of F E rank L HR "" m Hm).
  assert (RK := upto_ranked jwks_of F E rank L HR "" m Hm). assert (R := reaches_self W "" (m_id m)).
  destruct (wr_ptree E W "" (m_id m) rank WR RK HF fuel (m_id m) R Hf) as (tr & Ht & _ & _ & Hc).
  destruct (collect_tree_eq E HS HF HC' "" fuel (m_id m) _ _ Hid (wr_pverified E W "" (m_id m) WR (m_id m) R) (f_col s)
              (visited_consistent E HS HF HC' _ V)) as (c1 & E1 & _).
  rewrite Ht in E1.
  exists (mkFed c1 (f_keys s) (f_chains s)), (map (map tok_of) (tree2chains tr)). split.
  { unfold collect_trust_chains_signed. rewrite opened_fed, (lf_clock _ _ _ L), (wr_self_signed E W "" (m_id m) WR (m_id m) R).
    cbn [snd is_nil]. unfold mbind, on_col. rewrite E1. reflexivity. }
  split; [reflexivity|]. split; [reflexivity|].
  intros c. rewrite in_map_iff. split.
  - intros (c' & <- & Hin). apply Hc in Hin. destruct Hin as (r & Hr & Hne & ->). exists r.
    split; [exact Hr|]. split; [exact Hne|]. rewrite map_map. apply map_id.
  - intros (r & Hr & Hne & ->). exists (map ESTok (along W (m_id m) r)). split.
    + rewrite map_map. apply map_id.
    + apply Hc. exists r. auto.
Qed.

(** and those of them that are accepted *)
Lemma signed_chains m fuel s : In m F -> rank (m_id m) < fuel -> visited E (f_col s) -> right_keys F (f_keys s) ->
  checkable jwks_of F E (m_id m) ->
  exists s1 chains kj tcs,
    collect_trust_chains_signed E fuel (m_id m) (own W (m_id m)) "" [] s = (s1, Ok (chains, Some (own W (m_id m)))) /\
    verify_trust_chains E chains [own W (m_id m)] (f_keys s1) = (kj, Ok tcs) /\
    (forall tc, In tc tcs -> exists rt, usable jwks_of F E (f_keys s) (m_id m) rt /\
       tc_verified tc = said jwks_of F E (m_id m) rt /\ tc_anchor tc = end_of (m_id m) rt) /\
    (forall rt, usable jwks_of F E (f_keys s) (m_id m) rt -> exists tc, In tc tcs).
Proof.
  intros Hm Hf V K CC. destruct (signed_routes m fuel s Hm Hf V) as (s1 & chains & C1 & C2 & _ & C4).
  assert (WR := upto_run jwks_of F E rank L HR "" m Hm).
  destruct (verify_routes E W "" (m_id m) WR (proj1 (proj2 (library_quiet _ _ _ L m Hm))) (f_keys s) (checkable_clear jwks_of F E L m Hm CC) chains)
    with (kj := f_keys s) (acc := @nil trust_chain) as (kj & tcs & V1 & _ & _ & V4 & V5).
  { intros c Hin. apply C4, Hin. }
  { exact (right_jar jwks_of F E L m _ Hm K). }
  { intros e _. reflexivity. }
  cbn [app] in V1. exists s1, chains, kj, tcs. split; [exact C1|]. split; [rewrite C2; exact V1|]. split.
  - intros tc Hin. destruct (V4 tc Hin) as (r & A1 & A2 & _ & A4 & A5 & _ & A7 & A8). exists r. split; [|split; [exact A7|exact A8]].
    apply (usable_good jwks_of F E L m _ _ Hm). split; [exact A1|]. split; [exact A2|]. split; [exact A4|exact A5].
  - intros rt Hu. apply (usable_good jwks_of F E L m _ _ Hm) in Hu. destruct Hu as (B1 & B2 & B3 & B4).
    destruct (V5 rt B1 B2) as (tc & Hin & _); [apply C4; exists rt; auto|exact B3|exact B4|]. exists tc. exact Hin.
Qed.

(** the response of a member is opened, and the keys that this adds do not matter *)
Lemma answer_opens ta mo fuel s a :
  In mo F -> rank (m_id mo) < fuel -> visited E (f_col s) -> right_keys F (f_keys s) -> In ta (e_anchors E) ->
  an_anchor a = Some ta -> s_iss (an_claims a) = m_id mo -> an_signer a = m_key mo -> vouches_for (an_claims a) (m_key mo) ->
  (exists z, s_exp (an_claims a) = Some z /\ (e_clock E 0 < z)%Z) ->
  (exists ro, upto F ta (m_id mo) ro /\ ro <> []) -> checkable_above jwks_of F E ta (m_id mo) ->
  exists s1, open_response E fuel a s = (s1, Ok (an_claims a, ta)) /\ visited E (f_col s1) /\ right_keys F (f_keys s1) /\
    forall m rt, In m F -> (usable jwks_of F E (f_keys s1) (m_id m) rt <-> usable jwks_of F E (f_keys s) (m_id m) rt).
Proof.
  intros Ho Fo V K HA A1 A2 A4 (ks & A5 & A6) (z & A7 & A8) (ro & U1 & U2) CO.
  assert (WO := upto_run jwks_of F E rank L HR ta mo Ho). assert (Qo := library_quiet _ _ _ L mo Ho).
  assert (HF := proj1 (proj2 Qo)).
  assert (Es : verify_self_signed E (e_clock E 0) (Some (an_tok a)) = Ok (an_tok a, an_claims a)).
  { unfold verify_self_signed, an_tok. rewrite A5.
    assert (Kk : kmem (an_signer a) (filter (lib_picks (e_lib E) (TJws (an_signer a) (an_claims a))) ks) = true).
    { apply kmem_In, filter_In. split; [rewrite A4; exact A6|]. apply (lf_picks _ _ _ L). }
    rewrite Kk, (lf_valid _ _ _ L _ _ _ A7 A8). reflexivity. }
  destruct (collect_routes E W ta (m_id mo) rank fuel s Qo V WO (upto_ranked jwks_of F E rank L HR ta mo Ho) Fo)
    as (s1 & chains & C1 & C2 & C3 & C4 & _ & C5).
  assert (CO' : forall r, route W ta (m_id mo) r -> r <> [] -> known (f_keys s) (end_of (m_id mo) r) ->
            exists b, meets_restrictions (map snd (jws (along W (m_id mo) r))) = Ok b).
  { intros r H1 H2 _. assert (X := CO r (route_upto jwks_of F E L ta _ _ H1 mo Ho eq_refl) H2).
    rewrite said_front in X. exact X. }
  destruct (verify_bare E W ta (m_id mo) WO HF (f_keys s) chains CO' (fun c h => proj1 (C5 c) h) (f_keys s) []
              (upto_jar jwks_of F E L ta mo _ Ho K) (fun e _ => eq_refl)) as (kj1 & tcs1 & V1 & _ & V3 & _ & _).
  assert (Hne : chains <> []).
  { intros X. assert (Hin : In (along W (m_id mo) ro) chains).
    { apply C5. exists ro. split; [exact (upto_route jwks_of F E L ta _ _ U1)|auto]. }
    rewrite X in Hin. destruct Hin. }
  exists (mkFed (f_col s1) kj1 (f_chains s1)). split; [|cbn [f_col f_keys]; split; [exact C4|split]].
  - unfold open_response. rewrite opened_fed, (lf_clock _ _ _ L), Es. cbn [snd]. unfold mbind at 1, lift at 1. rewrite A1.
    rewrite (proj2 (smem_In _ _) HA). cbn [negb]. unfold mbind at 1, signature_verifies, mbind at 1. rewrite A2, C1. cbn [fst].
    destruct chains as [|c chains]; [contradiction|]. cbn [is_nil]. unfold mbind at 1, on_keys. rewrite C2.
    unfold verify_trust_chains. unfold verify_step in V1. rewrite V1. reflexivity.
  - assert (Ea : kj1 = after_calls (e_lib E) (f_keys s) (map (fun c => c ++ []) chains)).
    { apply (verify_all_keys E [] chains (f_keys s) kj1 tcs1). exact V1. }
    assert (KW : forall m, In m F -> w_key W (m_id m) = m_key m).
    { intros m Hm. cbn [library_world w_key]. rewrite (by_id_In _ _ _ L m Hm). reflexivity. }
    assert (J : jar_ok W (fun e => exists m, In m F /\ m_id m = e) kj1).
    { rewrite Ea. apply after_calls_jar.
      - intros e kk (m & Hm & <-) D. rewrite (KW m Hm). exact (K m kk Hm D).
      - intros k p Hin. apply in_flat_map in Hin. destruct Hin as (c & Hc & Hin).
        apply in_map_iff in Hc. destruct Hc as (c' & <- & Hc). rewrite app_nil_r in Hin. apply C5 in Hc.
        destruct Hc as (r & Hr & _ & ->). exact (along_vouch E W ta (m_id mo) WO r (m_id mo) k p (reaches_self W ta (m_id mo)) Hr Hin). }
    intros m kk Hm D. rewrite <- (KW m Hm). apply (J (m_id m) kk); [exists m; auto|exact D].
  - intros m rt Hm. assert (X : path F (m_id m) rt -> (VerifierSpec.known kj1 (end_of (m_id m) rt) <-> VerifierSpec.known (f_keys s) (end_of (m_id m) rt))).
    { intros Hp. assert (Hr := path_route _ _ _ L _ _ Hp).
      destruct (reach_end W "" (m_id m) rt (m_id m) (reaches_self W "" (m_id m)) Hr) as [Re Ab].
      destruct (reaches_member jwks_of F E L "" m _ Hm Re) as (m' & Hm' & Em').
      assert (Ab' : above W ta (end_of (m_id m) rt) = []).
      { unfold above in *. destruct (String.eqb _ ta); [reflexivity|]. destruct (String.eqb_spec (end_of (m_id m) rt) "") as [Ez|_]; [|exact Ab].
        destruct (proj1 (so_id _ _ _ (lf_sound _ _ _ L m' Hm'))). congruence. }
      unfold VerifierSpec.known. rewrite (V3 _ Ab'). tauto. }
    unfold usable. split; intros (B1 & B2 & B3 & B4); (split; [exact B1|]; split; [exact B2|]; split; [|exact B4]); apply (X B1), B3.
Qed.

(** a member with one usable path has one chain *)
Lemma one_chain O m fuel s rt md0 : In m F -> rank (m_id m) < fuel -> visited E (f_col s) -> right_keys F (f_keys s) ->
  checkable jwks_of F E (m_id m) -> usable jwks_of F E (f_keys s) (m_id m) rt ->
  (forall r, usable jwks_of F E (f_keys s) (m_id m) r -> r = rt) -> adjusted O jwks_of F E (m_id m) rt md0 ->
  exists s1 c ves, get_verified_trust_chains E O fuel (m_id m) s = (s1, Ok [c]) /\
    policy_call_chain O (said jwks_of F E (m_id m) rt) = Ok (md0, ves) /\ tc_verified (ch_tc c) = ves /\ ch_md c = md0.
Proof.
  intros Hm Hf V K CC Hu Ho [ves Ha]. assert (WR := upto_run jwks_of F E rank L HR "" m Hm). assert (Q := library_quiet _ _ _ L m Hm).
  destruct (collect_routes E W "" (m_id m) rank fuel s Q V WR (upto_ranked jwks_of F E rank L HR "" m Hm) Hf)
    as (s1 & chains & C1 & C2 & _ & _ & C5 & C6).
  destruct (verify_routes E W "" (m_id m) WR (proj1 (proj2 Q)) (f_keys s) (checkable_clear jwks_of F E L m Hm CC) chains)
    with (kj := f_keys s) (acc := @nil trust_chain) as (kj & tcs & V1 & _ & _ & V4 & V5).
  { intros c Hin. apply C6, Hin. }
  { exact (right_jar jwks_of F E L m _ Hm K). }
  { intros e _. reflexivity. }
  cbn [app] in V1. change (verify_trust_chains E chains [own W (m_id m)] (f_keys s) = (kj, Ok tcs)) in V1.
  assert (A : forall tc, In tc tcs -> tc_chain tc = chain_along W (m_id m) rt /\ tc_verified tc = said jwks_of F E (m_id m) rt).
  { intros tc Hin. destruct (V4 tc Hin) as (r & A1 & A2 & _ & A4 & A5 & A6 & A7 & _).
    assert (r = rt) as ->; [|split; [exact A6|exact A7]].
    apply Ho, (usable_good jwks_of F E L m _ _ Hm). split; [exact A1|]. split; [exact A2|]. split; [exact A4|exact A5]. }
  assert (B : exists tc, In tc tcs).
  { apply (usable_good jwks_of F E L m _ _ Hm) in Hu. destruct Hu as (B1 & B2 & B3 & B4).
    destruct (V5 rt B1 B2) as (tc & Hin & _); [apply C6; exists rt; auto|exact B3|exact B4|]. exists tc. exact Hin. }
  assert (N := verified_once E _ _ _ _ _ C5 V1).
  assert (T : exists tc, tcs = [tc] /\ tc_verified tc = said jwks_of F E (m_id m) rt).
  { destruct B as [tc Hin]. assert (X := only_one _ (map tc_chain tcs) (chain_along W (m_id m) rt) N).
    destruct tcs as [|tc1 [|tc2 l]]; [destruct Hin| |].
    - exists tc1. split; [reflexivity|]. exact (proj2 (A tc1 (or_introl eq_refl))).
    - cbn [map] in X. discriminate X.
      + intros y Iy. change (In y (map tc_chain (tc1 :: tc2 :: l))) in Iy. apply in_map_iff in Iy. destruct Iy as (tc' & <- & Iy).
        exact (proj1 (A tc' Iy)).
      + left. exact (proj1 (A tc1 (or_introl eq_refl))). }
  destruct T as (tc & -> & Ev).
  eexists _, (mkTChain (mkTC (tc_anchor tc) (tc_chain tc) (tc_exp tc) (tc_iss_path tc) ves) md0), ves. split; [|split; [exact Ha|split; reflexivity]].
  unfold get_verified_trust_chains. unfold mbind at 1. rewrite C1. destruct chains as [|c0 chains0].
  - cbn in V1. discriminate V1.
  - unfold mbind, on_keys. rewrite C2, V1. unfold lift, apply_policies, mapM, apply_to_chain. rewrite Ev, Ha. reflexivity.
Qed.

End Oauth.

(** ** The theorems *)

(** The authorization server [mo] answers a member [mr] that sends its entity configuration and has a usable path.  It names
    the anchor at the end of such a path, and registers a new client with what the policies along that path leave of the
    metadata, as far as it supports it; the answer has the new name and no redirect URIs, keys or application type. *)
Theorem C189_answered : forall jwks_of F E O rank fuel R P prio mo mr s,
  library_run jwks_of F E -> hierarchy F rank -> checkable jwks_of F E (m_id mr) -> In mr F -> rank (m_id mr) < fuel ->
  visited E (f_col (a_fed s)) -> right_keys F (f_keys (a_fed s)) -> keeps_id R -> tidy R -> is_member P mo ->
  only_oauth (s_metadata (config jwks_of F E (m_id mr))) ->
  (exists rt, usable jwks_of F E (f_keys (a_fed s)) (m_id mr) rt) ->
  (forall rt, usable jwks_of F E (f_keys (a_fed s)) (m_id mr) rt ->
     exists d, leaves O jwks_of F E (m_id mr) rt d /\ good_oauth R d) ->
  exists s' a rt d ci md,
    answer_oauth E O fuel R P prio (asking_token jwks_of F E (m_id mr)) s = (s', Ok (Some a)) /\
    usable jwks_of F E (f_keys (a_fed s)) (m_id mr) rt /\ an_anchor a = Some (end_of (m_id mr) rt) /\
    leaves O jwks_of F E (m_id mr) rt d /\
    s_iss (an_claims a) = m_id mo /\ s_sub (an_claims a) = m_id mr /\ an_signer a = m_key mo /\
    vouches_for (an_claims a) (m_key mo) /\ s_exp (an_claims a) = Some (op_now P + op_lifetime P)%Z /\
    s_metadata (an_claims a) = Some [("oauth_client", md)] /\
    (let id := rg_newid R (dkeys (r_cdb (a_reg s))) in
     dget id (r_cdb (a_reg s')) = Some ci /\ dget "client_id" md = Some (VStr id)) /\
    (forall k, In k ["redirect_uris"; "jwks"; "application_type"] -> dget k md = None) /\
    (forall k v, dget k d = Some v -> ~ In k checked ->
       ~ In k ["client_id"; "client_salt"; "client_id_issued_at"; "client_secret"; "client_secret_expires_at"] ->
       granted R k v (dget k ci)).
Proof.
  intros jwks_of F E O rank fuel R P prio mo mr s L HR CC Hm Hf V Hk KI TI (P1 & P2 & P3) (m & Em & Nm & Dm & Tm) [rt0 Hu0] HG.
  assert (WR := upto_run jwks_of F E rank L HR "" mr Hm). assert (Rs := reaches_self (library_world jwks_of F (e_clock E 0)) "" (m_id mr)).
  destruct (wr_config _ _ _ _ WR (m_id mr) Rs) as (_ & Ci & Cs & _).
  destruct (signed_chains jwks_of F E rank L HR mr fuel (a_fed s) Hm Hf V Hk CC) as (f1 & chains & kj & tcs & G1 & G2 & G3 & G4).
  destruct (applied_total O tcs) as [cs Ec].
  { intros tc Ht. destruct (G3 tc Ht) as (rt & Hu & B2 & _). destruct (HG rt Hu) as (d & (md & [ves Ha] & _) & _).
    rewrite B2. eexists. exact Ha. }
  destruct (applied_of O tcs cs Ec) as [A1 A2].
  assert (Hcs : cs <> []).
  { intros ->. destruct (G4 rt0 Hu0) as (tc & Ht). destruct (A2 tc Ht) as (c & [] & _). }
  destruct (pick_some prio cs Hcs) as [c Hc].
  destruct (A1 c (pick_In prio cs c Hc)) as (tc & Ht & Ean & Hrest).
  destruct (G3 tc Ht) as (rt & Hu & B2 & B3).
  destruct (HG rt Hu) as (d & (md0 & [ves Ha] & Hd) & (ND & Hgood & HAl)).
  assert (Hmd : ch_md c = md0).
  { destruct Hrest as (_ & ves' & X). rewrite B2 in X. congruence. }
  subst md0.
  assert (Hcm := claims_chain c _ d Hd).
  destruct (C141_granted_partial O R (request_of d) true true [] (a_reg s) Hgood) as (r2 & args & rid & ci & H2 & CL & D2 & K2 & _).
  { intros k v Ik Dk. apply (HAl k v Ik). unfold request_of in Dk. rewrite dget_dupdate in Dk by exact ND. destruct (dget k d); [exact Dk|discriminate Dk]. }
  assert (RQ : NoDup (dkeys d) -> forall x, x <> "client_id" -> dget x (request_of d) = dget x d).
  { intros N x _. unfold request_of. rewrite dget_dupdate by exact N. destruct (dget x d); reflexivity. }
  destruct (step2_stored O R d _ _ _ _ _ _ _ RQ (request_nodup d) KI H2) as (i & ci' & D1 & _ & CL' & _).
  assert (i = rid).
  { specialize (CL' (gr_passed _ _ _ Hgood "client_id" (or_introl eq_refl))). unfold client_of in *. congruence. }
  subst i.
  assert (NA : NoDup (dkeys args)).
  { destruct (step2_done _ _ _ _ _ _ _ _ _ H2) as (req & i & req' & c' & kj' & _ & _ & CI & _ & _ & ->). apply TI.
    apply NoDup_filter_keys, (client_info_nodup _ _ _ _ CI). unfold first_entry, add_client_secret.
    repeat (try match goal with |- context [if ?b then _ else _] => destruct b end); repeat apply NoDup_dset;
      repeat constructor; simpl; intuition discriminate. }
  assert (CLe : rid = rg_newid R (dkeys (r_cdb (a_reg s)))) by exact CL.
  eexists (mkA (mkFed (f_col f1) kj (f_chains f1)) r2), _, rt, d, ci, _. split.
  { unfold answer_oauth, asking_token. rewrite ClientProps.opened, (lf_clock _ _ _ L), (wr_self_signed _ _ _ _ WR _ Rs).
    cbv zeta. cbn [snd]. unfold mbind at 1, lift at 1, metadata_of. fold (config jwks_of F E (m_id mr)). rewrite Em.
    unfold mbind at 1, lift at 1. rewrite (only_oauth_type O m Nm Dm Tm).
    unfold mbind at 1, on_fed at 1. unfold config at 1. rewrite Cs, G1. unfold mbind at 1, on_fed at 1, on_keys at 1. cbn [fst a_fed a_reg].
    rewrite G2. unfold mbind at 1, lift at 1. rewrite Ec. unfold mbind at 1, lift at 1. rewrite Hc.
    unfold mbind at 1, lift at 1. rewrite Hcm. unfold mbind at 1, on_reg. cbn [a_reg a_fed]. rewrite H2. reflexivity. }
  cbn [an_anchor an_claims an_signer s_iss s_sub s_exp s_metadata].
  split; [exact Hu|]. split; [congruence|]. split; [exists (ch_md c); split; [exists ves; exact Ha|exact Hd]|].
  split; [exact P1|]. split; [exact Ci|]. split; [exact P2|].
  split; [exists (op_jwks P); split; [reflexivity|exact P3]|]. split; [reflexivity|]. split; [reflexivity|].
  split; [|split].
  - cbv zeta. rewrite <- CLe. split; [exact D2|]. unfold answer_metadata_oauth.
    rewrite (dget_filter_key (fun k => negb (smem k not_answered))). cbn [negb smem not_answered existsb].
    rewrite dget_dupdate by exact NA. rewrite D1. reflexivity.
  - intros k Ik. unfold answer_metadata_oauth. rewrite (dget_filter_key (fun k => negb (smem k not_answered))).
    simpl in Ik. destruct Ik as [<-|[<-|[<-|[]]]]; reflexivity.
  - intros k v Dk N1 N2. apply (K2 k v); [|exact N1|exact N2]. rewrite (RQ ND); [exact Dk|]. intros ->. apply N2. left. reflexivity.
Qed.
Print Assumptions C189_answered.

(** The client [mr] takes the answer of the member [mo] before it expires if it trusts the anchor, finds [mo] below it and
    has one usable path itself; it ends up with what the policies along that path leave of the metadata in the answer. *)
Theorem C189_taken : forall jwks_of F E O rank fuel mo mr ta s a rt m,
  library_run jwks_of F E -> hierarchy F rank -> In mo F -> In mr F -> rank (m_id mo) < fuel -> rank (m_id mr) < fuel ->
  checkable jwks_of F E (m_id mr) -> checkable_above jwks_of F E ta (m_id mo) ->
  visited E (f_col s) -> right_keys F (f_keys s) -> In ta (e_anchors E) ->
  an_anchor a = Some ta -> s_iss (an_claims a) = m_id mo -> an_signer a = m_key mo -> vouches_for (an_claims a) (m_key mo) ->
  (exists z, s_exp (an_claims a) = Some z /\ (e_clock E 0 < z)%Z) ->
  (exists ro, upto F ta (m_id mo) ro /\ ro <> []) ->
  usable jwks_of F E (f_keys s) (m_id mr) rt -> (forall r, usable jwks_of F E (f_keys s) (m_id mr) r -> r = rt) ->
  (exists md, adjusted O jwks_of F E (m_id mr) rt md) ->
  (exists x, s_metadata (an_claims a) = Some x /\ x <> []) ->
  all_left O jwks_of F E (m_id mr) rt a m -> m <> [] ->
  snd (parse_oauth E O fuel (m_id mr) a s) = Ok (ByType m).
Proof.
  intros jwks_of F E O rank fuel mo mr ta s a rt m L HR Ho Hm Fo Fr CC CA V K HA A1 A2 A3 A4 A5 A6 U1 U2 [md0 Ad] (x & Hx & Nx) [leaf' HL] Nm.
  destruct (answer_opens jwks_of F E rank L HR ta mo fuel s a Ho Fo V K HA A1 A2 A3 A4 A5 A6 CA) as (s1 & O1 & V1 & K1 & US).
  destruct (one_chain jwks_of F E rank L HR O mr fuel s1 rt md0 Hm Fr V1 K1 CC) as (s2 & c & ves & G1 & G2 & G3 & G4).
  { apply US; assumption. }
  { intros r Hr. apply U2, (US mr r Hm), Hr. }
  { exact Ad. }
  unfold parse_oauth, mbind at 1. rewrite O1. unfold mbind at 1. rewrite G1. cbn [fst].
  assert (Eg : given_metadata (an_claims a) = Some x) by (unfold given_metadata; rewrite Hx; destruct x; [contradiction|reflexivity]).
  rewrite Eg.
  assert (Hf : claims_up (library_world jwks_of F (e_clock E 0)) (m_id mr) rt <> []).
  { destruct U1 as (U11 & U12 & _). apply (path_route _ _ _ L) in U11.
    destruct (first_issuer E _ "" (m_id mr) (upto_run jwks_of F E rank L HR "" mr Hm) rt (m_id mr) (reaches_self _ _ _) U11 U12)
      as (k & p & l & X & _). unfold claims_up. rewrite X. discriminate. }
  rewrite said_front in HL. rewrite said_split in G2. set (front := claims_up _ _ _) in *.
  assert (Hn : is_nil (rev front) = false).
  { destruct front as [|q l]; [contradiction|]. cbn [rev]. destruct (rev l); reflexivity. }
  unfold policy_call_chain in G2. rewrite rev_unit, Hn, rev_involutive in G2.
  destruct (policy_call O front (config jwks_of F E (m_id mr))) as [[m1 leaf1]|]; [|discriminate G2]. cbn [bind fst snd] in G2.
  injection G2 as _ G2.
  destruct (policy_same O front (an_claims a) (set_metadata x leaf1) m leaf' Hx HL) as [leaf2 H2].
  assert (E1 : set_leaf_metadata x (ch_tc c) = Ok (mkTC (tc_anchor (ch_tc c)) (tc_chain (ch_tc c)) (tc_exp (ch_tc c)) (tc_iss_path (ch_tc c))
                 (front ++ [set_metadata x leaf1]))).
  { unfold set_leaf_metadata. rewrite G3, <- G2, rev_unit, rev_involutive. reflexivity. }
  unfold mbind, lift. rewrite E1. cbn [bind]. unfold apply_to_chain. cbn [tc_verified]. unfold policy_call_chain.
  rewrite rev_unit, Hn, rev_involutive, H2. cbn [bind fst snd ch_md no_metadata]. destruct m; [contradiction|reflexivity].
Qed.
Print Assumptions C189_taken.

(** A client with two usable paths refuses such an answer, whatever is in it. *)
Theorem C189_several : forall jwks_of F E O rank fuel mo mr ta s a r1 r2,
  library_run jwks_of F E -> hierarchy F rank -> In mo F -> In mr F -> rank (m_id mo) < fuel -> rank (m_id mr) < fuel ->
  checkable jwks_of F E (m_id mr) -> checkable_above jwks_of F E ta (m_id mo) ->
  visited E (f_col s) -> right_keys F (f_keys s) -> In ta (e_anchors E) ->
  an_anchor a = Some ta -> s_iss (an_claims a) = m_id mo -> an_signer a = m_key mo -> vouches_for (an_claims a) (m_key mo) ->
  (exists z, s_exp (an_claims a) = Some z /\ (e_clock E 0 < z)%Z) ->
  (exists ro, upto F ta (m_id mo) ro /\ ro <> []) ->
  usable jwks_of F E (f_keys s) (m_id mr) r1 -> usable jwks_of F E (f_keys s) (m_id mr) r2 -> r1 <> r2 ->
  (forall r, usable jwks_of F E (f_keys s) (m_id mr) r -> exists md, adjusted O jwks_of F E (m_id mr) r md) ->
  snd (parse_oauth E O fuel (m_id mr) a s) = Err SystemError.
Proof.
  intros jwks_of F E O rank fuel mo mr ta s a r1 r2 L HR Ho Hm Fo Fr CC CA V K HA A1 A2 A3 A4 A5 A6 U1 U2 Nr AD.
  destruct (answer_opens jwks_of F E rank L HR ta mo fuel s a Ho Fo V K HA A1 A2 A3 A4 A5 A6 CA) as (s1 & O1 & V1 & K1 & US).
  destruct (library_chains jwks_of F E rank L HR O fuel mr s1 Hm Fr V1 (right_jar jwks_of F E L mr _ Hm K1) CC)
    as (s2 & tcs & G1 & _ & _ & _ & _ & G6 & G7).
  destruct (applied_total O tcs) as [cs Ec].
  { intros tc Ht. destruct (G6 tc Ht) as (_ & rt & Hu & _ & B2 & _). apply (US mr rt Hm) in Hu. destruct (AD rt Hu) as (md & [ves Ha]).
    rewrite B2. eexists. exact Ha. }
  destruct (applied_of O tcs cs Ec) as [_ A7].
  destruct (G7 r1 (proj2 (US mr r1 Hm) U1)) as (t1 & I1 & T1 & _). destruct (G7 r2 (proj2 (US mr r2 Hm) U2)) as (t2 & I2 & T2 & _).
  destruct (A7 t1 I1) as (c1 & C1 & _ & D1 & _). destruct (A7 t2 I2) as (c2 & C2 & _ & D2 & _).
  assert (Nc : c1 <> c2).
  { intros ->. apply Nr. rewrite D1, T1, T2 in D2.
    assert (X := claims_issuers E _ "" (m_id mr) (upto_run jwks_of F E rank L HR "" mr Hm) r1 (path_route _ _ _ L _ _ (proj1 U1))).
    assert (Y := claims_issuers E _ "" (m_id mr) (upto_run jwks_of F E rank L HR "" mr Hm) r2 (path_route _ _ _ L _ _ (proj1 U2))).
    unfold claims_along in *. congruence. }
  unfold parse_oauth, mbind at 1. rewrite O1. unfold mbind at 1. rewrite G1, Ec.
  destruct cs as [|c [|c' cs]]; [destruct C1| |reflexivity]. exfalso. destruct C1 as [<-|[]], C2 as [<-|[]]. contradiction.
Qed.
Print Assumptions C189_several.

(** Together: the client asks, the authorization server answers, and the client takes the answer. *)
Theorem C189_round_trip : forall jwks_of F E O rank fuel R P prio mo mr ta so sr rt,
  library_run jwks_of F E -> hierarchy F rank -> In mo F -> In mr F -> rank (m_id mo) < fuel -> rank (m_id mr) < fuel ->
  checkable jwks_of F E (m_id mr) -> checkable_above jwks_of F E ta (m_id mo) ->
  visited E (f_col (a_fed so)) -> right_keys F (f_keys (a_fed so)) -> visited E (f_col sr) -> right_keys F (f_keys sr) ->
  keeps_id R -> tidy R -> is_member P mo -> (e_clock E 0 < op_now P + op_lifetime P)%Z ->
  only_oauth (s_metadata (config jwks_of F E (m_id mr))) ->
  (exists r, usable jwks_of F E (f_keys (a_fed so)) (m_id mr) r) ->
  (forall r, usable jwks_of F E (f_keys (a_fed so)) (m_id mr) r -> end_of (m_id mr) r = ta /\
     exists d, leaves O jwks_of F E (m_id mr) r d /\ good_oauth R d) ->
  In ta (e_anchors E) -> (exists ro, upto F ta (m_id mo) ro /\ ro <> []) ->
  usable jwks_of F E (f_keys sr) (m_id mr) rt -> (forall r, usable jwks_of F E (f_keys sr) (m_id mr) r -> r = rt) ->
  (exists md, adjusted O jwks_of F E (m_id mr) rt md) ->
  exists so' a,
    answer_oauth E O fuel R P prio (asking_token jwks_of F E (m_id mr)) so = (so', Ok (Some a)) /\
    dmem (rg_newid R (dkeys (r_cdb (a_reg so)))) (r_cdb (a_reg so')) = true /\
    forall m, all_left O jwks_of F E (m_id mr) rt a m -> m <> [] -> snd (parse_oauth E O fuel (m_id mr) a sr) = Ok (ByType m).
Proof.
  intros jwks_of F E O rank fuel R P prio mo mr ta so sr rt L HR Ho Hm Fo Fr CC CA V1 K1 V2 K2 KI TI PM NX OC EX HU HA UO U1 U2 AD.
  destruct (C189_answered jwks_of F E O rank fuel R P prio mo mr so L HR CC Hm Fr V1 K1 KI TI PM OC EX (fun r h => proj2 (HU r h)))
    as (so' & a & r & d & ci & md & G0 & G1 & G2 & _ & G3 & _ & G5 & G6 & G7 & G8 & (G9 & _) & _).
  rewrite (proj1 (HU r G1)) in G2.
  exists so', a. split; [exact G0|]. split; [unfold dmem; rewrite G9; reflexivity|].
  intros m HL Nm. apply (C189_taken jwks_of F E O rank fuel mo mr ta sr a rt m L HR Ho Hm Fo Fr CC CA V2 K2 HA G2 G3 G5 G6
    (ex_intro _ _ (conj G7 NX)) UO U1 U2 AD); [|exact HL|exact Nm].
  eexists. split; [exact G8|discriminate].
Qed.
Print Assumptions C189_round_trip.

(** Whoever is answered is registered as in C82 and C83, in any environment. *)
Lemma answered_registered E O fuel R P prio t s s' a : answer_oauth E O fuel R P prio t s = (s', Ok (Some a)) ->
  exists args, explicit_oauth E O fuel R prio t s = (s', Ok (Done args)).
Proof.
  unfold answer_oauth, explicit_oauth. unfold mbind.
  destruct (on_fed (on_col (open_self_signed E (Some t))) s) as [s1 [[t' p]|]]; [|discriminate]. cbv zeta. cbn [snd].
  unfold lift. destruct (metadata_of p) as [m|]; [|discriminate].
  destruct (some_of _ _) as [ty|]; [|discriminate].
  destruct (on_fed _ s1) as [s2 [r|]]; [|discriminate].
  destruct (on_fed _ s2) as [s3 [tcs|]]; [|discriminate].
  destruct (apply_policies O tcs) as [cs|]; [|discriminate].
  destruct (pick_trust_chain prio cs) as [c|]; [|discriminate].
  destruct (chain_metadata c ty) as [md|]; [|discriminate].
  destruct (on_reg _ s3) as [s4 [[|args]|]]; try discriminate. intros H. exists args. unfold ret in H. congruence.
Qed.

(** ** Example: below the trust anchor [ta] are the authorization server [as] and the client [client] *)

Definition oa_ta : member := mkMember
  (mkFserver "ta" (VInt 1) [("federation_entity", VDict [("federation_fetch_endpoint", VStr "ta/fetch")])] None
     [("oauth_client", [("metadata_policy", VDict [("contacts", VDict [("add", VList [VStr "ta"])])])])])
  None SrcNone
  [("as", [("jwks", VInt 5)]);
   ("client", [("jwks", VInt 3); ("entity_types", VList [VStr "oauth_client"]);
           ("constraints", VDict [("max_path_length", VInt 0)])])]
  1 "ta/wk" "ta/fetch".

Definition oa_as : member := mkMember
  (mkFserver "as" (VInt 5)
     [("federation_entity", VDict [])]
     (Some (VList [VStr "ta"])) [])
  None SrcNone [] 5 "as/wk" "".

Definition oa_client_parts : dict part :=
  [("oauth_client", PMeta (fun type => [(type, VDict [("redirect_uris", VList [VStr "https://rp/cb"]); ("jwks", VInt 4);
                                                              ("response_types", VList [VStr "code"])])]))].

Definition oa_client : member := mkMember
  (mkFserver "client" (VInt 3)
     [] (Some (VList [VStr "ta"])) [])
  (Some oa_client_parts) SrcNone [] 3 "client/wk" "".

Definition oa_fed : list member := [oa_ta; oa_as; oa_client].

Definition oa_env : cenv :=
  mkEnv 300 ["ta"] (library_net ex_jwks oa_fed (fun _ => 1100%Z)) (fun _ => 1100%Z) all_keys wk_url tenant_url.

Definition oa_rank (e : string) : nat := if String.eqb e "ta" then 0 else 1.

Definition oa_start : fstate := mkFed (mkState [] [] 0) [("ta", [1])] [].

Ltac oa_members := repeat match goal with H : In _ oa_fed |- _ => destruct H as [<-|[<-|[<-|[]]]] end.

Lemma oa_run : library_run ex_jwks oa_fed oa_env.
Proof.
  constructor.
  - reflexivity.
  - reflexivity.
  - reflexivity.
  - intros n p z Hz Hn. cbn. unfold within_skew. rewrite Hz. apply Z.ltb_lt. lia.
  - reflexivity.
  - intros m m' Hm Hm' H. oa_members; try reflexivity; discriminate H.
  - intros m m' Hm Hm' H. oa_members; try reflexivity; discriminate H.
  - intros m m' Hm Hm' H N. oa_members; try reflexivity; try discriminate H; cbn in N; contradiction N; reflexivity.
  - intros m Hm. oa_members; left; reflexivity.
  - intros m Hm. oa_members; (apply mkSound;
      [split; [discriminate|reflexivity]
      |eexists; split; [reflexivity|left; reflexivity]
      |split; intros x e H; apply dget_In in H; simpl in H;
        repeat destruct H as [H|H]; try contradiction; injection H as <- <-; apply nodupb_sound; reflexivity
      |intros x p k H Hk; apply dget_In in H; simpl in H;
        repeat destruct H as [H|H]; try contradiction; injection H as <- <-; simpl in Hk; intuition auto
      |eexists; reflexivity
      |intros p Hp; vm_compute in Hp; injection Hp as <-; vm_compute; discriminate
      |intros a Ha; simpl in Ha; repeat destruct Ha as [<-|Ha]; try destruct Ha; reflexivity
      |intros sub e v H Hv; apply dget_In in H; simpl in H; repeat destruct H as [H|H]; try contradiction;
        injection H as <- <-; vm_compute in Hv; discriminate Hv]).
  - intros m a Hm Ha. oa_members; simpl in Ha; repeat destruct Ha as [<-|Ha]; try destruct Ha.
    + exists oa_ta. split; [left; reflexivity|]. split; [reflexivity|]. constructor.
      * apply locationb_sound. reflexivity.
      * eexists. split; reflexivity.
      * eexists _, _, _. split; [split; [reflexivity|discriminate]|]. split; [|split; [reflexivity|split; [reflexivity|left; reflexivity]]].
        split; [intros k Hk; simpl in Hk; repeat destruct Hk as [<-|Hk]; try destruct Hk; reflexivity|].
        split; [intros v Hv; discriminate Hv|]. split; [intros v Hv; discriminate Hv|]. intros p k v Hp; discriminate Hp.
      * intros p Hp. vm_compute in Hp; injection Hp as <-; vm_compute; discriminate.
    + exists oa_ta. split; [left; reflexivity|]. split; [reflexivity|]. constructor.
      * apply locationb_sound. reflexivity.
      * eexists. split; reflexivity.
      * eexists _, _, _. split; [split; [reflexivity|discriminate]|]. split; [|split; [reflexivity|split; [reflexivity|left; reflexivity]]].
        split; [intros k Hk; simpl in Hk; repeat destruct Hk as [<-|Hk]; try destruct Hk; reflexivity|].
        split; [intros v Hv; discriminate Hv|].
        split; [intros v Hv; injection Hv as <-; exists ["oauth_client"]; reflexivity|].
        intros p k v Hp; discriminate Hp.
      * intros p Hp. vm_compute in Hp; injection Hp as <-; vm_compute; discriminate.
Qed.

Lemma oa_hierarchy : hierarchy oa_fed oa_rank.
Proof. intros m a Hm Ha. oa_members; simpl in Ha; repeat destruct Ha as [<-|Ha]; try destruct Ha; vm_compute; lia. Qed.

Lemma oa_path m rt : In m oa_fed -> path oa_fed (m_id m) rt -> rt = [] \/ rt = ["ta"].
Proof.
  intros Hm H. inversion H as [m0 Hm0 Hs Em Er|m0 a r Hm0 Ha Hr Em Er]; subst; [left; reflexivity|right].
  assert (a = "ta") as -> by (oa_members; simpl in Ha; repeat destruct Ha as [<-|Ha]; try destruct Ha; reflexivity).
  f_equal. inversion Hr as [m1 Hm1 Hs1 E1 E2|m1 a1 r1 Hm1 Ha1 Hr1 E1 E2]; [reflexivity|].
  exfalso. oa_members; try discriminate E1; destruct Ha1.
Qed.

Lemma oa_up m : In m oa_fed -> m_id m <> "ta" -> path oa_fed (m_id m) ["ta"].
Proof.
  intros Hm Hn. apply path_up; [exact Hm| |].
  - oa_members; [contradiction Hn; reflexivity|left; reflexivity|left; reflexivity].
  - apply (path_end _ oa_ta); [left; reflexivity|reflexivity].
Qed.

Lemma oa_checkable m : In m oa_fed -> checkable ex_jwks oa_fed oa_env (m_id m).
Proof.
  intros Hm rt Hp. destruct (oa_path m rt Hm Hp) as [-> | ->].
  - oa_members; eexists; vm_compute; reflexivity.
  - oa_members; eexists; vm_compute; reflexivity.
Qed.

Lemma oa_usable m : In m oa_fed -> m_id m <> "ta" -> usable ex_jwks oa_fed oa_env [("ta", [1])] (m_id m) ["ta"].
Proof.
  intros Hm Hn. split; [exact (oa_up m Hm Hn)|]. split; [discriminate|]. split; [exists [1]; reflexivity|].
  oa_members; [contradiction Hn; reflexivity|vm_compute; reflexivity|vm_compute; reflexivity].
Qed.

Lemma oa_keys : right_keys oa_fed [("ta", [1])].
Proof.
  intros m ks Hm H. oa_members; cbn in H; [injection H as <-; left; reflexivity|discriminate H|discriminate H].
Qed.

Lemma oa_visited : visited oa_env (f_col oa_start).
Proof. constructor. Qed.

Definition oa_op : op := mkOp "as" 5 [5] ["ta"] 1100%Z 3600%Z.

Definition oa_server : astate := mkA oa_start ex_start.

(** what the policies leave of the metadata of the client *)
Definition oa_claims : dict val :=
  [("redirect_uris", VList [VStr "https://rp/cb"]); ("jwks", VInt 4); ("response_types", VList [VStr "code"]);
   ("contacts", VList [VStr "ta"])].

Lemma oa_leaves : leaves id_order ex_jwks oa_fed oa_env "client" ["ta"] oa_claims.
Proof. eexists. split; [eexists; vm_compute; reflexivity | vm_compute; reflexivity]. Qed.

Lemma oa_good : good_oauth ex_reg oa_claims.
Proof.
  split; [apply nodupb_sound; reflexivity|]. split.
  - constructor.
    + apply nodupb_sound. reflexivity.
    + reflexivity.
    + intros k v H. apply dget_In in H. simpl in H. split; [reflexivity|].
      repeat destruct H as [H|H]; try contradiction; injection H as <- <-; try (eexists; apply granted_passed; reflexivity).
      exists (Some (VList (map VStr ["code"]))). apply (granted_common _ _ _ "response_types_supported" ["code"; "id_token"] ["code"]);
        try reflexivity; [discriminate | repeat constructor; simpl; tauto |].
      intros x; simpl; split; [intros [<-|[]]; auto | intros [[<-|[]] _]; auto].
    + intros k Hk. simpl in Hk. repeat (destruct Hk as [<-|Hk]; [reflexivity|]). destruct Hk.
    + intros H. discriminate H.
    + intros v H; injection H as <-; exists ["https://rp/cb"]; split; [reflexivity|]; intros u [<-|[]]; right;
      split; [discriminate|]; split; [reflexivity|]; left; reflexivity.
    + intros v H; discriminate H.
    + intros k v Hk H; simpl in Hk; destruct Hk as [<-|[<-|[<-|[]]]]; discriminate H.
    + intros v H; discriminate H.
    + intros v H; eexists; reflexivity.
  - intros k v Hk H. unfold algs in Hk. simpl in Hk. destruct Hk as [<-|[<-|[]]]; discriminate H.
Qed.

Lemma oa_only r : usable ex_jwks oa_fed oa_env [("ta", [1])] "client" r -> r = ["ta"].
Proof.
  assert (Hr : In oa_client oa_fed) by (simpl; auto).
  intros (Hp & Hn & _). destruct (oa_path oa_client r Hr Hp) as [-> | ->]; [contradiction Hn; reflexivity|reflexivity].
Qed.

Example C189_ex :
  (* the hypotheses of C189_round_trip *)
  (library_run ex_jwks oa_fed oa_env /\ hierarchy oa_fed oa_rank /\ In oa_as oa_fed /\ In oa_client oa_fed /\
   checkable ex_jwks oa_fed oa_env "client" /\ checkable_above ex_jwks oa_fed oa_env "ta" "as" /\
   visited oa_env (f_col oa_start) /\ right_keys oa_fed (f_keys oa_start) /\ keeps_id ex_reg /\ tidy ex_reg /\ is_member oa_op oa_as /\
   (e_clock oa_env 0 < op_now oa_op + op_lifetime oa_op)%Z /\ only_oauth (s_metadata (config ex_jwks oa_fed oa_env "client")) /\
   usable ex_jwks oa_fed oa_env [("ta", [1])] "client" ["ta"] /\
   (forall r, usable ex_jwks oa_fed oa_env [("ta", [1])] "client" r -> end_of "client" r = "ta" /\
      exists d, leaves id_order ex_jwks oa_fed oa_env "client" r d /\ good_oauth ex_reg d) /\
   upto oa_fed "ta" "as" ["ta"] /\
   (forall r, usable ex_jwks oa_fed oa_env [("ta", [1])] "client" r -> r = ["ta"])) /\
  (* and what happens *)
  exists so a, answer_oauth oa_env id_order 2 ex_reg oa_op [] (asking_token ex_jwks oa_fed oa_env "client") oa_server = (so, Ok (Some a)) /\
    snd (parse_oauth oa_env id_order 2 "client" a oa_start)
    = Ok (ByType [("oauth_client", Some [("response_types", VList [VStr "code"]); ("contacts", VList [VStr "ta"]);
                                         ("client_id", VStr "client1"); ("client_secret", VStr "secret")])]).
Proof.
  assert (Hr : In oa_client oa_fed) by (simpl; auto). assert (Ht : In oa_as oa_fed) by (simpl; auto).
  assert (UP : forall m rt, In m oa_fed -> upto oa_fed "ta" (m_id m) rt -> rt = [] \/ rt = ["ta"]).
  { intros m rt Hm H. inversion H as [m0 Hm0 Hs Em Er|m0 a r Hm0 Hn Ha Hu Em Er]; subst; [left; reflexivity|right].
    assert (a = "ta") as -> by (oa_members; simpl in Ha; repeat destruct Ha as [<-|Ha]; try destruct Ha; reflexivity).
    f_equal. inversion Hu as [m1 Hm1 Hs1 E1 E2|m1 a1 r1 Hm1 Hn1 Ha1 Hr1 E1 E2]; [reflexivity|]. contradiction. }
  split.
  - split; [exact oa_run|]. split; [exact oa_hierarchy|]. split; [exact Ht|]. split; [exact Hr|].
    split; [exact (oa_checkable oa_client Hr)|]. split.
    { intros rt Hp Hn. destruct (UP oa_as rt Ht Hp) as [-> | ->]; [contradiction Hn; reflexivity|eexists; vm_compute; reflexivity]. }
    split; [exact oa_visited|]. split; [exact oa_keys|]. split; [exact ex_keeps_id|]. split; [intros d N; exact N|].
    split; [split; [reflexivity|split; [reflexivity|left; reflexivity]]|]. split; [reflexivity|].
    split.
    { eexists. split; [vm_compute; reflexivity|]. split; [apply nodupb_sound; reflexivity|]. split; [left; reflexivity|].
      intros t [<-|[]]. left. reflexivity. }
    split; [exact (oa_usable oa_client Hr ltac:(discriminate))|]. split.
    { intros r Hu. rewrite (oa_only r Hu). split; [reflexivity|]. exists oa_claims. split; [exact oa_leaves|exact oa_good]. }
    split; [|exact oa_only].
    apply (upto_up _ _ oa_as); [exact Ht|discriminate|left; reflexivity|]. apply (upto_end _ _ oa_ta); left; reflexivity.
  - eexists _, _. split; [vm_compute; reflexivity|]. vm_compute. reflexivity.
Qed.

(** the client has a second superior, [tb] *)
Definition ob_tb : member := mkMember
  (mkFserver "tb" (VInt 6) [("federation_entity", VDict [("federation_fetch_endpoint", VStr "tb/fetch")])] None [])
  None SrcNone [("client", [("jwks", VInt 3)])] 6 "tb/wk" "tb/fetch".

Definition ob_client : member := mkMember
  (mkFserver "client" (VInt 3) [] (Some (VList [VStr "ta"; VStr "tb"])) [])
  (Some oa_client_parts) SrcNone [] 3 "client/wk" "".

Definition ob_fed : list member := [oa_ta; oa_as; ob_client; ob_tb].

Definition ob_env : cenv :=
  mkEnv 300 ["ta"; "tb"] (library_net ex_jwks ob_fed (fun _ => 1100%Z)) (fun _ => 1100%Z) all_keys wk_url tenant_url.

Definition ob_rank (e : string) : nat := if smem e ["ta"; "tb"] then 0 else 1.

Definition ob_start : fstate := mkFed (mkState [] [] 0) [("ta", [1]); ("tb", [6])] [].

Ltac ob_members := repeat match goal with H : In _ ob_fed |- _ => destruct H as [<-|[<-|[<-|[<-|[]]]]] end.

Lemma ob_run : library_run ex_jwks ob_fed ob_env.
Proof.
  constructor.
  - reflexivity.
  - reflexivity.
  - reflexivity.
  - intros n p z Hz Hn. cbn. unfold within_skew. rewrite Hz. apply Z.ltb_lt. lia.
  - reflexivity.
  - intros m m' Hm Hm' H. ob_members; try reflexivity; discriminate H.
  - intros m m' Hm Hm' H. ob_members; try reflexivity; discriminate H.
  - intros m m' Hm Hm' H N. ob_members; try reflexivity; try discriminate H; cbn in N; contradiction N; reflexivity.
  - intros m Hm. ob_members; left; reflexivity.
  - intros m Hm. ob_members; (apply mkSound;
      [split; [discriminate|reflexivity]
      |eexists; split; [reflexivity|left; reflexivity]
      |split; intros x e H; apply dget_In in H; simpl in H;
        repeat destruct H as [H|H]; try contradiction; injection H as <- <-; apply nodupb_sound; reflexivity
      |intros x p k H Hk; apply dget_In in H; simpl in H;
        repeat destruct H as [H|H]; try contradiction; injection H as <- <-; simpl in Hk; intuition auto
      |eexists; reflexivity
      |intros p Hp; vm_compute in Hp; injection Hp as <-; vm_compute; discriminate
      |intros a Ha; simpl in Ha; repeat destruct Ha as [<-|Ha]; try destruct Ha; reflexivity
      |intros sub e v H Hv; apply dget_In in H; simpl in H; repeat destruct H as [H|H]; try contradiction;
        injection H as <- <-; vm_compute in Hv; discriminate Hv]).
  - intros m a Hm Ha.
    assert (X : exists m', In m' ob_fed /\ m_id m' = a /\ In m' [oa_ta; ob_tb] /\ m_id m <> m_id m' /\ (m_id m' = "tb" -> m = ob_client)).
    { ob_members; simpl in Ha; repeat destruct Ha as [<-|Ha]; try destruct Ha;
        first [solve [exists oa_ta; split; [simpl; tauto|]; split; [reflexivity|]; split; [simpl; tauto|]; split; [discriminate|]; discriminate]
              |solve [exists ob_tb; split; [simpl; tauto|]; split; [reflexivity|]; split; [simpl; tauto|]; split; [discriminate|]; reflexivity]]. }
    destruct X as (m' & Hm' & Ea & It & _ & Ib). exists m'. split; [exact Hm'|]. split; [exact Ea|].
    destruct It as [<-|[<-|[]]].
    + ob_members; simpl in Ha; subst a; try (exfalso; intuition discriminate); constructor;
        [apply locationb_sound; reflexivity | eexists; split; reflexivity | | intros p Hp; vm_compute in Hp; injection Hp as <-; vm_compute; discriminate
        |apply locationb_sound; reflexivity | eexists; split; reflexivity | | intros p Hp; vm_compute in Hp; injection Hp as <-; vm_compute; discriminate];
      (eexists _, _, _; split; [split; [reflexivity|discriminate]|]; split; [|split; [reflexivity|split; [reflexivity|left; reflexivity]]];
        split; [intros k Hk; simpl in Hk; repeat destruct Hk as [<-|Hk]; try destruct Hk; reflexivity|];
        split; [intros v Hv; discriminate Hv|];
        split; [intros v Hv; first [discriminate Hv | injection Hv as <-; exists ["oauth_client"]; reflexivity]|];
        intros p k v Hp; discriminate Hp).
    + rewrite (Ib eq_refl). constructor;
        [apply locationb_sound; reflexivity | eexists; split; reflexivity | | intros p Hp; vm_compute in Hp; injection Hp as <-; vm_compute; discriminate].
      eexists _, _, _; split; [split; [reflexivity|discriminate]|]; split; [|split; [reflexivity|split; [reflexivity|left; reflexivity]]];
        split; [intros k Hk; simpl in Hk; repeat destruct Hk as [<-|Hk]; try destruct Hk; reflexivity|];
        split; [intros v Hv; discriminate Hv|];
        split; [intros v Hv; first [discriminate Hv | injection Hv as <-; exists ["oauth_client"]; reflexivity]|];
        intros p k v Hp; discriminate Hp.
Qed.

Lemma ob_hierarchy : hierarchy ob_fed ob_rank.
Proof. intros m a Hm Ha. ob_members; simpl in Ha; repeat destruct Ha as [<-|Ha]; try destruct Ha; vm_compute; lia. Qed.

Lemma ob_path m rt : In m ob_fed -> path ob_fed (m_id m) rt -> rt = [] \/ rt = ["ta"] \/ rt = ["tb"] /\ m = ob_client.
Proof.
  intros Hm H. inversion H as [m0 Hm0 Hs Em Er|m0 a r Hm0 Ha Hr Em Er]; subst; [left; reflexivity|right].
  assert (m0 = m) as -> by (apply (lf_ids _ _ _ ob_run); assumption).
  assert (X : a = "ta" \/ a = "tb" /\ m = ob_client)
    by (ob_members; simpl in Ha; repeat destruct Ha as [<-|Ha]; try destruct Ha; try (left; reflexivity); right; split; reflexivity).
  assert (Y : r = []).
  { inversion Hr as [m1 Hm1 Hs1 E1 E2|m1 a1 r1 Hm1 Ha1 Hr1 E1 E2]; [reflexivity|].
    exfalso. destruct X as [->|[-> _]]; ob_members; try discriminate E1; destruct Ha1. }
  subst r. destruct X as [->|[-> ->]]; [left; reflexivity|right; split; reflexivity].
Qed.

Example C189_ex_several :
  (* the hypotheses of C189_several *)
  (library_run ex_jwks ob_fed ob_env /\ hierarchy ob_fed ob_rank /\ In oa_as ob_fed /\ In ob_client ob_fed /\
   checkable ex_jwks ob_fed ob_env "client" /\ right_keys ob_fed (f_keys ob_start) /\
   usable ex_jwks ob_fed ob_env (f_keys ob_start) "client" ["ta"] /\ usable ex_jwks ob_fed ob_env (f_keys ob_start) "client" ["tb"] /\
   upto ob_fed "ta" "as" ["ta"] /\
   (forall r, usable ex_jwks ob_fed ob_env (f_keys ob_start) "client" r -> exists md, adjusted id_order ex_jwks ob_fed ob_env "client" r md)) /\
  (* the authorization server answers, and the client refuses *)
  exists so a, answer_oauth ob_env id_order 2 ex_reg oa_op [] (asking_token ex_jwks ob_fed ob_env "client") (mkA ob_start ex_start) = (so, Ok (Some a)) /\
    an_anchor a = Some "ta" /\
    snd (parse_oauth ob_env id_order 2 "client" a ob_start) = Err SystemError.
Proof.
  assert (Hr : In ob_client ob_fed) by (simpl; auto). assert (Ht : In oa_as ob_fed) by (simpl; auto).
  assert (PA : path ob_fed "ta" []) by (apply (path_end _ oa_ta); [simpl; auto|reflexivity]).
  assert (PB : path ob_fed "tb" []) by (apply (path_end _ ob_tb); [simpl; auto|reflexivity]).
  split.
  - split; [exact ob_run|]. split; [exact ob_hierarchy|]. split; [exact Ht|]. split; [exact Hr|]. split.
    { intros rt Hp. destruct (ob_path ob_client rt Hr Hp) as [->|[->|[-> _]]]; eexists; vm_compute; reflexivity. }
    split.
    { intros m ks Hm H. ob_members; cbn in H; try discriminate H; injection H as <-; left; reflexivity. }
    split.
    { split; [apply (path_up _ ob_client); [exact Hr|left; reflexivity|exact PA]|]. split; [discriminate|].
      split; [exists [1]; reflexivity|vm_compute; reflexivity]. }
    split.
    { split; [apply (path_up _ ob_client); [exact Hr|right; left; reflexivity|exact PB]|]. split; [discriminate|].
      split; [exists [6]; reflexivity|vm_compute; reflexivity]. }
    split.
    { apply (upto_up _ _ oa_as); [exact Ht|discriminate|left; reflexivity|]. apply (upto_end _ _ oa_ta); left; reflexivity. }
    intros r (Hp & Hn & _). destruct (ob_path ob_client r Hr Hp) as [->|[->|[-> _]]]; [contradiction Hn; reflexivity| |];
      (eexists; eexists; vm_compute; reflexivity).
  - eexists _, _. split; [vm_compute; reflexivity|]. split; [reflexivity|]. vm_compute. reflexivity.
Qed.
