(** Who is answered when a client is registered explicitly (C191). *)
From Verif Require Import PyFacts ExampleKit CollectorProps FederationProps VerifierSpec.
From Verif Require Import ClientFacts ClientProps RegistrationFacts RegistrationProps RpSpec RpFacts RpProps.
From Verif Require Import LiveFacts LiveExample LiveRegisterProps LiveAnswerProps OauthModel OauthProps ExplicitProps.

(** the statements collected for a request: those along the chains up from its subject, and the last ones of the chains *)
Definition seen_for (E : cenv) (fuel : nat) (t : token) (sub : string) (s : fstate) (x : key * stmt) : Prop :=
  exists chains leaf ch,
    (collected E fuel sub s chains leaf \/ snd (collect_trust_chains_signed E fuel sub t "" [] s) = Ok (chains, Some leaf)) /\
    In ch chains /\ In x (jws (ch ++ [leaf])).

(** full statement: who is answered is who the trust chain was found for *)
Definition C191_full (answer : cenv -> iter_order -> nat -> reg_env -> op -> list string -> token -> M astate (option RpModel.answer)) : Prop :=
  forall E O fuel R P prio k p s s' a,
  answer E O fuel R P prio (TJws k p) s = (s', Ok (Some a)) -> s_sub (an_claims a) = s_sub p.

(** [gone] is no member of the federation of C189, but its keys are known: it was one when a chain of it was verified. It sends a
    statement of its own about [client], which is one. *)
Definition ow_request : token :=
  TJws 7 (mkStmt "gone" "client" (Some 4700%Z) (Some [7])
    (Some [("oauth_client", [("redirect_uris", VList [VStr "https://rp/cb"]); ("jwks", VInt 7); ("response_types", VList [VStr "code"])])])
    None None (Some ["ta"])).
Definition ow_server : astate := mkA (mkFed (mkState [] [] 0) [("ta", [1]); ("gone", [7])] []) ex_start.

Theorem C191_oauth_refuted : ~ C191_full answer_oauth.
Proof.
  intros H.
  assert (G : exists s' a, answer_oauth oa_env id_order 2 ex_reg oa_op [] ow_request ow_server = (s', Ok (Some a)) /\ s_sub (an_claims a) = "gone").
  { eexists _, _. split; vm_compute; reflexivity. }
  destruct G as (s' & a & G & X). unfold ow_request in G. apply H in G. cbn [s_sub] in G. rewrite X in G. discriminate G.
Qed.
Print Assumptions C191_oauth_refuted.

(** with OpenID Connect the keys need not even be known *)
Definition ow_oidc : token :=
  TJws 7 (mkStmt "gone" "rp" (Some 4700%Z) (Some [7]) (Some [("openid_relying_party", v_published)]) None None None).

Theorem C191_oidc_refuted : ~ C191_full answer_oidc.
Proof.
  intros H.
  assert (G : exists s' a, answer_oidc v_env id_order 2 ex_reg v_op [] ow_oidc v_server = (s', Ok (Some a)) /\ s_sub (an_claims a) = "gone").
  { eexists _, _. split; vm_compute; reflexivity. }
  destruct G as (s' & a & G & X). unfold ow_oidc in G. apply H in G. cbn [s_sub] in G. rewrite X in G. discriminate G.
Qed.
Print Assumptions C191_oidc_refuted.

(** Missing: with OAuth 2 somebody who is not the subject of the request is answered if their keys are known from before, or if they were
    given in one of the statements collected for the subject. *)
Theorem C191_oauth_partial : forall E O fuel R P prio k p s s' a,
  answer_oauth E O fuel R P prio (TJws k p) s = (s', Ok (Some a)) ->
  s_sub (an_claims a) = s_sub p \/
  VerifierSpec.holds (f_keys (a_fed s)) (s_sub (an_claims a)) k \/
  exists k0 p0 jw, seen_for E fuel (TJws k p) (s_sub p) (a_fed s) (k0, p0) /\ p0 <> p /\
    s_sub p0 = s_sub (an_claims a) /\ s_jwks p0 = Some jw /\ In k jw.
Proof.
  intros E O fuel R P prio k p s s' a H.
  assert (Ei : s_sub (an_claims a) = s_iss p).
  { revert H. unfold answer_oauth. rewrite ClientProps.opened.
    destruct (verify_self_signed E _ (Some (TJws k p))) as [[t' p']|e] eqn:EV; [|discriminate].
    assert (p' = p).
    { apply verify_self_signed_ok in EV. destruct EV as [[= <-] (k' & ks & Et & _)]. congruence. }
    subst p'. cbn [snd]. unfold mbind at 1, lift at 1. destruct (metadata_of p) as [m|]; [|discriminate].
    unfold mbind at 1, lift at 1. destruct (some_of _ _) as [ty|]; [|discriminate].
    unfold mbind at 1. destruct (on_fed _ s) as [s2 [r|]]; [|discriminate].
    unfold mbind at 1. destruct (on_fed _ s2) as [s3 [tcs|]]; [|discriminate].
    unfold mbind at 1, lift at 1. destruct (apply_policies O tcs) as [cs|]; [|discriminate].
    unfold mbind at 1, lift at 1. destruct (pick_trust_chain prio cs) as [c|]; [|discriminate].
    unfold mbind at 1, lift at 1. destruct (chain_metadata c ty) as [md|]; [|discriminate].
    unfold mbind at 1. destruct (on_reg _ s3) as [s4 [[|args]|]]; try discriminate.
    unfold ret. intros [= _ <-]. reflexivity. }
  destruct (answered_registered _ _ _ _ _ _ _ _ _ _ H) as [args H1].
  destruct (C83_holder_oauth E O fuel R prio k p s s' args H1) as (l & T & HL). rewrite Ei.
  inversion T as [e k' Hh Ee Ek|k0 p0 jw k' Ip Tp EJ Ik Es Ek]; subst.
  - right. left. exact Hh.
  - destruct (string_dec (s_sub p0) (s_sub p)) as [Q|N]; [left; congruence|].
    right. right. exists k0, p0, jw. split; [exact (HL _ Ip)|]. split; [congruence|]. auto.
Qed.
Print Assumptions C191_oauth_partial.

(** Missing: with OpenID Connect a trust chain is found for the subject, but nothing ties whoever is answered to it. *)
Theorem C191_oidc_partial : forall E O fuel R P prio k p s s' a,
  answer_oidc E O fuel R P prio (TJws k p) s = (s', Ok (Some a)) ->
  s_sub (an_claims a) = s_iss p /\ self_signed (TJws k p) p /\
  exists f1 cs c, get_verified_trust_chains E O fuel (s_sub p) (a_fed s) = (f1, Ok cs) /\ In c cs /\ an_anchor a = Some (ch_anchor c).
Proof.
  intros E O fuel R P prio k p s s' a H.
  assert (SS : self_signed (TJws k p) p).
  { revert H. unfold answer_oidc. rewrite ClientProps.opened.
    destruct (verify_self_signed E _ (Some (TJws k p))) as [[t' p']|e] eqn:EV; [|discriminate]. intros _.
    apply verify_self_signed_ok in EV. destruct EV as [[= <-] SS]. assert (X := SS). destruct X as (k' & ks & Et & _). replace p with p' by congruence. replace p with p' in SS by congruence. exact SS. }
  destruct (answer_cases _ _ _ _ _ _ _ _ _ _ H) as [[_ [x X]]|(k' & p' & f1 & rc & [= <- <-] & EG & [[_ [x X]]|X])]; [discriminate X..|].
  destruct X as (cs & c & m & ty & md & r2 & o & -> & Ic & _ & _ & _ & _ & Y). destruct o as [|args]; [discriminate Y|].
  destruct Y as (a' & [= <-] & Y1 & Y2). split; [exact Y2|]. split; [exact SS|]. exists f1, cs, c. auto.
Qed.
Print Assumptions C191_oidc_partial.

(** [gone] gets a client; it does not if its keys are not known; [client] is answered in its own name *)
Example C191_ex :
  (exists s' a ci, answer_oauth oa_env id_order 2 ex_reg oa_op [] ow_request ow_server = (s', Ok (Some a)) /\ s_sub (an_claims a) = "gone" /\
     dget "client1" (r_cdb (a_reg s')) = Some ci /\ dget "redirect_uris" ci <> None /\ VerifierSpec.holds (f_keys (a_fed ow_server)) "gone" 7) /\
  (forall s' a, answer_oauth oa_env id_order 2 ex_reg oa_op [] ow_request oa_server <> (s', Ok (Some a))) /\
  (exists s' a, answer_oauth oa_env id_order 2 ex_reg oa_op [] (asking_token ex_jwks oa_fed oa_env "client") oa_server = (s', Ok (Some a)) /\
     s_sub (an_claims a) = "client") /\
  (exists s' a, answer_oidc v_env id_order 2 ex_reg v_op [] ow_oidc v_server = (s', Ok (Some a)) /\ s_sub (an_claims a) = "gone" /\ an_anchor a = Some "ta").
Proof.
  split; [|split; [|split]].
  - eexists _, _, _. split; [vm_compute; reflexivity|]. split; [reflexivity|]. split; [vm_compute; reflexivity|].
    split; [discriminate|]. exists [7]. split; [reflexivity|left; reflexivity].
  - intros s' a H. vm_compute in H. discriminate H.
  - eexists _, _. split; [vm_compute; reflexivity|]. reflexivity.
  - eexists _, _. split; [vm_compute; reflexivity|]. split; reflexivity.
Qed.
