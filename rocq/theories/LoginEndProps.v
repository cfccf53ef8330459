(** What a finished login leaves and says (C202). *)
From Coq Require Import Lia.
From Verif Require Import PyFacts SessionFacts.
From Verif Require Import RegistrationFacts.
From Verif Require Export SessionProps.
Local Open Scope string_scope.
Local Open Scope list_scope.
Local Open Scope Z_scope.

(** ** Vocabulary *)

(** the client takes its provider to be [i] *)
Definition provider (C : conf) (i : val) : Prop :=
  dget "issuer" (cf_info C) = Some i \/ (dget "issuer" (cf_info C) = None /\ i = cf_issuer C).

(** the provider says that logout needs session ids *)
Definition asks_sid (C : conf) : Prop :=
  exists v, truthy v = true /\
    (dget "backchannel_logout_session_required" (cf_info C) = Some v \/
     (dget "backchannel_logout_session_required" (cf_info C) = None /\
      dget "frontchannel_logout_session_required" (cf_info C) = Some v)).

(** ** Lemmas *)
Lemma asks_sid_iff C : sid_support C = true <-> asks_sid C.
Proof.
  unfold sid_support, asks_sid, opt_true. split.
  - destruct (dget "backchannel_logout_session_required" (cf_info C)) as [v|] eqn:E; [eauto|].
    destruct (dget "frontchannel_logout_session_required" (cf_info C)) as [v|] eqn:F; [eauto|discriminate].
  - intros (v & T & [->|[-> ->]]); exact T.
Qed.

Lemma provider_now C : provider C (issuer_now C).
Proof. unfold provider, issuer_now. destruct (dget "issuer" (cf_info C)); auto. Qed.

Lemma provider_is C i : provider C i -> i = issuer_now C.
Proof. unfold provider, issuer_now. intros [->|[-> ->]]; reflexivity. Qed.

Definition bound (v : option val) (k : string) (m : dict string) : dict string :=
  match v with Some (VStr x) => dset x k m | _ => m end.

Lemma bind_val_map v k s s' : bind_val v k s = (s', Ok tt) -> c_map s' = bound (Some v) k (c_map s).
Proof. unfold bind_val. destruct v; cbn [hashable]; intros H; inversion H; reflexivity. Qed.

Lemma finalize_bound L E raw c s s' r t :
  finalize L E raw c s = (s', Ok r) -> dget "id_token" r = Some (VDict t) -> t <> [] ->
  exists k, dget "state" r = Some (VStr k) /\
    c_map s' = bound (dget "sub" t) k (if sid_support (v_conf E) then bound (dget "sid" t) k (c_map s) else c_map s).
Proof.
  intros H Hi Nt. assert (T : truthy (VDict t) = true) by (destruct t; [contradiction|reflexivity]). unfold finalize in H.
  apply bind_inv in H. destruct H as [s1 [a [H0 H]]].
  apply bind_inv in H. destruct H as [s2 [v [H1 H]]]. apply lift_inv in H1. destruct H1 as [-> H1]. apply dindex_ok in H1.
  destruct (dmem "error" a) eqn:Ee.
  { apply bind_inv in H. destruct H as [s2 [e [H2 H]]]. injection H as _ <-. discriminate Hi. }
  apply bind_inv in H. destruct H as [s2 [k [H2 H]]]. apply lift_inv in H2. destruct H2 as [-> H2].
  destruct v; try discriminate H2. injection H2 as ->.
  apply bind_inv in H. destruct H as [s3 [[token idt] [H3 H]]].
  apply bind_inv in H. destruct H as [s4 [info [H4 H]]].
  assert (E4 : s4 = s3).
  { destruct (cf_userinfo (v_conf E) && truthy token).
    - pose proof (user_info_keeps L E k token s3) as X. rewrite H4 in X. exact X.
    - destruct (truthy idt).
      + apply bind_inv in H4. destruct H4 as [s5 [t' [H5 H4]]]. apply lift_inv in H5. destruct H5 as [-> _].
        injection H4 as H4 _. congruence.
      + injection H4 as H4 _. congruence. }
  subst s4.
  apply bind_inv in H. destruct H as [s5 [[] [H5 H]]].
  apply bind_inv in H. destruct H as [s6 [who [H6 H]]].
  apply bind_inv in H. destruct H as [s7 [[] [H7 H]]]. injection H as <- <-.
  cbn in Hi. injection Hi as ->. rewrite T in H5, H6. rewrite Bool.andb_true_r in H5.
  exists k. split; [reflexivity|].
  apply bind_inv in H6. destruct H6 as [s8 [t' [H8 H6]]]. apply lift_inv in H8. destruct H8 as [-> H8]. injection H8 as <-.
  apply lift_inv in H6. destruct H6 as [-> H6]. apply dindex_ok in H6. rewrite H6. rewrite (bind_val_map _ _ _ _ H7). f_equal.
  assert (M1 : c_map s1 = c_map s).
  { destruct (finalize_auth_inv _ _ _ _ _ _ H0 Ee) as (rec & k' & d & _ & _ & _ & _ & _ & _ & ->). reflexivity. }
  assert (M3 : c_map s3 = c_map s).
  { destruct (access_inv _ _ _ _ _ _ _ _ _ (or_intror (ex_intro _ a (conj eq_refl H1))) H3) as [[-> _]|(d & G & _)]; [exact M1|].
    destruct (get_tokens_inv _ _ _ _ _ _ G) as (q1 & q2 & q3 & q4 & _ & _ & _ & _ & _ & ->). exact M1. }
  destruct (sid_support (v_conf E)).
  - apply bind_inv in H5. destruct H5 as [s8 [t' [H8 H5]]]. apply lift_inv in H8. destruct H8 as [-> H8]. injection H8 as <-.
    destruct (dget "sid" t) as [x|]; [rewrite (bind_val_map _ _ _ _ H5), M3; reflexivity|].
    injection H5 as <-. exact M3.
  - injection H5 as <-. exact M3.
Qed.

(** ** C202: what a finished login leaves and says *)

(** A login is finished only where it was started: what it has stored as its issuer is the provider of the client. *)
Theorem C202_issuer L E raw c s s' r :
  keeps_state L -> finalize L E raw c s = (s', Ok r) -> dmem "error" r = false ->
  exists k i v, dget "state" raw = Some (VStr k) /\ dget "state" r = Some (VStr k) /\ provider (v_conf E) i /\ py_eqb v i = true /\
    (holds k "iss" s = Some v \/ (holds k "iss" s = None /\ v = VNull)).
Proof.
  intros KS H Hr. destruct (finalize_inv _ _ _ _ _ _ _ H) as (s1 & a & A & [(_ & _ & v & e & _ & _ & ->)|(Ee & k & s2 & tk & i & u & s3 & Hk & _ & _ & _ & ->)]).
  - discriminate Hr.
  - destruct (finalize_auth_inv _ _ _ _ _ _ A Ee) as (rec & k' & d & _ & (o & _ & P) & _ & Sd & P2 & St & _).
    assert (Ka : dget "state" a = dget "state" d).
    { unfold stamp in St. destruct (dget "expires_in" d) as [x|]; [|injection St as ->; reflexivity].
      destruct (l_int L x) as [z|]; [|discriminate St]. injection St as <-. apply dget_dset_other. discriminate. }
    assert (k' = k) as -> by congruence.
    exists k, (issuer_now (v_conf E)), (match holds k "iss" s with Some i => i | None => VNull end).
    split; [rewrite <- (KS _ _ _ P); exact Sd|]. split; [reflexivity|]. split; [apply provider_now|]. split; [exact P2|].
    destruct (holds k "iss" s); auto.
Qed.
Print Assumptions C202_issuer.

(** An answer to a login that was started with another provider is turned away, and nothing is stored. *)
Theorem C202_other_issuer L E raw c s k rec v i d :
  keeps_state L -> dget "state" raw = Some (VStr k) -> dget k (c_db s) = Some rec -> dget "iss" rec = Some v ->
  l_parse L "authorization" (Some rec) raw = Ok d -> dmem "error" d = false ->
  provider (v_conf E) i -> py_eqb v i = false -> finalize L E raw c s = (s, Err ValueError).
Proof.
  intros KS Sr Hk Hv P Ed Pi N. apply provider_is in Pi. subst i.
  unfold finalize, finalize_auth, claimed, mbind. rewrite Sr. unfold of_key at 1. rewrite Hk. unfold lift at 1. rewrite P, Ed.
  rewrite (KS _ _ _ P), Sr. cbn [key_of lift]. rewrite get_set_eq. rewrite Hk.
  unfold restrict. rewrite (dget_filter_key (fun x => smem x ["iss"]) "iss" rec).
  change (smem "iss" ["iss"]) with true. cbv iota zeta. rewrite Hv, N. reflexivity.
Qed.
Print Assumptions C202_other_issuer.

(** Without a userinfo endpoint the user information has the claims of the ID token that are about users or that are not claims of ID tokens,
    and nothing else. *)
Theorem C202_userinfo L E raw c s s' r t u :
  finalize L E raw c s = (s', Ok r) -> cf_userinfo (v_conf E) = false -> NoDup (dkeys t) -> t <> [] ->
  dget "id_token" r = Some (VDict t) -> dget "userinfo" r = Some (VDict u) ->
  forall x v, dget x u = Some v <-> dget x t = Some v /\ (In x (l_user_claims L) \/ ~ In x (l_token_claims L)).
Proof.
  intros H Hu Nd Nt Hi Hui x v. assert (T : truthy (VDict t) = true) by (destruct t; [contradiction|reflexivity]).
  assert (X : u = userinfo_in_id_token L t).
  { unfold finalize in H.
    apply bind_inv in H. destruct H as [s1 [a [_ H]]].
    apply bind_inv in H. destruct H as [s2 [w [_ H]]].
    destruct (dmem "error" a).
    { apply bind_inv in H. destruct H as [s3 [e [_ H]]]. injection H as _ <-. discriminate Hi. }
    apply bind_inv in H. destruct H as [s3 [k [_ H]]].
    apply bind_inv in H. destruct H as [s4 [[token idt] [_ H]]].
    apply bind_inv in H. destruct H as [s5 [info [H4 H]]].
    apply bind_inv in H. destruct H as [s6 [u1 [_ H]]].
    apply bind_inv in H. destruct H as [s7 [who [_ H]]].
    apply bind_inv in H. destruct H as [s8 [u2 [_ H]]]. injection H as _ <-.
    cbn in Hi, Hui. injection Hi as ->. injection Hui as ->. rewrite Hu, T in H4. cbn in H4. injection H4 as _ <-. reflexivity. }
  subst u. unfold userinfo_in_id_token. rewrite dget_dupdate.
  2: { clear -Nd. induction t as [|[k w] t IH]; [constructor|]. inversion Nd as [|? ? N1 N2]; subst. cbn [filter fst].
       destruct (negb (smem k (l_token_claims L))); [|exact (IH N2)]. cbn [dkeys map fst]. constructor; [|exact (IH N2)].
       intros I. apply N1. apply in_map_iff in I. destruct I as (e & <- & I). apply filter_In in I. apply in_map. exact (proj1 I). }
  rewrite (dget_filter_key (fun y => negb (smem y (l_token_claims L))) x t), (dget_filter_key (fun y => smem y (l_user_claims L)) x t).
  destruct (smem x (l_token_claims L)) eqn:E1; destruct (smem x (l_user_claims L)) eqn:E2; cbn [negb].
  - apply smem_In in E1, E2. tauto.
  - apply smem_In in E1. assert (~ In x (l_user_claims L)) by (intros I; apply smem_In in I; congruence). split; [discriminate|tauto].
  - apply smem_In in E2. destruct (dget x t); intuition congruence.
  - assert (~ In x (l_token_claims L)) by (intros I; apply smem_In in I; congruence). destruct (dget x t); intuition congruence.
Qed.
Print Assumptions C202_userinfo.

(** A finished login with an ID token can be found by the subject and, if the provider says that logout needs session ids, by the session id
    in the token; all other bindings are what they were. *)
Theorem C202_bound L E raw c s s' r t :
  finalize L E raw c s = (s', Ok r) -> dget "id_token" r = Some (VDict t) -> t <> [] ->
  exists k, dget "state" r = Some (VStr k) /\ forall y,
    (dget "sub" t = Some (VStr y) -> dget y (c_map s') = Some k) /\
    (asks_sid (v_conf E) -> dget "sid" t = Some (VStr y) -> dget y (c_map s') = Some k) /\
    (dget "sub" t <> Some (VStr y) -> (asks_sid (v_conf E) -> dget "sid" t <> Some (VStr y)) -> dget y (c_map s') = dget y (c_map s)).
Proof.
  intros H Hi Nt. destruct (finalize_bound _ _ _ _ _ _ _ _ H Hi Nt) as (k & Hk & M). exists k. split; [exact Hk|]. intros y. rewrite M.
  assert (B : forall v m, v = Some (VStr y) -> dget y (bound v k m) = Some k) by (intros v m ->; apply dget_dset_same).
  assert (K : forall v m, dget y m = Some k -> dget y (bound v k m) = Some k).
  { intros v m D. unfold bound. destruct v as [[]|]; try exact D. destruct (string_dec y s0) as [->|N]; [apply dget_dset_same|].
    rewrite dget_dset_other by congruence. exact D. }
  assert (O : forall v m, v <> Some (VStr y) -> dget y (bound v k m) = dget y m).
  { intros v m N. unfold bound. destruct v as [[]|]; try reflexivity. apply dget_dset_other. congruence. }
  split; [|split].
  - intros D. apply B. exact D.
  - intros A D. apply asks_sid_iff in A. rewrite A. apply K, B. exact D.
  - intros N1 N2. rewrite O by exact N1. destruct (sid_support (v_conf E)) eqn:A; [|reflexivity].
    apply O. apply N2. apply asks_sid_iff. exact A.
Qed.
Print Assumptions C202_bound.

(** a provider with session ids that says so for the front channel only *)
Definition sid_server (svc : string) (q : dict val) : res (dict val) :=
  if String.eqb svc "accesstoken" then
    Ok [("access_token", VStr "t"); (marker, VDict [("sub", VStr "alice"); ("exp", VInt 100); ("sid", VStr "sid1"); ("name", VStr "Alice")])]
  else server svc q.
Definition sid_rp : conf :=
  mkConf (VStr "https://op") [("issuer", VStr "https://op"); ("frontchannel_logout_session_required", VBool true)]
    (VList [VStr "code"]) (VList []) VNull true [] (VStr "https://rp") VNull false true.
Definition other_rp : conf :=
  mkConf (VStr "https://op") [("issuer", VStr "https://other")] (VList [VStr "code"]) (VList []) VNull true [] (VStr "https://rp") VNull false true.

Example C202_ex :
  let raw := [("state", VStr "s1"); ("code", VStr "c")] in
  (exists s' r u, finalize plain (mkEnvS sid_rp sid_server 5) raw false (asked_for "code") = (s', Ok r) /\ dmem "error" r = false /\
     dget "userinfo" r = Some (VDict u) /\ dget "name" u = Some (VStr "Alice") /\ dget "exp" u = None /\
     dget "sid1" (c_map s') = Some "s1" /\ dget "alice" (c_map s') = Some "s1") /\
  keeps_state plain /\ asks_sid sid_rp /\ provider sid_rp (VStr "https://op") /\ provider other_rp (VStr "https://other") /\
  finalize plain (mkEnvS other_rp sid_server 5) raw false (asked_for "code") = (asked_for "code", Err ValueError).
Proof.
  split; [eexists; eexists; eexists; split; [vm_compute; reflexivity|]; repeat split|]. split; [exact plain_keeps|].
  split; [exists (VBool true); split; [reflexivity|right; split; reflexivity]|]. split; [left; reflexivity|]. split; [left; reflexivity|].
  vm_compute. reflexivity.
Qed.
