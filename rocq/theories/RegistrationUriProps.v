(** The URIs of a registered client, other than redirect URIs (C108). *)
From Verif Require Import PyFacts RegistrationFacts RegistrationProps.

Section Uris.
Context (R : reg_env).

(** how a request URI is stored: split at the fragment, if there is one *)
Definition request_uri_as (u v : val) : Prop :=
  exists s, u = VStr s /\ u_query (rg_parse R s) = "" /\
    v = (if String.eqb (u_fragment (rg_parse R s)) "" then VList [VStr s; VStr ""] else rg_hashsplit R s).

Lemma request_uris_ok l v : verify_request_uris R l = Ok (Done v) -> exists vs, v = VList vs /\ Forall2 request_uri_as l vs.
Proof.
  unfold verify_request_uris.
  cut (forall pre vs, Forall2 request_uri_as pre vs ->
    forall l, foldM (fun acc u =>
           match acc with
           | Failed => Ok Failed
           | Done (VList l) =>
               match u with
               | VStr s => let p := rg_parse R s in
                           Ok (if negb (String.eqb (u_query p) "") then Failed
                               else if negb (String.eqb (u_fragment p) "") then Done (VList (l ++ [rg_hashsplit R s]))
                               else Done (VList (l ++ [VList [VStr s; VStr ""]])))
               | _ => Err AttributeError
               end
           | Done _ => Err TypeError
           end) l (Done (VList vs)) = Ok (Done v) -> exists vs', v = VList vs' /\ Forall2 request_uri_as (pre ++ l) vs').
  { intros G H. exact (G [] [] (Forall2_nil _) l H). }
  intros pre vs F l'. revert pre vs F. induction l' as [|u l' IH]; intros pre vs F H.
  - injection H as <-. exists vs. rewrite app_nil_r. auto.
  - cbn [foldM] in H. destruct u as [| | |s| |]; try discriminate H. cbn [bind] in H.
    assert (K : forall acc l, foldM (fun acc u =>
           match acc with
           | Failed => Ok Failed
           | Done (VList l) =>
               match u with
               | VStr s => let p := rg_parse R s in
                           Ok (if negb (String.eqb (u_query p) "") then Failed
                               else if negb (String.eqb (u_fragment p) "") then Done (VList (l ++ [rg_hashsplit R s]))
                               else Done (VList (l ++ [VList [VStr s; VStr ""]])))
               | _ => Err AttributeError
               end
           | Done _ => Err TypeError
           end) l acc = Ok (Done v) -> acc <> Failed).
    { clear. intros acc l. revert acc. induction l as [|u l IH]; intros acc H ->; [discriminate H|]. exact (IH Failed H eq_refl). }
    destruct (String.eqb_spec (u_query (rg_parse R s)) "") as [Q|_]; cbn [negb] in H; [|destruct (K _ _ H eq_refl)].
    replace (pre ++ VStr s :: l') with ((pre ++ [VStr s]) ++ l') by (rewrite <- app_assoc; reflexivity).
    destruct (String.eqb (u_fragment (rg_parse R s)) "") eqn:Fr; cbn [negb] in H; refine (IH _ _ _ H);
      (apply Forall2_app; [exact F|]; constructor; [|constructor]); exists s; (split; [reflexivity|]); (split; [exact Q|]); rewrite Fr; reflexivity.
Qed.

Definition other_uris : list string := ["policy_uri"; "logo_uri"; "tos_uri"].

Lemma other_uris_ok request ci ci' k v :
  verify_other_uris R request ci = Ok (Done ci') -> In k other_uris -> dget k request = Some v ->
  dget k ci' = Some v /\ exists rs, dget "redirect_uris" ci' = Some rs /\ rg_verify_url R v rs = true.
Proof.
  unfold verify_other_uris. set (f := fun (acc : outcome (dict val)) item => _). intros H I D.
  assert (B : forall l, foldM f l Failed = Ok Failed).
  { induction l as [|x l IH]; [reflexivity|exact IH]. }
  assert (S : forall l acc o, foldM f l (Done acc) = Ok (Done o) -> ~ In "redirect_uris" l ->
            dget "redirect_uris" o = dget "redirect_uris" acc /\
            (forall x, ~ In x l -> dget x o = dget x acc) /\
            (NoDup l -> In k l -> dget k o = Some v /\ exists rs, dget "redirect_uris" o = Some rs /\ rg_verify_url R v rs = true)).
  { induction l as [|x l IH]; intros acc o Ho N.
    - injection Ho as <-. split; [reflexivity|]. split; [reflexivity|intros _ []].
    - cbn [foldM] in Ho. unfold f at 1 in Ho.
      assert (Nx : "redirect_uris" <> x) by (intros <-; apply N; left; reflexivity).
      assert (Nl : ~ In "redirect_uris" l) by (intros J; apply N; right; exact J).
      destruct (dget x request) as [w|] eqn:Dx.
      + unfold dindex in Ho. destruct (dget "redirect_uris" acc) as [rs|] eqn:Dr; [|discriminate Ho]. cbn [bind] in Ho.
        destruct (rg_verify_url R w rs) eqn:V; [|rewrite B in Ho; discriminate Ho].
        destruct (IH _ _ Ho Nl) as (E1 & E2 & E3). rewrite dget_dset_other in E1 by exact Nx. split; [rewrite E1; exact Dr|].
        split.
        * intros y Ny. rewrite E2 by (intros J; apply Ny; right; exact J).
          apply dget_dset_other. intros ->. apply Ny. left. reflexivity.
        * intros ND Ik. inversion ND as [|? ? NI ND']; subst. destruct Ik as [<-|Ik]; [|exact (E3 ND' Ik)].
          rewrite D in Dx. injection Dx as <-. split; [rewrite (E2 _ NI); apply dget_dset_same|].
          exists rs. rewrite E1. split; [exact Dr|exact V].
      + destruct (IH _ _ Ho Nl) as (E1 & E2 & E3). split; [exact E1|]. split.
        * intros y Ny. apply E2. intros J. apply Ny. right. exact J.
        * intros ND Ik. inversion ND as [|? ? NI ND']; subst. destruct Ik as [<-|Ik]; [congruence|exact (E3 ND' Ik)]. }
  destruct (S _ _ _ H) as (_ & _ & G).
  - simpl. intuition discriminate.
  - apply G; [|exact I]. repeat constructor; simpl; intuition discriminate.
Qed.

(** the URIs among the claims of a client that client_info accepted *)
Lemma client_info_uris request ci0 ci : client_info R request ci0 = Ok (Done ci) ->
  (forall l, dget "request_uris" request = Some (VList l) ->
     exists vs, dget "request_uris" ci = Some (VList vs) /\ Forall2 request_uri_as l vs) /\
  (forall u, dget "post_logout_redirect_uri" request = Some (VStr u) -> u <> "" ->
     u_fragment (rg_parse R u) = "" /\
     dget "post_logout_redirect_uri" ci = Some (VList [VStr (fst (rg_split R u)); snd (rg_split R u)])) /\
  (forall k v, In k other_uris -> dget k request = Some v ->
     dget k ci = Some v /\ exists rs, dget "redirect_uris" ci = Some rs /\ rg_verify_url R v rs = true).
Proof.
  unfold client_info. match goal with |- context [fold_left ?f request ci0] => set (b := fold_left f request ci0) end. intros H.
  match type of H with (let* r := ?x in _) = _ => destruct x as [[|c1]|] eqn:E1; try discriminate H end. cbn [bind] in H.
  match type of H with (let* r := ?x in _) = _ => destruct x as [[|c2]|] eqn:E2; try discriminate H end. cbn [bind] in H.
  match type of H with (let* r := ?x in _) = _ => destruct x as [[|c3]|] eqn:E3; try discriminate H end. cbn [bind] in H.
  destruct (verify_other_uris R request c3) as [[|c4]|] eqn:E4; try discriminate H. cbn [bind] in H.
  destruct (check_algs R request c4) as [c5|] eqn:E5; [|discriminate H]. cbn [bind] in H. injection H as <-.
  assert (A : forall k, ~ In k ["id_token_signed_response_alg"; "userinfo_signed_response_alg"] -> dget k c5 = dget k c4)
    by (intros k N; exact (check_algs_get _ _ _ _ k E5 N)).
  assert (T4 : forall k, ~ In k other_uris -> dget k c4 = dget k c3)
    by (intros k N; exact (other_uris_get _ _ _ _ k E4 N)).
  split; [|split].
  - intros l D. rewrite D in E3. destruct (verify_request_uris R l) as [[|v]|] eqn:V; try discriminate E3.
    cbn [bind] in E3. injection E3 as <-. apply request_uris_ok in V. destruct V as (vs & -> & F). exists vs. split; [|exact F].
    rewrite A, T4 by (simpl; intuition discriminate). apply dget_dset_same.
  - intros u D Nu. unfold field in E1. rewrite D in E1.
    assert (T : truthy (VStr u) = true) by (destruct u; [contradiction Nu; reflexivity|reflexivity]). rewrite T in E1.
    destruct (String.eqb_spec (u_fragment (rg_parse R u)) "") as [Q|_]; cbn [negb] in E1; [|discriminate E1].
    split; [exact Q|]. rewrite A, T4 by (simpl; intuition discriminate).
    assert (T3 : dget "post_logout_redirect_uri" c3 = dget "post_logout_redirect_uri" c2).
    { destruct (dget "request_uris" request) as [[]|]; try discriminate E3; [|injection E3 as <-; reflexivity].
      destruct (verify_request_uris R l) as [[|v]|]; try discriminate E3. cbn [bind] in E3. injection E3 as <-.
      apply dget_dset_other. discriminate. }
    assert (T2 : dget "post_logout_redirect_uri" c2 = dget "post_logout_redirect_uri" c1).
    { destruct (dmem "redirect_uris" request); [|injection E2 as <-; reflexivity].
      destruct (verify_redirect_uris R request) as [[|v]|]; try discriminate E2. cbn [bind] in E2. injection E2 as <-.
      apply dget_dset_other. discriminate. }
    rewrite T3, T2. destruct (rg_split R u) as [x q]. injection E1 as <-. apply dget_dset_same.
  - intros k v I D. destruct (other_uris_ok _ _ _ _ _ E4 I D) as (G & rs & G1 & G2). split.
    + rewrite A; [exact G|]. simpl in I. simpl. intuition (subst; discriminate).
    + exists rs. split; [|exact G2]. rewrite A; [exact G1|]. simpl. intuition discriminate.
Qed.
End Uris.

(** ** C108 *)

(** a client is only registered with request URIs without a query, a post logout redirect URI without a fragment, and
    policy, logo and terms of service URIs that fit its redirect URIs; they are stored as they were asked for *)
Theorem C108_uris_checked : forall O R request new_id set_secret reserved s s' args,
  step2_process_request O R request new_id set_secret reserved s = (s', Ok (Done args)) ->
  NoDup (dkeys request) -> passed_on R "client_id" ->
  exists id ci, client_of R new_id reserved s request id /\ dget id (r_cdb s') = Some ci /\
  (forall l, dget "request_uris" request = Some (VList l) -> rg_blank R (VList l) = false -> passed_on R "request_uris" ->
     exists vs, dget "request_uris" ci = Some (VList vs) /\ Forall2 (request_uri_as R) l vs) /\
  (forall u, dget "post_logout_redirect_uri" request = Some (VStr u) -> u <> "" -> rg_blank R (VStr u) = false ->
     passed_on R "post_logout_redirect_uri" ->
     u_fragment (rg_parse R u) = "" /\
     dget "post_logout_redirect_uri" ci = Some (VList [VStr (fst (rg_split R u)); snd (rg_split R u)])) /\
  (forall k v, In k other_uris -> dget k request = Some v -> rg_blank R v = false -> passed_on R k ->
     dget k ci = Some v /\ exists rs, dget "redirect_uris" ci = Some rs /\ rg_verify_url R v rs = true).
Proof.
  intros O R request new_id set_secret reserved s s' args H N PC.
  destruct (step2_done _ _ _ _ _ _ _ _ _ H) as (req & id & req' & ci & kj & A & ID & C & K & -> & _).
  destruct (accepted_get _ _ _ _ A N) as [NR G].
  assert (P : forall k v, dget k request = Some v -> rg_blank R v = false -> passed_on R k -> k <> "client_id" -> dget k req' = Some v).
  { intros k v D B Pk Nk. rewrite (identified_get _ _ _ _ _ _ _ _ ID Nk). specialize (G k).
    rewrite D, B in G. unfold passed_on in Pk. rewrite Pk in G. exact G. }
  exists id, ci. split; [exact (identified_client _ _ _ _ _ _ _ _ _ N PC A ID)|]. split; [apply dget_dset_same|].
  destruct (client_info_uris _ _ _ _ C) as (U1 & U2 & U3). split; [|split].
  - intros l D B Pk. apply U1. apply (P _ _ D B Pk). discriminate.
  - intros u D Nu B Pk. apply (U2 u); [|exact Nu]. apply (P _ _ D B Pk). discriminate.
  - intros k v I D B Pk. apply (U3 k v I). apply (P _ _ D B Pk). simpl in I. intros ->. intuition discriminate.
Qed.
Print Assumptions C108_uris_checked.

(** [ex_reg] with a parser that sees a query in one URI and a fragment in another, and logos at rp only *)
Definition uri_reg : reg_env :=
  mkRegEnv ex_sources
    (fun u => if String.eqb u "https://rp/ro?x" then mkUrl "https" "rp" "x" ""
              else if String.eqb u "https://rp/ro#h" then mkUrl "https" "rp" "" "h" else mkUrl "https" "rp" "" "")
    (fun u => (u, VNull)) (fun v _ => py_eqb v (VStr "https://rp/logo")) (fun u => VList [VStr "https://rp/ro"; VStr "h"])
    (rg_schema ex_reg) (rg_blank ex_reg) (rg_preferred ex_reg) (rg_provider ex_reg) (rg_listed ex_reg) (rg_response ex_reg)
    (rg_comb ex_reg) (rg_signing ex_reg) (rg_newid ex_reg) (rg_salt ex_reg) (rg_secret ex_reg) (rg_secret_expires ex_reg)
    (rg_secret_in ex_reg) (rg_now ex_reg).

Definition with_uris (logo ro : string) : dict val :=
  [("redirect_uris", VList [VStr "https://rp/cb"]); ("logo_uri", VStr logo); ("request_uris", VList [VStr ro]);
   ("post_logout_redirect_uri", VStr "https://rp/out")].

Example C108_ex :
  (exists s' args ci, step2_process_request id_order uri_reg (with_uris "https://rp/logo" "https://rp/ro#h") true true [] ex_start = (s', Ok (Done args)) /\
     dget "client1" (r_cdb s') = Some ci /\ dget "request_uris" ci = Some (VList [VList [VStr "https://rp/ro"; VStr "h"]]) /\
     dget "logo_uri" ci = Some (VStr "https://rp/logo")) /\
  snd (step2_process_request id_order uri_reg (with_uris "https://else/logo" "https://rp/ro#h") true true [] ex_start) = Ok Failed /\
  snd (step2_process_request id_order uri_reg (with_uris "https://rp/logo" "https://rp/ro?x") true true [] ex_start) = Ok Failed.
Proof.
  split; [|split; vm_compute; reflexivity]. do 3 eexists. split; [vm_compute; reflexivity|].
  split; [reflexivity|]. split; reflexivity.
Qed.
