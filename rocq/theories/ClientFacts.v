(** Lemmas on automatic and explicit registration. *)
From Verif Require Export RegistrationFacts ClientModel CollectorFacts VerifierFacts.

(** the entity type of the clients of an OP, and of those of an authorization server *)
Definition kind_of (F : flavour) : string :=
  match F with OIDC => "openid_relying_party" | OAuth => "oauth_client" | PAR => "oauth_client" end.

Section Facts.
Context (E : cenv) (O : iter_order) (fuel : nat) (R : reg_env).

Definition stored_chains (F : flavour) (id : string) (cs : list tchain) (f : fstate) : fstate :=
  match F with OIDC => mkFed (f_col f) (f_keys f) (dset id cs (f_chains f)) | _ => f end.

Definition keys_by (F : flavour) (md : dict val) (id : string) (kj : ckeyjar) : ckeyjar * res unit :=
  match F with
  | OIDC => get_keys (rg_keys R) md id kj
  | _ => import_client_keys (rg_keys R) md id kj
  end.

Definition makes_id (F : flavour) (new : bool) : bool := match F with PAR => true | _ => new end.
Definition makes_secret (F : flavour) : bool := match F with OIDC => false | _ => true end.

Lemma keys_by_err F md id kj kj' e : keys_by F md id kj = (kj', Err e) -> kj' = kj.
Proof.
  intros H. assert (G : forall md, get_keys (rg_keys R) md id kj = (kj', Err e) -> kj' = kj).
  { intros d. unfold get_keys. destruct (truthy _); [discriminate|]. destruct (truthy _); [discriminate|].
    destruct (ks_jwks _ _); [discriminate | intros X; injection X as -> _; reflexivity]. }
  destruct F; cbn [keys_by] in H; [exact (G _ H) | exact (import_err _ _ _ _ _ _ H) | exact (import_err _ _ _ _ _ _ H)].
Qed.

Lemma keys_by_ok F md id kj kj' : keys_by F md id kj = (kj', Ok tt) ->
  exists ks, forall e, ckeys_of kj' e = ckeys_of kj e ++ (if String.eqb e id then map KPub ks else []).
Proof.
  assert (N : forall kj0 : ckeyjar, exists ks : list key, forall e,
    ckeys_of kj0 e = ckeys_of kj0 e ++ (if String.eqb e id then map KPub ks else [])).
  { intros kj0. exists []. intros e. destruct (String.eqb e id); cbn; rewrite app_nil_r; reflexivity. }
  assert (A : forall ks, exists ks', forall e,
    ckeys_of (add_ckeys id (map KPub ks) kj) e = ckeys_of kj e ++ (if String.eqb e id then map KPub ks' else [])).
  { intros ks. exists ks. intros e. apply ckeys_add. }
  destruct F; cbn [keys_by]; unfold get_keys, import_client_keys;
    (destruct (truthy (field "signed_jwks_uri" md)); [intros H; injection H as <-; apply N|]);
    (destruct (truthy (field "jwks_uri" md)); [intros H; injection H as <-; apply A|]);
    try (destruct (truthy (field "jwks" md)); [|intros H; injection H as <-; apply N]);
    (destruct (ks_jwks (rg_keys R) (field "jwks" md)); [|discriminate]); intros H; injection H as <-; apply A.
Qed.

Definition answer (o : outcome (dict val)) (r : res (option string)) : Prop :=
  match o with
  | Failed => r = Ok None
  | Done args => match dget "client_id" args with
                 | Some (VStr i) => r = Ok (Some i)
                 | Some _ => r = Err TypeError
                 | None => r = Ok None
                 end
  end.

(** how an automatic registration ends *)
Inductive auto_end (F : flavour) (new : bool) (id : string) (provided : list token) (s : astate)
  : astate -> res (option string) -> Prop :=
| AE_none f1 r0 e : chains_for E O fuel id provided (a_fed s) = (f1, r0) -> (forall c rest, r0 <> Ok (c :: rest)) ->
    auto_end F new id provided s (mkA f1 (a_reg s)) (Err e)
| AE_early f1 c rest e : chains_for E O fuel id provided (a_fed s) = (f1, Ok (c :: rest)) ->
    auto_end F new id provided s (mkA (stored_chains F id (c :: rest) f1) (a_reg s)) (Err e)
| AE_reg f1 c rest md k1 r2 o r : chains_for E O fuel id provided (a_fed s) = (f1, Ok (c :: rest)) ->
    chain_metadata c (kind_of F) = Ok md ->
    keys_by F md id (r_keys (a_reg s)) = (k1, Ok tt) ->
    step2_process_request O R (dset "client_id" (VStr id) (request_of md)) (makes_id F new) (makes_secret F) []
      (mkRState (r_cdb (a_reg s)) k1) = (r2, Ok o) ->
    answer o r ->
    auto_end F new id provided s (mkA (stored_chains F id (c :: rest) f1) r2) r.

Lemma step2_ok request new_id set_secret reserved s :
  exists s' o, step2_process_request O R request new_id set_secret reserved s = (s', Ok o).
Proof.
  unfold step2_process_request. destruct (client_registration_setup O R request new_id set_secret reserved s) as [s' [o|e]]; eauto.
Qed.

Lemma auto_ends F new id provided s s' r :
  do_automatic_registration E O fuel R F new id provided s = (s', r) -> auto_end F new id provided s s' r.
Proof.
  unfold do_automatic_registration, mbind at 1. unfold on_fed at 1.
  destruct (chains_for E O fuel id provided (a_fed s)) as [f1 [[|c rest]|e]] eqn:EC.
  - cbn. intros H. injection H as <- <-. eapply AE_none; [exact EC | discriminate].
  - unfold mbind at 1.
    assert (ES : (match F with OIDC => on_fed (store_trust_chain id (c :: rest)) | _ => ret tt end) (mkA f1 (a_reg s))
                 = (mkA (stored_chains F id (c :: rest) f1) (a_reg s), Ok tt)) by (destruct F; reflexivity).
    rewrite ES. unfold mbind at 1, lift at 1.
    destruct (chain_metadata c (client_type F)) as [md|e] eqn:EM; [|intros H; injection H as <- <-; eapply AE_early; exact EC].
    unfold mbind at 1, on_reg at 1. cbn [a_reg a_fed]. unfold on_ckeys at 1.
    assert (EK : (match F with OIDC => get_keys (rg_keys R) md id | _ => import_client_keys (rg_keys R) md id end)
                   (r_keys (a_reg s)) = keys_by F md id (r_keys (a_reg s))) by (destruct F; reflexivity).
    rewrite EK. destruct (keys_by F md id (r_keys (a_reg s))) as [k1 [[]|e]] eqn:EB.
    + unfold mbind at 1, on_reg at 1. cbn [a_reg a_fed].
      change (match F with PAR => true | _ => new end) with (makes_id F new).
      change (match F with OIDC => false | _ => true end) with (makes_secret F).
      destruct (step2_ok (dset "client_id" (VStr id) (request_of md)) (makes_id F new) (makes_secret F) [] (mkRState (r_cdb (a_reg s)) k1))
        as (r2 & o & E2). rewrite E2.
      intros H. assert (H' : s' = mkA (stored_chains F id (c :: rest) f1) r2 /\ answer o r).
      { destruct o as [|args]; [injection H as <- <-; split; reflexivity|]. unfold answer.
        destruct (dget "client_id" args) as [[]|]; injection H as <- <-; split; reflexivity. }
      destruct H' as [-> An]. eapply AE_reg; [exact EC | exact EM | exact EB | exact E2 | exact An].
    + apply keys_by_err in EB. subst k1. intros H. injection H as <- <-.
      assert (X : mkRState (r_cdb (a_reg s)) (r_keys (a_reg s)) = a_reg s) by (destruct (a_reg s); reflexivity).
      rewrite X. eapply AE_early. exact EC.
  - intros H. injection H as <- <-. eapply AE_none; [exact EC | discriminate].
Qed.

(** the client is registered automatically now *)
Definition registers (F : flavour) (id : string) (s : astate) : Prop :=
  match dget id (r_cdb (a_reg s)) with
  | None => True
  | Some ci => match F with OIDC => dmem "automatic_registered" ci = true | _ => False end
  end.

(** the state in which automatic registration starts: an old automatic registration is gone *)
Definition forget (F : flavour) (id : string) (s : astate) : astate :=
  match dget id (r_cdb (a_reg s)) with
  | None => s
  | Some _ => mkA (a_fed s) (mkRState (ddel id (r_cdb (a_reg s))) (r_keys (a_reg s)))
  end.

(** how client_authentication ends *)
Lemma authentication_cases F new automatic id provided s s' v :
  client_authentication E O fuel R F new automatic id provided s = (s', v) ->
  (~ registers F id s /\ s' = s /\ v = Ok (Use id)) \/
  (registers F id s /\ automatic = false /\ s' = s /\ v = Ok Refused) \/
  (registers F id s /\ automatic = true /\ exists s1 r, auto_end F new id provided (forget F id s) s1 r /\
     match r with
     | Err e => s' = s1 /\ v = Err e
     | Ok None => s' = s1 /\ v = Ok Refused
     | Ok (Some rid) =>
         exists ci, dget rid (r_cdb (a_reg s1)) = Some ci /\ 
         (let ci := match F with OIDC => dset "automatic_registered" (VBool true) ci | _ => ci end in
          let db := match F with OIDC => dset rid ci (r_cdb (a_reg s1)) | _ => r_cdb (a_reg s1) end in
          v = Ok (Use rid) /\
          s' = mkA (a_fed s1)
                 (mkRState (if String.eqb rid id then db
                            else let ci := dset "entity_id" (VStr id) ci in dset id ci (dset rid ci db))
                           (r_keys (a_reg s1)))) \/
         dget rid (r_cdb (a_reg s1)) = None
     end).
Proof.
  unfold client_authentication, mbind at 1. cbn [StateM.get]. unfold registers, forget.
  set (info := dget id (r_cdb (a_reg s))).
  assert (K : forall (s0 : astate), mbind (do_automatic_registration E O fuel R F new id provided)
      (fun r => match r with
      | None => ret Refused
      | Some rid =>
          do _ <- on_reg (match F with OIDC => cdb_set rid "automatic_registered" (VBool true) | _ => ret tt end) in
          do _ <- on_reg (alias_client id rid) in
          ret (Use rid)
      end) s0 = (s', v) ->
    exists s1 r, auto_end F new id provided s0 s1 r /\
     match r with
     | Err e => s' = s1 /\ v = Err e
     | Ok None => s' = s1 /\ v = Ok Refused
     | Ok (Some rid) =>
         exists ci, dget rid (r_cdb (a_reg s1)) = Some ci /\ 
         (let ci := match F with OIDC => dset "automatic_registered" (VBool true) ci | _ => ci end in
          let db := match F with OIDC => dset rid ci (r_cdb (a_reg s1)) | _ => r_cdb (a_reg s1) end in
          v = Ok (Use rid) /\
          s' = mkA (a_fed s1)
                 (mkRState (if String.eqb rid id then db
                            else let ci := dset "entity_id" (VStr id) ci in dset id ci (dset rid ci db))
                           (r_keys (a_reg s1)))) \/
         dget rid (r_cdb (a_reg s1)) = None
     end).
  { intros s0 H. unfold mbind at 1 in H.
    destruct (do_automatic_registration E O fuel R F new id provided s0) as [s1 r] eqn:ED.
    exists s1, r. split; [apply auto_ends, ED|].
    destruct r as [[rid|]|e]; [|injection H as <- <-; auto | injection H as <- <-; auto].
    destruct (dget rid (r_cdb (a_reg s1))) as [ci|] eqn:EG; [|exists []; right; reflexivity].
    exists ci. left. split; [reflexivity|]. cbn zeta.
    unfold mbind at 1, on_reg at 1 in H.
    assert (E1 : (match F with OIDC => cdb_set rid "automatic_registered" (VBool true) | _ => ret tt end) (a_reg s1) =
      (mkRState (match F with OIDC => dset rid (dset "automatic_registered" (VBool true) ci) (r_cdb (a_reg s1)) | _ => r_cdb (a_reg s1) end)
         (r_keys (a_reg s1)), Ok tt)).
    { destruct F; [|destruct (a_reg s1); reflexivity | destruct (a_reg s1); reflexivity].
      unfold cdb_set, mbind. cbn [StateM.get]. unfold lift.
      assert (D : dindex rid (r_cdb (a_reg s1)) = Ok ci) by (apply dindex_ok, EG). rewrite D. reflexivity. }
    rewrite E1 in H. unfold mbind at 1, on_reg at 1 in H. cbn [a_reg a_fed] in H.
    unfold alias_client in H. destruct (String.eqb rid id).
    - cbn in H. injection H as <- <-. split; [reflexivity|]. destruct F; reflexivity.
    - unfold mbind in H. cbn [StateM.get] in H. unfold lift in H. cbn [r_cdb r_keys] in H.
      set (db := match F with OIDC => dset rid (dset "automatic_registered" (VBool true) ci) (r_cdb (a_reg s1)) | _ => r_cdb (a_reg s1) end) in H.
      set (ci' := match F with OIDC => dset "automatic_registered" (VBool true) ci | _ => ci end).
      assert (D : dindex rid db = Ok ci').
      { apply dindex_ok. unfold db, ci'. destruct F; [apply dget_dset_same | exact EG | exact EG]. }
      rewrite D in H. cbn in H. injection H as <- <-. split; [reflexivity|].
      unfold db, ci'. destruct F; reflexivity. }
  destruct info as [ci|] eqn:EI; fold info in EI.
  - destruct F.
    + destruct (dmem "automatic_registered" ci) eqn:EF; cbn [orb].
      * destruct automatic.
        -- intros H. right. right. split; [reflexivity|]. split; [reflexivity|].
           unfold mbind at 1, on_reg at 1 in H. cbn [modify] in H. apply K in H. exact H.
        -- intros H. injection H as <- <-. right. left. auto.
      * intros H. injection H as <- <-. left. split; [discriminate | auto].
    + cbn [orb]. intros H. injection H as <- <-. left. split; [tauto | auto].
    + cbn [orb]. intros H. injection H as <- <-. left. split; [tauto | auto].
  - assert (EO : match F, (None : option (dict val)) with OIDC, Some c => dmem "automatic_registered" c | _, _ => false end = false)
      by (destruct F; reflexivity).
    rewrite EO. cbn [orb]. destruct automatic.
    + intros H. right. right. split; [exact I|]. split; [reflexivity|].
      unfold mbind at 1, on_reg at 1 in H. cbn [modify] in H.
      assert (X : mkA (a_fed s) (a_reg s) = s) by (destruct s; reflexivity). rewrite X in H. apply K in H. exact H.
    + intros H. injection H as <- <-. right. left. auto.
Qed.
End Facts.
