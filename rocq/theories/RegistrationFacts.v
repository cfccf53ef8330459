(** Lemmas on client registration. *)
From Verif Require Export PyFacts RegistrationModel.

Definition ckeys_of (kj : ckeyjar) (e : string) : list ckey := match dget e kj with Some l => l | None => [] end.

Lemma ckeys_add id ks kj e : ckeys_of (add_ckeys id ks kj) e = ckeys_of kj e ++ (if String.eqb e id then ks else []).
Proof.
  unfold ckeys_of, add_ckeys. rewrite dget_dset. destruct (String.eqb e id) eqn:E.
  - apply String.eqb_eq in E. subst. reflexivity.
  - rewrite app_nil_r. reflexivity.
Qed.

Section Facts.
Context (O : iter_order) (R : reg_env).

(** the entry made before the request is looked at *)
Definition first_entry (id : string) (new_id set_secret : bool) : dict val :=
  let ci := [("client_id", VStr id); ("client_salt", VStr (rg_salt R))] in
  let ci := if new_id then dset "client_id_issued_at" (VInt (rg_now R)) ci else ci in
  if set_secret then add_client_secret R ci id else ci.

(** the request after the schema check, without blanks and unsupported values *)
Definition accepted_request (request req : dict val) : Prop :=
  rg_schema R request = true /\
  filter_client_request O R (filter (fun e => negb (rg_blank R (snd e))) request) = Ok req.

(** the identifier, and what is left of the request *)
Definition identified (new_id : bool) (reserved : list string) (s : rstate) (req : dict val) (id : string) (req' : dict val) : Prop :=
  if new_id then id = rg_newid R (if is_nil reserved then dkeys (r_cdb s) else reserved) /\ req' = ddel "client_id" req
  else dget "client_id" req = Some (VStr id) /\ id <> "" /\ req' = req.

Definition not_done {A} (r : res (outcome A)) : Prop := forall a, r <> Ok (Done a).

Definition with_secret (set_secret : bool) (id : string) (kj : ckeyjar) : ckeyjar :=
  if set_secret && negb (String.eqb (rg_secret R id) "") then add_ckeys id [KSecret (rg_secret R id)] kj else kj.

(** how a registration ends *)
Inductive reg_end (request : dict val) (new_id set_secret : bool) (reserved : list string) (s : rstate)
  : rstate -> res (outcome (dict val)) -> Prop :=
| RE_early r : not_done r -> reg_end request new_id set_secret reserved s s r
| RE_late req id req' r : not_done r ->
    accepted_request request req -> identified new_id reserved s req id req' ->
    reg_end request new_id set_secret reserved s
      (mkRState (dset id (first_entry id new_id set_secret) (r_cdb s)) (r_keys s)) r
| RE_done req id req' ci kj :
    accepted_request request req -> identified new_id reserved s req id req' ->
    client_info R req' (first_entry id new_id set_secret) = Ok (Done ci) ->
    import_client_keys (rg_keys R) req' id (r_keys s) = (kj, Ok tt) ->
    reg_end request new_id set_secret reserved s
      (mkRState (dset id ci (dset id (first_entry id new_id set_secret) (r_cdb s))) (with_secret set_secret id kj))
      (Ok (Done (rg_comb R (filter (fun e => smem (fst e) (rg_response R)) ci)))).

Lemma import_err K info id kj kj' e : import_client_keys K info id kj = (kj', Err e) -> kj' = kj.
Proof.
  unfold import_client_keys. destruct (truthy _); [intros H; discriminate|].
  destruct (truthy _); [intros H; discriminate|]. destruct (truthy _); [|intros H; discriminate].
  destruct (ks_jwks K _); intros H; [discriminate | injection H as -> _; reflexivity].
Qed.

Lemma setup_end request new_id set_secret reserved s :
  reg_end request new_id set_secret reserved s
    (fst (client_registration_setup O R request new_id set_secret reserved s))
    (snd (client_registration_setup O R request new_id set_secret reserved s)).
Proof.
  unfold client_registration_setup.
  destruct (rg_schema R request) eqn:ES; cbn [negb]; [|apply RE_early; intros a; discriminate].
  destruct (filter_client_request O R _) as [req|e] eqn:EF.
  2:{ destruct e; apply RE_early; intros a; discriminate. }
  assert (A : accepted_request request req) by (split; assumption).
  assert (G : forall id req', identified new_id reserved s req id req' ->
    let m := (do _ <- set_client id (first_entry id new_id set_secret) in
              do r <- do_client_registration R req' id in
              match r with
              | Failed => ret Failed
              | Done ci =>
                  do _ <- (if set_secret && negb (String.eqb (rg_secret R id) "")
                           then on_ckeys (fun kj => (add_ckeys id [KSecret (rg_secret R id)] kj, Ok tt))
                           else ret tt) in
                  do _ <- set_client id ci in
                  ret (Done (rg_comb R (filter (fun e => smem (fst e) (rg_response R)) ci)))
              end) in
    reg_end request new_id set_secret reserved s (fst (m s)) (snd (m s))).
  { intros id req' I. unfold mbind, set_client, modify, do_client_registration, StateM.get, lift.
    unfold mbind. cbn [r_cdb r_keys].
    assert (D : dindex id (dset id (first_entry id new_id set_secret) (r_cdb s)) = Ok (first_entry id new_id set_secret)).
    { apply dindex_ok, dget_dset_same. }
    rewrite D. destruct (client_info R req' (first_entry id new_id set_secret)) as [[|ci]|e] eqn:EC.
    - cbn. eapply RE_late; [intros a; discriminate | exact A | exact I].
    - unfold on_ckeys. cbn [r_cdb r_keys].
      destruct (import_client_keys (rg_keys R) req' id (r_keys s)) as [kj [[]|e]] eqn:EI.
      + cbn. pose proof (RE_done request new_id set_secret reserved s req id req' ci kj A I EC EI) as D2.
        unfold with_secret in D2. destruct (set_secret && negb (String.eqb (rg_secret R id) "")); exact D2.
      + apply import_err in EI. subst kj. cbn. eapply RE_late; [intros a; discriminate | exact A | exact I].
    - cbn. eapply RE_late; [intros a; discriminate | exact A | exact I]. }
  destruct new_id.
  - unfold mbind at 1. cbn [StateM.get]. unfold mbind at 1. cbn [ret fst snd].
    exact (G _ _ (conj eq_refl eq_refl)).
  - unfold mbind at 1. cbn [StateM.get]. unfold mbind at 1.
    unfold field. destruct (dget "client_id" req) as [v|] eqn:EC; [|apply RE_early; intros a; discriminate].
    destruct v as [| | |id| |]; try (apply RE_early; intros a; discriminate).
    destruct (String.eqb id "") eqn:EI; [apply RE_early; intros a; discriminate|].
    cbn [ret]. apply String.eqb_neq in EI. exact (G id req (conj EC (conj EI eq_refl))).
Qed.

Lemma step2_end request new_id set_secret reserved s s' r :
  step2_process_request O R request new_id set_secret reserved s = (s', r) ->
  (exists o, r = Ok o) /\ reg_end request new_id set_secret reserved s s' r.
Proof.
  unfold step2_process_request. pose proof (setup_end request new_id set_secret reserved s) as E.
  destruct (client_registration_setup O R request new_id set_secret reserved s) as [s1 [o|e]]; cbn [fst snd] in E;
    intros H; injection H as <- <-.
  - split; [eexists; reflexivity | exact E].
  - split; [eexists; reflexivity|].
    inversion E as [r0 H | req id req' r0 H HA HI |]; subst.
    + apply RE_early. intros a; discriminate.
    + eapply RE_late; [intros a; discriminate | exact HA | exact HI].
Qed.

(** ** What becomes of the claims *)
Lemma fold_claims k : forall (request ci : dict val),
  dget k (fold_left (fun ci e => if smem (fst e) ignored then ci else dset (fst e) (snd e) ci) request ci) =
  dget k (dupdate ci (filter (fun e => negb (smem (fst e) ignored)) request)).
Proof.
  unfold dupdate. induction request as [|[k' v] request IH]; intros ci; [reflexivity|].
  cbn [fold_left filter fst snd]. destruct (smem k' ignored); cbn [negb]; [apply IH|]. cbn [fold_left fst snd]. apply IH.
Qed.

Lemma NoDup_filter_keys {A} (f : string * A -> bool) (d : dict A) : NoDup (dkeys d) -> NoDup (dkeys (filter f d)).
Proof.
  induction d as [|[k v] d IH]; [intros H; exact H|]. intros H. inversion H; subst. cbn [filter].
  destruct (f (k, v)); [|apply IH; assumption]. cbn [dkeys map fst]. constructor; [|apply IH; assumption].
  intros I. apply H2. unfold dkeys in *. apply in_map_iff in I as [[k' v'] [E I]]. apply filter_In in I as [I _].
  apply in_map_iff. exists (k', v'). split; assumption.
Qed.

Lemma dget_filter_key {A} (p : string -> bool) k (d : dict A) :
  dget k (filter (fun e => p (fst e)) d) = if p k then dget k d else None.
Proof.
  induction d as [|[k' v] d IH]; [destruct (p k); reflexivity|]. cbn [filter fst].
  destruct (p k') eqn:E.
  - cbn [dget]. destruct (String.eqb k k') eqn:EK; [apply String.eqb_eq in EK; subst; rewrite E; reflexivity | exact IH].
  - cbn [dget]. destruct (String.eqb k k') eqn:EK; [|exact IH].
    apply String.eqb_eq in EK. subst k'. rewrite IH, E. reflexivity.
Qed.

(** the claims before the URIs are checked *)
Definition base_info (request ci : dict val) : dict val :=
  fold_left (fun ci e => if smem (fst e) ignored then ci else dset (fst e) (snd e) ci) request ci.

Lemma base_info_get request ci k : NoDup (dkeys request) ->
  dget k (base_info request ci) =
  if smem k ignored then dget k ci
  else match dget k request with Some v => Some v | None => dget k ci end.
Proof.
  intros N. unfold base_info. rewrite fold_claims, dget_dupdate by (apply NoDup_filter_keys, N).
  rewrite (dget_filter_key (fun k => negb (smem k ignored))). destruct (smem k ignored); reflexivity.
Qed.

(** keys that the checks of client_info may set or remove *)
Definition checked : list string :=
  ["post_logout_redirect_uri"; "redirect_uris"; "request_uris"; "policy_uri"; "logo_uri"; "tos_uri";
   "id_token_signed_response_alg"; "userinfo_signed_response_alg"].

Lemma other_uris_get request ci ci' k :
  verify_other_uris R request ci = Ok (Done ci') -> ~ In k ["policy_uri"; "logo_uri"; "tos_uri"] -> dget k ci' = dget k ci.
Proof.
  unfold verify_other_uris. intros H N.
  enough (G : forall l acc o, (forall x, In x l -> In x ["policy_uri"; "logo_uri"; "tos_uri"]) ->
    foldM (fun (acc : outcome (dict val)) item =>
           match acc with
           | Failed => Ok Failed
           | Done ci =>
               match dget item request with
               | None => Ok (Done ci)
               | Some v => let* rs := dindex "redirect_uris" ci in
                           Ok (if rg_verify_url R v rs then Done (dset item v ci) else Failed)
               end
           end) l acc = Ok o ->
    match o, acc with Done c', Done c => dget k c' = dget k c | Done _, Failed => False | _, _ => True end).
  { exact (G _ _ _ (fun x I => I) H). }
  clear H. induction l as [|x l IH]; intros acc o I H; cbn [foldM] in H.
  - injection H as <-. destruct acc; [exact Logic.I | reflexivity].
  - destruct acc as [|c].
    + exact (IH _ _ (fun y J => I y (or_intror J)) H).
    + destruct (dget x request) as [v|].
      * destruct (dindex "redirect_uris" c) as [rs|]; [|discriminate]. cbn [bind] in H.
        specialize (IH _ _ (fun y J => I y (or_intror J)) H). destruct (rg_verify_url R v rs).
        -- destruct o; [exact Logic.I|]. rewrite IH. apply dget_dset_other. intros ->. apply N, I. left; reflexivity.
        -- destruct o; [exact Logic.I | destruct IH].
      * exact (IH _ _ (fun y J => I y (or_intror J)) H).
Qed.

Lemma check_algs_get request ci ci' k :
  check_algs R request ci = Ok ci' -> ~ In k ["id_token_signed_response_alg"; "userinfo_signed_response_alg"] ->
  dget k ci' = dget k ci.
Proof.
  unfold check_algs. intros H N.
  match type of H with foldM ?f ?l _ = _ =>
    apply (foldM_inv _ _ f (fun c => dget k c = dget k ci) l ci ci'); [|reflexivity | exact H] end.
  intros c item c' I E S. assert (K : k <> item) by (intros ->; exact (N I)).
  destruct (dget item request) as [alg|]; [|injection S as <-; exact E].
  destruct (dindex item (rg_preferred R)) as [claim|]; [|discriminate]. cbn [bind] in S.
  assert (D : forall x, (if dmem item c then Ok (ddel item c) else Err KeyError) = Ok x -> dget k x = dget k ci).
  { intros x. destruct (dmem item c); [|discriminate]. intros X. injection X as <-. rewrite dget_ddel_other; assumption. }
  destruct (dget claim (rg_provider R)) as [sup|]; [|apply D, S].
  assert (D2 : forall x, (let* b := py_in alg sup in
                   if b && negb (rg_signing R alg)
                   then (if dmem item c then Ok (ddel item c) else Err KeyError)
                   else Ok c) = Ok x -> dget k x = dget k ci).
  { intros x X. destruct (py_in alg sup) as [b|]; [|discriminate]. cbn [bind] in X.
    destruct (b && negb (rg_signing R alg)); [apply D, X | injection X as <-; exact E]. }
  destruct sup; [apply D, S | apply D2, S ..].
Qed.

Lemma check_algs_le request ci ci' k v :
  check_algs R request ci = Ok ci' -> dget k ci' = Some v -> dget k ci = Some v.
Proof.
  unfold check_algs. intros H. revert v.
  match type of H with foldM ?f ?l _ = _ =>
    apply (foldM_inv _ _ f (fun c => forall v, dget k c = Some v -> dget k ci = Some v) l ci ci'); [|auto | exact H] end.
  intros c item c' I E S.
  destruct (dget item request) as [alg|]; [|injection S as <-; exact E].
  destruct (dindex item (rg_preferred R)) as [claim|]; [|discriminate]. cbn [bind] in S.
  assert (D : forall x, (if dmem item c then Ok (ddel item c) else Err KeyError) = Ok x ->
    forall v, dget k x = Some v -> dget k ci = Some v).
  { intros x. destruct (dmem item c); [|discriminate]. intros X. injection X as <-. intros v Hv. apply E.
    destruct (string_dec k item) as [-> |N]; [rewrite dget_ddel_same in Hv; discriminate|].
    rewrite dget_ddel_other in Hv by exact N. exact Hv. }
  destruct (dget claim (rg_provider R)) as [sup|]; [|apply D, S].
  assert (D2 : forall x, (let* b := py_in alg sup in
                   if b && negb (rg_signing R alg)
                   then (if dmem item c then Ok (ddel item c) else Err KeyError)
                   else Ok c) = Ok x -> forall v, dget k x = Some v -> dget k ci = Some v).
  { intros x X. destruct (py_in alg sup) as [b|]; [|discriminate]. cbn [bind] in X.
    destruct (b && negb (rg_signing R alg)); [apply D, X | injection X as <-; exact E]. }
  destruct sup; [apply D, S | apply D2, S ..].
Qed.

(** the parts of a successful client_info *)
Lemma client_info_done request ci0 ci : client_info R request ci0 = Ok (Done ci) ->
  exists c1 c2 c3 c4,
    (c1 = base_info request ci0 \/ exists v, c1 = dset "post_logout_redirect_uri" v (base_info request ci0)) /\
    ((dget "redirect_uris" request = None /\ c2 = c1) \/
     exists l, verify_redirect_uris R request = Ok (Done l) /\ c2 = dset "redirect_uris" l c1) /\
    (c3 = c2 \/ exists l, c3 = dset "request_uris" l c2) /\
    verify_other_uris R request c3 = Ok (Done c4) /\
    check_algs R request c4 = Ok ci.
Proof.
  unfold client_info. fold (base_info request ci0). set (b := base_info request ci0). intros H.
  match type of H with (let* r := ?x in _) = _ => destruct x as [[|c1]|] eqn:E1; try discriminate end. cbn [bind] in H.
  match type of H with (let* r := ?x in _) = _ => destruct x as [[|c2]|] eqn:E2; try discriminate end. cbn [bind] in H.
  match type of H with (let* r := ?x in _) = _ => destruct x as [[|c3]|] eqn:E3; try discriminate end. cbn [bind] in H.
  destruct (verify_other_uris R request c3) as [[|c4]|] eqn:E4; try discriminate. cbn [bind] in H.
  destruct (check_algs R request c4) as [c5|] eqn:E5; [|discriminate]. cbn [bind] in H. injection H as <-.
  exists c1, c2, c3, c4. split; [|split; [|split; [|split]]]; try assumption.
  - destruct (truthy (field "post_logout_redirect_uri" request)).
    + destruct (field "post_logout_redirect_uri" request); try discriminate.
      destruct (negb _); [discriminate|]. destruct (rg_split R s). injection E1 as <-. right. eexists. reflexivity.
    + injection E1 as <-. left. reflexivity.
  - destruct (dmem "redirect_uris" request) eqn:ED.
    + destruct (verify_redirect_uris R request) as [[|l]|]; try discriminate. cbn [bind] in E2. injection E2 as <-.
      right. exists l. split; reflexivity.
    + injection E2 as <-. left. split; [apply dmem_false, ED | reflexivity].
  - destruct (dget "request_uris" request) as [[]|]; try discriminate.
    + destruct (verify_request_uris R l) as [[|v]|]; try discriminate. cbn [bind] in E3. injection E3 as <-.
      right. exists v. reflexivity.
    + injection E3 as <-. left. reflexivity.
Qed.

Lemma client_info_get request ci0 ci k : client_info R request ci0 = Ok (Done ci) -> ~ In k checked ->
  dget k ci = dget k (base_info request ci0).
Proof.
  intros H N. destruct (client_info_done _ _ _ H) as (c1 & c2 & c3 & c4 & H1 & H2 & H3 & H4 & H5).
  assert (ND : forall x, In x checked -> k <> x) by (intros x I ->; exact (N I)).
  rewrite (check_algs_get _ _ _ k H5) by (intros I; apply N; simpl in *; tauto).
  rewrite (other_uris_get _ _ _ k H4) by (intros I; apply N; simpl in *; tauto).
  assert (E3 : dget k c3 = dget k c2).
  { destruct H3 as [-> |[l ->]]; [reflexivity|]. apply dget_dset_other, ND. simpl; tauto. }
  assert (E2 : dget k c2 = dget k c1).
  { destruct H2 as [[_ ->] |[l [_ ->]]]; [reflexivity|]. apply dget_dset_other, ND. simpl; tauto. }
  assert (E1 : dget k c1 = dget k (base_info request ci0)).
  { destruct H1 as [-> |[l ->]]; [reflexivity|]. apply dget_dset_other, ND. simpl; tauto. }
  congruence.
Qed.

Definition uri_claims : list string :=
  ["post_logout_redirect_uri"; "redirect_uris"; "request_uris"; "policy_uri"; "logo_uri"; "tos_uri"].

Lemma client_info_le request ci0 ci k v : client_info R request ci0 = Ok (Done ci) -> ~ In k uri_claims ->
  dget k ci = Some v -> dget k (base_info request ci0) = Some v.
Proof.
  intros H N D. destruct (client_info_done _ _ _ H) as (c1 & c2 & c3 & c4 & H1 & H2 & H3 & H4 & H5).
  assert (ND : forall x, In x uri_claims -> k <> x) by (intros x I ->; exact (N I)).
  apply (check_algs_le _ _ _ _ _ H5) in D.
  rewrite (other_uris_get _ _ _ k H4) in D by (intros I; apply N; simpl in *; tauto).
  assert (E3 : dget k c3 = dget k c2).
  { destruct H3 as [-> |[l ->]]; [reflexivity|]. apply dget_dset_other, ND. simpl; tauto. }
  assert (E2 : dget k c2 = dget k c1).
  { destruct H2 as [[_ ->] |[l [_ ->]]]; [reflexivity|]. apply dget_dset_other, ND. simpl; tauto. }
  assert (E1 : dget k c1 = dget k (base_info request ci0)).
  { destruct H1 as [-> |[l ->]]; [reflexivity|]. apply dget_dset_other, ND. simpl; tauto. }
  congruence.
Qed.

Lemma client_info_redirect request ci0 ci l : client_info R request ci0 = Ok (Done ci) ->
  dget "redirect_uris" request = Some l ->
  exists v, verify_redirect_uris R request = Ok (Done v) /\ dget "redirect_uris" ci = Some v.
Proof.
  intros H D. destruct (client_info_done _ _ _ H) as (c1 & c2 & c3 & c4 & H1 & H2 & H3 & H4 & H5).
  destruct H2 as [[H2 _]|[v [H2 E2]]]; [congruence|]. exists v. split; [exact H2|].
  rewrite (check_algs_get _ _ _ "redirect_uris" H5) by (simpl; intuition discriminate).
  rewrite (other_uris_get _ _ _ "redirect_uris" H4) by (simpl; intuition discriminate).
  destruct H3 as [-> |[w ->]]; [|rewrite dget_dset_other by discriminate]; subst c2; apply dget_dset_same.
Qed.

(** ** Filtering *)
Lemma filter_request_get request : forall acc req,
  foldM (fun args (e : string * val) =>
           let (k, v) := e in
           if dmem k (rg_preferred R) then
             let* w := match_claim O R k v in
             Ok (if truthy w then dset k w args else args)
           else Ok (dset k v args)) request acc = Ok req ->
  NoDup (dkeys request) ->
  (NoDup (dkeys acc) -> NoDup (dkeys req)) /\
  (forall k, match dget k request with
        | None => dget k req = dget k acc
        | Some v => if dmem k (rg_preferred R)
                    then exists w, match_claim O R k v = Ok w /\
                                   dget k req = (if truthy w then Some w else dget k acc)
                    else dget k req = Some v
        end).
Proof.
  induction request as [|[k0 v0] request IH]; intros acc req H N; cbn [foldM] in H.
  - injection H as <-. split; [tauto | intros k; reflexivity].
  - inversion N as [|? ? NI N']; subst. cbn [fst] in NI.
    destruct (dmem k0 (rg_preferred R)) eqn:EM.
    + destruct (match_claim O R k0 v0) as [w|] eqn:EW; [|discriminate]. cbn [bind] in H.
      destruct (IH _ _ H N') as [I1 I2]. split.
      * intros A. apply I1. destruct (truthy w); [apply NoDup_dset, A | exact A].
      * intros k. specialize (I2 k). cbn [dget]. destruct (String.eqb k k0) eqn:EK.
        -- apply String.eqb_eq in EK. subst k. rewrite EM. exists w. split; [exact EW|].
           assert (D : dget k0 request = None) by (apply dget_None_key, NI). rewrite D in I2. rewrite I2.
           destruct (truthy w); [apply dget_dset_same | reflexivity].
        -- apply String.eqb_neq in EK.
           assert (D : dget k (if truthy w then dset k0 w acc else acc) = dget k acc).
           { destruct (truthy w); [apply dget_dset_other, EK | reflexivity]. }
           rewrite D in I2. exact I2.
    + destruct (IH _ _ H N') as [I1 I2]. split.
      * intros A. apply I1, NoDup_dset, A.
      * intros k. specialize (I2 k). cbn [dget]. destruct (String.eqb k k0) eqn:EK.
        -- apply String.eqb_eq in EK. subst k. rewrite EM.
           assert (D : dget k0 request = None) by (apply dget_None_key, NI). rewrite D in I2. rewrite I2. apply dget_dset_same.
        -- apply String.eqb_neq in EK. rewrite (dget_dset_other _ _ _ _ _ EK) in I2. exact I2.
Qed.

Lemma dget_filter_val (p : val -> bool) k (d : dict val) : NoDup (dkeys d) ->
  dget k (filter (fun e => p (snd e)) d) = match dget k d with Some v => if p v then Some v else None | None => None end.
Proof.
  induction d as [|[k' v] d IH]; [reflexivity|]. intros N. inversion N as [|? ? NI N']; subst. cbn [fst] in NI.
  cbn [filter snd dget]. destruct (String.eqb k k') eqn:E.
  - apply String.eqb_eq in E. subst k'. destruct (p v) eqn:EP.
    + cbn [dget]. rewrite String.eqb_refl. reflexivity.
    + rewrite (IH N'). assert (D : dget k d = None) by (apply dget_None_key, NI). rewrite D. reflexivity.
  - destruct (p v); [|apply IH, N']. cbn [dget]. rewrite E. apply IH, N'.
Qed.
Lemma accepted_get request req : accepted_request request req -> NoDup (dkeys request) ->
  NoDup (dkeys req) /\
  (forall k, match dget k request with
        | None => dget k req = None
        | Some v => if rg_blank R v then dget k req = None
                    else if dmem k (rg_preferred R)
                    then exists w, match_claim O R k v = Ok w /\
                                   dget k req = (if truthy w then Some w else None)
                    else dget k req = Some v
        end).
Proof.
  intros [_ H] N. unfold filter_client_request in H.
  destruct (filter_request_get _ _ _ H (NoDup_filter_keys _ _ N)) as [A B].
  split; [apply A; constructor|]. intros k. specialize (B k).
  rewrite (dget_filter_val (fun v => negb (rg_blank R v)) k _ N) in B.
  destruct (dget k request) as [v|]; [|exact B]. destruct (rg_blank R v); cbn [negb] in B; exact B.
Qed.
End Facts.
