(** Client registration: C55, C56, C57 and C73-C76. *)
From Verif Require Import RegistrationFacts.

(** ** C55: where the keys of a client come from *)

(** a source that is present and not empty *)
Definition given (info : dict val) (k : string) (v : val) : Prop := dget k info = Some v /\ truthy v = true.
Definition not_given (info : dict val) (k : string) : Prop := forall v, ~ given info k v.

(** the keys of the most trusted source; [signed] stands for the keys behind a signed_jwks_uri *)
Inductive best_source (K : key_sources) (signed : val -> list key) (info : dict val) : list key -> Prop :=
| BS_signed v : given info "signed_jwks_uri" v -> best_source K signed info (signed v)
| BS_url v : not_given info "signed_jwks_uri" -> given info "jwks_uri" v -> best_source K signed info (ks_url K v)
| BS_jwks v ks : not_given info "signed_jwks_uri" -> not_given info "jwks_uri" -> given info "jwks" v ->
    ks_jwks K v = Ok ks -> best_source K signed info ks
| BS_none : not_given info "signed_jwks_uri" -> not_given info "jwks_uri" -> not_given info "jwks" ->
    best_source K signed info [].

(** [ks] are added for [id], and nothing else happens *)
Definition adds (kj kj' : ckeyjar) (id : string) (ks : list key) : Prop :=
  forall e, ckeys_of kj' e = ckeys_of kj e ++ (if String.eqb e id then map KPub ks else []).

(** full statement *)
Definition C55_full : Prop := forall K signed info id kj kj',
  import_client_keys K info id kj = (kj', Ok tt) ->
  exists ks, best_source K signed info ks /\ adds kj kj' id ks.

Lemma field_given info k : truthy (field k info) = true -> given info k (field k info).
Proof. unfold given, field. destruct (dget k info); [intros H; split; [reflexivity | exact H] | discriminate]. Qed.

Lemma field_not_given info k : truthy (field k info) = false -> not_given info k.
Proof. intros H v [G T]. unfold field in H. rewrite G in H. congruence. Qed.

Lemma adds_none kj id : adds kj kj id [].
Proof. intros e. destruct (String.eqb e id); cbn; rewrite app_nil_r; reflexivity. Qed.

Lemma adds_add kj id ks : adds kj (add_ckeys id (map KPub ks) kj) id ks.
Proof. intros e. apply ckeys_add. Qed.

Definition ex_sources : key_sources := mkSources (fun _ => [1]) (fun _ => Ok [2]).
Definition ex_signed : dict val := [("signed_jwks_uri", VStr "https://rp/signed"); ("jwks", VDict [])].

Theorem C55_signed_refuted : ~ C55_full.
Proof.
  intros F. destruct (F ex_sources (fun _ => [7]) ex_signed "rp" [] [] eq_refl) as (ks & B & A).
  specialize (A "rp"). cbn in A.
  inversion B; subst; try (match goal with H : not_given _ "signed_jwks_uri" |- _ => 
    exfalso; apply (H (VStr "https://rp/signed")); split; reflexivity end).
  discriminate.
Qed.

(** Missing: the keys behind a signed_jwks_uri, which are never imported. *)
Theorem C55_source_partial : forall K signed info id kj kj',
  not_given info "signed_jwks_uri" ->
  import_client_keys K info id kj = (kj', Ok tt) ->
  exists ks, best_source K signed info ks /\ adds kj kj' id ks.
Proof.
  intros K signed info id kj kj' N H. unfold import_client_keys in H.
  destruct (truthy (field "signed_jwks_uri" info)) eqn:E1; [exfalso; exact (N _ (field_given _ _ E1))|].
  destruct (truthy (field "jwks_uri" info)) eqn:E2.
  { injection H as <-. eexists. split; [apply (BS_url _ _ _ _ N (field_given _ _ E2)) | apply adds_add]. }
  apply field_not_given in E2. destruct (truthy (field "jwks" info)) eqn:E3.
  - destruct (ks_jwks K (field "jwks" info)) as [ks|e] eqn:EK; [|discriminate]. injection H as <-.
    exists ks. split; [apply (BS_jwks _ _ _ _ _ N E2 (field_given _ _ E3) EK) | apply adds_add].
  - injection H as <-. exists []. split; [apply BS_none; auto using field_not_given | apply adds_none].
Qed.

(** the function automatic registration uses, given some source *)
Theorem C55_get_keys_partial : forall K signed info id kj kj',
  not_given info "signed_jwks_uri" -> (exists v, given info "jwks_uri" v) \/ (exists v, given info "jwks" v) ->
  get_keys K info id kj = (kj', Ok tt) ->
  exists ks, best_source K signed info ks /\ adds kj kj' id ks.
Proof.
  intros K signed info id kj kj' N G H. unfold get_keys in H.
  destruct (truthy (field "signed_jwks_uri" info)) eqn:E1; [exfalso; exact (N _ (field_given _ _ E1))|].
  destruct (truthy (field "jwks_uri" info)) eqn:E2.
  { injection H as <-. eexists. split; [apply (BS_url _ _ _ _ N (field_given _ _ E2)) | apply adds_add]. }
  apply field_not_given in E2. destruct G as [[v G]|[v G]]; [destruct (E2 _ G)|].
  destruct (ks_jwks K (field "jwks" info)) as [ks|e] eqn:EK; [|discriminate]. injection H as <-.
  exists ks. split; [|apply adds_add]. apply (BS_jwks _ _ _ v _ N E2 G).
  destruct G as [D T]. unfold field in EK. rewrite D in EK. exact EK.
Qed.

(** the third copy, for metadata without empty sources *)
Theorem C55_get_jwks_partial : forall K signed info id kj kj',
  not_given info "signed_jwks_uri" -> (forall k v, dget k info = Some v -> truthy v = true) ->
  get_jwks K info id kj = (kj', Ok tt) ->
  exists ks, best_source K signed info ks /\ adds kj kj' id ks.
Proof.
  intros K signed info id kj kj' N T H. unfold get_jwks in H.
  assert (G : forall k, dmem k info = true -> given info k (field k info)).
  { intros k D. unfold dmem in D. unfold given, field. destruct (dget k info) eqn:E; [|discriminate].
    split; [reflexivity | exact (T _ _ E)]. }
  assert (G0 : forall k, dmem k info = false -> not_given info k).
  { intros k D v [E _]. apply dmem_false in D. congruence. }
  destruct (dmem "signed_jwks_uri" info) eqn:E1; [exfalso; exact (N _ (G _ E1))|].
  destruct (dmem "jwks_uri" info) eqn:E2.
  { injection H as <-. eexists. split; [apply (BS_url _ _ _ _ N (G _ E2)) | apply adds_add]. }
  destruct (dmem "jwks" info) eqn:E3.
  - destruct (ks_jwks K (field "jwks" info)) as [ks|e] eqn:EK; [|discriminate]. injection H as <-.
    exists ks. split; [apply (BS_jwks _ _ _ _ _ N (G0 _ E2) (G _ E3) EK) | apply adds_add].
  - injection H as <-. exists []. split; [apply BS_none; auto | apply adds_none].
Qed.

(** with a signed_jwks_uri no less trusted source is used: there are no keys at all *)
Theorem C55_no_fallback : forall K info id kj v, given info "signed_jwks_uri" v ->
  import_client_keys K info id kj = (kj, Ok tt) /\ get_keys K info id kj = (kj, Ok tt) /\ get_jwks K info id kj = (kj, Ok tt).
Proof.
  intros K info id kj v [D T]. unfold import_client_keys, get_keys, get_jwks, field, dmem. rewrite D, T. auto.
Qed.

(** a key source that cannot be read leaves the key jar as it was *)
Theorem C55_failed_import : forall K info id kj kj' e,
  import_client_keys K info id kj = (kj', Err e) \/ get_keys K info id kj = (kj', Err e) \/ get_jwks K info id kj = (kj', Err e) ->
  kj' = kj.
Proof.
  intros K info id kj kj' e [H|[H|H]].
  - exact (import_err _ _ _ _ _ _ H).
  - unfold get_keys in H. destruct (truthy _); [discriminate|]. destruct (truthy _); [discriminate|].
    destruct (ks_jwks K _); [discriminate | injection H as -> _; reflexivity].
  - unfold get_jwks in H. destruct (dmem _ _); [discriminate|]. destruct (dmem _ _); [discriminate|].
    destruct (dmem _ _); [|discriminate].
    destruct (ks_jwks K _); [discriminate | injection H as -> _; reflexivity].
Qed.

Example C55_ex : import_client_keys ex_sources [("jwks_uri", VStr "https://rp/jwks"); ("jwks", VDict [])] "rp" [("op", [KPub 9])]
  = ([("op", [KPub 9]); ("rp", [KPub 1])], Ok tt).
Proof. reflexivity. Qed.

(** ** The parties of a registration *)

(** the client a registration is for; [request] is the request as sent *)
Definition client_of (R : reg_env) (new_id : bool) (reserved : list string) (s : rstate) (request : dict val) (id : string) : Prop :=
  if new_id then id = rg_newid R (if is_nil reserved then dkeys (r_cdb s) else reserved)
  else dget "client_id" request = Some (VStr id).

(** claims the server passes on without looking at what it supports *)
Definition passed_on (R : reg_env) (k : string) : Prop := dmem k (rg_preferred R) = false.

Lemma identified_client O R new_id reserved s request req id req' :
  NoDup (dkeys request) -> passed_on R "client_id" -> accepted_request O R request req ->
  identified R new_id reserved s req id req' -> client_of R new_id reserved s request id.
Proof.
  intros N P A I. unfold identified, client_of in *. destruct new_id; [exact (proj1 I)|].
  destruct I as (D & _ & _). destruct (accepted_get _ _ _ _ A N) as [_ G]. specialize (G "client_id").
  unfold passed_on in P. rewrite P in G.
  destruct (dget "client_id" request) as [v|]; [|congruence].
  destruct (rg_blank R v); congruence.
Qed.

Lemma identified_get R new_id reserved s req id req' k :
  identified R new_id reserved s req id req' -> k <> "client_id" -> dget k req' = dget k req.
Proof.
  unfold identified. intros I N. destruct new_id; [destruct I as [_ ->] | destruct I as (_ & _ & ->)]; [|reflexivity].
  apply dget_ddel_other, N.
Qed.

Lemma NoDup_ddel {A} k (d : dict A) : NoDup (dkeys d) -> NoDup (dkeys (ddel k d)).
Proof.
  induction d as [|[k' v] d IH]; [intros H; exact H|]. intros H. inversion H as [|? ? NI N']; subst. cbn [ddel].
  destruct (String.eqb k k'); [apply IH, N'|]. cbn [dkeys map fst]. constructor; [|apply IH, N'].
  intros I. apply NI. clear -I. induction d as [|[k2 v2] d IH]; [destruct I|]. cbn [ddel] in I.
  destruct (String.eqb k k2); [right; apply IH, I|]. destruct I as [I|I]; [left; exact I | right; apply IH, I].
Qed.

Lemma identified_nodup R new_id reserved s req id req' :
  identified R new_id reserved s req id req' -> NoDup (dkeys req) -> NoDup (dkeys req').
Proof.
  unfold identified. intros I N. destruct new_id; [destruct I as [_ ->] | destruct I as (_ & _ & ->)]; [|exact N].
  apply NoDup_ddel, N.
Qed.

(** ** C56: redirect URIs *)

(** what is stored about a client, as far as redirect URIs are concerned *)
Definition app_type (ci : dict val) : val := match dget "application_type" ci with Some t => t | None => VStr "web" end.
Definition code_only (ci : dict val) : Prop := dget "response_types" ci = Some (VList [VStr "code"]).

Definition web_scheme (p : url) : Prop := u_scheme p = "http" \/ u_scheme p = "https".
Definition loopback (p : url) : Prop := u_scheme p = "http" /\ (u_host p = "localhost" \/ u_host p = "127.0.0.1").

Definition allowed (ci : dict val) (p : url) : Prop :=
  (app_type ci = VStr "native" -> ~ web_scheme p \/ loopback p) /\
  (app_type ci <> VStr "native" -> web_scheme p) /\
  (app_type ci = VStr "web" -> ~ code_only ci -> u_scheme p = "https").

(** full statement: once a client is registered, its redirect URIs are allowed and have no fragment *)
Definition C56_full : Prop := forall O R request new_id set_secret reserved s s' args l u,
  step2_process_request O R request new_id set_secret reserved s = (s', Ok (Done args)) ->
  NoDup (dkeys request) -> passed_on R "redirect_uris" -> passed_on R "client_id" ->
  dget "redirect_uris" request = Some (VList l) -> In (VStr u) l -> rg_blank R (VList l) = false ->
  exists id ci, client_of R new_id reserved s request id /\ dget id (r_cdb s') = Some ci /\
    allowed ci (rg_parse R u) /\ u_fragment (rg_parse R u) = "".

Definition ex_parse (u : string) : url :=
  if String.eqb u "myapp://cb#f" then mkUrl "myapp" "cb" "" "f"
  else if String.eqb u "https://rp/cb" then mkUrl "https" "rp" "" ""
  else mkUrl "http" "rp" "" "".

Definition ex_reg : reg_env := mkRegEnv ex_sources ex_parse (fun u => (u, VNull)) (fun _ _ => true) (fun u => VStr u)
  (fun _ => true) (fun _ => false) [("response_types", "response_types_supported"); ("grant_types", "grant_types_supported")]
  [("response_types_supported", VList [VStr "code"; VStr "id_token"])]
  [("response_types", true); ("grant_types", true)]
  ["client_id"; "client_secret"; "redirect_uris"; "response_types"] (fun d => d) (fun _ => true)
  (fun reserved => "client1") "salt" (fun _ => "secret") (VBool true) 86400 1000.

Definition ex_start : rstate := mkRState [("op1", [("client_id", VStr "op1")])] [("", [KPub 5])].

Definition ex_native : dict val :=
  [("application_type", VStr "native"); ("redirect_uris", VList [VStr "myapp://cb#f"])].

Theorem C56_redirect_uris_refuted : ~ C56_full.
Proof.
  intros F. destruct (step2_process_request id_order ex_reg ex_native true true [] ex_start) as [s' r] eqn:E.
  vm_compute in E. destruct r as [[|args]|]; try discriminate.
  destruct (F id_order ex_reg ex_native true true [] ex_start s' args [VStr "myapp://cb#f"] "myapp://cb#f") as (id & ci & _ & _ & _ & C).
  - vm_compute. exact E.
  - repeat constructor; simpl; intuition discriminate.
  - reflexivity.
  - reflexivity.
  - reflexivity.
  - left. reflexivity.
  - reflexivity.
  - discriminate C.
Qed.

Lemma py_eqb_native v : py_eqb v (VStr "native") = true <-> v = VStr "native".
Proof.
  split; [|intros ->; reflexivity]. destruct v; try discriminate. cbn. intros H. apply String.eqb_eq in H. subst. reflexivity.
Qed.

Lemma py_eqb_web v : py_eqb v (VStr "web") = true <-> v = VStr "web".
Proof.
  split; [|intros ->; reflexivity]. destruct v; try discriminate. cbn. intros H. apply String.eqb_eq in H. subst. reflexivity.
Qed.

Lemma py_eqb_code v : py_eqb v (VList [VStr "code"]) = true <-> v = VList [VStr "code"].
Proof.
  split; [|intros ->; reflexivity]. destruct v; try discriminate. cbn.
  destruct l as [|x l]; [discriminate|]. destruct l as [|y l].
  - destruct x; try discriminate. cbn. destruct (String.eqb s "code") eqn:E; [|discriminate].
    apply String.eqb_eq in E. subst. reflexivity.
  - destruct x; try discriminate. cbn. destruct (String.eqb s "code"); discriminate.
Qed.

(** how a URI is stored *)
Definition stored_as (R : reg_env) (ci : dict val) (u v : val) : Prop :=
  exists s, u = VStr s /\
    ((app_type ci = VStr "native" /\ ~ web_scheme (rg_parse R s) /\ v = VList [VStr s; VDict []]) \/
     (web_scheme (rg_parse R s) /\
      v = VList [VStr (fst (rg_split R s)); if truthy (snd (rg_split R s)) then snd (rg_split R s) else VDict []])).

Lemma web_scheme_smem p : smem (u_scheme p) ["http"; "https"] = true <-> web_scheme p.
Proof. rewrite smem_In. unfold web_scheme. simpl. intuition. Qed.

Lemma verify_uri_ok R ci s v :
  verify_redirect_uri R (app_type ci) (py_eqb (app_type ci) (VStr "web") && negb (py_eqb (field "response_types" ci) (VList [VStr "code"]))) s = Some v ->
  allowed ci (rg_parse R s) /\ (app_type ci <> VStr "native" -> u_fragment (rg_parse R s) = "") /\ stored_as R ci (VStr s) v.
Proof.
  unfold verify_redirect_uri. set (p := rg_parse R s).
  destruct (py_eqb (app_type ci) (VStr "native")) eqn:EN.
  - apply py_eqb_native in EN. destruct (smem (u_scheme p) ["http"; "https"]) eqn:ES; cbn [negb].
    + destruct (String.eqb (u_scheme p) "http" && smem (u_host p) ["localhost"; "127.0.0.1"]) eqn:EL; [|discriminate].
      apply andb_prop in EL as [E1 E2]. apply String.eqb_eq in E1. apply smem_In in E2.
      assert (L : loopback p) by (split; [exact E1 | simpl in E2; intuition]).
      destruct (rg_split R s) as [b q] eqn:EQ. intros H. injection H as <-. split; [|split].
      * split; [intros _; right; exact L|]. split; [congruence | rewrite EN; discriminate].
      * congruence.
      * exists s. split; [reflexivity|]. right. split; [left; exact E1|]. rewrite EQ. reflexivity.
    + intros H. injection H as <-.
      assert (W : ~ web_scheme p) by (rewrite <- web_scheme_smem, ES; discriminate). split; [|split].
      * split; [intros _; left; exact W|]. split; [congruence | rewrite EN; discriminate].
      * congruence.
      * exists s. split; [reflexivity|]. left. auto.
  - assert (N : app_type ci <> VStr "native") by (rewrite <- py_eqb_native, EN; discriminate).
    destruct (_ && negb (String.eqb (u_scheme p) "https")) eqn:EH; [discriminate|].
    destruct (smem (u_scheme p) ["http"; "https"]) eqn:ES; cbn [negb]; [|discriminate]. apply web_scheme_smem in ES.
    destruct (String.eqb (u_fragment p) "") eqn:EF; cbn [negb]; [|discriminate]. apply String.eqb_eq in EF.
    destruct (rg_split R s) as [b q] eqn:EQ. intros H. injection H as <-. split; [|split].
    + split; [intros C; destruct (N C)|]. split; [intros _; exact ES|]. intros EW NC.
      rewrite EW in EH. cbn [py_eqb] in EH. rewrite String.eqb_refl in EH. cbn [andb] in EH.
      destruct (py_eqb (field "response_types" ci) (VList [VStr "code"])) eqn:EC.
      * apply py_eqb_code in EC. exfalso. apply NC. unfold code_only. unfold field in EC.
        destruct (dget "response_types" ci); [subst; reflexivity | discriminate].
      * cbn [negb andb] in EH. destruct (String.eqb (u_scheme p) "https") eqn:E; [apply String.eqb_eq; exact E | discriminate].
    + intros _. exact EF.
    + exists s. split; [reflexivity|]. right. split; [exact ES|]. rewrite EQ. reflexivity.
Qed.

Lemma verify_uris_ok R req ci v l :
  app_type req = app_type ci -> field "response_types" req = field "response_types" ci ->
  dget "redirect_uris" req = Some (VList l) -> verify_redirect_uris R req = Ok (Done v) ->
  exists vs, v = VList vs /\ Forall2 (stored_as R ci) l vs /\
    forall u, In (VStr u) l -> allowed ci (rg_parse R u) /\ (app_type ci <> VStr "native" -> u_fragment (rg_parse R u) = "").
Proof.
  intros ET ER D H. unfold verify_redirect_uris in H. rewrite D in H. cbn [bind] in H.
  fold (app_type req) in H. rewrite ET, ER in H.
  set (f := fun (acc : outcome val) (u : val) =>
           match acc with
           | Failed => Ok Failed
           | Done (VList l) =>
               match u with
               | VStr s => Ok (match verify_redirect_uri R (app_type ci)
                                 (py_eqb (app_type ci) (VStr "web") && negb (py_eqb (field "response_types" ci) (VList [VStr "code"]))) s with
                               | Some v => Done (VList (l ++ [v]))
                               | None => Failed
                               end)
               | _ => Err AttributeError
               end
           | Done _ => Err TypeError
           end).
  enough (G : forall l acc, foldM f l (Done (VList acc)) = Ok (Done v) ->
    exists vs, v = VList (acc ++ vs) /\ Forall2 (stored_as R ci) l vs /\
      forall u, In (VStr u) l -> allowed ci (rg_parse R u) /\ (app_type ci <> VStr "native" -> u_fragment (rg_parse R u) = "")).
  { exact (G l [] H). }
  assert (F : forall l, foldM f l Failed = Ok Failed).
  { induction l0 as [|x l0 IH]; [reflexivity | exact IH]. }
  clear H D. clear l. induction l as [|u l IH]; intros acc H; cbn [foldM] in H.
  - injection H as <-. exists []. rewrite app_nil_r. split; [reflexivity|]. split; [constructor | intros u []].
  - destruct u as [| | |s| |]; try discriminate. cbn [f] in H.
    destruct (verify_redirect_uri R (app_type ci) _ s) as [w|] eqn:EV.
    + destruct (IH _ H) as (vs & -> & F2 & A). destruct (verify_uri_ok _ _ _ _ EV) as (A1 & A2 & A3).
      exists (w :: vs). rewrite <- app_assoc. split; [reflexivity|]. split; [constructor; assumption|].
      intros u [E|I]; [injection E as <-; split; assumption | exact (A u I)].
    + rewrite F in H. discriminate.
Qed.

(** everything known about a successful registration *)
Lemma step2_done O R request new_id set_secret reserved s s' args :
  step2_process_request O R request new_id set_secret reserved s = (s', Ok (Done args)) ->
  exists req id req' ci kj,
    accepted_request O R request req /\ identified R new_id reserved s req id req' /\
    client_info R req' (first_entry R id new_id set_secret) = Ok (Done ci) /\
    import_client_keys (rg_keys R) req' id (r_keys s) = (kj, Ok tt) /\
    s' = mkRState (dset id ci (dset id (first_entry R id new_id set_secret) (r_cdb s))) (with_secret R set_secret id kj) /\
    args = rg_comb R (filter (fun e => smem (fst e) (rg_response R)) ci).
Proof.
  intros H. destruct (step2_end _ _ _ _ _ _ _ _ _ H) as [_ E].
  inversion E as [r0 N | req id req' r0 N A I | req id req' ci kj A I C K]; subst.
  - destruct (N args eq_refl).
  - destruct (N args eq_refl).
  - exists req, id, req', ci, kj. split; [exact A|]. split; [exact I|]. split; [exact C|]. split; [exact K|]. split; reflexivity.
Qed.

Lemma first_entry_get R id new_id set_secret k :
  ~ In k ["client_id"; "client_salt"; "client_id_issued_at"; "client_secret"; "client_secret_expires_at"] ->
  dget k (first_entry R id new_id set_secret) = None.
Proof.
  intros N. assert (D : forall x, In x ["client_id"; "client_salt"; "client_id_issued_at"; "client_secret"; "client_secret_expires_at"] -> k <> x).
  { intros x I ->. exact (N I). }
  assert (B : dget k [("client_id", VStr id); ("client_salt", VStr (rg_salt R))] = None).
  { cbn [dget]. assert (D1 := D "client_id"). assert (D2 := D "client_salt").
    destruct (String.eqb k "client_id") eqn:E1; [apply String.eqb_eq in E1; exfalso; apply D1; [simpl; tauto | exact E1]|].
    destruct (String.eqb k "client_salt") eqn:E2; [apply String.eqb_eq in E2; exfalso; apply D2; [simpl; tauto | exact E2]|].
    reflexivity. }
  unfold first_entry, add_client_secret.
  assert (S : forall x v (d : dict val), In x ["client_id"; "client_salt"; "client_id_issued_at"; "client_secret"; "client_secret_expires_at"] ->
    dget k d = None -> dget k (dset x v d) = None).
  { intros x v d I E. rewrite dget_dset_other by (apply D, I). exact E. }
  destruct new_id, set_secret; try (destruct (Z.eqb _ _)); repeat (apply S; [simpl; tauto|]); exact B.
Qed.

(** claims the client chooses are stored as they are in the accepted request *)
Lemma stored_claim R id new_id set_secret req ci k :
  NoDup (dkeys req) -> client_info R req (first_entry R id new_id set_secret) = Ok (Done ci) ->
  ~ In k checked ->
  ~ In k ["client_id"; "client_salt"; "client_id_issued_at"; "client_secret"; "client_secret_expires_at"] ->
  dget k ci = dget k req.
Proof.
  intros N C NC NF. rewrite (client_info_get _ _ _ _ k C NC), base_info_get by exact N.
  destruct (smem k ignored) eqn:E.
  - exfalso. apply NC. apply smem_In in E. unfold ignored, checked in *. simpl in *. intuition (subst; auto).
  - rewrite first_entry_get by exact NF. destruct (dget k req); reflexivity.
Qed.

(** Missing: redirect URIs of native clients may have a fragment. *)
Theorem C56_redirect_uris_partial : forall O R request new_id set_secret reserved s s' args l u,
  step2_process_request O R request new_id set_secret reserved s = (s', Ok (Done args)) ->
  NoDup (dkeys request) -> passed_on R "redirect_uris" -> passed_on R "client_id" ->
  dget "redirect_uris" request = Some (VList l) -> In (VStr u) l -> rg_blank R (VList l) = false ->
  exists id ci, client_of R new_id reserved s request id /\ dget id (r_cdb s') = Some ci /\
    allowed ci (rg_parse R u) /\ (app_type ci <> VStr "native" -> u_fragment (rg_parse R u) = "").
Proof.
  intros O R request new_id set_secret reserved s s' args l u H N P PC D I B.
  destruct (step2_done _ _ _ _ _ _ _ _ _ H) as (req & id & req' & ci & kj & A & ID & C & K & -> & _).
  exists id, ci. split; [exact (identified_client _ _ _ _ _ _ _ _ _ N PC A ID)|].
  split; [apply dget_dset_same|].
  destruct (accepted_get _ _ _ _ A N) as [NR G]. assert (NR' := identified_nodup _ _ _ _ _ _ _ ID NR).
  assert (DR : dget "redirect_uris" req' = Some (VList l)).
  { rewrite (identified_get _ _ _ _ _ _ _ _ ID) by discriminate. specialize (G "redirect_uris").
    rewrite D, B in G. unfold passed_on in P. rewrite P in G. exact G. }
  destruct (client_info_redirect _ _ _ _ _ C DR) as (v & V & _).
  assert (S : forall k, In k ["application_type"; "response_types"] -> dget k ci = dget k req').
  { intros k IK. apply (stored_claim R id new_id set_secret req' ci k NR' C); simpl in IK; destruct IK as [<- |[<- |[]]];
      simpl; intuition discriminate. }
  assert (ET : app_type req' = app_type ci) by (unfold app_type; rewrite S; [reflexivity | simpl; tauto]).
  assert (ER : field "response_types" req' = field "response_types" ci) by (unfold field; rewrite S; [reflexivity | simpl; tauto]).
  destruct (verify_uris_ok _ _ _ _ _ ET ER DR V) as (vs & _ & _ & AL). exact (AL u I).
Qed.

(** the URIs are stored one by one, in order *)
Theorem C56_stored : forall O R request new_id set_secret reserved s s' args l,
  step2_process_request O R request new_id set_secret reserved s = (s', Ok (Done args)) ->
  NoDup (dkeys request) -> passed_on R "redirect_uris" -> passed_on R "client_id" ->
  dget "redirect_uris" request = Some (VList l) -> rg_blank R (VList l) = false ->
  exists id ci vs, client_of R new_id reserved s request id /\ dget id (r_cdb s') = Some ci /\
    dget "redirect_uris" ci = Some (VList vs) /\ Forall2 (stored_as R ci) l vs.
Proof.
  intros O R request new_id set_secret reserved s s' args l H N P PC D B.
  destruct (step2_done _ _ _ _ _ _ _ _ _ H) as (req & id & req' & ci & kj & A & ID & C & K & -> & _).
  destruct (accepted_get _ _ _ _ A N) as [NR G]. assert (NR' := identified_nodup _ _ _ _ _ _ _ ID NR).
  assert (DR : dget "redirect_uris" req' = Some (VList l)).
  { rewrite (identified_get _ _ _ _ _ _ _ _ ID) by discriminate. specialize (G "redirect_uris").
    rewrite D, B in G. unfold passed_on in P. rewrite P in G. exact G. }
  destruct (client_info_redirect _ _ _ _ _ C DR) as (v & V & DV).
  assert (S : forall k, In k ["application_type"; "response_types"] -> dget k ci = dget k req').
  { intros k IK. apply (stored_claim R id new_id set_secret req' ci k NR' C); simpl in IK; destruct IK as [<- |[<- |[]]];
      simpl; intuition discriminate. }
  assert (ET : app_type req' = app_type ci) by (unfold app_type; rewrite S; [reflexivity | simpl; tauto]).
  assert (ER : field "response_types" req' = field "response_types" ci) by (unfold field; rewrite S; [reflexivity | simpl; tauto]).
  destruct (verify_uris_ok _ _ _ _ _ ET ER DR V) as (vs & -> & F2 & AL).
  exists id, ci, vs. split; [exact (identified_client _ _ _ _ _ _ _ _ _ N PC A ID)|].
  split; [apply dget_dset_same|]. split; assumption.
Qed.

Definition ex_web : dict val :=
  [("redirect_uris", VList [VStr "https://rp/cb"]); ("response_types", VList [VStr "code"; VStr "token"]);
   ("client_name", VStr "RP"); ("jwks", VDict [("keys", VList [])])].

Example C56_ex : exists s' args,
  step2_process_request id_order ex_reg ex_web true true [] ex_start = (s', Ok (Done args)) /\
  dget "client1" (r_cdb s') = Some
    [("client_id", VStr "client1"); ("client_salt", VStr "salt"); ("client_id_issued_at", VInt 1000);
     ("client_secret", VStr "secret"); ("client_secret_expires_at", VInt 87400);
     ("response_types", VList [VStr "code"]); ("client_name", VStr "RP"); ("jwks", VDict [("keys", VList [])]);
     ("redirect_uris", VList [VList [VStr "https://rp/cb"; VDict []]])] /\
  dget "client1" (r_keys s') = Some [KPub 2; KSecret "secret"].
Proof. eexists. eexists. split; [vm_compute; reflexivity|]. split; reflexivity. Qed.

(** a web client without https, not restricted to code, is refused *)
Example C56_ex_refused : exists s',
  step2_process_request id_order ex_reg
    [("redirect_uris", VList [VStr "http://rp/cb"]); ("response_types", VList [VStr "code"; VStr "id_token"])]
    true true [] ex_start = (s', Ok Failed).
Proof. eexists. vm_compute. reflexivity. Qed.

(** ** C57: failed registrations *)

(** full statement *)
Definition C57_full : Prop := forall O R request new_id set_secret reserved s s',
  step2_process_request O R request new_id set_secret reserved s = (s', Ok Failed) -> r_cdb s' = r_cdb s.

Definition ex_bad : dict val := [("redirect_uris", VList [VStr "http://rp/cb"])].

Theorem C57_entry_left_refuted : ~ C57_full.
Proof.
  intros F. destruct (step2_process_request id_order ex_reg ex_bad true true [] ex_start) as [s' r] eqn:E.
  assert (X : r = Ok Failed) by (vm_compute in E; injection E as _ <-; reflexivity). subst r.
  specialize (F _ _ _ _ _ _ _ _ E). vm_compute in E. injection E as <-. discriminate F.
Qed.

(** what is left of a failed registration: nothing a client could have asked for *)
Definition only_basics (R : reg_env) (id : string) (ci : dict val) : Prop :=
  dget "client_id" ci = Some (VStr id) /\
  forall k v, dget k ci = Some v ->
    In k ["client_id"; "client_salt"; "client_id_issued_at"; "client_secret"; "client_secret_expires_at"].

Lemma first_basics R id new_id set_secret : only_basics R id (first_entry R id new_id set_secret).
Proof.
  split.
  - unfold first_entry, add_client_secret. destruct new_id, set_secret; try (destruct (Z.eqb _ _));
      repeat (rewrite dget_dset_other by discriminate); reflexivity.
  - intros k v D. destruct (in_dec string_dec k ["client_id"; "client_salt"; "client_id_issued_at"; "client_secret"; "client_secret_expires_at"]) as [I|I];
      [exact I|]. rewrite first_entry_get in D by exact I. discriminate.
Qed.

(** Missing: the entry of the failed client itself, which stays in the database with its id, salt and secret. *)
Theorem C57_entry_left_partial : forall O R request new_id set_secret reserved s s',
  step2_process_request O R request new_id set_secret reserved s = (s', Ok Failed) ->
  NoDup (dkeys request) -> passed_on R "client_id" ->
  r_keys s' = r_keys s /\
  (s' = s \/ exists id ci, client_of R new_id reserved s request id /\ only_basics R id ci /\ r_cdb s' = dset id ci (r_cdb s)).
Proof.
  intros O R request new_id set_secret reserved s s' H N P. destruct (step2_end _ _ _ _ _ _ _ _ _ H) as [_ E].
  inversion E as [r0 ND | req id req' r0 ND A I |]; subst.
  - auto.
  - split; [reflexivity|]. right. exists id, (first_entry R id new_id set_secret).
    split; [exact (identified_client _ _ _ _ _ _ _ _ _ N P A I)|]. split; [apply first_basics | reflexivity].
Qed.

(** a request that is malformed leaves nothing *)
Theorem C57_malformed : forall O R request new_id set_secret reserved s,
  rg_schema R request = false ->
  step2_process_request O R request new_id set_secret reserved s = (s, Ok Failed).
Proof. intros. unfold step2_process_request, client_registration_setup. rewrite H. reflexivity. Qed.

Example C57_ex : exists s', step2_process_request id_order ex_reg ex_bad true true [] ex_start = (s', Ok Failed) /\
  dget "client1" (r_cdb s') = Some
    [("client_id", VStr "client1"); ("client_salt", VStr "salt"); ("client_id_issued_at", VInt 1000);
     ("client_secret", VStr "secret"); ("client_secret_expires_at", VInt 87400)] /\ r_keys s' = r_keys ex_start.
Proof. eexists. split; [vm_compute; reflexivity|]. split; reflexivity. Qed.

(** ** C73: capabilities *)

(** each value is among [mine], and was asked for *)
Definition supported (mine : list val) (asked v : val) : Prop :=
  (v = asked /\ vmem v mine = true) \/
  (exists l, v = VList l /\ forall x, In x l -> In x mine /\ vmem x (elems asked) = true).

Lemma elems_list l : elems (VList l) = l.
Proof. reflexivity. Qed.

Lemma match_supported O R k v w pref mine :
  dget k (rg_preferred R) = Some pref -> dget pref (rg_provider R) = Some (VList mine) ->
  match_claim O R k v = Ok w -> truthy w = true -> supported mine v w.
Proof.
  intros EP EM. unfold match_claim. rewrite EP, EM.
  destruct (dget k (rg_listed R)) as [b|]; [|intros H; injection H as <-; discriminate].
  destruct (truthy (VList mine)); [|intros H; injection H as <-; discriminate].
  destruct b.
  - assert (G : (let* s := py_set (VList mine) in let* t := py_set v in
                 if is_nil (set_inter s t) then Err OtherException else Ok (VList (iov O (set_inter s t)))) = Ok w ->
                truthy w = true -> supported mine v w).
    { destruct (py_set (VList mine)) as [s|] eqn:ES; [|discriminate]. cbn [bind].
      destruct (py_set v) as [t|] eqn:ET; [|discriminate]. cbn [bind].
      destruct (is_nil (set_inter s t)); [discriminate|]. intros H T. injection H as <-. right.
      exists (iov O (set_inter s t)). split; [reflexivity|]. intros x I. apply iov_In in I.
      unfold set_inter in I. apply filter_In in I as [I1 I2]. apply py_set_ok in ES as [HS ->]. apply py_set_ok in ET as [HT ->].
      apply dedup_In in I1. rewrite elems_list in *. split; [exact I1|].
      rewrite vmem_dedup in I2; [exact I2 | apply HS, I1 | exact HT]. }
    destruct v; try exact G. cbn [py_in]. intros H T. cbn [bind] in H. injection H as <-. left.
    destruct (vmem (VStr s) mine) eqn:EV; [auto | discriminate].
  - intros H T. injection H as <-. left. destruct (vmem v mine) eqn:EV; [auto | discriminate].
Qed.

(** Whatever a client is registered with under a claim for which the server publishes the list of values it supports,
    is among those values, and was asked for. *)
Theorem C73_only_supported : forall O R request new_id set_secret reserved s s' args k pref mine v id ci,
  step2_process_request O R request new_id set_secret reserved s = (s', Ok (Done args)) ->
  NoDup (dkeys request) ->
  dget k (rg_preferred R) = Some pref -> dget pref (rg_provider R) = Some (VList mine) ->
  ~ In k ["client_id"; "client_salt"; "client_id_issued_at"; "client_secret"; "client_secret_expires_at"] ->
  ~ In k ["post_logout_redirect_uri"; "redirect_uris"; "request_uris"; "policy_uri"; "logo_uri"; "tos_uri"] ->
  passed_on R "client_id" -> client_of R new_id reserved s request id -> dget id (r_cdb s') = Some ci ->
  dget k ci = Some v ->
  exists asked, dget k request = Some asked /\ supported mine asked v.
Proof.
  intros O R request new_id set_secret reserved s s' args k pref mine v id ci H N EP EM NB NU PC CL DI DV.
  destruct (step2_done _ _ _ _ _ _ _ _ _ H) as (req & id' & req' & ci' & kj & A & ID & C & K & -> & _).
  assert (CL' := identified_client _ _ _ _ _ _ _ _ _ N PC A ID).
  assert (id' = id) by (unfold client_of in *; destruct new_id; congruence). subst id'.
  cbn [r_cdb] in DI. rewrite dget_dset_same in DI. injection DI as ->.
  destruct (accepted_get _ _ _ _ A N) as [NR G]. assert (NR' := identified_nodup _ _ _ _ _ _ _ ID NR).
  apply (client_info_le _ _ _ _ _ _ C NU) in DV. rewrite base_info_get in DV by exact NR'.
  assert (NC : k <> "client_id") by (intros ->; apply NB; simpl; tauto).
  assert (DR : dget k req = Some v).
  { rewrite <- (identified_get _ _ _ _ _ _ _ _ ID NC). rewrite first_entry_get in DV by exact NB.
    destruct (smem k ignored); [discriminate|]. destruct (dget k req'); [exact DV | discriminate]. }
  specialize (G k). destruct (dget k request) as [asked|]; [|congruence]. exists asked. split; [reflexivity|].
  destruct (rg_blank R asked); [congruence|]. unfold dmem in G. rewrite EP in G. destruct G as (w & MC & DW).
  destruct (truthy w) eqn:T; [|congruence]. assert (w = v) by congruence. subst w.
  exact (match_supported _ _ _ _ _ _ _ EP EM MC T).
Qed.

(** [ex_web] asks for code and token, the server supports code and id_token *)
Example C73_ex : exists s' args ci,
  step2_process_request id_order ex_reg ex_web true true [] ex_start = (s', Ok (Done args)) /\
  dget "client1" (r_cdb s') = Some ci /\ dget "response_types" ci = Some (VList [VStr "code"]).
Proof. eexists. eexists. eexists. split; [vm_compute; reflexivity|]. split; reflexivity. Qed.

(** ** C74: identifier and secret are the server's *)

(** full statement *)
Definition C74_full : Prop := forall O R request new_id reserved s s' args id,
  step2_process_request O R request new_id true reserved s = (s', Ok (Done args)) ->
  NoDup (dkeys request) -> passed_on R "client_id" -> client_of R new_id reserved s request id ->
  exists ci, dget id (r_cdb s') = Some ci /\ dget "client_id" ci = Some (VStr id) /\
    dget "client_secret" ci = Some (VStr (rg_secret R id)).

Theorem C74_secret_refuted : ~ C74_full.
Proof.
  intros F. destruct (step2_process_request id_order ex_reg [("client_secret", VStr "mine")] true true [] ex_start) as [s' r] eqn:E.
  vm_compute in E. destruct r as [[|args]|]; try discriminate.
  destruct (F id_order ex_reg [("client_secret", VStr "mine")] true [] ex_start s' args "client1") as (ci & D & _ & C).
  - vm_compute. exact E.
  - repeat constructor; simpl; intuition discriminate.
  - reflexivity.
  - reflexivity.
  - injection E as <- _. cbn in D. injection D as <-. discriminate C.
Qed.

Lemma first_entry_id R id new_id set_secret : dget "client_id" (first_entry R id new_id set_secret) = Some (VStr id).
Proof. apply (first_basics R id new_id set_secret). Qed.

Lemma first_entry_secret R id new_id : dget "client_secret" (first_entry R id new_id true) = Some (VStr (rg_secret R id)).
Proof.
  unfold first_entry, add_client_secret. destruct (Z.eqb _ _); [|rewrite dget_dset_other by discriminate]; apply dget_dset_same.
Qed.

(** Missing: a client_secret in the request replaces the server's, in the database and in the response, while the key jar
    gets the server's. *)
Theorem C74_secret_partial : forall O R request new_id reserved s s' args id,
  step2_process_request O R request new_id true reserved s = (s', Ok (Done args)) ->
  NoDup (dkeys request) -> passed_on R "client_id" -> client_of R new_id reserved s request id ->
  exists ci, dget id (r_cdb s') = Some ci /\ dget "client_id" ci = Some (VStr id) /\
    (dget "client_secret" request = None -> dget "client_secret" ci = Some (VStr (rg_secret R id))) /\
    (rg_secret R id <> "" -> In (KSecret (rg_secret R id)) (ckeys_of (r_keys s') id)).
Proof.
  intros O R request new_id reserved s s' args id H N PC CL.
  destruct (step2_done _ _ _ _ _ _ _ _ _ H) as (req & id' & req' & ci & kj & A & ID & C & K & -> & _).
  assert (CL' := identified_client _ _ _ _ _ _ _ _ _ N PC A ID).
  assert (id' = id) by (unfold client_of in *; destruct new_id; congruence). subst id'.
  destruct (accepted_get _ _ _ _ A N) as [NR G]. assert (NR' := identified_nodup _ _ _ _ _ _ _ ID NR).
  exists ci. split; [apply dget_dset_same|]. split; [|split].
  - rewrite (client_info_get _ _ _ _ "client_id" C) by (simpl; intuition discriminate).
    rewrite base_info_get by exact NR'. cbn [smem ignored existsb]. rewrite first_entry_id.
    unfold identified in ID. destruct new_id.
    + destruct ID as [_ ->]. rewrite dget_ddel_same. reflexivity.
    + destruct ID as (D & _ & ->). rewrite D. reflexivity.
  - intros DN. rewrite (client_info_get _ _ _ _ "client_secret" C) by (simpl; intuition discriminate).
    rewrite base_info_get by exact NR'. cbn [smem ignored existsb]. rewrite first_entry_secret.
    rewrite (identified_get _ _ _ _ _ _ _ _ ID) by discriminate.
    specialize (G "client_secret"). rewrite DN in G. rewrite G. reflexivity.
  - intros NE. cbn [r_keys]. unfold with_secret. apply String.eqb_neq in NE. rewrite NE. cbn [negb andb].
    rewrite ckeys_add, String.eqb_refl. apply in_or_app. right. left. reflexivity.
Qed.

(** ** C75: a new client never replaces another *)

(** full statement; the generator never returns a reserved identifier *)
Definition C75_full : Prop := forall O R request set_secret reserved s s' r,
  (forall ids, ~ In (rg_newid R ids) ids) ->
  step2_process_request O R request true set_secret reserved s = (s', r) ->
  forall id ci, dget id (r_cdb s) = Some ci -> dget id (r_cdb s') = Some ci.

(** an identifier that is longer than all of [ids] *)
Definition fresh_id (ids : list string) : string := fold_right String.append "x" ids.

Lemma append_length a b : String.length (String.append a b) = String.length a + String.length b.
Proof. induction a as [|c a IH]; [reflexivity|]. cbn. rewrite IH. reflexivity. Qed.

Lemma fresh_longer ids : forall i, In i ids -> String.length i < String.length (fresh_id ids).
Proof.
  assert (P : forall l, 0 < String.length (fresh_id l)).
  { induction l as [|a l IH]; [cbn; lia|]. cbn [fresh_id fold_right]. rewrite append_length. fold (fresh_id l). lia. }
  induction ids as [|a ids IH]; intros i I; [destruct I|]. cbn [fresh_id fold_right]. rewrite append_length.
  fold (fresh_id ids). destruct I as [<- |I]; [specialize (P ids); lia | specialize (IH i I); lia].
Qed.

Lemma fresh_not_in ids : ~ In (fresh_id ids) ids.
Proof. intros I. apply fresh_longer in I. lia. Qed.

Definition with_newid (f : list string -> string) (R : reg_env) : reg_env :=
  mkRegEnv (rg_keys R) (rg_parse R) (rg_split R) (rg_verify_url R) (rg_hashsplit R) (rg_schema R) (rg_blank R)
    (rg_preferred R) (rg_provider R) (rg_listed R) (rg_response R) (rg_comb R) (rg_signing R) f (rg_salt R)
    (rg_secret R) (rg_secret_expires R) (rg_secret_in R) (rg_now R).

Theorem C75_new_client_refuted : ~ C75_full.
Proof.
  intros F.
  set (s := mkRState [("opx", [("client_id", VStr "opx")])] []).
  destruct (step2_process_request id_order (with_newid fresh_id ex_reg) ex_web true true ["op"] s) as [s' r] eqn:E.
  specialize (F id_order (with_newid fresh_id ex_reg) ex_web true ["op"] s s' r fresh_not_in E "opx" [("client_id", VStr "opx")] eq_refl).
  vm_compute in E. injection E as <- _. discriminate F.
Qed.

(** Missing: callers that reserve identifiers of their own; then the registered ones are not avoided. *)
Theorem C75_new_client_partial : forall O R request set_secret s s' r,
  (forall ids, ~ In (rg_newid R ids) ids) ->
  step2_process_request O R request true set_secret [] s = (s', r) ->
  forall id ci, dget id (r_cdb s) = Some ci -> dget id (r_cdb s') = Some ci.
Proof.
  intros O R request set_secret s s' r NF H id ci D.
  assert (NI : forall x, x = rg_newid R (dkeys (r_cdb s)) -> id <> x).
  { intros x -> ->. apply (NF (dkeys (r_cdb s))). apply (dget_In_key _ _ _ _ D). }
  destruct (step2_end _ _ _ _ _ _ _ _ _ H) as [_ E].
  inversion E as [r0 N | req i req' r0 N A I | req i req' ci' kj A I C K]; subst; cbn [r_cdb].
  - exact D.
  - destruct I as [I _]. cbn [is_nil] in I. rewrite dget_dset_other by (apply NI, I). exact D.
  - destruct I as [I _]. cbn [is_nil] in I. rewrite !dget_dset_other by (apply NI, I). exact D.
Qed.

(** [ex_start] has the client op1, which stays *)
Example C75_ex : exists s' args, step2_process_request id_order (with_newid fresh_id ex_reg) ex_web true true [] ex_start = (s', Ok (Done args)) /\
  dget "op1x" (r_cdb s') <> None /\ dget "op1" (r_cdb s') = Some [("client_id", VStr "op1")].
Proof. eexists. eexists. split; [vm_compute; reflexivity|]. split; [discriminate | reflexivity]. Qed.

(** ** C76: a registration is about one client *)

(** Whatever the outcome, entries and keys of all other clients stay the same. *)
Theorem C76_only_this_client : forall O R request new_id set_secret reserved s s' r id,
  step2_process_request O R request new_id set_secret reserved s = (s', r) ->
  NoDup (dkeys request) -> passed_on R "client_id" -> client_of R new_id reserved s request id ->
  forall e, e <> id -> dget e (r_cdb s') = dget e (r_cdb s) /\ ckeys_of (r_keys s') e = ckeys_of (r_keys s) e.
Proof.
  intros O R request new_id set_secret reserved s s' r id H N PC CL e NE.
  destruct (step2_end _ _ _ _ _ _ _ _ _ H) as [_ E].
  inversion E as [r0 ND | req i req' r0 ND A I | req i req' ci kj A I C K]; subst; cbn [r_cdb r_keys]; [auto| |].
  - assert (CL' := identified_client _ _ _ _ _ _ _ _ _ N PC A I).
    assert (i = id) by (unfold client_of in *; destruct new_id; congruence). subst i.
    split; [apply dget_dset_other, NE | reflexivity].
  - assert (CL' := identified_client _ _ _ _ _ _ _ _ _ N PC A I).
    assert (i = id) by (unfold client_of in *; destruct new_id; congruence). subst i.
    split; [rewrite !dget_dset_other by exact NE; reflexivity|].
    assert (EK : ckeys_of kj e = ckeys_of (r_keys s) e).
    { apply String.eqb_neq in NE. unfold import_client_keys in K.
      destruct (truthy (field "signed_jwks_uri" req')); [injection K as <-; reflexivity|].
      destruct (truthy (field "jwks_uri" req')); [injection K as <-; rewrite ckeys_add, NE; apply app_nil_r|].
      destruct (truthy (field "jwks" req')); [|injection K as <-; reflexivity].
      destruct (ks_jwks (rg_keys R) (field "jwks" req')); [|discriminate].
      injection K as <-. rewrite ckeys_add, NE. apply app_nil_r. }
    unfold with_secret. destruct (set_secret && _); [|exact EK].
    rewrite ckeys_add. apply String.eqb_neq in NE. rewrite NE, app_nil_r. exact EK.
Qed.

(** registering [ex_web] leaves op1 and the server's own keys alone *)
Example C76_ex : exists s' r, step2_process_request id_order ex_reg ex_web true true [] ex_start = (s', r) /\
  client_of ex_reg true [] ex_start ex_web "client1" /\
  dget "op1" (r_cdb s') = dget "op1" (r_cdb ex_start) /\ ckeys_of (r_keys s') "" = [KPub 5].
Proof. eexists. eexists. split; [vm_compute; reflexivity|]. split; [reflexivity|]. split; reflexivity. Qed.

Print Assumptions C55_signed_refuted.
Print Assumptions C55_source_partial.
Print Assumptions C55_get_keys_partial.
Print Assumptions C55_get_jwks_partial.
Print Assumptions C55_no_fallback.
Print Assumptions C55_failed_import.
Print Assumptions C56_redirect_uris_refuted.
Print Assumptions C56_redirect_uris_partial.
Print Assumptions C56_stored.
Print Assumptions C57_entry_left_refuted.
Print Assumptions C57_entry_left_partial.
Print Assumptions C57_malformed.
Print Assumptions C73_only_supported.
Print Assumptions C74_secret_refuted.
Print Assumptions C74_secret_partial.
Print Assumptions C75_new_client_refuted.
Print Assumptions C75_new_client_partial.
Print Assumptions C76_only_this_client.
