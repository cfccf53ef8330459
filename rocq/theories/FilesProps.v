(** Statements that are kept in files (C144), and publishing them (C145). *)
From Verif Require Import PyFacts ExampleKit FetchFacts FetchProps FilesModel PublishModel VerifierFacts.
From Coq Require Import Lia.

(** ** Specification *)

(** a key that signs is one of those there are *)
Definition picks_keys (X : fenv) : Prop :=
  (forall ks k, fx_pick X ks = Some k -> In k ks) /\ (forall ks, ks <> [] -> exists k, fx_pick X ks = Some k).

Definition names_apart (X : fenv) : Prop := forall a b, fx_id X a = fx_id X b -> a = b.

(** what the files of [iss] say about [sub], [id]; [kwargs] comes first *)
Record told (S : site) (X : fenv) (now : Z) (iss sub id : string) (kwargs : dict val) (sg : signed) : Prop := mkTold {
  to_key : exists own, si_jwks S iss iss = Some own /\ In (sg_key sg) own;
  to_iss : dget "iss" (sg_claims sg) = Some (VStr (fx_id X iss));
  to_sub : dget "sub" (sg_claims sg) = Some (VStr id);
  to_jwks : exists ks, si_jwks S iss sub = Some ks /\ dget "jwks" (sg_claims sg) = Some (fx_export X ks);
  to_files : forall name file, In (name, file) info_files ->
    dget name (sg_claims sg) = if_truthy (match dget name kwargs with Some v => Some v | None => si_file S iss sub file end);
  to_more : forall k v, dget k kwargs = Some v ->
    ~ In k ["iat"; "exp"; "jwks"; "lifetime"; "include_jwks"; "aud"] -> ~ In k (map fst info_files) -> dget k (sg_claims sg) = Some v;
  to_iat : dget "iat" (sg_claims sg) = Some (VInt now);
  to_exp : dget "lifetime" kwargs = None -> dget "exp" (sg_claims sg) = Some (VInt (now + 86400))
}.

(** key jars of an object for [iss] that was asked for statements about subjects in [Q], whatever came of it *)
Inductive in_use (S : site) (X : fenv) (iss : string) (Q : string -> Prop) : keyjar -> Prop :=
| in_use_new kj : fs_init S X iss [] = (kj, Ok tt) -> in_use S X iss Q kj
| in_use_asked kj now sub kwargs kj' r : in_use S X iss Q kj -> Q sub -> fs_create S X now iss sub kwargs kj = (kj', r) ->
    in_use S X iss Q kj'.

(** full statements: for every host, and for the quoted identifier of an entity *)
Definition C144_host_full : Prop := forall S X now iss sub kwargs kj kj' sg,
  picks_keys X -> names_apart X -> iss <> "" -> NoDup (dkeys kwargs) -> in_use S X iss (fun _ => True) kj ->
  String.prefix "https%3A%2F%2F" sub = false ->
  fs_create S X now iss sub kwargs kj = (kj', Ok sg) -> told S X now iss sub (fx_id X sub) kwargs sg.

Definition C144_quoted_full : Prop := forall S X now iss sub kwargs kj kj' sg,
  picks_keys X -> names_apart X -> iss <> "" -> NoDup (dkeys kwargs) -> fs_init S X iss [] = (kj, Ok tt) ->
  String.prefix "https%3A%2F%2F" sub = true ->
  fs_create S X now iss sub kwargs kj = (kj', Ok sg) -> told S X now iss sub (fx_unquote X sub) kwargs sg.

(** ** Lemmas *)

Definition unquoted (s : string) : Prop := String.prefix "https%3A%2F%2F" s = false.

Lemma prefix_app a b : forall s, String.prefix (a ++ b) s = true -> String.prefix a s = true.
Proof.
  induction a as [|c a IH]; intros s H; [destruct s; reflexivity|]. destruct s as [|d s]; [discriminate H|].
  cbn [String.append String.prefix] in *. destruct (Ascii.ascii_dec c d); [exact (IH s H)|discriminate H].
Qed.

Lemma plain_unquoted s : String.prefix "https" s = false -> unquoted s.
Proof.
  unfold unquoted. intros H. destruct (String.prefix "https%3A%2F%2F" s) eqn:E; [|reflexivity].
  rewrite (prefix_app "https" "%3A%2F%2F" s E) in H. discriminate H.
Qed.

Section Lemmas.
Context (S : site) (X : fenv) (iss : string).
Hypothesis HI : names_apart X.
Hypothesis Hne : iss <> "".

(** a key jar has what the files have *)
Definition mirrors (kj : keyjar) : Prop :=
  (exists own, si_jwks S iss iss = Some own /\ dget (fx_id X iss) kj = Some own) /\
  forall s ks, dget (fx_id X s) kj = Some ks -> si_jwks S iss s = Some ks.

Lemma init_mirrors kj : fs_init S X iss [] = (kj, Ok tt) -> mirrors kj.
Proof.
  unfold fs_init, load_jwks. destruct (String.eqb_spec iss ""); [contradiction|].
  destruct (si_jwks S iss iss) as [own|] eqn:E; [|discriminate]. intros [= <-]. split.
  - exists own. split; [exact E|]. cbn [dget]. rewrite String.eqb_refl. reflexivity.
  - intros s ks. cbn [dget]. destruct (String.eqb_spec (fx_id X s) (fx_id X iss)) as [Es|_]; [|discriminate].
    intros [= <-]. rewrite (HI _ _ Es). exact E.
Qed.

Lemma gather_mirrors sub kj kj' r : unquoted sub -> mirrors kj -> gather_info S X iss sub kj = (kj', r) ->
  mirrors kj' /\
  match r with
  | Ok d => d = read_files S iss sub /\ exists ks, si_jwks S iss sub = Some ks /\ dget (fx_id X sub) kj' = Some ks
  | Err x => x = OtherException /\ si_jwks S iss sub = None
  end.
Proof.
  intros U ((own & O1 & O2) & M). unfold gather_info. unfold mbind at 1, StateM.get.
  unfold mbind at 1. unfold dmem at 1. rewrite O2. unfold ret at 1. rewrite U.
  unfold mbind at 1. unfold mbind at 1. unfold dmem. destruct (dget (fx_id X sub) kj) as [ks|] eqn:D.
  - unfold ret. intros [= <- <-]. split; [split; [exists own; auto|exact M]|]. split; [reflexivity|]. exists ks. split; [apply M, D|exact D].
  - unfold load_jwks, keys_in. destruct (si_jwks S iss sub) as [ks|] eqn:E.
    + unfold ret. intros [= <- <-]. rewrite D. cbn [app]. split; [|split; [reflexivity|exists ks; split; [reflexivity|apply dget_dset_same]]]. split.
      * exists own. split; [exact O1|]. rewrite dget_dset_other; [exact O2|]. intros Es. rewrite Es in O2. congruence.
      * intros s l. rewrite dget_dset. destruct (String.eqb_spec (fx_id X s) (fx_id X sub)) as [Es|_]; [|apply M].
        intros [= <-]. rewrite (HI _ _ Es). exact E.
    + intros [= <- <-]. split; [split; [exists own; auto|exact M]|auto].
Qed.

Lemma create_mirrors now sub kwargs kj kj' r : unquoted sub -> mirrors kj -> fs_create S X now iss sub kwargs kj = (kj', r) -> mirrors kj'.
Proof.
  intros U M. unfold fs_create. unfold mbind at 1. destruct (gather_info S X iss sub kj) as [k1 [d|x]] eqn:G.
  - destruct (gather_mirrors _ _ _ _ U M G) as [M1 _]. unfold mbind, StateM.get, lift.
    destruct (create_entity_statement _ _ _ _ _); [|intros [= <- _]; exact M1].
    destruct (fx_pick X _); intros [= <- _]; exact M1.
  - intros [= <- _]. exact (proj1 (gather_mirrors _ _ _ _ U M G)).
Qed.

Lemma in_use_mirrors kj : in_use S X iss unquoted kj -> mirrors kj.
Proof.
  induction 1 as [kj H|kj now sub kwargs kj' r _ IH U H]; [exact (init_mirrors kj H)|exact (create_mirrors _ _ _ _ _ _ U IH H)].
Qed.

Lemma read_files_get sub name : dget name (read_files S iss sub) =
  match dget name info_files with Some f => si_file S iss sub f | None => None end.
Proof.
  unfold read_files, info_files. cbn [fold_left fst snd dget].
  destruct (String.eqb_spec name "metadata") as [->|N1];
  [|destruct (String.eqb_spec name "metadata_policy") as [->|N2];
  [|destruct (String.eqb_spec name "constraints") as [->|N3];
  [|destruct (String.eqb_spec name "authority_hints") as [->|N4]]]];
  destruct (si_file S iss sub "metadata.json"); destruct (si_file S iss sub "policy.json");
  destruct (si_file S iss sub "constraints.json"); destruct (si_file S iss sub "authority.json");
  repeat (rewrite dget_dset_other by assumption); reflexivity.
Qed.

Lemma read_files_nodup sub : NoDup (dkeys (read_files S iss sub)).
Proof.
  unfold read_files. assert (G : forall l d, NoDup (dkeys d) -> NoDup (dkeys (fold_left
    (fun d nf => match si_file S iss sub (snd nf) with Some v => dset (fst nf) v d | None => d end) l d))).
  { induction l as [|[n f] l IH]; intros d N; [exact N|]. cbn [fold_left fst snd]. apply IH.
    destruct (si_file S iss sub f); [apply NoDup_dset|]; exact N. }
  apply G. constructor.
Qed.

Definition args_of (sub : string) (ks : list key) (kwargs : dict val) : dict val :=
  dset "jwks" (fx_export X ks) (dupdate (read_files S iss sub) kwargs).

Lemma args_get sub ks kwargs k : NoDup (dkeys kwargs) -> dget k (args_of sub ks kwargs) =
  if String.eqb k "jwks" then Some (fx_export X ks)
  else match dget k kwargs with
       | Some v => Some v
       | None => match dget k info_files with Some f => si_file S iss sub f | None => None end
       end.
Proof. intros N. unfold args_of. rewrite dget_dset, dget_dupdate by exact N. rewrite read_files_get. reflexivity. Qed.

Lemma create_eq now sub kwargs kj kj' r : unquoted sub -> mirrors kj -> fs_create S X now iss sub kwargs kj = (kj', r) ->
  match si_jwks S iss sub with
  | None => r = Err OtherException
  | Some ks => exists own, si_jwks S iss iss = Some own /\
      r = (let* claims := create_entity_statement now (fx_id X iss) (if String.prefix "https" sub then fx_unquote X sub else fx_id X sub)
                            VNull (args_of sub ks kwargs) in
           match fx_pick X own with Some k => Ok (mkSigned k claims) | None => Err OtherException end)
  end.
Proof.
  intros U M. unfold fs_create. unfold mbind at 1. destruct (gather_info S X iss sub kj) as [k1 [d|x]] eqn:G.
  - destruct (gather_mirrors _ _ _ _ U M G) as [((own & O1 & O2) & _) (-> & ks & E & D)]. rewrite E.
    unfold mbind, StateM.get, lift. unfold keys_in. rewrite D, O2. fold (args_of sub ks kwargs).
    intros H. exists own. split; [exact O1|].
    destruct (create_entity_statement _ _ _ _ _); cbn [bind]; [|injection H as _ <-; reflexivity].
    destruct (fx_pick X own); injection H as _ <-; reflexivity.
  - destruct (gather_mirrors _ _ _ _ U M G) as [_ [-> ->]]. intros [= _ <-]. reflexivity.
Qed.

End Lemmas.

(** ** C144 *)

(** Missing: names of hosts that begin with https, and quoted identifiers of entities.  For other hosts, an object that
    was only asked about such hosts says what the files say. *)
Theorem C144_files_partial : forall S X now iss sub kwargs kj kj' sg,
  picks_keys X -> names_apart X -> iss <> "" -> NoDup (dkeys kwargs) -> in_use S X iss unquoted kj ->
  String.prefix "https" sub = false ->
  fs_create S X now iss sub kwargs kj = (kj', Ok sg) -> told S X now iss sub (fx_id X sub) kwargs sg.
Proof.
  intros S X now iss sub kwargs kj kj' sg [P1 _] HI Hne ND IU HP H. assert (U := plain_unquoted _ HP).
  assert (C := create_eq S X iss HI now sub kwargs kj kj' _ U (in_use_mirrors S X iss HI Hne kj IU) H).
  destruct (si_jwks S iss sub) as [ks|] eqn:E; [|discriminate C]. destruct C as (own & O & C). rewrite HP in C.
  symmetry in C. apply bind_ok in C. destruct C as (claims & Hc & C). destruct (fx_pick X own) as [k|] eqn:Ep; [|discriminate C].
  injection C as <-.
  assert (NA : NoDup (dkeys (args_of S X iss sub ks kwargs))) by (apply NoDup_dset, NoDup_dupdate, read_files_nodup).
  assert (G := create_claims _ _ _ _ _ _ NA Hc). assert (A := args_get S X iss sub ks kwargs).
  constructor; cbn [sg_key sg_claims].
  - exists own. split; [exact O|exact (P1 own k Ep)].
  - rewrite G. reflexivity.
  - rewrite G. reflexivity.
  - exists ks. split; [exact E|]. rewrite G. unfold claim_of. cbn -[dget args_of]. rewrite (A "jwks" ND). reflexivity.
  - intros name file Hin. rewrite G. unfold info_files in Hin. simpl in Hin.
    destruct Hin as [[= <- <-]|[[= <- <-]|[[= <- <-]|[[= <- <-]|[]]]]]; unfold claim_of; cbn -[dget args_of if_truthy];
      rewrite A by exact ND; reflexivity.
  - intros k' v D N1 N2. rewrite G. unfold claim_of.
    assert (D' : dget k' (args_of S X iss sub ks kwargs) = Some v).
    { rewrite A by exact ND. destruct (String.eqb_spec k' "jwks") as [->|_]; [exfalso; apply N1; simpl; tauto|]. rewrite D. reflexivity. }
    assert (K : ~ In k' ["iss"; "sub"]).
    { unfold create_entity_statement in Hc. apply bind_ok in Hc. destruct Hc as (msg & Hm & _). unfold statement_msg in Hm.
      intros [<-|[<-|[]]]; unfold dmem in Hm; rewrite D' in Hm; [discriminate Hm|].
      destruct (dget "iss" (args_of S X iss sub ks kwargs)); discriminate Hm. }
    cbn [smem existsb filtered orb]. simpl in N1, N2, K.
    repeat match goal with |- context [String.eqb k' ?c] => destruct (String.eqb_spec k' c) as [->|?]; [exfalso; tauto|] end.
    exact D'.
  - rewrite G. reflexivity.
  - intros D. rewrite G. unfold claim_of. cbn -[dget args_of arg_or Z.add]. unfold arg_or. rewrite A by exact ND.
    cbn -[dget Z.add]. rewrite D. reflexivity.
Qed.
Print Assumptions C144_files_partial.

(** There is a statement if there are files with keys, for every subject an object was asked about before. *)
Theorem C144_known_answered : forall S X now iss sub kwargs kj own ks,
  picks_keys X -> names_apart X -> iss <> "" -> NoDup (dkeys kwargs) -> in_use S X iss unquoted kj -> unquoted sub ->
  si_jwks S iss iss = Some own -> own <> [] -> si_jwks S iss sub = Some ks ->
  (forall k, In k ["iss"; "sub"; "key_jar"] -> dget k kwargs = None) ->
  (forall v, dget "lifetime" kwargs = Some v -> exists z, v = VInt z) ->
  exists kj' sg, fs_create S X now iss sub kwargs kj = (kj', Ok sg).
Proof.
  intros S X now iss sub kwargs kj own ks [_ P2] HI Hne ND IU U O On E K1 K2.
  destruct (fs_create S X now iss sub kwargs kj) as [kj' r] eqn:H.
  assert (C := create_eq S X iss HI now sub kwargs kj kj' _ U (in_use_mirrors S X iss HI Hne kj IU) H).
  rewrite E in C. destruct C as (own' & O' & ->). rewrite O in O'. injection O' as <-.
  destruct (create_total now (fx_id X iss) (if String.prefix "https" sub then fx_unquote X sub else fx_id X sub) VNull (args_of S X iss sub ks kwargs))
    as [p ->].
  - intros k Hk. rewrite args_get by exact ND. destruct (String.eqb_spec k "jwks") as [->|_]; [simpl in Hk; intuition discriminate|].
    rewrite (K1 k Hk). simpl in Hk. destruct Hk as [<-|[<-|[<-|[]]]]; reflexivity.
  - intros v D. rewrite args_get in D by exact ND. cbn -[dget] in D. destruct (dget "lifetime" kwargs) as [w|]; [|discriminate D].
    injection D as <-. exact (K2 w eq_refl).
  - destruct (P2 own On) as [k Hk]. cbn [bind]. rewrite Hk. eauto.
Qed.
Print Assumptions C144_known_answered.

(** *** Examples and counterexamples *)

Definition fx : fenv := mkFenv (fun s => ("https://" ++ s)%string)
  (fun s => if String.eqb s "https%3A%2F%2Fs" then "https://s" else s) (fun ks => VList (map (fun k => VInt (Z.of_nat k)) ks))
  (fun ks => match ks with k :: _ => Some k | [] => None end)
  (fun u => if String.eqb u "https://i/.well-known/openid-federation" then "/.well-known/openid-federation" else "/fetch")
  (fun u => if smem u ["https://i/.well-known/openid-federation"; "https://i/fetch?sub=https://s"] then "i" else "s")
  (fun u => if String.eqb u "https://i/fetch?sub=https://s" then Some "https://s" else None).

(** [i] has files about itself and [s], under both names, and about a host named https.s *)
Definition fsite : site := mkSite
  (fun sup sub => if String.eqb sup "i" then
                    if String.eqb sub "i" then Some [1] else if String.eqb sub "s" then Some [2]
                    else if smem sub ["https%3A%2F%2Fs"; "https.s"] then Some [3] else None
                  else if String.eqb sup "s" then
                    if String.eqb sub "s" then Some [2] else if String.eqb sub "i" then Some [4] else None
                  else None)
  (fun sup sub f => if String.eqb f "policy.json" && String.eqb sub "s" then Some (VDict [("contacts", VDict [])]) else None).

Lemma fx_picks : picks_keys fx.
Proof.
  split.
  - intros [|x ks] k; [discriminate|]. intros [= <-]. left. reflexivity.
  - intros [|x ks] H; [contradiction|]. eexists. reflexivity.
Qed.

Lemma fx_apart : names_apart fx.
Proof. intros a b H. cbn in H. injection H as ->. reflexivity. Qed.

Example C144_ex : exists kj kj' sg,
  in_use fsite fx "i" unquoted kj /\ String.prefix "https" "s" = false /\
  fs_create fsite fx 1000 "i" "s" [("constraints", VDict [("max_path_length", VInt 1)])] kj = (kj', Ok sg) /\
  sg = mkSigned 1 [("sub", VStr "https://s"); ("metadata_policy", VDict [("contacts", VDict [])]);
                   ("constraints", VDict [("max_path_length", VInt 1)]); ("jwks", VList [VInt 2]);
                   ("iss", VStr "https://i"); ("iat", VInt 1000); ("exp", VInt 87400)].
Proof.
  exists [("https://i", [1])]. eexists _, _.
  split; [|split; [reflexivity|split; [vm_compute; reflexivity|reflexivity]]].
  eapply (in_use_asked _ _ _ _ _ 900%Z "nobody" []); [apply in_use_new; reflexivity|reflexivity|vm_compute; reflexivity].
Qed.

(** the subject of a statement about a host whose name begins with https is not the identifier of the entity *)
Theorem C144_host_refuted : ~ C144_host_full.
Proof.
  intros H. destruct (fs_create fsite fx 1000 "i" "https.s" [] [("https://i", [1])]) as [kj' [sg|x]] eqn:E; [|vm_compute in E; discriminate E].
  assert (T := H fsite fx 1000%Z "i" "https.s" [] [("https://i", [1])] kj' sg fx_picks fx_apart ltac:(discriminate) ltac:(constructor)
                (in_use_new fsite fx "i" (fun _ => True) [("https://i", [1])] eq_refl) eq_refl E).
  apply to_sub in T. vm_compute in E. injection E as _ <-. vm_compute in T. discriminate T.
Qed.
Print Assumptions C144_host_refuted.

(** keys are looked for under another name than they were loaded *)
Theorem C144_quoted_refuted : ~ C144_quoted_full.
Proof.
  intros H. destruct (fs_create fsite fx 1000 "i" "https%3A%2F%2Fs" [] [("https://i", [1])]) as [kj' [sg|x]] eqn:E; [|vm_compute in E; discriminate E].
  assert (T := H fsite fx 1000%Z "i" "https%3A%2F%2Fs" [] [("https://i", [1])] kj' sg fx_picks fx_apart ltac:(discriminate) ltac:(constructor)
                eq_refl eq_refl E).
  apply to_jwks in T. vm_compute in E. injection E as _ <-. destruct T as (ks & T1 & T2). vm_compute in T1. injection T1 as <-.
  vm_compute in T2. discriminate T2.
Qed.
Print Assumptions C144_quoted_refuted.

(** with a quoted identifier in between, a statement has the keys from another directory *)
Example C144_mixed : exists kj sg, in_use fsite fx "i" (fun _ => True) kj /\
  snd (fs_create fsite fx 1000 "i" "s" [] kj) = Ok sg /\ dget "jwks" (sg_claims sg) = Some (VList [VInt 3]) /\
  si_jwks fsite "i" "s" = Some [2].
Proof.
  exists [("https://i", [1]); ("https://s", [3])]. eexists. split; [|split; [vm_compute; reflexivity|split; reflexivity]].
  eapply (in_use_asked _ _ _ _ _ 900%Z "https%3A%2F%2Fs" []); [apply in_use_new; reflexivity|exact I|vm_compute; reflexivity].
Qed.

(** ** C145 *)

(** full statement: a statement is by the entity that is asked, about the subject that is asked for *)
Definition C145_fetch_full : Prop := forall S X now url s sg,
  picks_keys X -> names_apart X -> fx_path X url = "/federation_fetch" -> fx_sub X url = Some s ->
  fs_get S X now url = Ok sg -> dget "iss" (sg_claims sg) = Some (VStr (fx_id X (fx_netloc X url))).

Lemma once_ok S X now iss sub sg : iss <> "" -> once S X now iss sub = Ok sg ->
  exists kj kj', fs_init S X iss [] = (kj, Ok tt) /\ fs_create S X now iss sub [] kj = (kj', Ok sg).
Proof.
  intros Hne. unfold once, mbind. destruct (fs_init S X iss []) as [kj [[]|x]] eqn:E; [|discriminate].
  destruct (fs_create S X now iss sub [] kj) as [kj' r] eqn:E2. cbn [snd]. intros ->. eauto.
Qed.

(** An entity configuration is by and about the entity that is asked, for the keys in its files, and signed with one of
    them: it is accepted by those who ask. *)
Theorem C145_configuration : forall S X now url sg,
  picks_keys X -> names_apart X -> fx_path X url = "/.well-known/openid-federation" ->
  fx_netloc X url <> "" -> String.prefix "https" (fx_netloc X url) = false ->
  fs_get S X now url = Ok sg ->
  told S X now (fx_netloc X url) (fx_netloc X url) (fx_id X (fx_netloc X url)) [] sg /\
  forall jwks_of E st, (forall ks, jwks_of (fx_export X ks) = Some ks) -> decode jwks_of (sg_claims sg) = Some st ->
    (forall k, lib_picks (e_lib E) (TJws (sg_key sg) st) k = true) ->
    (forall n, lib_valid (e_lib E) n st = true ->
       verify_self_signed E n (Some (TJws (sg_key sg) st)) = Ok (TJws (sg_key sg) st, st)) /\
    s_iss st = fx_id X (fx_netloc X url) /\ s_sub st = fx_id X (fx_netloc X url).
Proof.
  intros S X now url sg HP HI Hpath Hne Hplain H. unfold fs_get in H. rewrite Hpath in H. cbn [String.eqb] in H.
  change (String.eqb "/.well-known/openid-federation" "/.well-known/openid-federation") with true in H. cbv iota in H.
  destruct (once_ok _ _ _ _ _ _ Hne H) as (kj & kj' & H1 & H2).
  assert (T := C144_files_partial S X now _ _ [] kj kj' sg HP HI Hne (NoDup_nil _) (in_use_new _ _ _ _ _ H1) Hplain H2).
  split; [exact T|]. intros jwks_of E st Hj Hd Hp.
  destruct T as [(own & O1 & O2) T1 T2 (ks & K1 & K2) _ _ _ _]. rewrite O1 in K1. injection K1 as <-.
  unfold decode in Hd. rewrite T1, T2 in Hd. unfold claim at 2 in Hd. rewrite K2, Hj in Hd.
  destruct (claim as_int "exp" (sg_claims sg)); [|discriminate Hd].
  destruct (claim (as_dict_of (as_dict_of Some)) "metadata" (sg_claims sg)); [|discriminate Hd].
  destruct (claim (as_dict_of (as_dict_of (as_dict_of Some))) "metadata_policy" (sg_claims sg)); [|discriminate Hd].
  destruct (claim as_constraints "constraints" (sg_claims sg)); [|discriminate Hd].
  destruct (claim as_strs "authority_hints" (sg_claims sg)); [|discriminate Hd].
  injection Hd as <-. split; [|split; reflexivity].
  intros n Hn. unfold verify_self_signed. cbn [s_jwks].
  match goal with |- context [kmem ?a ?b] => assert (K : kmem a b = true) end.
  { apply kmem_In, filter_In. split; [exact O2|apply Hp]. }
  rewrite K, Hn. reflexivity.
Qed.
Print Assumptions C145_configuration.

(** Whenever a statement is answered it is by the subject that was asked for, about the entity that was asked, from the
    files the subject has about it. *)
Theorem C145_fetch_partial : forall S X now url s sg,
  picks_keys X -> names_apart X -> fx_path X url <> "/.well-known/openid-federation" -> fx_sub X url = Some s ->
  fx_netloc X s <> "" -> String.prefix "https" (fx_netloc X url) = false ->
  fs_get S X now url = Ok sg ->
  told S X now (fx_netloc X s) (fx_netloc X url) (fx_id X (fx_netloc X url)) [] sg.
Proof.
  intros S X now url s sg HP HI Hpath Hs Hne Hplain H. unfold fs_get in H.
  destruct (String.eqb_spec (fx_path X url) "/.well-known/openid-federation"); [contradiction|]. rewrite Hs in H.
  destruct (once_ok _ _ _ _ _ _ Hne H) as (kj & kj' & H1 & H2).
  exact (C144_files_partial S X now _ _ [] kj kj' sg HP HI Hne (NoDup_nil _) (in_use_new _ _ _ _ _ H1) Hplain H2).
Qed.
Print Assumptions C145_fetch_partial.

Theorem C145_fetch_refuted : ~ C145_fetch_full.
Proof.
  intros H.
  set (X := mkFenv (fx_id fx) (fx_unquote fx) (fx_export fx) (fx_pick fx) (fun _ => "/federation_fetch") (fx_netloc fx) (fx_sub fx)).
  destruct (fs_get fsite X 1000 "https://i/fetch?sub=https://s") as [sg|x] eqn:E; [|vm_compute in E; discriminate E].
  assert (T := H fsite X 1000%Z "https://i/fetch?sub=https://s" "https://s" sg fx_picks fx_apart eq_refl eq_refl E).
  vm_compute in E. injection E as <-. vm_compute in T. discriminate T.
Qed.
Print Assumptions C145_fetch_refuted.

Example C145_ex : exists sg,
  fs_get fsite fx 1000 "https://i/.well-known/openid-federation" = Ok sg /\ sg_key sg = 1 /\
  dget "iss" (sg_claims sg) = Some (VStr "https://i") /\ dget "sub" (sg_claims sg) = Some (VStr "https://i") /\
  dget "jwks" (sg_claims sg) = Some (VList [VInt 1]).
Proof. eexists. split; [vm_compute; reflexivity|]. repeat (split; [reflexivity|]). reflexivity. Qed.

(** the statement of [i] about [s] is asked for *)
Example C145_ex_fetch : exists sg,
  fs_get fsite fx 1000 "https://i/fetch?sub=https://s" = Ok sg /\ sg_key sg = 2 /\
  dget "iss" (sg_claims sg) = Some (VStr "https://s") /\ dget "sub" (sg_claims sg) = Some (VStr "https://i") /\
  dget "jwks" (sg_claims sg) = Some (VList [VInt 4]).
Proof. eexists. split; [vm_compute; reflexivity|]. repeat (split; [reflexivity|]). reflexivity. Qed.
