(** C49, C65, C66: verification of trust marks. *)
From Verif Require Import TrustMarkVerifierModel TrustMarkSpec TrustMarkFacts TrustMarkProps FederationSpec FederationProps
  VerifierFacts CollectorFacts ExampleKit CollectorProps.
From Coq Require Import Lia.

(** ** The key jar only changes by calls of the chain verifier *)
Section Keys.
Context (E : cenv) (O : iter_order) (fuel : nat) (V : tmenv).

Definition by_calls (kj kj' : keyjar) : Prop := exists calls, kj' = after_calls (e_lib E) kj calls.

Lemma by_calls_refl kj : by_calls kj kj.
Proof. exists []. reflexivity. Qed.

Lemma by_calls_trans a b c : by_calls a b -> by_calls b c -> by_calls a c.
Proof.
  intros [l1 ->] [l2 ->]. exists (l1 ++ l2). unfold after_calls. rewrite fold_left_app. reflexivity.
Qed.

Lemma verify_chains_keys extra chains : forall kj,
  by_calls kj (fst (verify_trust_chains E chains extra kj)).
Proof.
  unfold verify_trust_chains.
  match goal with |- forall kj, by_calls kj (fst (mfold ?f _ _ kj)) => set (body := f) end.
  assert (G : forall acc kj, by_calls kj (fst (mfold body chains acc kj))); [|intros kj; apply G].
  induction chains as [|c chains IH]; intros acc kj; [apply by_calls_refl|].
  cbn [mfold]. unfold mbind at 1. unfold body at 1. unfold mbind at 1. unfold run_verifier at 1.
  destruct (verifier_call (e_lib E) kj (c ++ extra)) as [kj1 [tc|e]] eqn:Ev.
  - unfold ret at 1. apply by_calls_trans with kj1; [|apply IH].
    exists [c ++ extra]. unfold after_calls. simpl. rewrite Ev. reflexivity.
  - cbn [fst]. exists [c ++ extra]. unfold after_calls. simpl. rewrite Ev. reflexivity.
Qed.

Lemma get_verified_keys id s :
  by_calls (f_keys s) (f_keys (fst (get_verified_trust_chains E O fuel id s))).
Proof.
  unfold get_verified_trust_chains, mbind at 1. assert (Hk := collect_keys E fuel id "" s).
  destruct (collect_trust_chains E fuel id "" s) as [s1 [[chains leaf]|e]]; cbn [fst] in *;
    [|rewrite Hk; apply by_calls_refl].
  destruct chains as [|c chains]; [cbn; rewrite Hk; apply by_calls_refl|].
  destruct leaf as [leaf|]; [|cbn; rewrite Hk; apply by_calls_refl].
  unfold mbind, on_keys. assert (Hv := verify_chains_keys [leaf] (c :: chains) (f_keys s1)).
  destruct (verify_trust_chains E (c :: chains) [leaf] (f_keys s1)) as [kj [tcs|e]]; cbn [fst] in *;
    rewrite Hk in Hv; exact Hv.
Qed.

Lemma get_metadata_keys id s : by_calls (f_keys s) (f_keys (fst (get_metadata E fuel id s))).
Proof.
  assert (G : forall s (f : option centry -> M fstate centry),
    (forall o s0, f_keys (fst (f o s0)) = f_keys s0) ->
    by_calls (f_keys s) (f_keys (fst ((do r <- collect_trust_chains E fuel id "" in
              do _ <- on_keys (verify_trust_chains E (fst r) []) in
              do e <- on_col (cfg_getitem E id) in f e) s)))).
  { clear s. intros s f Hf. unfold mbind at 1. assert (Hk := collect_keys E fuel id "" s).
    destruct (collect_trust_chains E fuel id "" s) as [s1 [[chains leaf]|e]]; cbn [fst] in *;
      [|rewrite Hk; apply by_calls_refl].
    unfold mbind at 1. unfold on_keys. assert (Hv := verify_chains_keys [] chains (f_keys s1)).
    destruct (verify_trust_chains E chains [] (f_keys s1)) as [kj [tcs|e]]; cbn [fst] in *;
      rewrite Hk in Hv; [|exact Hv].
    unfold mbind, on_col. destruct (cfg_getitem E id _) as [c [o|e]]; [|exact Hv].
    rewrite Hf. exact Hv. }
  assert (G2 : forall s, by_calls (f_keys s) (f_keys (fst ((do e <- (do r <- collect_trust_chains E fuel id "" in
              do _ <- on_keys (verify_trust_chains E (fst r) []) in
              do e <- on_col (cfg_getitem E id) in
              match e with
              | None => raise TypeError
              | Some e => ret e
              end) in
      match s_metadata (ce_stmt e) with
      | Some m => ret m
      | None => raise KeyError
      end) s)))).
  { intros s0. specialize (G s0 (fun e => match e with None => raise TypeError | Some e => ret e end)).
    unfold mbind at 1.
    destruct ((do r <- collect_trust_chains E fuel id "" in
              do _ <- on_keys (verify_trust_chains E (fst r) []) in
              do e <- on_col (cfg_getitem E id) in
              match e with
              | None => raise TypeError
              | Some e => ret e
              end) s0) as [s1 [e|x]]; cbn [fst] in *.
    - destruct (s_metadata (ce_stmt e)); cbn [ret raise fst]; apply G; intros [o|] s2; reflexivity.
    - apply G. intros [o|] s2; reflexivity. }
  unfold get_metadata. unfold mbind at 1. unfold StateM.get at 1. cbn [fst].
  destruct (cache_contains id (st_cfg (f_col s))).
  - unfold mbind at 1. unfold mbind at 1. unfold on_col at 1.
    destruct (cfg_getitem E id (f_col s)) as [c [[e|]|x]].
    + unfold mbind at 1. unfold on_col at 1, now at 1. unfold ret at 1.
      assert (K : forall s, by_calls (f_keys s) (f_keys (fst ((do e <- ret e in
         match s_metadata (ce_stmt e) with Some m => ret m | None => raise KeyError end) s)))).
      { intros s0. unfold mbind, ret. destruct (s_metadata (ce_stmt e)); apply by_calls_refl. }
      destruct (s_exp (ce_stmt e)) as [x|]; [destruct (Z.ltb x _)|].
      * apply (G2 (mkFed c (f_keys s) (f_chains s))).
      * apply (K (mkFed c (f_keys s) (f_chains s))).
      * apply (K (mkFed c (f_keys s) (f_chains s))).
    + apply by_calls_refl.
    + apply by_calls_refl.
  - unfold mbind at 1. unfold ret at 1. apply G2.
Qed.

Lemma verify_delegation_keys p anchor s :
  by_calls (f_keys s) (f_keys (fst (verify_delegation E fuel V p anchor s))).
Proof.
  unfold verify_delegation, mbind at 1. assert (H := get_metadata_keys anchor s).
  destruct (get_metadata E fuel anchor s) as [s1 [m|x]]; cbn [fst] in *; [|exact H].
  unfold mbind, lift. destruct (dindex "federation_entity" m) as [fe|x]; [|exact H].
  destruct (dget "id" p) as [[]|]; try exact H. destruct (dget "delegation" p) as [[]|]; exact H.
Qed.
End Keys.

(** ** What the trust anchor says comes from a configuration of the trust anchor *)
Section Metadata.
Context (E : cenv) (fuel : nat).

Lemma obtainable_later s0 s1 id c :
  inv E s0 False s1 -> obtainable E s1 id c -> obtainable E s0 id c.
Proof.
  intros (H1 & H2 & _) [(t & n & Hn & Hs)|(e & He & <-)].
  - left. exists t, n. split; [lia|exact Hs].
  - apply H2. exact He.
Qed.

Lemma cfg_getitem_inv s0 id s r : inv E s0 False s -> cfg_getitem E id s = r ->
  inv E s0 False (fst r) /\ forall e, snd r = Ok (Some e) -> obtainable E s0 id (ce_stmt e).
Proof.
  intros Hi <-. destruct (t_cfg_getitem E s0 False False id s Hi) as [H1 H2].
  split; [exact H1|]. intros e He. rewrite He in H2. apply H2. reflexivity.
Qed.

Lemma collect_inv id stop s s' r : collect E fuel stop id s = (s', r) -> inv E s False s'.
Proof.
  intros H. destruct (t_collect E s False False stop (fun _ => 0) ltac:(intros []) ltac:(intros []) fuel id
                        ltac:(intros []) ltac:(intros [])) as [G _].
  rewrite H in G. exact G.
Qed.

Lemma get_metadata_obtainable id s s' m : get_metadata E fuel id s = (s', Ok m) ->
  exists conf, obtainable E (f_col s) id conf /\ s_metadata conf = Some m.
Proof.
  assert (G2 : forall s s', (do e <- (do r <- collect_trust_chains E fuel id "" in
              do _ <- on_keys (verify_trust_chains E (fst r) []) in
              do e <- on_col (cfg_getitem E id) in
              match e with
              | None => raise TypeError
              | Some e => ret e
              end) in
      match s_metadata (ce_stmt e) with
      | Some m => ret m
      | None => raise KeyError
      end) s = (s', Ok m) ->
      exists conf, obtainable E (f_col s) id conf /\ s_metadata conf = Some m).
  { clear s s'. intros s s' H. unfold mbind at 1 2 in H. unfold collect_trust_chains, mbind at 1 in H.
    unfold on_col at 1 in H. destruct (collect E fuel "" id (f_col s)) as [c [r|x]] eqn:Ec; [|discriminate].
    apply collect_inv in Ec.
    assert (G : forall s2 r0, f_col s2 = c ->
      (let (s0, a) := (do _ <- on_keys (verify_trust_chains E (fst (r0 : list (list token) * option token)) []) in
              do e <- on_col (cfg_getitem E id) in
              match e with
              | None => raise TypeError
              | Some e => ret e
              end) s2 in
       match a with
       | Ok a => (match s_metadata (ce_stmt a) with Some m => ret m | None => raise KeyError end) s0
       | Err e => (s0, Err e)
       end) = (s', Ok m) ->
      exists conf, obtainable E (f_col s) id conf /\ s_metadata conf = Some m).
    { intros s2 r0 E2 G. unfold mbind at 1 in G. unfold on_keys at 1 in G.
      destruct (verify_trust_chains E (fst r0) [] (f_keys s2)) as [kj [tcs|x]]; [|discriminate].
      unfold mbind at 1 in G. unfold on_col at 1 in G. cbn [f_col] in G. rewrite E2 in G.
      destruct (cfg_getitem E id c) as [c' [[e|]|x]] eqn:Eg; [|discriminate|discriminate].
      destruct (cfg_getitem_inv (f_col s) id c _ Ec Eg) as [_ Ho]. specialize (Ho e eq_refl).
      cbn in G. destruct (s_metadata (ce_stmt e)) as [m'|] eqn:Em; [|discriminate].
      cbn in G. injection G as _ <-. exists (ce_stmt e). auto. }
    set (s2 := mkFed c (f_keys s) (f_chains s)).
    destruct r as [[tr t]|]; cbn [ret] in H.
    - exact (G s2 (map (map tok_of) (tree2chains tr), Some t) eq_refl H).
    - exact (G s2 ([], None) eq_refl H). }
  intros H. unfold get_metadata in H. unfold mbind at 1 in H. unfold StateM.get at 1 in H.
  destruct (cache_contains id (st_cfg (f_col s))).
  - unfold mbind at 1 2 in H. unfold on_col at 1 in H.
    destruct (cfg_getitem E id (f_col s)) as [c [[e|]|x]] eqn:Eg; [|discriminate|discriminate].
    destruct (cfg_getitem_inv (f_col s) id _ _ (inv_start E (f_col s) False) Eg) as [Hi Ho].
    specialize (Ho e eq_refl). cbn [fst] in Hi.
    unfold mbind at 1 in H. unfold on_col at 1, now at 1 in H. unfold ret at 1 in H. cbn [f_col] in H.
    assert (K : forall s2, (do e <- ret e in
         match s_metadata (ce_stmt e) with Some m => ret m | None => raise KeyError end) s2 = (s', Ok m) ->
         exists conf, obtainable E (f_col s) id conf /\ s_metadata conf = Some m).
    { intros s2 K. unfold mbind, ret in K. destruct (s_metadata (ce_stmt e)) as [m'|] eqn:Em; [|discriminate].
      injection K as _ <-. exists (ce_stmt e). auto. }
    destruct (s_exp (ce_stmt e)) as [x|]; [destruct (Z.ltb x _)|]; [|exact (K _ H)|exact (K _ H)].
    destruct (G2 _ _ H) as (conf & Hc & Hm). exists conf. split; [|exact Hm].
    exact (obtainable_later _ _ _ _ Hi Hc).
  - unfold mbind at 1 in H. unfold ret at 1 in H. exact (G2 _ _ H).
Qed.
End Metadata.

(** the statements keep their keys when policies are applied *)
Lemma apply_keeps_jwks O tc c : apply_to_chain O tc = Ok c ->
  map s_jwks (ch_verified c) = map s_jwks (tc_verified tc).
Proof.
  unfold apply_to_chain. intros H. apply bind_ok in H. destruct H as ([md ves] & Hp & [= <-]).
  unfold ch_verified. cbn [ch_tc tc_verified snd fst] in *.
  unfold policy_call_chain in Hp. destruct (rev (tc_verified tc)) as [|leaf rfront] eqn:Er; [discriminate|].
  assert (Ev : tc_verified tc = rev rfront ++ [leaf])
    by (rewrite <- (rev_involutive (tc_verified tc)), Er; reflexivity).
  destruct (is_nil rfront).
  - apply bind_ok in Hp. destruct Hp as (m & _ & Hp). apply bind_ok in Hp.
    destruct Hp as (md' & _ & [= _ <-]). reflexivity.
  - apply bind_ok in Hp. destruct Hp as ([ms leaf'] & Hp & [= _ <-]). cbn [snd].
    unfold policy_call in Hp. destruct (s_metadata leaf) as [m|]; [|discriminate].
    assert (I : s_jwks leaf' = s_jwks leaf).
    { change (s_jwks (snd (ms, leaf')) = s_jwks leaf).
      revert Hp. apply (foldM_inv _ _ _ (fun acc => s_jwks (snd acc) = s_jwks leaf)); [|reflexivity].
      intros acc t acc' _ I1 Ha. apply bind_ok in Ha. destruct Ha as (r & Hr & [= <-]). cbn [snd].
      unfold policy_type in Hr. apply bind_ok in Hr. destruct Hr as (comb & _ & Hr).
      destruct (s_metadata (snd acc)) as [m'|] eqn:Em; [|injection Hr as <-; auto].
      destruct (dget t m') as [md'|]; [|injection Hr as <-; auto].
      apply bind_ok in Hr. destruct Hr as (r' & _ & [= <-]). cbn [snd].
      destruct (snd r'); [|auto]. unfold set_type_metadata. rewrite Em. cbn. auto. }
    rewrite Ev, !map_app. cbn [map]. rewrite I. reflexivity.
Qed.

(** ** C49 *)

(** key [k] of [e] is traceable, or [e] names it itself in a statement signed with a traceable key of [e] *)
Definition vetted (kj : keyjar) (l : list (key * stmt)) (e : string) (k : key) : Prop :=
  traceable kj l e k \/
  exists k0 q jw, In (k0, q) l /\ s_iss q = e /\ traceable kj l e k0 /\ s_jwks q = Some jw /\ In k jw.

(** the trust anchor names an owner of the trust mark id, who signed the delegation *)
Definition delegated (E : cenv) (V : tmenv) (s : cstate) (anchor id d : string) : Prop :=
  exists conf m fe owners info jw keys k o,
    obtainable E s anchor conf /\ s_metadata conf = Some m /\ dget "federation_entity" m = Some fe /\
    dget "trust_mark_owners" fe = Some (VDict owners) /\ dget id owners = Some (VDict info) /\
    dget "jwks" info = Some jw /\ dget "sub" info = Some (VStr o) /\ tm_jwks V jw = Ok keys /\
    tm_deleg V d = Some (k, o) /\ In k keys.

(** the mark is signed with a key of an issuer which has a trust chain to the anchor, and has not expired *)
Definition valid_mark (E : cenv) (O : iter_order) (fuel : nat) (s : fstate) (t : tmtoken) (anchor : string)
    (p : tmark) : Prop :=
  exists k iss, t = TMJws k p /\ dget "iss" p = Some (VStr iss) /\
    unexpired (e_clock E (st_tick (f_col s))) p /\
    (exists s1 s2 cs c, get_verified_trust_chains E O fuel iss s1 = (s2, Ok cs) /\ In c cs /\
       ch_anchor c = anchor /\ (dget "delegation" p = None -> s1 = s) /\
       exists calls, f_keys s1 = after_calls (e_lib E) (f_keys s) calls) /\
    (exists calls, vetted (f_keys s) (flat_map jws calls) iss k).

Definition C49_full : Prop := forall E O fuel V s s' t anchor check ent p,
  tm_verifier E O fuel V t anchor check ent s = (s', Ok (Some p)) ->
  valid_mark E O fuel s t anchor p /\
  (forall id d, dget "id" p = Some (VStr id) -> dget "delegation" p = Some (VStr d) ->
     delegated E V (f_col s) anchor id d).

(** tmi, directly below ta, which knows one trust mark with an owner *)
Definition ta_ec : stmt := mkStmt "ta" "ta" (Some 1000%Z) (Some [1])
  (Some [("federation_entity", [("federation_fetch_endpoint", VStr "ta/fetch");
      ("trust_mark_issuers", VDict [("owned", VList [VStr "tmi"])]);
      ("trust_mark_owners", VDict [("owned", VDict [("sub", VStr "own"); ("jwks", VInt 8)])])])])
  None None None.
Definition tmi_ec : stmt := mkStmt "tmi" "tmi" (Some 1000%Z) (Some [5])
  (Some [("federation_entity", [("federation_trust_mark_status_endpoint", VStr "tmi/status")])])
  None None (Some ["ta"]).
Definition tm_world : cenv := ex_env
  [("tmi/wk", TJws 5 tmi_ec); ("ta/wk", TJws 1 ta_ec)]
  [("ta/fetch tmi", TJws 1 (est "ta" "tmi" 900 [5]))] ["ta"].

Definition ex_tmenv : tmenv := mkTMEnv (fun _ _ => true)
  (fun v => match v with VInt z => Ok [Z.to_nat z] | _ => Err KeyError end)
  (fun d => if String.eqb d "good" then Some (8, "own") else None).

(** ta's configuration has been fetched before *)
Definition tm_start : fstate :=
  mkFed (mkState [("ta", mkEntry ta_ec (Some (TJws 1 ta_ec)) CDict)] [] 0) [("ta", [1])] [].

Definition a_mark (more : tmark) : tmark :=
  [("iss", VStr "tmi"); ("sub", VStr "rp"); ("id", VStr "basic"); ("iat", VInt 0)] ++ more.

(** an id the trust anchor does not know, with a delegation that is not even a JWS *)
Theorem C49_valid_mark_refuted : ~ C49_full.
Proof.
  intros H.
  assert (G : exists s', tm_verifier tm_world id_order 9 ex_tmenv
      (TMJws 5 (a_mark [("delegation", VStr "rubbish")])) "ta" true "" tm_start
    = (s', Ok (Some (a_mark [("delegation", VStr "rubbish")])))).
  { eexists. vm_compute. reflexivity. }
  destruct G as [s' G]. destruct (H _ _ _ _ _ _ _ _ _ _ _ G) as [_ D].
  destruct (D "basic" "rubbish" eq_refl eq_refl) as (conf & m & fe & ow & info & jw & keys & k & o & H1).
  destruct H1 as (_ & _ & _ & _ & _ & _ & _ & _ & C & _). discriminate.
Qed.

Lemma tm_verify_ok p : tm_verify p None = Ok tt -> tm_schema p = true.
Proof. unfold tm_verify. destruct (tm_schema p); [reflexivity|discriminate]. Qed.

Lemma schema_strings p : tm_schema p = true ->
  exists iss sub id, dget "iss" p = Some (VStr iss) /\ dget "sub" p = Some (VStr sub) /\ dget "id" p = Some (VStr id) /\
    (forall d, dget "delegation" p = Some d -> exists x, d = VStr x) /\
    (forall x, dget "exp" p = Some x -> exists z, x = VInt z).
Proof.
  unfold tm_schema, has_str. intros H. repeat (apply andb_true_iff in H; destruct H as [H ?]).
  destruct (dget "sub" p) as [[]|] eqn:E1; try discriminate.
  destruct (dget "iss" p) as [[]|] eqn:E2; try discriminate.
  destruct (dget "id" p) as [[]|] eqn:E3; try discriminate.
  exists s0, s, s1. split; [reflexivity|]. split; [reflexivity|]. split; [reflexivity|]. split.
  - intros d Hd. rewrite Hd in *. destruct d; try discriminate. eauto.
  - intros x Hx. rewrite Hx in *. destruct x; try discriminate. eauto.
Qed.

(** one step of [tm_verifier] after the other *)
Lemma tm_verifier_ok E O fuel V s s' t anchor check ent p :
  tm_verifier E O fuel V t anchor check ent s = (s', Ok (Some p)) ->
  exists k iss s1 s2 cs s3 keys,
    t = TMJws k p /\ tm_schema p = true /\ dget "iss" p = Some (VStr iss) /\
    mark_expired (e_clock E (st_tick (f_col s))) p = Ok false /\
    (if dmem "delegation" p then exists b, verify_delegation E fuel V p anchor s = (s1, Ok b) else s1 = s) /\
    get_verified_trust_chains E O fuel iss s1 = (s2, Ok cs) /\ cs <> [] /\ In anchor (map ch_anchor cs) /\
    ((s3 = s2 /\ filter (tm_picks V t) (keys_of (f_keys s2) iss) <> []) \/
     import_leaf_keys O cs s2 = (s3, Ok tt)) /\
    keys = filter (tm_picks V t) (keys_of (f_keys s3) iss) /\ In k keys /\ s' = s3.
Proof.
  unfold tm_verifier. destruct t as [|k q]; [discriminate|].
  unfold mbind at 1. unfold lift at 1. destruct (tm_verify q None) as [[]|x] eqn:Ev; [|discriminate].
  apply tm_verify_ok in Ev. destruct (schema_strings q Ev) as (iss & sub & id & Ei & _).
  unfold mbind at 1. unfold on_col at 1, now at 1. cbn beta iota.
  unfold mbind at 1. unfold lift at 1.
  destruct (mark_expired (e_clock E (st_tick (f_col s))) q) as [[|]|x] eqn:Ex; try discriminate.
  intros H. unfold mbind at 1 in H.
  assert (Es : mkFed (f_col s) (f_keys s) (f_chains s) = s) by (destruct s; reflexivity). rewrite Es in H.
  assert (D : exists s1, (if dmem "delegation" q then exists b, verify_delegation E fuel V q anchor s = (s1, Ok b)
                          else s1 = s) /\
    match dget "iss" q with
        | Some (VStr iss) =>
            do cs <- get_verified_trust_chains E O fuel iss in
            if is_nil cs then ret None
            else if negb (smem anchor (map ch_anchor cs)) then ret None
            else
              do keys <- mark_keys V (TMJws k q) iss in
              do keys <- if is_nil keys then
                           do _ <- import_leaf_keys O cs in mark_keys V (TMJws k q) iss
                         else ret keys in
              ret (if kmem k keys then Some q else None)
        | _ => raise KeyError
        end s1 = (s', Ok (Some p))).
  { destruct (dmem "delegation" q).
    - destruct (verify_delegation E fuel V q anchor s) as [s1 [b|x]]; [|discriminate].
      exists s1. split; [eauto|exact H].
    - unfold ret at 1 in H. exists s. split; [reflexivity|exact H]. }
  clear H. destruct D as (s1 & D1 & D2). rewrite Ei in D2.
  unfold mbind at 1 in D2. destruct (get_verified_trust_chains E O fuel iss s1) as [s2 [cs|x]] eqn:Eg; [|discriminate].
  destruct (is_nil cs) eqn:En; [discriminate|].
  destruct (smem anchor (map ch_anchor cs)) eqn:Ea; [|discriminate]. cbn [negb] in D2. apply smem_In in Ea.
  assert (Hne : cs <> []) by (intros ->; discriminate).
  unfold mbind at 1 in D2. unfold mark_keys at 1 in D2. unfold mbind at 1 in D2.
  destruct (is_nil (filter (tm_picks V (TMJws k q)) (keys_of (f_keys s2) iss))) eqn:Ek.
  - unfold mbind at 1 in D2. destruct (import_leaf_keys O cs s2) as [s3 [[]|x]] eqn:Eim; [|discriminate].
    unfold mark_keys at 1 in D2. unfold ret in D2.
    destruct (kmem k (filter (tm_picks V (TMJws k q)) (keys_of (f_keys s3) iss))) eqn:Em; [|discriminate].
    injection D2 as <- <-. apply kmem_In in Em.
    exists k, iss, s1, s2, cs, s3, (filter (tm_picks V (TMJws k q)) (keys_of (f_keys s3) iss)). auto 12.
  - unfold ret in D2.
    destruct (kmem k (filter (tm_picks V (TMJws k q)) (keys_of (f_keys s2) iss))) eqn:Em; [|discriminate].
    injection D2 as <- <-. apply kmem_In in Em.
    exists k, iss, s1, s2, cs, s2, (filter (tm_picks V (TMJws k q)) (keys_of (f_keys s2) iss)).
    repeat (split; [assumption || reflexivity|]). split; [|auto].
    left. split; [reflexivity|]. intros C. rewrite C in Ek. discriminate.
Qed.

(** chains returned by get_verified_trust_chains and the keys their leaves name *)
Lemma leaf_vetted E O fuel iss s1 s2 cs c cs' c' leaf rest owner path ks :
  get_verified_trust_chains E O fuel iss s1 = (s2, Ok cs) ->
  apply_policies O (map ch_tc cs) = Ok cs' -> In c' cs' ->
  rev (ch_verified c') = leaf :: rest -> tc_iss_path (ch_tc c') = owner :: path -> s_jwks leaf = Some ks ->
  c = c' ->
  exists calls k0 q, In (k0, q) (flat_map jws calls) /\ s_iss q = owner /\
    traceable (f_keys s1) (flat_map jws calls) owner k0 /\ s_jwks q = Some ks.
Proof.
  intros Hg Ha Hin Hrev Hpath Hks _.
  destruct (mapM_In _ _ _ _ _ Ha) as [M1 _]. destruct (M1 c' Hin) as (tc1 & Hin1 & Ha1).
  apply in_map_iff in Hin1. destruct Hin1 as (c0 & <- & Hin0).
  destruct (returned_chain _ _ _ _ _ _ _ _ Hg Hin0) as (chains & lf & pre & ch & post & tc & _ & _ & Hv & Ha0).
  assert (J1 := apply_keeps_jwks _ _ _ Ha1). assert (J0 := apply_keeps_jwks _ _ _ Ha0).
  apply apply_keeps in Ha1. destruct Ha1 as (_ & _ & A3 & _ & A5 & _).
  apply apply_keeps in Ha0. destruct Ha0 as (_ & _ & B3 & _ & B5 & _).
  unfold ch_verified in A5, B5, J1, J0. fold (ch_verified c') in A5, J1.
  apply call_ok in Hv. destruct Hv as (Hv & _ & _ & Hip & _).
  apply verified_iff in Hv. destruct Hv as (_ & Eves & Hps & _).
  set (kj := after_calls (e_lib E) (f_keys s1) (map (fun c => c ++ [lf]) pre)) in *.
  assert (Ji : map s_iss (ch_verified c') = map s_iss (tc_verified tc)) by congruence.
  assert (Jj : map s_jwks (ch_verified c') = map s_jwks (tc_verified tc)) by congruence.
  assert (Ev : ch_verified c' = rev rest ++ [leaf]) by (rewrite <- (rev_involutive (ch_verified c')), Hrev; reflexivity).
  rewrite Ev in Ji, Jj. rewrite !map_app in Ji, Jj. cbn [map] in Ji, Jj.
  assert (X : exists l q, tc_verified tc = l ++ [q]).
  { destruct (tc_verified tc) as [|x l] using rev_ind; [destruct (map s_iss (rev rest)); discriminate|eauto]. }
  destruct X as (l & q & El). rewrite El in Ji, Jj. rewrite !map_app in Ji, Jj. cbn [map] in Ji, Jj.
  apply app_inj_tail in Ji, Jj. destruct Ji as [_ Ji]. destruct Jj as [_ Jj].
  assert (Eo : s_iss q = owner).
  { rewrite A3, B3, Hip, El, map_app, rev_app_distr in Hpath. injection Hpath as Hp _. exact Hp. }
  assert (Hq : exists k0, In (k0, q) (jws (ch ++ [lf]))).
  { assert (Hin2 : In q (map snd (jws (ch ++ [lf])))) by (rewrite <- Eves, El; apply in_or_app; right; left; reflexivity).
    apply in_map_iff in Hin2. destruct Hin2 as ([k0 q'] & <- & Hi). eauto. }
  destruct Hq as [k0 Hq].
  exists (map (fun c => c ++ [lf]) pre ++ [ch ++ [lf]]), k0, q.
  rewrite flat_map_app. cbn [flat_map]. rewrite app_nil_r.
  split; [apply in_or_app; right; exact Hq|]. split; [exact Eo|]. split; [|congruence].
  destruct (signed_traceable _ _ Hps) as [T _]. specialize (T k0 q Hq). rewrite Eo in T.
  apply (traceable_trans (f_keys s1) kj _ (jws (ch ++ [lf]))); [|intros x Hx; apply in_or_app; right; exact Hx|exact T].
  intros e1 k1 H1. apply history_traceable in H1.
  apply (traceable_mono _ (flat_map jws (map (fun c => c ++ [lf]) pre))); [|exact H1].
  intros x Hx. apply in_or_app. left. exact Hx.
Qed.

Lemma traceable_calls L kj calls l e k :
  traceable (after_calls L kj calls) l e k -> traceable kj (flat_map jws calls ++ l) e k.
Proof.
  apply traceable_trans; [|intros x Hx; apply in_or_app; right; exact Hx].
  intros e1 k1 H1. apply history_traceable in H1. apply (traceable_mono _ (flat_map jws calls)); [|exact H1].
  intros x Hx. apply in_or_app. left. exact Hx.
Qed.

(** Missing: a delegation the trust anchor does not know about is not looked at (C49_delegation); the
    subject and the id in a delegation are never compared with the mark.  What holds: a mark that is
    accepted is signed with a key of its issuer that can be traced to the known keys, the issuer has a
    trust chain to the anchor, and the mark has not expired. *)
Theorem C49_valid_mark_partial : forall E O fuel V s s' t anchor check ent p,
  tm_verifier E O fuel V t anchor check ent s = (s', Ok (Some p)) ->
  valid_mark E O fuel s t anchor p.
Proof.
  intros E O fuel V s s' t anchor check ent p H.
  destruct (tm_verifier_ok _ _ _ _ _ _ _ _ _ _ _ H)
    as (k & iss & s1 & s2 & cs & s3 & keys & Et & Hs & Ei & Hx & Hd & Hg & Hne & Ha & H3 & Ek & Hk & _).
  assert (C1 : exists calls, f_keys s1 = after_calls (e_lib E) (f_keys s) calls).
  { destruct (dmem "delegation" p); [|subst s1; exists []; reflexivity].
    destruct Hd as [b Hd]. assert (X := verify_delegation_keys E fuel V p anchor s). rewrite Hd in X. exact X. }
  exists k, iss. split; [exact Et|]. split; [exact Ei|]. split.
  { unfold unexpired, mark_expired in *. destruct (dget "exp" p) as [v|]; [|exact I].
    apply bind_ok in Hx. destruct Hx as (e & He & [= Hl]). exists e. split; [exact He|].
    apply Z.ltb_ge in Hl. exact Hl. }
  split.
  { apply in_map_iff in Ha. destruct Ha as (c & Hc & Hin). exists s1, s2, cs, c.
    split; [exact Hg|]. split; [exact Hin|]. split; [exact Hc|]. split; [|exact C1].
    intros Hdel. unfold dmem in Hd. rewrite Hdel in Hd. exact Hd. }
  destruct C1 as [calls1 C1].
  assert (C2 := get_verified_keys E O fuel iss s1). rewrite Hg in C2. cbn [fst] in C2. destruct C2 as [calls2 C2].
  rewrite Ek in Hk. apply filter_In in Hk. destruct Hk as [Hk _]. apply keys_of_holds in Hk.
  assert (K2 : f_keys s2 = after_calls (e_lib E) (f_keys s) (calls1 ++ calls2)).
  { rewrite C2, C1. unfold after_calls. rewrite fold_left_app. reflexivity. }
  destruct H3 as [[-> _]|H3].
  - exists (calls1 ++ calls2). left. rewrite K2 in Hk. apply history_traceable in Hk. exact Hk.
  - unfold import_leaf_keys, mbind at 1, lift at 1 in H3.
    destruct (apply_policies O (map ch_tc cs)) as [cs'|x] eqn:Ep; [|discriminate].
    destruct cs' as [|c' cs'']; [discriminate|].
    destruct (rev (ch_verified c')) as [|leaf rest] eqn:Er; [discriminate|].
    destruct (tc_iss_path (ch_tc c')) as [|owner path] eqn:Eip; [discriminate|].
    destruct (s_jwks leaf) as [ks|] eqn:Ej; [|discriminate].
    unfold modify in H3. injection H3 as <-. cbn [f_keys] in Hk.
    destruct Hk as (l & El & Hl). rewrite dget_dset in El.
    destruct (String.eqb_spec iss owner) as [->|N].
    + injection El as <-. apply in_app_or in Hl. destruct Hl as [Hl|Hl].
      * apply keys_of_holds in Hl. exists (calls1 ++ calls2). left. rewrite K2 in Hl.
        apply history_traceable in Hl. exact Hl.
      * destruct (leaf_vetted E O fuel owner s1 s2 cs c' (c' :: cs'') c' leaf rest owner path ks Hg Ep (or_introl eq_refl)
                    Er Eip Ej eq_refl) as (calls3 & k0 & q & Q1 & Q2 & Q3 & Q4).
        exists (calls1 ++ calls3). right. exists k0, q, ks. rewrite flat_map_app.
        split; [apply in_or_app; right; exact Q1|]. split; [exact Q2|]. split; [|split; assumption].
        rewrite C1 in Q3. exact (traceable_calls _ _ _ _ _ _ Q3).
    + exists (calls1 ++ calls2). left.
      assert (Hh : holds (f_keys s2) iss k) by (exists l; auto). rewrite K2 in Hh.
      apply history_traceable in Hh. exact Hh.
Qed.

(** the trust anchor does not list the trust mark id among those with issuers, or among those with owners *)
Definition not_listed (E : cenv) (s : cstate) (anchor id : string) : Prop :=
  exists conf m fe, obtainable E s anchor conf /\ s_metadata conf = Some m /\ dget "federation_entity" m = Some fe /\
    exists claim v, In claim ["trust_mark_issuers"; "trust_mark_owners"] /\ dget claim fe = Some v /\
                    contains id v = Ok false.

(** a delegation is only not verified if the trust anchor does not list the id *)
Theorem C49_delegation : forall E O fuel V s s' t anchor check ent p id d,
  tm_verifier E O fuel V t anchor check ent s = (s', Ok (Some p)) ->
  dget "id" p = Some (VStr id) -> dget "delegation" p = Some (VStr d) ->
  delegated E V (f_col s) anchor id d \/ not_listed E (f_col s) anchor id.
Proof.
  intros E O fuel V s s' t anchor check ent p id d H Hid Hdel.
  destruct (tm_verifier_ok _ _ _ _ _ _ _ _ _ _ _ H)
    as (k & iss & s1 & s2 & cs & s3 & keys & Et & Hs & Ei & Hx & Hd & _).
  unfold dmem in Hd. rewrite Hdel in Hd. destruct Hd as [b Hd].
  unfold verify_delegation, mbind at 1 in Hd.
  destruct (get_metadata E fuel anchor s) as [s4 [m|x]] eqn:Em; [|discriminate].
  destruct (get_metadata_obtainable _ _ _ _ _ _ Em) as (conf & Hc & Hm).
  unfold mbind, lift in Hd. destruct (dindex "federation_entity" m) as [fe|x] eqn:Ef; [|discriminate].
  apply dindex_ok in Ef. rewrite Hid, Hdel in Hd. injection Hd as _ Hd.
  unfold check_delegation in Hd. apply bind_ok in Hd. destruct Hd as (issuers & I1 & Hd). apply dindex_ok in I1.
  apply bind_ok in Hd. destruct Hd as (i & I2 & Hd).
  destruct i; cbn [negb] in Hd.
  2:{ right. exists conf, m, fe. split; [exact Hc|]. split; [exact Hm|]. split; [exact Ef|].
      exists "trust_mark_issuers", issuers. simpl. auto. }
  apply bind_ok in Hd. destruct Hd as (owners & I3 & Hd). apply dindex_ok in I3.
  apply bind_ok in Hd. destruct Hd as (o & I4 & Hd).
  destruct o; cbn [negb] in Hd.
  2:{ right. exists conf, m, fe. split; [exact Hc|]. split; [exact Hm|]. split; [exact Ef|].
      exists "trust_mark_owners", owners. simpl. auto. }
  left.
  apply bind_ok in Hd. destruct Hd as (info & J1 & Hd). apply bind_ok in Hd. destruct Hd as (jw & J2 & Hd).
  apply bind_ok in Hd. destruct Hd as (sub & J3 & Hd). apply bind_ok in Hd. destruct Hd as (ks & J4 & Hd).
  destruct (tm_deleg V d) as [[k0 o0]|] eqn:Ed; [|discriminate].
  destruct (py_eqb sub (VStr o0)) eqn:Eo; [|discriminate]. destruct (kmem k0 ks) eqn:Ek; [|discriminate].
  destruct owners as [| | | | |ow]; try discriminate. destruct info as [| | | | |info]; try discriminate.
  simpl in J1, J2, J3. apply dindex_ok in J1, J2, J3.
  destruct sub as [| | |so| |]; try discriminate. simpl in Eo. apply String.eqb_eq in Eo. subst so.
  apply kmem_In in Ek.
  exists conf, m, fe, ow, info, jw, ks, k0, o0. auto 12.
Qed.

(** marks without delegation that are valid are accepted *)
Theorem C49_valid_marks_accepted : forall E O fuel V s k p anchor check ent iss s2 cs,
  tm_schema p = true -> dget "delegation" p = None -> dget "iss" p = Some (VStr iss) ->
  unexpired (e_clock E (st_tick (f_col s))) p ->
  get_verified_trust_chains E O fuel iss s = (s2, Ok cs) -> In anchor (map ch_anchor cs) ->
  holds (f_keys s2) iss k -> tm_picks V (TMJws k p) k = true ->
  tm_verifier E O fuel V (TMJws k p) anchor check ent s = (s2, Ok (Some p)).
Proof.
  intros E O fuel V s k p anchor check ent iss s2 cs Hs Hd Hi Hu Hg Ha Hk Hp.
  unfold tm_verifier, tm_verify. rewrite Hs. unfold mbind at 1. unfold lift at 1.
  unfold mbind at 1. unfold on_col at 1, now at 1. cbn beta iota. unfold mbind at 1. unfold lift at 1.
  assert (Ex : mark_expired (e_clock E (st_tick (f_col s))) p = Ok false).
  { unfold mark_expired, unexpired in *. destruct (dget "exp" p) as [v|]; [|reflexivity].
    destruct Hu as (e & -> & Hle). cbn [bind]. destruct (Z.ltb_spec e (e_clock E (st_tick (f_col s)))); [lia|reflexivity]. }
  rewrite Ex. unfold dmem. rewrite Hd. unfold mbind at 1. unfold ret at 1. rewrite Hi.
  assert (Es : mkFed (f_col s) (f_keys s) (f_chains s) = s) by (destruct s; reflexivity). rewrite Es.
  unfold mbind at 1. rewrite Hg. destruct cs as [|c cs]; [destruct Ha|]. cbn [is_nil].
  apply smem_In in Ha. rewrite Ha. cbn [negb]. unfold mbind at 1. unfold mark_keys at 1.
  assert (Hin : In k (filter (tm_picks V (TMJws k p)) (keys_of (f_keys s2) iss))).
  { apply filter_In. split; [apply keys_of_holds; exact Hk|exact Hp]. }
  destruct (filter (tm_picks V (TMJws k p)) (keys_of (f_keys s2) iss)) as [|k1 ks] eqn:Ek; [destruct Hin|].
  cbn [is_nil]. unfold mbind, ret. apply kmem_In in Hin. rewrite Hin. reflexivity.
Qed.

(** what the trust anchor's configuration says makes a mark with id [id] and delegation [d] acceptable: the owner it names
    signed the delegation, or it does not list the id *)
Definition anchor_agrees (V : tmenv) (fe : metadata) (id d : string) : Prop :=
  exists issuers, dget "trust_mark_issuers" fe = Some (VDict issuers) /\
    (dget id issuers = None \/
     exists owners, dget "trust_mark_owners" fe = Some (VDict owners) /\
       (dget id owners = None \/
        exists info jw keys k o, dget id owners = Some (VDict info) /\ dget "jwks" info = Some jw /\
          dget "sub" info = Some (VStr o) /\ tm_jwks V jw = Ok keys /\ tm_deleg V d = Some (k, o) /\ In k keys)).

Lemma check_delegation_agrees V fe id d : anchor_agrees V fe id d -> exists b, check_delegation V fe id d = Ok b.
Proof.
  assert (D : forall A k (d : dict A) v, dget k d = Some v -> dindex k d = Ok v).
  { intros A k d0 v E0. unfold dindex. rewrite E0. reflexivity. }
  intros (issuers & H1 & H). unfold check_delegation. rewrite (D _ _ _ _ H1). cbn [bind contains].
  destruct (dmem id issuers) eqn:Ei; cbn [negb]; [|eauto].
  destruct H as [H|(owners & H2 & H)]; [unfold dmem in Ei; rewrite H in Ei; discriminate|].
  rewrite (D _ _ _ _ H2). cbn [bind contains].
  destruct (dmem id owners) eqn:Eo; cbn [negb]; [|eauto].
  destruct H as [H|(info & jw & keys & k & o & H3 & H4 & H5 & H6 & H7 & H8)];
    [unfold dmem in Eo; rewrite H in Eo; discriminate|].
  unfold vindex. rewrite (D _ _ _ _ H3). cbn [bind]. rewrite (D _ _ _ _ H4). cbn [bind]. rewrite (D _ _ _ _ H5).
  cbn [bind]. rewrite H6. cbn [bind]. rewrite H7.
  cbn [py_eqb]. rewrite String.eqb_refl. apply kmem_In in H8. rewrite H8. cbn [andb]. eauto.
Qed.

(** a valid mark with a delegation is accepted if the trust anchor agrees *)
Theorem C49_delegated_marks_accepted : forall E O fuel V s k p anchor check ent iss id d s1 m fe s2 cs,
  tm_schema p = true -> dget "iss" p = Some (VStr iss) -> dget "id" p = Some (VStr id) ->
  dget "delegation" p = Some (VStr d) -> unexpired (e_clock E (st_tick (f_col s))) p ->
  get_metadata E fuel anchor s = (s1, Ok m) -> dget "federation_entity" m = Some fe -> anchor_agrees V fe id d ->
  get_verified_trust_chains E O fuel iss s1 = (s2, Ok cs) -> In anchor (map ch_anchor cs) ->
  holds (f_keys s2) iss k -> tm_picks V (TMJws k p) k = true ->
  tm_verifier E O fuel V (TMJws k p) anchor check ent s = (s2, Ok (Some p)).
Proof.
  intros E O fuel V s k p anchor check ent iss id d s1 m fe s2 cs Hs Hi Hid Hd Hu Hm Hfe Hag Hg Ha Hk Hp.
  unfold tm_verifier, tm_verify. rewrite Hs. unfold mbind at 1. unfold lift at 1.
  unfold mbind at 1. unfold on_col at 1, now at 1. cbn beta iota. unfold mbind at 1. unfold lift at 1.
  assert (Ex : mark_expired (e_clock E (st_tick (f_col s))) p = Ok false).
  { unfold mark_expired, unexpired in *. destruct (dget "exp" p) as [v|]; [|reflexivity].
    destruct Hu as (e & -> & Hle). cbn [bind]. destruct (Z.ltb_spec e (e_clock E (st_tick (f_col s)))); [lia|reflexivity]. }
  assert (Es : mkFed (f_col s) (f_keys s) (f_chains s) = s) by (destruct s; reflexivity). rewrite Es.
  rewrite Ex. unfold dmem. rewrite Hd. unfold mbind at 1.
  destruct (check_delegation_agrees _ _ _ _ Hag) as [b Hb].
  assert (Hv : verify_delegation E fuel V p anchor s = (s1, Ok b)).
  { unfold verify_delegation, mbind at 1. rewrite Hm. unfold mbind, lift. unfold dindex. rewrite Hfe, Hid, Hd, Hb.
    reflexivity. }
  rewrite Hv, Hi.
  unfold mbind at 1. rewrite Hg. destruct cs as [|c cs]; [destruct Ha|]. cbn [is_nil].
  apply smem_In in Ha. rewrite Ha. cbn [negb]. unfold mbind at 1. unfold mark_keys at 1.
  assert (Hin : In k (filter (tm_picks V (TMJws k p)) (keys_of (f_keys s2) iss))).
  { apply filter_In. split; [apply keys_of_holds; exact Hk|exact Hp]. }
  destruct (filter (tm_picks V (TMJws k p)) (keys_of (f_keys s2) iss)) as [|k1 ks] eqn:Ek; [destruct Hin|].
  cbn [is_nil]. unfold mbind, ret. apply kmem_In in Hin. rewrite Hin. reflexivity.
Qed.

Definition owned_mark : tmark :=
  [("iss", VStr "tmi"); ("sub", VStr "rp"); ("id", VStr "owned"); ("iat", VInt 0); ("delegation", VStr "good")].

(** an id with an owner, and one the anchor does not list *)
Example C49_delegated_ex :
  exists s1 m fe s2 cs, get_metadata tm_world 9 "ta" tm_start = (s1, Ok m) /\ dget "federation_entity" m = Some fe /\
    anchor_agrees ex_tmenv fe "owned" "good" /\ anchor_agrees ex_tmenv fe "basic" "rubbish" /\
    tm_schema owned_mark = true /\
    get_verified_trust_chains tm_world id_order 9 "tmi" s1 = (s2, Ok cs) /\ In "ta" (map ch_anchor cs) /\
    holds (f_keys s2) "tmi" 5.
Proof.
  eexists _, _, _, _, _. split; [vm_compute; reflexivity|]. split; [vm_compute; reflexivity|]. split.
  { eexists. split; [vm_compute; reflexivity|]. right. eexists. split; [vm_compute; reflexivity|]. right.
    eexists _, _, _, _, _. repeat (split; [vm_compute; reflexivity|]). left. vm_compute. reflexivity. }
  split. { eexists. split; [vm_compute; reflexivity|]. left. reflexivity. }
  split; [vm_compute; reflexivity|]. split; [vm_compute; reflexivity|]. split; [left; reflexivity|].
  exists [5]. split; [reflexivity|left; reflexivity].
Qed.

(** expired marks, marks with another signature and marks for an unreachable anchor are not *)
Example C49_ex :
  exists s', tm_verifier tm_world id_order 9 ex_tmenv (TMJws 5 (a_mark [])) "ta" true "" tm_start
             = (s', Ok (Some (a_mark []))) /\
  (exists s', tm_verifier tm_world id_order 9 ex_tmenv
     (TMJws 5 [("iss", VStr "tmi"); ("sub", VStr "rp"); ("id", VStr "owned"); ("iat", VInt 0);
               ("delegation", VStr "good")]) "ta" true "" tm_start
     = (s', Ok (Some [("iss", VStr "tmi"); ("sub", VStr "rp"); ("id", VStr "owned"); ("iat", VInt 0);
               ("delegation", VStr "good")]))) /\
  snd (tm_verifier tm_world id_order 9 ex_tmenv
     (TMJws 5 [("iss", VStr "tmi"); ("sub", VStr "rp"); ("id", VStr "owned"); ("iat", VInt 0);
               ("delegation", VStr "bad")]) "ta" true "" tm_start) = Err AttributeError /\
  snd (tm_verifier tm_world id_order 9 ex_tmenv (TMJws 6 (a_mark [])) "ta" true "" tm_start) = Ok None /\
  snd (tm_verifier tm_world id_order 9 ex_tmenv (TMJws 5 (a_mark [])) "tb" true "" tm_start) = Ok None /\
  snd (tm_verifier tm_world id_order 9 ex_tmenv (TMJws 5 (a_mark [("exp", VInt (-1))])) "ta" true "" tm_start) = Ok None /\
  holds (f_keys s') "tmi" 5.
Proof.
  eexists. split; [vm_compute; reflexivity|]. split; [eexists; vm_compute; reflexivity|].
  split; [vm_compute; reflexivity|]. split; [vm_compute; reflexivity|]. split; [vm_compute; reflexivity|].
  split; [vm_compute; reflexivity|].
  exists [5]. split; [reflexivity|left; reflexivity].
Qed.

(** ** C65: the mark is about the entity it is presented for *)

Definition C65_full : Prop := forall E O fuel V s s' t anchor check ent p,
  ent <> "" -> tm_verifier E O fuel V t anchor check ent s = (s', Ok (Some p)) -> dget "sub" p = Some (VStr ent).

(** the mark of rp, presented for someone else *)
Theorem C65_own_mark_refuted : ~ C65_full.
Proof.
  intros H.
  assert (G : exists s', tm_verifier tm_world id_order 9 ex_tmenv (TMJws 5 (a_mark [])) "ta" true "evil" tm_start
                         = (s', Ok (Some (a_mark [])))) by (eexists; vm_compute; reflexivity).
  destruct G as [s' G]. assert (X := H _ _ _ _ _ _ _ _ _ "evil" _ ltac:(discriminate) G). discriminate.
Qed.

(** Missing: the verifier function does not look at entity_id.  What holds: a caller that compares the
    subject itself is on firm ground, since a mark that is accepted has a subject, an id and an issuer; and
    unpack_trust_mark of a trust mark issuer does compare. *)
Theorem C65_own_mark_partial : forall E O fuel V s s' t anchor check ent p,
  tm_verifier E O fuel V t anchor check ent s = (s', Ok (Some p)) ->
  exists k iss sub id, t = TMJws k p /\ dget "iss" p = Some (VStr iss) /\ dget "sub" p = Some (VStr sub) /\
                       dget "id" p = Some (VStr id).
Proof.
  intros E O fuel V s s' t anchor check ent p H.
  destruct (tm_verifier_ok _ _ _ _ _ _ _ _ _ _ _ H) as (k & iss & s1 & s2 & cs & s3 & keys & Et & Hs & _).
  destruct (schema_strings p Hs) as (iss' & sub & id & H1 & H2 & H3 & _). exists k, iss', sub, id. auto.
Qed.

Theorem C65_unpack_compares : forall held now t ent p,
  ent <> "" -> unpack_trust_mark held now t ent = Ok p ->
  dget "sub" p = Some (VStr ent) /\ exists k iss, t = TMJws k p /\ dget "iss" p = Some (VStr iss) /\ In k (up_keys held iss).
Proof.
  intros held now t ent p Hne H. unfold unpack_trust_mark in H. destruct t as [|k q]; [discriminate|].
  destruct (dget "iss" q) as [v|] eqn:Ei; [|discriminate].
  destruct v as [| | |iss| |]; try discriminate. destruct (existsb (Nat.eqb k) (up_keys held iss)) eqn:Ek; [|discriminate].
  destruct (up_valid held now q); [|discriminate].
  apply bind_ok in H. destruct H as (u & Hv & [= <-]).
  destruct (String.eqb_spec ent "") as [->|_]; [contradiction|].
  unfold tm_verify in Hv. destruct (tm_schema q); [|discriminate].
  destruct (dget "sub" q) as [v|]; [|discriminate].
  destruct (py_eqb (VStr ent) v) eqn:Ee; [|discriminate]. destruct v as [| | |x| |]; try discriminate.
  simpl in Ee. apply String.eqb_eq in Ee. subst x. split; [reflexivity|].
  exists k, iss. split; [reflexivity|]. split; [exact Ei|]. apply kmem_In. exact Ek.
Qed.

Example C65_ex : unpack_trust_mark (mkUnpack (fun _ => [5]) mark_within_skew) 0 (TMJws 5 (a_mark [])) "rp" = Ok (a_mark []) /\
  unpack_trust_mark (mkUnpack (fun _ => [5]) mark_within_skew) 0 (TMJws 5 (a_mark [])) "evil" = Err WrongSubject.
Proof. split; reflexivity. Qed.

(** ** C66: FederationEntity.verify_trust_mark *)

(** the mark is valid and, if asked for, its issuer says it is active; otherwise None *)
Definition C66_full : Prop := forall E O fuel V ask s t check,
  (exists k p, t = TMJws k p /\ tm_schema p = true) ->
  match snd (verify_trust_mark E O fuel V ask t check s) with
  | Ok (Some p) => exists anchor s1, valid_mark E O fuel s1 t anchor p
  | Ok None => True
  | Err _ => forall iss k p, t = TMJws k p -> dget "iss" p = Some (VStr iss) ->
               exists e, snd (get_trust_chains E O fuel iss s) = Err e
  end.

(** a mark that is not valid makes it raise TypeError *)
Theorem C66_verify_trust_mark_refuted : ~ C66_full.
Proof.
  intros H.
  specialize (H tm_world id_order 9 ex_tmenv (fun _ _ _ => Ok [("active", VBool true)]) tm_start
                (TMJws 6 (a_mark [])) true ltac:(exists 6, (a_mark []); split; reflexivity)).
  assert (G : snd (verify_trust_mark tm_world id_order 9 ex_tmenv (fun _ _ _ => Ok [("active", VBool true)])
                     (TMJws 6 (a_mark [])) true tm_start) = Err TypeError) by (vm_compute; reflexivity).
  rewrite G in H. destruct (H "tmi" 6 (a_mark []) eq_refl eq_refl) as [e X].
  assert (Y : exists cs, snd (get_trust_chains tm_world id_order 9 "tmi" tm_start) = Ok cs)
    by (eexists; vm_compute; reflexivity).
  destruct Y as [cs Y]. rewrite Y in X. discriminate.
Qed.

Lemma get_trust_chains_keys E O fuel iss s :
  by_calls E (f_keys s) (f_keys (fst (get_trust_chains E O fuel iss s))).
Proof.
  unfold get_trust_chains, mbind at 1, StateM.get. destruct (dget iss (f_chains s)); [apply by_calls_refl|].
  unfold mbind at 1. assert (H := get_verified_keys E O fuel iss s).
  destruct (get_verified_trust_chains E O fuel iss s) as [s1 [cs|x]]; cbn [fst] in *; [|exact H].
  destruct (is_nil cs); [exact H|]. unfold mbind, store_trust_chain, modify, ret. cbn [fst f_keys]. exact H.
Qed.

(** Missing: a mark that is not valid raises TypeError when its issuer is to be asked.  What holds: a mark
    that is returned is valid for the anchor of the issuer's first trust chain, and, if asked for, the
    endpoint in the issuer's metadata said that a mark with its id for its subject is active. *)
Theorem C66_verify_trust_mark_partial : forall E O fuel V ask s s' t check p,
  verify_trust_mark E O fuel V ask t check s = (s', Ok (Some p)) ->
  exists k iss s1 c cs calls, t = TMJws k p /\ dget "iss" p = Some (VStr iss) /\
    get_trust_chains E O fuel iss s = (s1, Ok (c :: cs)) /\
    f_keys s1 = after_calls (e_lib E) (f_keys s) calls /\
    valid_mark E O fuel s1 t (ch_anchor c) p /\
    (check = true -> exists u sub id resp a,
       dget "sub" p = Some (VStr sub) /\ dget "id" p = Some (VStr id) /\
       chain_metadata c "federation_entity" "federation_trust_mark_status_endpoint" = Ok (VStr u) /\
       ask u sub id = Ok resp /\ dget "active" resp = Some a /\ (a = VBool true \/ a = VInt 1)).
Proof.
  intros E O fuel V ask s s' t check p H. unfold verify_trust_mark in H. destruct t as [|k q]; [discriminate|].
  destruct (dget "iss" q) as [v|] eqn:Ei; [|discriminate]. destruct v as [| | |iss| |]; try discriminate.
  unfold mbind at 1 in H. assert (Hk := get_trust_chains_keys E O fuel iss s).
  destruct (get_trust_chains E O fuel iss s) as [s1 [cs|x]] eqn:Eg; [|discriminate].
  destruct cs as [|c cs]; [discriminate|]. cbn [fst] in Hk. destruct Hk as [calls Hk].
  unfold mbind at 1 in H.
  destruct (tm_verifier E O fuel V (TMJws k q) (ch_anchor c) false "" s1) as [s2 [v|x]] eqn:Ev; [|discriminate].
  assert (G : forall p', v = Some p' -> p' = q /\ valid_mark E O fuel s1 (TMJws k q) (ch_anchor c) p').
  { intros p' ->. assert (Hv := C49_valid_mark_partial _ _ _ _ _ _ _ _ _ _ _ Ev).
    split; [|exact Hv]. destruct Hv as (k' & i' & Et & _). congruence. }
  destruct check.
  - destruct v as [p'|]; [|discriminate]. destruct (G p' eq_refl) as [-> Hv].
    destruct (dget "sub" q) as [vs|] eqn:Es; [|discriminate]. destruct vs as [| | |sub| |]; try discriminate.
    destruct (dget "id" q) as [vi|] eqn:Ed; [|discriminate]. destruct vi as [| | |id| |]; try discriminate.
    unfold mbind at 1, lift at 1 in H.
    destruct (chain_metadata c "federation_entity" "federation_trust_mark_status_endpoint") as [ep|x] eqn:Ep; [|discriminate].
    unfold mbind at 1, lift at 1 in H.
    destruct (status_of ask ep sub id) as [resp|x] eqn:Er; [|discriminate].
    unfold ret in H. destruct (dget "active" resp) as [a|] eqn:Ea; [|discriminate].
    destruct (py_eqb a (VBool true)) eqn:Et; [|discriminate]. injection H as _ <-.
    exists k, iss, s1, c, cs, calls. split; [reflexivity|]. split; [exact Ei|]. split; [exact Eg|].
    split; [exact Hk|]. split; [exact Hv|]. intros _.
    unfold status_of in Er. destruct ep as [| | |u| |]; try discriminate. destruct (String.eqb u ""); [discriminate|].
    exists u, sub, id, resp, a. split; [exact Es|]. split; [exact Ed|]. split; [exact Ep|]. split; [exact Er|]. split; [exact Ea|].
    destruct a as [|b|z| | |]; try discriminate.
    + left. destruct b; [reflexivity|discriminate].
    + right. simpl in Et. apply Z.eqb_eq in Et. subst z. reflexivity.
  - injection H as _ ->. destruct (G p eq_refl) as [-> Hv]. exists k, iss, s1, c, cs, calls.
    split; [reflexivity|]. split; [exact Ei|]. split; [exact Eg|]. split; [exact Hk|]. split; [exact Hv|]. discriminate.
Qed.

(** verifier and issuer together: if the status endpoint named in the issuer's metadata is one that keeps
    its marks in a file store, a mark with this id was issued to the subject and has not expired there *)
Theorem C66_active_at_the_issuer : forall E O fuel V ask s s' t p I cfg h held now,
  (forall u sub id resp a, ask u sub id = Ok resp -> dget "active" resp = Some a ->
     a = VBool true \/ a = VInt 1 ->
     trust_mark_status held (run I (fresh cfg) h) now (by_ids id sub) = Ok Active) ->
  own_files cfg ->
  verify_trust_mark E O fuel V ask t true s = (s', Ok (Some p)) ->
  exists sub id t0 more mark, dget "sub" p = Some (VStr sub) /\ dget "id" p = Some (VStr id) /\
    issued I (fresh cfg) h t0 id sub more mark /\ unexpired now (claims_of mark).
Proof.
  intros E O fuel V ask s s' t p I cfg h held now Hask Hown H.
  destruct (C66_verify_trust_mark_partial _ _ _ _ _ _ _ _ _ _ H) as (k & iss & s1 & c & cs & calls & _ & _ & _ & _ & _ & Hc).
  destruct (Hc eq_refl) as (u & sub & id & resp & a & Hs & Hi & _ & Ha & Hact & Hval).
  specialize (Hask _ _ _ _ _ Ha Hact Hval).
  destruct (C44_active_was_issued _ _ _ _ _ _ _ Hown Hask) as (t0 & more & mark & H1 & H2).
  exists sub, id, t0, more, mark. auto.
Qed.

Example C66_ex : exists s',
  verify_trust_mark tm_world id_order 9 ex_tmenv
    (fun u sub id => if String.eqb sub "rp" && String.eqb u "tmi/status" then Ok [("active", VBool true)]
                     else Ok [("error", VStr "not_found")])
    (TMJws 5 (a_mark [])) true tm_start = (s', Ok (Some (a_mark []))) /\
  snd (verify_trust_mark tm_world id_order 9 ex_tmenv
    (fun u sub id => Ok [("error", VStr "not_found")]) (TMJws 5 (a_mark [])) true tm_start) = Ok None.
Proof. eexists. split; vm_compute; reflexivity. Qed.

Print Assumptions C49_valid_mark_refuted.
Print Assumptions C49_valid_mark_partial.
Print Assumptions C49_delegation.
Print Assumptions C49_valid_marks_accepted.
Print Assumptions C49_delegated_marks_accepted.
Print Assumptions C65_own_mark_refuted.
Print Assumptions C65_own_mark_partial.
Print Assumptions C65_unpack_compares.
Print Assumptions C66_verify_trust_mark_refuted.
Print Assumptions C66_verify_trust_mark_partial.
Print Assumptions C66_active_at_the_issuer.
