(** Federations of entities that run this library, while time passes. *)
From Verif Require Import PyFacts UrlModel CollectorRepeatProps RpSpec RpFacts LiveFacts LiveMarkProps TreeScriptProps.
From Verif Require Export MotionFacts.
From Coq Require Import Lia.

(** ** Statements made at different times *)

Section Times.
Context (jwks_of : val -> option (list key)).

Lemma decode_alike p q :
  (forall k, k <> "iat" -> k <> "exp" -> dget k p = dget k q) ->
  (dget "exp" p = dget "exp" q \/ exists z z', dget "exp" p = Some (VInt z) /\ dget "exp" q = Some (VInt z')) ->
  option_map settle (decode jwks_of p) = option_map settle (decode jwks_of q).
Proof.
  intros H He. unfold decode.
  assert (HC : forall (A : Type) (f : val -> option A) k, k <> "iat" -> k <> "exp" -> claim f k p = claim f k q).
  { intros A f k H1 H2. unfold claim. rewrite (H k H1 H2). reflexivity. }
  rewrite !(H "iss"), !(H "sub") by discriminate.
  rewrite !(HC _ _ "jwks"), !(HC _ _ "metadata"), !(HC _ _ "metadata_policy"), !(HC _ _ "constraints"), !(HC _ _ "authority_hints") by discriminate.
  destruct (dget "iss" q) as [[| | |iss| |]|]; try reflexivity. destruct (dget "sub" q) as [[| | |sub| |]|]; try reflexivity.
  assert (C : option_map (option_map (fun _ => 0%Z)) (claim as_int "exp" p) = option_map (option_map (fun _ => 0%Z)) (claim as_int "exp" q)).
  { unfold claim. destruct He as [->|(z & z' & -> & ->)]; reflexivity. }
  destruct (claim as_int "exp" p) as [e|], (claim as_int "exp" q) as [e'|]; try discriminate C; [|reflexivity]. cbn in C. injection C as C.
  repeat match goal with |- context [match ?x with Some _ => _ | None => _ end] => destruct x; try reflexivity end;
    cbn [option_map]; unfold settle; cbn [s_iss s_sub s_exp s_jwks s_metadata s_policy s_constraints s_hints]; congruence.
Qed.

Lemma create_alike m now now' iss sub jw args :
  rk (answer jwks_of m (create_entity_statement now iss sub jw args)) = rk (answer jwks_of m (create_entity_statement now' iss sub jw args)).
Proof.
  unfold create_entity_statement. destruct (statement_msg sub jw args) as [msg|x]; [|reflexivity]. cbn [bind].
  assert (A : forall p q, option_map settle (decode jwks_of p) = option_map settle (decode jwks_of q) ->
                          rk (answer jwks_of m (Ok p)) = rk (answer jwks_of m (Ok q))).
  { intros p q H. cbn [answer rk option_map]. destruct (decode jwks_of p), (decode jwks_of q); try discriminate H; cbn [tk]; [|reflexivity].
    cbn in H. congruence. }
  assert (I : forall k, k <> "iat" -> dget k (dset "iat" (VInt now) (dset "iss" (VStr iss) msg)) = dget k (dset "iat" (VInt now') (dset "iss" (VStr iss) msg))).
  { intros k Hk. rewrite !(dget_dset_other _ k "iat") by exact Hk. reflexivity. }
  unfold sign_claims. destruct (truthy _).
  - destruct (arg_or "lifetime" (VInt 86400) args) as [|b|z|s|l|d]; try reflexivity;
      (apply A, decode_alike; [intros k H1 H2; rewrite !(dget_dset_other _ k "exp") by exact H2; apply I, H1|
       right; eexists _, _; split; apply dget_dset_same]).
  - apply A, decode_alike; [intros k H1 _; apply I, H1|left; apply I; discriminate].
Qed.

Lemma configuration_alike m now now' :
  rk (answer jwks_of m (entity_configuration (m_srv m) (m_whole m) (m_marks m) now)) =
  rk (answer jwks_of m (entity_configuration (m_srv m) (m_whole m) (m_marks m) now')).
Proof. unfold entity_configuration. destruct (marks_args (m_marks m)) as [a|x]; [|reflexivity]. cbn [bind]. apply create_alike. Qed.

Lemma fetch_alike m now now' q db :
  rk (answer jwks_of m (snd (fetch (m_srv m) now q db))) = rk (answer jwks_of m (snd (fetch (m_srv m) now' q db))).
Proof.
  unfold fetch. destruct (fq_sub q) as [sub|]; [|apply create_alike]. destruct (_ || _); [apply create_alike|].
  unfold mbind, StateM.get, put, lift, raise. destruct (find_filled sub db) as [e|]; [|reflexivity]. cbv beta iota.
  destruct (find_filled sub (fs_policy (m_srv m))) as [p|]; [apply create_alike|].
  destruct (dget "entity_types" _) as [ts|]; [|apply create_alike]. cbn [snd].
  destruct (py_list ts) as [types|x]; [|reflexivity]. cbn [bind]. destruct (type_policies _ types) as [[md mp]|x]; [|reflexivity].
  cbn [bind]. apply create_alike.
Qed.

Lemma net_alike F clock n n' q : rk (library_net jwks_of F clock n q) = rk (library_net jwks_of F clock n' q).
Proof.
  destruct q as [u|ep i x]; cbn [library_net].
  - destruct (find _ F); [apply configuration_alike|reflexivity].
  - destruct (server_sees _) as [loc ps]. destruct (find _ F); [apply fetch_alike|reflexivity].
Qed.
End Times.

(** ** Histories *)

Section Live.
Context (jwks_of : val -> option (list key)) (F : list member) (E : cenv) (rank : string -> nat).
Hypothesis L : library_shaky jwks_of F E.
Hypothesis HR : hierarchy F rank.
Hypothesis HU : all_checkable jwks_of F E.
Notation N0 := (library_net jwks_of F (e_clock E) 0).
Notation E0 := (freeze N0 E).
Notation L0 := (ls_run _ _ _ L).
Notation W := (library_world jwks_of F (e_clock E 0)).

Lemma known_here q : ((N0 q = R404 \/ N0 q = RStatus) \/ (exists t, N0 q = RText t)) \/ N0 q = RNoConnection.
Proof. destruct (library_net jwks_of F (e_clock E) 0 q) as [t| | |]; eauto. Qed.

Lemma failed_alike n q : failed (e_net E n q) -> rk (e_net E n q) = rk (N0 q) \/ (failed (e_net E n q) /\ e_net E n q <> N0 q).
Proof.
  intros H. destruct (known_here q) as [[[K|K]|(t & K)]|K]; rewrite K; destruct H as [H|[H|H]]; rewrite H; try (left; reflexivity);
    right; (split; [unfold failed; auto|discriminate]).
Qed.

Lemma moving_alike n q : rk (e_net E n q) = rk (N0 q) \/ (failed (e_net E n q) /\ e_net E n q <> N0 q).
Proof. destruct (ls_net _ _ _ L n q) as [H|H]; [left; rewrite H; apply net_alike|apply failed_alike, H]. Qed.

(** a failure is a failure *)
Lemma outage_down n n' : down E N0 n n' -> outage jwks_of F E n n'.
Proof.
  intros (i & q & H1 & H2 & H3 & H4). exists i, q. split; [exact H1|]. split; [exact H2|]. split; [exact H3|]. intros X. apply H4. rewrite X in *.
  assert (A := net_alike jwks_of F (e_clock E) i 0 q). destruct H3 as [H3|[H3|H3]]; rewrite H3 in *; cbn in A;
    destruct (library_net jwks_of F (e_clock E) 0 q) as [t| | |]; try discriminate A; reflexivity.
Qed.

Lemma moving_apart id n : N0 (QDoc (e_wk E id)) <> R404 -> e_tenant E id <> e_wk E id -> e_net E n (QDoc (e_wk E id)) = R404 ->
  N0 (QDoc (e_tenant E id)) = R404.
Proof.
  cbn [library_net]. destruct (find (fun m => String.eqb (m_home m) (e_wk E id)) F) as [m|] eqn:E1; [|congruence]. intros _ N H.
  destruct (find (fun m => String.eqb (m_home m) (e_tenant E id)) F) as [m'|] eqn:E2; [|reflexivity]. exfalso.
  apply find_some in E1, E2. destruct E1 as [I1 E1], E2 as [I2 E2]. apply String.eqb_eq in E1, E2.
  apply (ls_apart _ _ _ L id m m' n I1 I2 E1 E2); [congruence|exact H].
Qed.

Lemma dated0 q k p : N0 q = RText (Some (TJws k p)) -> s_exp p <> None.
Proof. intros H Hp. destruct (library_fresh _ _ _ L0 0 q k p H) as (z & Hz & _). congruence. Qed.

Lemma moving_dated n q k p : e_net E n q = RText (Some (TJws k p)) -> s_exp p <> None.
Proof.
  intros H Hp. assert (A : rk (e_net E n q) = rk (N0 q)).
  { destruct (moving_alike n q) as [A|[[A|[A|A]] _]]; [exact A|congruence..]. }
  rewrite H in A. cbn [rk option_map tk] in A.
  destruct (library_net jwks_of F (e_clock E) 0 q) as [[[|k0 p0]|]| | |] eqn:E1; try discriminate A. cbn in A.
  assert (Es : settle p = settle p0) by congruence. exact (dated0 q k0 p0 E1 (settle_exp _ _ Es Hp)).
Qed.

(** configurations are valid for a day *)
Lemma net_exp n u k p : library_net jwks_of F (e_clock E) n (QDoc u) = RText (Some (TJws k p)) -> s_exp p = Some (e_clock E n + 86400)%Z.
Proof.
  cbn [library_net]. destruct (find _ F) as [m|] eqn:Ef; [|discriminate].
  apply find_some in Ef. destruct Ef as [Hm _].
  destruct (entity_configuration (m_srv m) (m_whole m) (m_marks m) (e_clock E n)) as [c|x] eqn:Ec; [|discriminate]. cbn [answer].
  destruct (decode jwks_of c) as [st|] eqn:Ed; [|discriminate]. intros [= <- <-].
  destruct (so_key _ _ _ (lf_sound _ _ _ L0 m Hm)) as (ks & Hk & Hin).
  destruct (C118_configuration jwks_of E _ _ _ _ c st (m_key m) ks Ec Ed Hk Hin) as (_ & _ & _ & Hx & _); [apply (lf_picks _ _ _ L0)|exact Hx].
Qed.

Lemma doc_exp n u k p : e_net E n (QDoc u) = RText (Some (TJws k p)) -> s_exp p = Some (e_clock E n + 86400)%Z.
Proof. intros H. destruct (ls_net _ _ _ L n (QDoc u)) as [A|[A|[A|A]]]; [|congruence..]. rewrite A in H. exact (net_exp _ _ _ _ H). Qed.

Lemma moving_valid n u k p : e_net E n (QDoc u) = RText (Some (TJws k p)) -> lib_valid (e_lib E) (e_clock E (S n)) p = true.
Proof. intros H. apply (lf_valid _ _ _ L0 _ _ _ (doc_exp _ _ _ _ H)). apply (ls_slow _ _ _ L). Qed.

Lemma moving_valid0 u k p : N0 (QDoc u) = RText (Some (TJws k p)) -> lib_valid (e_lib E) (e_clock E 0) p = true.
Proof. intros H. apply (lf_valid _ _ _ L0 _ _ _ (net_exp _ _ _ _ H)). lia. Qed.

Lemma moving_clean id t p hints a : pverified E0 id = Ok (t, p) -> s_hints p = Some hints -> In a hints -> clean a.
Proof. apply (hints_clean E0 _ (library_static _ _ _ L0) (library_clean _ _ _ L0)). Qed.

(** the configurations handed out since [n0] end a day later *)
Lemma aged_day n0 N : forwards E -> aged E n0 N -> (e_clock E n0 + 86400 - e_delta E <= e_clock E N)%Z.
Proof.
  intros HF (n & m & u & k & p & z & H1 & H2 & H3 & H4 & H5 & H6). rewrite (doc_exp _ _ _ _ H4) in H5. injection H5 as <-.
  assert (A := HF n0 n H1). assert (B := HF m N H3). lia.
Qed.

Definition fresh_start (kj : keyjar) : fstate := mkFed (mkState [] [] 0) kj [].

(** what the federation at the beginning shows *)
Lemma standing O fuel m kj : In m F -> rank (m_id m) < fuel -> right_keys F kj ->
  exists tr0 leaf0 kj' tcs0 s1,
    pcollect E0 fuel "" (m_id m) = Ok (Some (tr0, leaf0)) /\
    verify_trust_chains E0 (map (map tok_of) (tree2chains tr0)) [leaf0] kj = (kj', Ok tcs0) /\
    get_verified_trust_chains E0 O fuel (m_id m) (fresh_start kj) = (s1, apply_policies O tcs0) /\
    right_keys F kj' /\ (forall x, In x F -> superiors_of x = [] -> dget (m_id x) kj' = dget (m_id x) kj).
Proof.
  intros Hm Hf J. assert (Q := library_quiet _ _ _ L0 m Hm). assert (WR' := WR _ _ _ rank L0 HR m Hm).
  assert (V : visited E0 (f_col (fresh_start kj))) by constructor.
  destruct (verified_routes E0 W "" (m_id m) rank fuel (fresh_start kj) Q V WR' (world_ranked _ _ _ rank L0 HR m Hm) Hf
              (world_jar _ _ _ L0 m _ Hm J) (checkable_clear _ _ _ L0 m Hm (HU m Hm)))
    as (s1 & kj' & chains & tcs & C1 & C2 & C3 & _ & C4 & C5 & _).
  assert (Q' := Q). destruct Q' as (HS & HF & HC & Hid). assert (HC' := hints_clean E0 _ HS HC).
  destruct (collect_eq E0 HS HF HC' "" fuel (m_id m) Hid (f_col (fresh_start kj)) (visited_consistent E0 HS HF HC' _ V)) as (s2 & E1 & _).
  assert (K := chains_keep _ _ _ rank L0 HR O fuel m (fresh_start kj) (HU m Hm) Hm Hf V J).
  unfold collect_trust_chains, mbind, on_col in C1. rewrite E1 in C1.
  destruct (pcollect E0 fuel "" (m_id m)) as [[[tr leaf]|]|x]; [| |discriminate]; [|discriminate].
  remember (own W (m_id m)) as ow eqn:How. clear How. unfold ret in C1.
  assert (C1a : chains = map (map tok_of) (tree2chains tr)) by congruence. assert (C1b : ow = leaf) by congruence. clear C1. subst chains ow.
  exists tr, leaf, kj', tcs.
  assert (Hg : get_verified_trust_chains E0 O fuel (m_id m) (fresh_start kj) = (mkFed s2 kj' [], apply_policies O tcs)).
  { unfold get_verified_trust_chains, collect_trust_chains, on_col. unfold mbind at 1. unfold mbind at 1. rewrite E1. unfold ret at 1.
    destruct (map (map tok_of) (tree2chains tr)) as [|c0 chains0].
    - rewrite (C4 eq_refl). cbn in C5. injection C5 as <-. reflexivity.
    - unfold mbind, on_keys. cbn [f_keys fresh_start] in C5 |- *. rewrite C5. reflexivity. }
  rewrite Hg in K. cbn [fst f_col f_keys] in K. destruct K as (_ & K1 & K2).
  eexists. split; [reflexivity|]. split; [exact C5|]. split; [exact Hg|]. split; [exact K1|exact K2].
Qed.

(** the state of somebody who started with the keys [kj0] at request [n0] *)
Definition living (n0 : nat) (kj0 : keyjar) (s : fstate) : Prop :=
  J E N0 n0 (f_col s) /\ right_keys F (f_keys s) /\
  (forall x, In x F -> superiors_of x = [] -> dget (m_id x) (f_keys s) = dget (m_id x) kj0).

Lemma looked n0 kj0 O fuel m s s' r : In m F -> rank (m_id m) < fuel -> living n0 kj0 s ->
  get_verified_trust_chains E O fuel (m_id m) s = (s', r) ->
  living n0 kj0 s' /\ f_chains s' = f_chains s /\
  ((aged E n0 (st_tick (f_col s')) /\ r = Err TypeError) \/
   gave_up E N0 (st_tick (f_col s)) (st_tick (f_col s')) r \/
   exists s1 r0, get_verified_trust_chains E0 O fuel (m_id m) (fresh_start (f_keys s)) = (s1, r0) /\
                 rmap (map cck) r = rmap (map cck) r0).
Proof.
  intros Hm Hf (H1 & H2 & H3) H. destruct (standing O fuel m (f_keys s) Hm Hf H2) as (tr0 & leaf0 & kj' & tcs0 & s1 & P1 & P2 & P3 & P4 & P5).
  destruct (get_verified_near E N0 n0 O fuel (m_id m) s s' r tr0 leaf0 kj' tcs0 moving_alike moving_apart moving_dated dated0 (lf_picks _ _ _ L0)
              moving_valid moving_valid0 moving_clean (proj2 (so_id _ _ _ (lf_sound _ _ _ L0 m Hm))) H1 P1 P2 H)
    as (N1 & N2 & [(N3 & N4 & N5)|[(N3 & N5)|[N3 N4]]]).
  - split; [|split; [exact N2|left; auto]]. split; [exact N1|]. rewrite N5. auto.
  - split; [|split; [exact N2|right; left; exact N3]]. split; [exact N1|]. rewrite N5. auto.
  - split; [|split; [exact N2|right; right; eauto]]. split; [exact N1|]. rewrite N3. split; [exact P4|].
    intros x Hx Hs. rewrite (P5 x Hx Hs). apply H3; assumption.
Qed.

Lemma living_start s : newborn s -> right_keys F (f_keys s) -> living (st_tick (f_col s)) (f_keys s) s.
Proof.
  intros (B1 & B2 & _) Hk. split; [|split; [exact Hk|reflexivity]]. split; [lia|]. rewrite B1, B2.
  split; [intros id e X; discriminate X|intros a e v _ _ X; discriminate X].
Qed.

Lemma living_step n0 kj0 O s st : living n0 kj0 s ->
  match st with
  | Look fuel id | Ask fuel id => (exists m, In m F /\ m_id m = id) /\ rank id < fuel
  | Wait => True
  end -> living n0 kj0 (do_step E O s st).
Proof.
  intros H Hst. destruct st as [fuel id|fuel id|]; cbn [do_step].
  - destruct Hst as [(m & Hm & <-) Hf]. destruct (get_verified_trust_chains E O fuel (m_id m) s) as [s' r] eqn:Eg.
    exact (proj1 (looked n0 kj0 O fuel m s s' r Hm Hf H Eg)).
  - destruct Hst as [(m & Hm & <-) Hf]. unfold get_trust_chains. unfold mbind at 1. unfold StateM.get at 1.
    destruct (dget (m_id m) (f_chains s)) as [cs|]; [exact H|]. unfold mbind.
    destruct (get_verified_trust_chains E O fuel (m_id m) s) as [s' r] eqn:Eg.
    assert (G := proj1 (looked n0 kj0 O fuel m s s' r Hm Hf H Eg)). destruct r as [cs|x]; [|exact G].
    destruct (is_nil cs); exact G.
  - destruct H as (H1 & H2 & H3). split; [|split; [exact H2|exact H3]]. cbn [f_col]. apply (J_later E N0 n0 (f_col s)); [lia|exact H1].
Qed.

Lemma living_steps n0 kj0 O steps : forall s, living n0 kj0 s -> about_members F rank steps -> living n0 kj0 (after_steps E O steps s).
Proof.
  unfold after_steps. induction steps as [|st steps IH]; intros s H A; [exact H|]. cbn [fold_left]. apply IH.
  - apply living_step; [exact H|]. exact (A st (or_introl eq_refl)).
  - intros st' Hin. apply A. right. exact Hin.
Qed.

(** ** Chains that agree but for the times *)
Definition chain_names (c : tchain) : list (string * string) := map names_of (map snd (jws (tc_chain (ch_tc c)))).

Lemma names_tk l : map names_of (map snd (jws l)) = map names_of (map snd (jws (map tk l))).
Proof. induction l as [|[|k p] l IH]; cbn [jws map tk snd]; [reflexivity|exact IH|]. rewrite IH. reflexivity. Qed.

Lemma cck_names c c0 : cck c = cck c0 -> chain_names c = chain_names c0 /\ ch_anchor c = ch_anchor c0.
Proof.
  intros H. unfold cck, tck in H. injection H as H1 H2 _ _ _. split; [|exact H1].
  unfold chain_names. rewrite (names_tk (tc_chain (ch_tc c))), (names_tk (tc_chain (ch_tc c0))), H2. reflexivity.
Qed.

Lemma links_inj r : forall e r', PublishProps.links e r = PublishProps.links e r' -> r = r'.
Proof.
  induction r as [|a r IH]; intros e [|a' r'] H; cbn [PublishProps.links] in H; [reflexivity| | |].
  - destruct (PublishProps.links a' r'); discriminate.
  - destruct (PublishProps.links a r); discriminate.
  - apply app_inj_tail in H. destruct H as [H1 H2]. injection H2 as ->. f_equal. exact (IH _ _ H1).
Qed.

Lemma standing_should O fuel m kj kj0 s1 r0 : In m F -> rank (m_id m) < fuel -> right_keys F kj ->
  (forall x, In x F -> superiors_of x = [] -> dget (m_id x) kj = dget (m_id x) kj0) ->
  get_verified_trust_chains E0 O fuel (m_id m) (fresh_start kj) = (s1, r0) ->
  as_it_should jwks_of F E O kj0 m r0 /\ match r0 with Ok cs => NoDup (map chain_names cs) | Err _ => True end.
Proof.
  intros Hm Hf J K H. assert (V : visited E0 (f_col (fresh_start kj))) by constructor.
  assert (C := C121_constraints jwks_of F E0 O rank fuel m (fresh_start kj) s1 r0 L0 HR (HU m Hm) Hm Hf V J H).
  assert (D := C92_exactly_the_routes E0 O W (m_id m) rank fuel (fresh_start kj) s1 r0 (library_quiet _ _ _ L0 m Hm) V
                 (WR _ _ _ rank L0 HR m Hm) (world_ranked _ _ _ rank L0 HR m Hm) Hf
                 (world_jar _ _ _ L0 m _ Hm J) (checkable_clear _ _ _ L0 m Hm (HU m Hm)) H).
  assert (KN : forall rt, usable jwks_of F E kj (m_id m) rt <-> usable jwks_of F E kj0 (m_id m) rt).
  { intros rt. unfold usable. assert (X : path F (m_id m) rt -> exists x, In x F /\ superiors_of x = [] /\ m_id x = end_of (m_id m) rt).
    { clear. intros Hp. induction Hp as [x Hx Hs|x a r Hx Ha Hr IH]; [exists x; auto|exact IH]. }
    split; intros (U1 & U2 & U3 & U4); (split; [exact U1|]; split; [exact U2|]; split; [|exact U4]);
      destruct (X U1) as (x & X1 & X2 & X3); unfold VerifierSpec.known in *; rewrite <- X3 in *; rewrite (K x X1 X2) in *; exact U3. }
  cbn [f_keys fresh_start] in C. split.
  - destruct r0 as [cs|x].
    + destruct C as (C1 & C2). split; [|split].
      * intros rt U. apply C1, KN, U.
      * intros c Hc. destruct (C2 c Hc) as (rt & U & P). exists rt. split; [apply KN, U|exact P].
      * exact (proj2 (proj2 D)).
    + destruct C as (rt & U & P). exists rt. split; [apply KN, U|exact P].
  - destruct r0 as [cs|x]; [|exact I]. assert (C3 := proj2 (proj2 D)).
    assert (Hc : forall c, In c cs -> exists rt, path F (m_id m) rt /\ tc_chain (ch_tc c) = chain_along W (m_id m) rt).
    { intros c Hc. destruct (proj1 (proj2 D) c Hc) as (rt & (G & _) & (B & _)). exists rt. split; [|exact B].
      exact (route_path _ _ _ L0 _ _ G m Hm eq_refl). }
    assert (X : map chain_names cs = map (fun l => map names_of (map snd (jws l))) (map (fun c => tc_chain (ch_tc c)) cs)).
    { rewrite map_map. reflexivity. }
    rewrite X. apply NoDup_map_in; [|exact C3]. intros l1 l2 I1 I2 Hn.
    apply in_map_iff in I1, I2. destruct I1 as (c1 & <- & I1). destruct I2 as (c2 & <- & I2).
    destruct (Hc c1 I1) as (r1 & R1 & Q1). destruct (Hc c2 I2) as (r2 & R2 & Q2). rewrite Q1, Q2 in *. f_equal.
    unfold chain_along in Hn. rewrite !FederationProps.jws_app, !map_app in Hn.
    assert (N1 : map names_of (map snd (jws (along W (m_id m) r1))) = PublishProps.links (m_id m) r1) by exact (claims_names _ _ _ rank L0 HR r1 _ R1).
    assert (N2 : map names_of (map snd (jws (along W (m_id m) r2))) = PublishProps.links (m_id m) r2) by exact (claims_names _ _ _ rank L0 HR r2 _ R2).
    rewrite N1, N2 in Hn.
    apply app_inv_tail in Hn. exact (links_inj _ _ _ Hn).
Qed.

Lemma should_near O kj0 m r r0 : rmap (map cck) r = rmap (map cck) r0 -> as_it_should jwks_of F E O kj0 m r0 ->
  match r0 with Ok cs => NoDup (map chain_names cs) | Err _ => True end -> as_it_should jwks_of F E O kj0 m r.
Proof.
  intros H A N. destruct r as [cs|x], r0 as [cs0|x0]; try discriminate H; [|injection H as ->; exact A].
  cbn in H. injection H as H.
  assert (P : (forall c, In c cs -> exists c0, In c0 cs0 /\ cck c = cck c0) /\ (forall c0, In c0 cs0 -> exists c, In c cs /\ cck c = cck c0)).
  { split.
    - intros c Hc. apply (in_map cck) in Hc. rewrite H in Hc. apply in_map_iff in Hc. destruct Hc as (c0 & E1 & Hc). eauto.
    - intros c Hc. apply (in_map cck) in Hc. rewrite <- H in Hc. apply in_map_iff in Hc. destruct Hc as (c0 & E1 & Hc). eauto. }
  destruct P as [P1 P2].
  assert (T : forall c c0 rt, cck c = cck c0 -> runs_along c (m_id m) rt <-> runs_along c0 (m_id m) rt).
  { intros c c0 rt Ec. destruct (cck_names _ _ Ec) as [N1 N2]. unfold runs_along. unfold chain_names in N1. rewrite N1, N2. tauto. }
  assert (M : forall c c0, cck c = cck c0 -> ch_md c = ch_md c0) by (intros c c0 Ec; unfold cck in Ec; congruence).
  destruct A as (A1 & A2 & _). split; [|split].
  - intros rt U. destruct (A1 rt U) as (c0 & I0 & Ra & Ad). destruct (P2 c0 I0) as (c & Ic & Ec). exists c.
    split; [exact Ic|]. split; [apply (T c c0 rt Ec), Ra|]. rewrite (M c c0 Ec). exact Ad.
  - intros c Ic. destruct (P1 c Ic) as (c0 & I0 & Ec). destruct (A2 c0 I0) as (rt & U & Ra & Ad). exists rt.
    split; [exact U|]. split; [apply (T c c0 rt Ec), Ra|]. rewrite (M c c0 Ec). exact Ad.
  - assert (X : map chain_names cs = map chain_names cs0).
    { clear - H. revert cs0 H. induction cs as [|c cs IH]; intros [|c0 cs0] H; try discriminate H; [reflexivity|]. cbn [map] in H |- *.
      assert (H1 : cck c = cck c0) by congruence. rewrite (proj1 (cck_names _ _ H1)). f_equal. apply IH. congruence. }
    rewrite <- X in N. apply (NoDup_map_inv (fun l => map names_of (map snd (jws l)))). rewrite map_map. exact N.
Qed.

(** what comes out after a history *)
Lemma looked_should n0 kj0 O fuel m s s' r : In m F -> rank (m_id m) < fuel -> living n0 kj0 s ->
  get_verified_trust_chains E O fuel (m_id m) s = (s', r) ->
  as_it_should jwks_of F E O kj0 m r \/
  (outage jwks_of F E (st_tick (f_col s)) (st_tick (f_col s')) /\ exists x, net_error x /\ r = Err x) \/
  (aged E n0 (st_tick (f_col s')) /\ r = Err TypeError).
Proof.
  intros Hm Hf V H. destruct (looked n0 kj0 O fuel m s s' r Hm Hf V H) as (_ & _ & [A|[[A B]|(s1 & r0 & P1 & P2)]]).
  - right. right. exact A.
  - right. left. split; [apply outage_down, A|exact B].
  - left. destruct V as (_ & V1 & V2).
    destruct (standing_should O fuel m _ kj0 s1 r0 Hm Hf V1 V2 P1) as [S1 S2]. exact (should_near O _ m r r0 P2 S1 S2).
Qed.

Lemma shaky_found O fuel m s0 steps s' r :
  forwards E -> In m F -> rank (m_id m) < fuel -> newborn s0 -> right_keys F (f_keys s0) -> about_members F rank steps ->
  get_verified_trust_chains E O fuel (m_id m) (after_steps E O steps s0) = (s', r) ->
  as_it_should jwks_of F E O (f_keys s0) m r \/
  (outage jwks_of F E (st_tick (f_col (after_steps E O steps s0))) (st_tick (f_col s')) /\ exists x, net_error x /\ r = Err x) \/
  (r = Err TypeError /\ (e_clock E (st_tick (f_col s0)) + 86400 - e_delta E <= e_clock E (st_tick (f_col s')))%Z).
Proof.
  intros HF Hm Hf HB Hk HA H. assert (V := living_steps _ _ O steps _ (living_start s0 HB Hk) HA).
  destruct (looked_should _ _ O fuel m _ s' r Hm Hf V H) as [A|[A|[A ->]]]; [left; exact A|right; left; exact A|].
  right. right. split; [reflexivity|]. exact (aged_day _ _ HF A).
Qed.

(** what is in the store is right *)
Definition stored_right (O : iter_order) (kj0 : keyjar) (s : fstate) : Prop :=
  forall m cs, In m F -> dget (m_id m) (f_chains s) = Some cs -> as_it_should jwks_of F E O kj0 m (Ok cs).

Lemma asked n0 kj0 O fuel m s s' r : In m F -> rank (m_id m) < fuel -> living n0 kj0 s -> stored_right O kj0 s ->
  get_trust_chains E O fuel (m_id m) s = (s', r) ->
  stored_right O kj0 s' /\
  (as_it_should jwks_of F E O kj0 m r \/
   (outage jwks_of F E (st_tick (f_col s)) (st_tick (f_col s')) /\ exists x, net_error x /\ r = Err x) \/
   (aged E n0 (st_tick (f_col s')) /\ r = Err TypeError)).
Proof.
  intros Hm Hf V S. unfold get_trust_chains. unfold mbind at 1. unfold StateM.get at 1.
  destruct (dget (m_id m) (f_chains s)) as [cs|] eqn:Ed.
  { intros [= <- <-]. split; [exact S|]. left. exact (S m cs Hm Ed). }
  unfold mbind. destruct (get_verified_trust_chains E O fuel (m_id m) s) as [s1 r1] eqn:Eg.
  assert (G := looked_should n0 kj0 O fuel m s s1 r1 Hm Hf V Eg).
  destruct (looked n0 kj0 O fuel m s s1 r1 Hm Hf V Eg) as (_ & Hc & _).
  assert (S1 : stored_right O kj0 s1) by (intros m' cs Hm' H'; rewrite Hc in H'; exact (S m' cs Hm' H')).
  destruct r1 as [cs|x].
  - destruct G as [G|[(_ & x & _ & G)|[_ G]]]; try discriminate G. destruct cs as [|c cs]; cbn [is_nil].
    + intros [= <- <-]. auto.
    + unfold store_trust_chain, modify, ret. intros [= <- <-]. split; [|left; exact G].
      intros m' cs' Hm' H'. cbn [f_chains] in H'. rewrite dget_dset in H'.
      destruct (String.eqb_spec (m_id m') (m_id m)) as [Ei|_]; [|exact (S1 m' cs' Hm' H')].
      injection H' as <-. rewrite (lf_ids _ _ _ L0 m' m Hm' Hm Ei). exact G.
  - intros [= <- <-]. auto.
Qed.

Lemma stored_steps n0 kj0 O steps : forall s, living n0 kj0 s -> stored_right O kj0 s -> about_members F rank steps ->
  stored_right O kj0 (after_steps E O steps s).
Proof.
  unfold after_steps. induction steps as [|st steps IH]; intros s V S A; [exact S|]. cbn [fold_left]. apply IH.
  - apply living_step; [exact V|]. exact (A st (or_introl eq_refl)).
  - assert (A0 := A st (or_introl eq_refl)). destruct st as [fuel id|fuel id|]; cbn [do_step]; [| |exact S].
    + destruct A0 as [(m & Hm & <-) Hf]. destruct (get_verified_trust_chains E O fuel (m_id m) s) as [s' r] eqn:Eg. cbn [fst].
      destruct (looked n0 kj0 O fuel m s s' r Hm Hf V Eg) as (_ & Hc & _). intros m' cs Hm' H'. rewrite Hc in H'. exact (S m' cs Hm' H').
    + destruct A0 as [(m & Hm & <-) Hf]. destruct (get_trust_chains E O fuel (m_id m) s) as [s' r] eqn:Eg. cbn [fst].
      exact (proj1 (asked n0 kj0 O fuel m s s' r Hm Hf V S Eg)).
  - intros st' Hin. apply A. right. exact Hin.
Qed.

Lemma shaky_asked O fuel m s0 steps s' r :
  forwards E -> In m F -> rank (m_id m) < fuel -> newborn s0 -> right_keys F (f_keys s0) -> about_members F rank steps ->
  get_trust_chains E O fuel (m_id m) (after_steps E O steps s0) = (s', r) ->
  as_it_should jwks_of F E O (f_keys s0) m r \/
  (outage jwks_of F E (st_tick (f_col (after_steps E O steps s0))) (st_tick (f_col s')) /\ exists x, net_error x /\ r = Err x) \/
  (r = Err TypeError /\ (e_clock E (st_tick (f_col s0)) + 86400 - e_delta E <= e_clock E (st_tick (f_col s')))%Z).
Proof.
  intros HF Hm Hf HB Hk HA H. assert (V := living_steps _ _ O steps _ (living_start s0 HB Hk) HA).
  assert (S0 : stored_right O (f_keys s0) s0) by (intros x cs Hx D; rewrite (proj2 (proj2 HB)) in D; discriminate D).
  assert (S := stored_steps _ _ O steps _ (living_start s0 HB Hk) S0 HA).
  destruct (asked _ _ O fuel m _ s' r Hm Hf V S H) as (_ & [A|[A|[A ->]]]); [left; exact A|right; left; exact A|].
  right. right. split; [reflexivity|]. exact (aged_day _ _ HF A).
Qed.

End Live.

(** without failures *)
Lemma moving_shaky jwks_of F E : library_moving jwks_of F E -> library_shaky jwks_of F E.
Proof.
  intros L. constructor; [exact (lm_run _ _ _ L)|intros n q; left; apply (lm_net _ _ _ L)|exact (lm_slow _ _ _ L)|].
  intros id m m' n I1 I2 H1 H2 N. rewrite (lm_net _ _ _ L). cbn [library_net].
  destruct (find (fun m => String.eqb (m_home m) (e_wk E id)) F) as [m1|] eqn:E1.
  - destruct (entity_configuration _ _ _ _); discriminate.
  - exfalso. apply (find_none _ _ E1) in I1. rewrite H1, String.eqb_refl in I1. discriminate.
Qed.

Lemma moving_no_outage jwks_of F E n n' : library_moving jwks_of F E -> ~ outage jwks_of F E n n'.
Proof. intros L (i & q & _ & _ & _ & H). apply H, (lm_net _ _ _ L). Qed.
