(** Trust marks in a federation whose requests fail while time passes (C177). *)
From Verif Require Import PyFacts ExampleKit CollectorProps CollectorRepeat CollectorRepeatProps VerifierFacts FederationProps.
From Verif Require Import RpSpec RpFacts TrustMarkVerifierModel TrustMarkSpec TrustMarkFacts TrustMarkProps TrustMarkVerifierProps.
From Verif Require Import LiveExample LiveMarkProps LiveResolveProps ClientsRightProps ResolverRightProps.
From Verif Require Export MotionLive.
From Coq Require Import Lia.

(** ** What somebody does who accepts trust marks *)
Inductive deed :=
| Do (st : step)
| Check (fuel : nat) (V : tmenv) (ask : string -> string -> string -> res (dict val)) (t : tmtoken) (status : bool).   (* verify_trust_mark *)

Definition do_deed (E : cenv) (O : iter_order) (s : fstate) (d : deed) : fstate :=
  match d with
  | Do st => do_step E O s st
  | Check fuel V ask t status => fst (verify_trust_mark E O fuel V ask t status s)
  end.

Definition after_deeds (E : cenv) (O : iter_order) (ds : list deed) (s : fstate) : fstate := fold_left (do_deed E O) ds s.

(** the mark is one that a member is said to have issued *)
Definition by_member (F : list member) (rank : string -> nat) (fuel : nat) (t : tmtoken) : Prop :=
  forall k p iss, t = TMJws k p -> dget "iss" p = Some (VStr iss) -> (exists m, In m F /\ m_id m = iss) /\ rank iss < fuel.

Definition deeds_about (F : list member) (rank : string -> nat) (ds : list deed) : Prop :=
  forall d, In d ds ->
  match d with
  | Do (Look fuel id) | Do (Ask fuel id) => (exists m, In m F /\ m_id m = id) /\ rank id < fuel
  | Do Wait => True
  | Check fuel _ _ t _ => by_member F rank fuel t
  end.

(** [m] itself or one of its superiors says that [k] is a key of [m] *)
Definition own_key (jwks_of : val -> option (list key)) (F : list member) (E : cenv) (m : member) (k : key) : Prop :=
  let W := library_world jwks_of F (e_clock E 0) in
  vouches_for (w_config W (m_id m)) k \/ exists a, In a (superiors_of m) /\ vouches_for (w_about W a (m_id m)) k.

(** the status endpoint in the metadata of a trust mark issuer *)
Definition endpoint_in (md : tc_metadata) (u : string) : Prop :=
  match md with
  | ByType d => exists fe, dget "federation_entity" d = Some (Some fe) /\ dget "federation_trust_mark_status_endpoint" fe = Some (VStr u)
  | Flat d => exists fe, dget "federation_entity" d = Some (VDict fe) /\ dget "federation_trust_mark_status_endpoint" fe = Some (VStr u)
  end.

(** the issuer says that the mark is active *)
Definition said_active (ask : string -> string -> string -> res (dict val)) (u : string) (p : tmark) : Prop :=
  exists sub id resp a, dget "sub" p = Some (VStr sub) /\ dget "id" p = Some (VStr id) /\ ask u sub id = Ok resp /\
    dget "active" resp = Some a /\ py_eqb a (VBool true) = true.

Section Marks.
Context (jwks_of : val -> option (list key)) (F : list member) (E : cenv) (rank : string -> nat).
Context (L : library_shaky jwks_of F E) (HR : hierarchy F rank) (HU : all_checkable jwks_of F E).
Context (O : iter_order) (n0 : nat) (kj0 : keyjar).
Notation N0 := (library_net jwks_of F (e_clock E) 0).
Notation E0 := (freeze N0 E).
Notation W := (library_world jwks_of F (e_clock E 0)).
Let L0 := ls_run jwks_of F E L.
Notation JJ := (MotionFacts.J E N0 n0).

Lemma upto_path e rt : upto F "" e rt -> path F e rt.
Proof.
  induction 1 as [m Hm [Hs|Hs]|m a r Hm Hn Ha Hr IH]; [|constructor; assumption..].
  exfalso. exact (proj1 (so_id _ _ _ (lf_sound _ _ _ L0 m Hm)) Hs).
Qed.

Lemma checkable_all m : In m F -> checkable_upto jwks_of F E "" (m_id m).
Proof. intros Hm rt H. exact (HU m Hm rt (upto_path _ _ H)). Qed.

(** ** The chains of the federation at the beginning *)
Lemma chains_there fuel m tr0 leaf0 : In m F -> rank (m_id m) < fuel -> pcollect E0 fuel "" (m_id m) = Ok (Some (tr0, leaf0)) ->
  leaf0 = own W (m_id m) /\
  forall c, In c (map (map tok_of) (tree2chains tr0)) -> exists r, path F (m_id m) r /\ r <> [] /\ c = along W (m_id m) r.
Proof.
  intros Hm Hf P. assert (Q := library_quiet _ _ _ L0 m Hm). assert (WR' := WR _ _ _ rank L0 HR m Hm).
  assert (V : visited E0 (f_col (fresh_start []))) by constructor.
  destruct (collect_routes E0 W "" (m_id m) rank fuel (fresh_start []) Q V WR' (world_ranked _ _ _ rank L0 HR m Hm) Hf)
    as (s1 & chains & C1 & C2 & C3 & C4 & C6 & C5).
  destruct Q as (HS & HF' & HC & Hid). assert (HC' := hints_clean E0 _ HS HC).
  destruct (collect_eq E0 HS HF' HC' "" fuel (m_id m) Hid (f_col (fresh_start [])) (visited_consistent E0 HS HF' HC' _ V)) as (s2 & E1 & _).
  unfold collect_trust_chains, mbind, on_col in C1. rewrite E1, P in C1. unfold ret in C1.
  remember (own W (m_id m)) as ow eqn:How.
  assert (C1a : chains = map (map tok_of) (tree2chains tr0)) by congruence. assert (C1b : ow = leaf0) by congruence.
  split; [congruence|]. rewrite <- C1a. intros c Hc. apply C5 in Hc. destruct Hc as (r & Hr & Hn & ->). exists r.
  split; [exact (route_path _ _ _ L0 _ _ Hr m Hm eq_refl)|]. split; [exact Hn|reflexivity].
Qed.

Lemma along_keys e r : path F e r -> forall k0 p x k, In (k0, p) (jws (along W e r)) -> In x F -> s_sub p = m_id x ->
  vouches_for p k -> own_key jwks_of F E x k.
Proof.
  induction 1 as [m Hm Hs|m a r Hm Ha Hr IH]; intros k0 p x k Hin Hx Hp Hk; [destruct Hin|].
  cbn [along] in Hin. rewrite FederationProps.jws_app in Hin. apply in_app_iff in Hin. destruct Hin as [Hin|[Hin|[]]].
  { exact (IH k0 p x k Hin Hx Hp Hk). }
  assert (Ep : p = w_about W a (m_id m)) by (injection Hin as _ X; symmetry; exact X). subst p.
  assert (Ha' : In a (above W "" (m_id m))).
  { assert (A := above_member _ _ _ L0 m Hm). change (e_clock E0 0) with (e_clock E 0) in A. rewrite A. exact Ha. }
  destruct (wr_about _ _ _ _ (WR _ _ _ rank L0 HR m Hm) (m_id m) a (reaches_self _ _ _) Ha') as (_ & H2 & _).
  change (e_clock E0 0) with (e_clock E 0) in H2. rewrite H2 in Hp.
  rewrite <- (lf_ids _ _ _ L0 m x Hm Hx Hp). right. exists a. split; assumption.
Qed.

Lemma config_sub m : In m F -> s_sub (w_config W (m_id m)) = m_id m.
Proof.
  intros Hm. assert (N := config_names _ _ _ rank L0 HR m Hm). change (e_clock E0 0) with (e_clock E 0) in N.
  unfold names_of in N. congruence.
Qed.

(** ** The state of somebody who started with the keys [kj0] *)
Definition allowed (m : member) (k : key) : Prop := VerifierSpec.holds kj0 (m_id m) k \/ own_key jwks_of F E m k.

Definition fine (s : fstate) : Prop :=
  living jwks_of F E n0 kj0 s /\ stored_right jwks_of F E O kj0 s /\
  forall x k, In x F -> VerifierSpec.holds (f_keys s) (m_id x) k -> allowed x k.

Definition safe {A} (s : fstate) (m : M fstate A) (Q : fstate -> A -> Prop) : Prop :=
  match m s with
  | (s1, r) => fine s1 /\ st_tick (f_col s) <= st_tick (f_col s1) /\ forall a, r = Ok a -> Q s1 a
  end.

Lemma safe_bind A B s (m : M fstate A) (f : A -> M fstate B) P Q :
  safe s m P ->
  (forall s1 a, fine s1 -> st_tick (f_col s) <= st_tick (f_col s1) -> P s1 a -> safe s1 (f a) Q) -> safe s (mbind m f) Q.
Proof.
  unfold safe, mbind. destruct (m s) as [s1 [a|x]]; intros (H1 & H2 & H3) Hf.
  - specialize (Hf s1 a H1 H2 (H3 a eq_refl)). destruct (f a s1) as [s2 r]. destruct Hf as (F1 & F2 & F3).
    split; [exact F1|]. split; [lia|exact F3].
  - split; [exact H1|]. split; [exact H2|discriminate].
Qed.

Lemma safe_ret A s (a : A) (Q : fstate -> A -> Prop) : fine s -> Q s a -> safe s (ret a) Q.
Proof. intros H1 H2. unfold safe, ret. split; [exact H1|]. split; [lia|]. intros b [= <-]. exact H2. Qed.

Lemma safe_raise A s x (Q : fstate -> A -> Prop) : fine s -> safe s (raise x) Q.
Proof. intros H1. unfold safe, raise. split; [exact H1|]. split; [lia|discriminate]. Qed.

Lemma safe_lift A s r (Q : fstate -> A -> Prop) : fine s -> (forall a, r = Ok a -> Q s a) -> safe s (lift r) Q.
Proof. intros H1 H2. unfold safe, lift. split; [exact H1|]. split; [lia|exact H2]. Qed.

(** the collector's part changes, and nothing else *)
Lemma fine_col s c : fine s -> JJ c -> fine (mkFed c (f_keys s) (f_chains s)).
Proof.
  intros ((H1 & H2 & H3) & S & A) Hc. split; [|split; [exact S|exact A]]. split; [exact Hc|]. split; [exact H2|exact H3].
Qed.

Lemma safe_col A s (m : M cstate A) (Q : fstate -> A -> Prop) : fine s ->
  match m (f_col s) with (c, r) => JJ c /\ st_tick (f_col s) <= st_tick c /\ forall a, r = Ok a -> Q (mkFed c (f_keys s) (f_chains s)) a end ->
  safe s (on_col m) Q.
Proof.
  intros H Hm. unfold safe, on_col. destruct (m (f_col s)) as [c r]. destruct Hm as (M1 & M2 & M3).
  split; [exact (fine_col s c H M1)|]. split; [exact M2|exact M3].
Qed.

Lemma fine_J s : fine s -> JJ (f_col s).
Proof. intros ((H & _) & _). exact H. Qed.

Lemma safe_cfg s id : fine s -> safe s (on_col (cfg_getitem E id)) (fun _ _ => True).
Proof.
  intros H. apply safe_col; [exact H|]. assert (HJ := fine_J s H).
  destruct (r_cfg_getitem E N0 n0 id (f_col s) HJ) as [(e & G & _)|[[G _]|(s1 & G & T & J1 & _)]]; rewrite G; (split; [assumption|]; split; [lia|auto]).
Qed.

Lemma safe_now s : fine s -> safe s (on_col (now E)) (fun s1 n => n = e_clock E (st_tick (f_col s)) /\ f_col s1 = f_col s).
Proof.
  intros H. apply safe_col; [exact H|]. unfold now. split; [exact (fine_J s H)|]. split; [lia|].
  intros a [= <-]. split; reflexivity.
Qed.

Lemma runs_collect fuel m s : In m F -> JJ s -> runs E N0 n0 (collect E fuel "" (m_id m)) s ck (pcollect E0 fuel "" (m_id m)) (fun _ _ => True).
Proof.
  intros Hm Hs. exact (r_collect E N0 n0 (moving_alike _ _ _ L) (moving_apart _ _ _ L) (moving_dated _ _ _ L) (dated0 _ _ _ L) (lf_picks _ _ _ L0)
    (moving_valid _ _ _ L) (moving_valid0 _ _ _ L) (moving_clean _ _ _ L) fuel "" (m_id m) s (proj2 (so_id _ _ _ (lf_sound _ _ _ L0 m Hm))) Hs).
Qed.

(** a member without superiors has no chains *)
Lemma safe_top fuel m s : In m F -> superiors_of m = [] -> rank (m_id m) < fuel -> fine s ->
  safe s (collect_trust_chains E fuel (m_id m) "") (fun _ r => fst r = []).
Proof.
  intros Hm Ht Hf H. assert (R := runs_collect fuel m (f_col s) Hm (fine_J s H)). unfold runs in R.
  destruct (standing_upto jwks_of F E rank L HR "" O fuel m [] (checkable_all m Hm) Hm Hf) as (tr0 & leaf0 & kj' & tcs0 & P1 & _).
  { intros x ks _ D. discriminate D. }
  destruct (chains_there fuel m tr0 leaf0 Hm Hf P1) as [_ C].
  assert (C0 : map (map tok_of) (tree2chains tr0) = []).
  { destruct (map (map tok_of) (tree2chains tr0)) as [|c cs]; [reflexivity|]. destruct (C c (or_introl eq_refl)) as (r & Hp & Hn & _).
    exfalso. inversion Hp as [x Hx Hs Ex Er|x a r' Hx Ha Hr Ex Er]; [apply Hn; congruence|].
    rewrite (lf_ids _ _ _ L0 x m Hx Hm Ex), Ht in Ha. destruct Ha. }
  rewrite P1 in R. unfold safe, collect_trust_chains, mbind, on_col.
  destruct (collect E fuel "" (m_id m) (f_col s)) as [c r]. destruct R as (R1 & R2 & R3).
  destruct r as [[[tr leaf]|]|x]; unfold ret; cbn [f_col].
  - split; [exact (fine_col s c H R2)|]. split; [exact R1|]. intros a [= <-]. cbn [fst].
    destruct R3 as [[_ X]|[(_ & y & _ & X)|[R3 _]]]; try discriminate X. cbn in R3. injection R3 as R3 _.
    assert (G := chains_near _ _ R3). rewrite C0 in G. destruct (map (map tok_of) (tree2chains tr)); [reflexivity|discriminate G].
  - split; [exact (fine_col s c H R2)|]. split; [exact R1|]. intros a [= <-]. reflexivity.
  - split; [exact (fine_col s c H R2)|]. split; [exact R1|discriminate].
Qed.

Lemma safe_metadata fuel m s : In m F -> superiors_of m = [] -> rank (m_id m) < fuel -> fine s ->
  safe s (get_metadata E fuel (m_id m)) (fun _ _ => True).
Proof.
  intros Hm Ht Hf H. unfold get_metadata. eapply safe_bind with (P := fun s1 a => s1 = s /\ a = s).
  { unfold safe, StateM.get. split; [exact H|]. split; [lia|]. intros a [= <-]. auto. }
  intros s1 a H1 _ [-> ->]. eapply safe_bind with (P := fun _ _ => True).
  { destruct (cache_contains _ _); [|apply safe_ret; auto]. eapply safe_bind; [apply safe_cfg, H|].
    intros s2 e H2 _ _. destruct e as [e|]; [|apply safe_raise, H2]. eapply safe_bind; [apply safe_now, H2|].
    intros s3 n H3 _ _. apply safe_ret; auto. }
  intros s2 u H2 _ _. eapply safe_bind with (P := fun _ _ => True).
  { destruct u as [e|]; [apply safe_ret; auto|]. eapply safe_bind; [exact (safe_top fuel m s2 Hm Ht Hf H2)|].
    intros s3 r H3 _ Hr. cbn beta in Hr. rewrite Hr. eapply safe_bind with (P := fun _ _ => True).
    { unfold safe, on_keys. cbn. destruct s3. split; [exact H3|]. split; [lia|auto]. }
    intros s4 v H4 _ _. eapply safe_bind; [apply safe_cfg, H4|]. intros s5 e H5 _ _. destruct e; [apply safe_ret; auto|apply safe_raise, H5]. }
  intros s3 e H3 _ _. destruct (s_metadata _); [apply safe_ret; auto|apply safe_raise, H3].
Qed.

Lemma safe_delegation fuel V p m s : In m F -> superiors_of m = [] -> rank (m_id m) < fuel -> fine s ->
  safe s (verify_delegation E fuel V p (m_id m)) (fun _ _ => True).
Proof.
  intros Hm Ht Hf H. unfold verify_delegation. eapply safe_bind; [exact (safe_metadata fuel m s Hm Ht Hf H)|].
  intros s1 md H1 _ _. eapply safe_bind; [apply (safe_lift _ s1 _ (fun _ _ => True) H1); auto|]. intros s2 fe H2 _ _.
  destruct (dget "id" p) as [[| | |id| |]|]; try (apply safe_raise, H2).
  destruct (dget "delegation" p) as [[| | |d| |]|]; try (apply safe_raise, H2). apply safe_lift; auto.
Qed.

(** ** Trust chains *)
Definition of_member (m : member) (cs : list tchain) : Prop :=
  as_it_should jwks_of F E O kj0 m (Ok cs).

Definition leaf_known (m : member) (cs : list tchain) : Prop :=
  forall c, In c cs -> superiors_of m <> [] /\ (exists l, tc_iss_path (ch_tc c) = m_id m :: l) /\
    exists l, map s_jwks (ch_verified c) = l ++ [s_jwks (w_config W (m_id m))].

Lemma safe_verified fuel m s : In m F -> rank (m_id m) < fuel -> fine s ->
  safe s (get_verified_trust_chains E O fuel (m_id m)) (fun _ cs => of_member m cs /\ leaf_known m cs).
Proof.
  intros Hm Hf H. assert (H' := H). destruct H' as (V & S & A).
  unfold safe. destruct (get_verified_trust_chains E O fuel (m_id m) s) as [s' r] eqn:Eg.
  destruct (looked jwks_of F E rank L HR HU n0 kj0 O fuel m s s' r Hm Hf V Eg) as (V1 & Hc & _).
  destruct (standing_upto jwks_of F E rank L HR "" O fuel m (f_keys s) (checkable_all m Hm) Hm Hf (proj1 (proj2 V))) as (tr0 & leaf0 & kj' & tcs0 & P1 & P2 & _ & _ & P5).
  destruct (chains_there fuel m tr0 leaf0 Hm Hf P1) as [C0 C].
  destruct (get_verified_near E N0 n0 O fuel (m_id m) s s' r tr0 leaf0 kj' tcs0 (moving_alike _ _ _ L) (moving_apart _ _ _ L) (moving_dated _ _ _ L)
              (dated0 _ _ _ L) (lf_picks _ _ _ L0) (moving_valid _ _ _ L) (moving_valid0 _ _ _ L) (moving_clean _ _ _ L)
              (proj2 (so_id _ _ _ (lf_sound _ _ _ L0 m Hm))) (proj1 V) P1 P2 Eg) as (_ & _ & N).
  assert (T : st_tick (f_col s) <= st_tick (f_col s')).
  { assert (R := runs_collect fuel m (f_col s) Hm (proj1 V)). unfold runs in R.
    unfold get_verified_trust_chains, collect_trust_chains, on_col in Eg. unfold mbind at 1 in Eg. unfold mbind at 1 in Eg.
    destruct (collect E fuel "" (m_id m) (f_col s)) as [c1 r1]. destruct R as (R1 & _). destruct r1 as [[[tr leaf]|]|x].
    - unfold ret at 1 in Eg. destruct (map _ (tree2chains tr)); [injection Eg as <- _; exact R1|].
      unfold mbind, on_keys in Eg. destruct (verify_trust_chains _ _ _ _) as [kx [tx|x]]; injection Eg as <- _; exact R1.
    - unfold ret at 1 in Eg. injection Eg as <- _. exact R1.
    - injection Eg as <- _. exact R1. }
  assert (K : forall x k, In x F -> VerifierSpec.holds (f_keys s') (m_id x) k -> allowed x k).
  { intros x k Hx Hh. destruct N as [(_ & _ & N)|[(_ & N)|[N _]]]; [rewrite N in Hh; exact (A x k Hx Hh)..|].
    rewrite N, (verify_all _ _ _ _ _ _ P2) in Hh. apply history_traceable in Hh.
    inversion Hh as [e1 k1 H1|k0 p jw k1 Hin _ Hj Hk Ee]; [exact (A x k Hx H1)|]. subst.
    assert (Vf : vouches_for p k) by (exists jw; auto).
    apply in_flat_map in Hin. destruct Hin as (c & Hcc & Hin). apply in_map_iff in Hcc. destruct Hcc as (c' & <- & Hcc).
    rewrite FederationProps.jws_app in Hin. apply in_app_iff in Hin. right. destruct Hin as [Hin|[Hin|[]]].
    - destruct (C c' Hcc) as (rt & Hp & _ & ->). exact (along_keys _ _ Hp k0 p x k Hin Hx Ee Vf).
    - assert (Ep : p = w_config W (m_id m)) by (injection Hin as _ X; symmetry; exact X). subst p.
      rewrite (config_sub m Hm) in Ee. rewrite <- (lf_ids _ _ _ L0 m x Hm Hx Ee). left. exact Vf. }
  split; [|split; [exact T|]].
  - split; [exact V1|]. split; [|exact K]. intros x cs Hx D. rewrite Hc in D. exact (S x cs Hx D).
  - intros cs ->. split.
    + destruct (looked_should jwks_of F E rank L HR HU n0 kj0 O fuel m s s' (Ok cs) Hm Hf V Eg) as [B|[(_ & x & _ & B)|[_ B]]];
        [exact B|discriminate B|discriminate B].
    + destruct N as [(_ & N & _)|[((_ & x & _ & N) & _)|[_ N]]]; [discriminate N..|].
      destruct (apply_policies O tcs0) as [cs0|x0]; [|discriminate N]. cbn in N. injection N as N.
      intros c Hin. apply (in_map cck) in Hin. rewrite N in Hin. apply in_map_iff in Hin. destruct Hin as (c0 & Ec & Hin).
      destruct (P5 cs0 eq_refl c0 Hin) as (rt & (U1 & U2 & _) & _ & Hpath & _ & Hj). split; [|split].
      * apply upto_path in U1. inversion U1 as [x Hx Hs Ex Er|x a r' Hx Ha Hr Ex Er]; [congruence|].
        rewrite <- (lf_ids _ _ _ L0 x m Hx Hm Ex). intros X. rewrite X in Ha. destruct Ha.
      * exists rt. rewrite <- Hpath. unfold cck, tck in Ec. congruence.
      * assert (X : map s_jwks (ch_verified c) = map s_jwks (ch_verified c0)).
        { unfold ch_verified. assert (Y : map settle (tc_verified (ch_tc c)) = map settle (tc_verified (ch_tc c0))) by (unfold cck, tck in Ec; congruence).
          assert (Z : forall l, map s_jwks l = map s_jwks (map settle l)) by (intros l; rewrite map_map; reflexivity).
          rewrite Z, (Z (tc_verified (ch_tc c0))), Y. reflexivity. }
        rewrite X, Hj. unfold said, claims_along, chain_along. rewrite FederationProps.jws_app, !map_app. eexists. reflexivity.
Qed.

Lemma safe_chains fuel m s : In m F -> rank (m_id m) < fuel -> fine s ->
  safe s (get_trust_chains E O fuel (m_id m)) (fun _ cs => of_member m cs).
Proof.
  intros Hm Hf H. unfold get_trust_chains. eapply safe_bind with (P := fun s1 a => s1 = s /\ a = s).
  { unfold safe, StateM.get. split; [exact H|]. split; [lia|]. intros a [= <-]. auto. }
  intros s1 a H1 _ [-> ->]. destruct (dget (m_id m) (f_chains s)) as [cs|] eqn:Ed.
  { apply safe_ret; [exact H|]. exact (proj1 (proj2 H) m cs Hm Ed). }
  eapply safe_bind; [exact (safe_verified fuel m s Hm Hf H)|]. intros s1 cs H3 _ [P _]. assert (H3' := H3). destruct H3' as (V & S & A).
  destruct cs as [|c0 cs0]; cbn [is_nil]; [apply safe_ret; [exact H3|exact P]|].
  eapply safe_bind with (P := fun _ _ => True).
  { unfold safe, store_trust_chain, modify. split; [|split; [cbn; lia|auto]]. split; [exact V|]. split; [|exact A].
    intros x cs' Hx D. cbn [f_chains] in D. destruct (String.eqb_spec (m_id x) (m_id m)) as [En|Nn].
    - rewrite En, dget_dset_same in D. injection D as <-. rewrite (lf_ids _ _ _ L0 x m Hx Hm En). exact P.
    - rewrite dget_dset_other in D by exact Nn. exact (S x cs' Hx D). }
  intros s2 v H2 _ _. apply safe_ret; [exact H2|exact P].
Qed.

Lemma safe_leaf m cs s : In m F -> leaf_known m cs -> fine s -> safe s (import_leaf_keys O cs) (fun _ _ => True).
Proof.
  intros Hm HL H. unfold import_leaf_keys. eapply safe_bind; [apply (safe_lift _ s _ (fun _ cs' => apply_policies O (map ch_tc cs) = Ok cs') H); auto|].
  intros s1 cs' H1 _ Ha. assert (H1' := H1). destruct H1' as (V & S & A). destruct cs' as [|c' cs']; [apply safe_raise, H1|].
  destruct (FederationProps.mapM_In _ _ _ _ _ Ha) as [M1 _]. destruct (M1 c' (or_introl eq_refl)) as (tc1 & Hin1 & Ha1).
  apply in_map_iff in Hin1. destruct Hin1 as (c0 & <- & Hin0). destruct (HL c0 Hin0) as (L1 & (l & L2) & (l' & L3)).
  assert (J1 := apply_keeps_jwks _ _ _ Ha1). apply apply_keeps in Ha1. destruct Ha1 as (_ & _ & A3 & _).
  fold (ch_verified c0) in J1. rewrite L3 in J1. rewrite A3, L2.
  destruct (rev (ch_verified c')) as [|leaf rest] eqn:Er; [apply safe_raise, H1|].
  assert (Ev : ch_verified c' = rev rest ++ [leaf]) by (rewrite <- (rev_involutive (ch_verified c')), Er; reflexivity).
  rewrite Ev, map_app in J1. apply app_inj_tail in J1. destruct J1 as [_ J1].
  destruct (s_jwks leaf) as [ks|] eqn:Ej; [|apply safe_raise, H1].
  destruct (wr_config _ _ _ _ (WR _ _ _ rank L0 HR m Hm) (m_id m) (reaches_self _ _ _)) as (_ & _ & _ & _ & (ks' & Hk1 & Hk2)).
  change (e_clock E0 0) with (e_clock E 0) in Hk1, Hk2. assert (ks' = ks) by congruence. subst ks'.
  cbn [library_world w_key] in Hk2. rewrite (by_id_In _ _ _ L0 m Hm) in Hk2.
  unfold safe, modify. split; [|split; [cbn; lia|auto]]. destruct V as (V1 & V2 & V3). split; [split; [exact V1|split]|split].
  - intros x kx Hx D. cbn [f_keys] in D. destruct (String.eqb_spec (m_id x) (m_id m)) as [En|Nn].
    + rewrite En, dget_dset_same in D. injection D as <-. rewrite (lf_ids _ _ _ L0 x m Hx Hm En). apply in_or_app. right. exact Hk2.
    + rewrite dget_dset_other in D by exact Nn. exact (V2 x kx Hx D).
  - intros x Hx Hs. cbn [f_keys]. destruct (String.eqb_spec (m_id x) (m_id m)) as [En|Nn].
    + exfalso. apply L1. rewrite <- (lf_ids _ _ _ L0 x m Hx Hm En). exact Hs.
    + rewrite dget_dset_other by exact Nn. exact (V3 x Hx Hs).
  - exact S.
  - intros x k Hx (kx & D & Hk). cbn [f_keys] in D. destruct (String.eqb_spec (m_id x) (m_id m)) as [En|Nn].
    + rewrite En, dget_dset_same in D. injection D as <-. rewrite (lf_ids _ _ _ L0 x m Hx Hm En). apply in_app_or in Hk. destruct Hk as [Hk|Hk].
      * apply A; [exact Hm|]. apply keys_of_holds, Hk.
      * right. left. exists ks. split; [congruence|exact Hk].
    + rewrite dget_dset_other in D by exact Nn. apply A; [exact Hx|]. exists kx. auto.
Qed.

(** ** Marks *)
Definition mark_right (n n' : nat) (m : member) (t : tmtoken) (p : tmark) : Prop :=
  exists k i, t = TMJws k p /\ allowed m k /\ tm_schema p = true /\ n <= i /\ i <= n' /\ unexpired (e_clock E i) p.

Lemma expired_not n p : mark_expired n p = Ok false -> unexpired n p.
Proof.
  unfold unexpired, mark_expired. destruct (dget "exp" p) as [v|]; [|auto]. intros Hx.
  apply bind_ok in Hx. destruct Hx as (e & He & [= Hl]). exists e. split; [exact He|]. apply Z.ltb_ge in Hl. exact Hl.
Qed.

Lemma safe_mark fuel V t x m k q s : In x F -> superiors_of x = [] -> rank (m_id x) < fuel -> In m F -> rank (m_id m) < fuel -> fine s ->
  t = TMJws k q -> dget "iss" q = Some (VStr (m_id m)) ->
  safe s (tm_verifier E O fuel V t (m_id x) false "") (fun s1 v => forall p, v = Some p -> mark_right (st_tick (f_col s)) (st_tick (f_col s1)) m t p).
Proof.
  intros Hx Hs Hfx Hm Hf H -> Hi. unfold tm_verifier.
  eapply safe_bind; [apply (safe_lift _ s _ (fun s1 _ => s1 = s /\ tm_schema q = true) H); intros [] X; split; [reflexivity|exact (tm_verify_ok _ X)]|].
  intros s1 u H1 _ [-> Hsc]. eapply safe_bind; [apply safe_now, H1|]. intros s2 n H2 T2 [En Ec]. cbn beta.
  eapply safe_bind; [apply (safe_lift _ s2 _ (fun s1 b => s1 = s2 /\ mark_expired n q = Ok b) H2); auto|].
  intros s3 b H3 _ [-> Hb]. destruct b; [apply safe_ret; [exact H2|discriminate]|].
  apply expired_not in Hb. rewrite En in Hb.
  eapply safe_bind with (P := fun _ _ => True).
  { destruct (dmem "delegation" q); [exact (safe_delegation fuel V q x s2 Hx Hs Hfx H2)|apply safe_ret; auto]. }
  intros s4 d H4 T4 _. rewrite Hi. eapply safe_bind; [exact (safe_verified fuel m s4 Hm Hf H4)|]. intros s5 cs H5 T5 [_ HL].
  destruct (is_nil cs); [apply safe_ret; [exact H5|discriminate]|].
  destruct (negb _); [apply safe_ret; [exact H5|discriminate]|].
  assert (MK : forall s, fine s -> safe s (mark_keys V (TMJws k q) (m_id m)) (fun _ ks => forall k, In k ks -> allowed m k)).
  { intros s' H'. unfold safe, mark_keys. split; [exact H'|]. split; [lia|]. intros ks [= <-] k' Hk'. apply filter_In in Hk'.
    destruct Hk' as [Hk' _]. apply keys_of_holds in Hk'. exact (proj2 (proj2 H') m k' Hm Hk'). }
  eapply safe_bind; [exact (MK s5 H5)|]. intros s6 ks H6 T6 Hks.
  eapply safe_bind with (P := fun _ ks => forall k, In k ks -> allowed m k).
  { destruct (is_nil ks); [|apply safe_ret; auto]. eapply safe_bind; [exact (safe_leaf m cs s6 Hm HL H6)|].
    intros s7 v H7 _ _. exact (MK s7 H7). }
  intros s7 ks' H7 T7 Hks'. apply safe_ret; [exact H7|]. destruct (kmem k ks') eqn:Ek; [|discriminate].
  intros p [= <-]. apply kmem_In in Ek. rewrite Ec in *. exists k, (st_tick (f_col s)). split; [reflexivity|]. split; [exact (Hks' k Ek)|].
  split; [exact Hsc|]. split; [lia|]. split; [lia|exact Hb].
Qed.

Lemma rank_end e rt : path F e rt -> rank (end_of e rt) <= rank e /\ exists x, In x F /\ superiors_of x = [] /\ m_id x = end_of e rt.
Proof.
  induction 1 as [m Hm Hs|m a r Hm Ha Hr IH]; cbn [end_of].
  - split; [lia|exists m; auto].
  - destruct IH as [I1 I2]. split; [|exact I2]. assert (X := HR m a Hm Ha). lia.
Qed.

Lemma endpoint_found c u : TrustMarkVerifierModel.chain_metadata c "federation_entity" "federation_trust_mark_status_endpoint" = Ok (VStr u) ->
  endpoint_in (ch_md c) u.
Proof.
  unfold TrustMarkVerifierModel.chain_metadata, endpoint_in, dindex. destruct (ch_md c) as [d|d].
  - destruct (dget "federation_entity" d) as [[fe|]|]; cbn [bind]; try discriminate.
    destruct (dget _ fe) as [v|] eqn:Ev; [|discriminate]. intros [= ->]. exists fe. auto.
  - destruct (dget "federation_entity" d) as [v|]; cbn [bind]; [|discriminate]. unfold vindex, dindex. destruct v as [| | | | |fe]; try discriminate.
    destruct (dget _ fe) as [v|] eqn:Ev; [|discriminate]. intros [= ->]. exists fe. auto.
Qed.

Lemma safe_check fuel V ask t status s : by_member F rank fuel t -> fine s ->
  safe s (verify_trust_mark E O fuel V ask t status) (fun s1 v => forall p, v = Some p ->
    exists m rt md, In m F /\ dget "iss" p = Some (VStr (m_id m)) /\ mark_right (st_tick (f_col s)) (st_tick (f_col s1)) m t p /\
      usable jwks_of F E kj0 (m_id m) rt /\ adjusted O jwks_of F E (m_id m) rt md /\
      (status = true -> exists u, endpoint_in md u /\ said_active ask u p)).
Proof.
  intros B H. unfold verify_trust_mark. destruct t as [|k q]; [apply safe_raise, H|].
  destruct (dget "iss" q) as [[| | |iss| |]|] eqn:Ei; try (apply safe_raise, H).
  destruct (B k q iss eq_refl Ei) as [(m & Hm & <-) Hf].
  eapply safe_bind; [exact (safe_chains fuel m s Hm Hf H)|]. intros s1 cs H1 T1 P. cbn beta in P.
  destruct cs as [|c cs]; [apply safe_ret; [exact H1|discriminate]|].
  destruct (proj1 (proj2 P) c (or_introl eq_refl)) as (rt & U & (Hend & _) & Ad).
  destruct (rank_end _ _ (proj1 U)) as [Rk (x & Hx & Hs & Ex)].
  rewrite Hend, <- Ex. eapply safe_bind; [apply (safe_mark fuel V _ x m k q s1 Hx Hs ltac:(rewrite Ex; lia) Hm Hf H1 eq_refl Ei)|].
  intros s2 v H2 T2 Hv. cbn beta in Hv.
  assert (Fin : forall s3 p, v = Some p -> st_tick (f_col s2) <= st_tick (f_col s3) -> (status = true -> exists u, endpoint_in (ch_md c) u /\ said_active ask u p) ->
    exists m rt md, In m F /\ dget "iss" p = Some (VStr (m_id m)) /\ mark_right (st_tick (f_col s)) (st_tick (f_col s3)) m (TMJws k q) p /\
      usable jwks_of F E kj0 (m_id m) rt /\ adjusted O jwks_of F E (m_id m) rt md /\ (status = true -> exists u, endpoint_in md u /\ said_active ask u p)).
  { intros s3 p Ev T3 Hst. exists m, rt, (ch_md c). split; [exact Hm|].
    destruct (Hv p Ev) as (k' & i & Et & M2 & M3 & M4 & M5 & M6). assert (p = q) by congruence. subst p.
    split; [exact Ei|]. split; [|auto]. exists k', i. split; [exact Et|]. split; [exact M2|]. split; [exact M3|]. split; [lia|]. split; [lia|exact M6]. }
  destruct status; [|apply safe_ret; [exact H2|]; intros p Ev; apply Fin; [exact Ev|lia|discriminate]].
  destruct v as [p'|]; [|apply safe_raise, H2].
  destruct (dget "sub" p') as [[| | |sub| |]|] eqn:E1; try (apply safe_raise, H2).
  destruct (dget "id" p') as [[| | |id| |]|] eqn:E2; try (apply safe_raise, H2).
  eapply safe_bind; [apply (safe_lift _ s2 _ (fun s3 ep => s3 = s2 /\ TrustMarkVerifierModel.chain_metadata c "federation_entity" "federation_trust_mark_status_endpoint" = Ok ep) H2); auto|].
  intros s3 ep H3 _ [-> Hep].
  eapply safe_bind; [apply (safe_lift _ s2 _ (fun s3 resp => s3 = s2 /\ status_of ask ep sub id = Ok resp) H2); auto|].
  intros s4 resp H4 _ [-> Hr]. apply safe_ret; [exact H2|]. destruct (dget "active" resp) as [a|] eqn:Ea; [|discriminate].
  destruct (py_eqb a (VBool true)) eqn:Eq; [|discriminate]. intros p [= <-]. apply Fin; [reflexivity|lia|]. intros _.
  unfold status_of in Hr. destruct ep as [| | |u| |]; try discriminate Hr. destruct (String.eqb u ""); [discriminate Hr|].
  exists u. split; [exact (endpoint_found c u Hep)|]. exists sub, id, resp, a. auto.
Qed.

Lemma fine_deeds ds : forall s, fine s -> deeds_about F rank ds -> fine (after_deeds E O ds s).
Proof.
  unfold after_deeds. induction ds as [|d ds IH]; intros s H A; [exact H|]. cbn [fold_left]. apply IH.
  - assert (A0 := A d (or_introl eq_refl)). destruct d as [st|fuel V ask t status]; cbn [do_deed].
    + destruct st as [fuel id|fuel id|]; cbn [do_step].
      * destruct A0 as [(m & Hm & <-) Hf]. assert (G := safe_verified fuel m s Hm Hf H). unfold safe in G.
        destruct (get_verified_trust_chains E O fuel (m_id m) s). exact (proj1 G).
      * destruct A0 as [(m & Hm & <-) Hf]. assert (G := safe_chains fuel m s Hm Hf H). unfold safe in G.
        destruct (get_trust_chains E O fuel (m_id m) s). exact (proj1 G).
      * apply (fine_col s); [exact H|]. apply (J_later E N0 n0 (f_col s)); [lia|exact (fine_J s H)].
    + assert (G := safe_check fuel V ask t status s A0 H). unfold safe in G. destruct (verify_trust_mark E O fuel V ask t status s). exact (proj1 G).
  - intros d' Hin. apply A. right. exact Hin.
Qed.
End Marks.

(** ** C177: whatever fails and however time passes, no trust mark is accepted that is not its issuer's *)

(** A mark that is accepted is signed with a key that was held for its issuer at the start, or that the issuer or one of its
    superiors says is the issuer's.  The issuer has a way up to an anchor whose keys were held at the start.  The mark says what
    marks have to say and had not expired while it was checked.  If the issuer was to be asked, the status endpoint in its
    metadata, as the policies on that way leave them, said that the mark is active. *)
Theorem C177_genuine : forall jwks_of F E O rank ds s0 fuel V ask t status s' p,
  library_shaky jwks_of F E -> hierarchy F rank -> all_checkable jwks_of F E ->
  newborn s0 -> right_keys F (f_keys s0) -> deeds_about F rank ds -> by_member F rank fuel t ->
  verify_trust_mark E O fuel V ask t status (after_deeds E O ds s0) = (s', Ok (Some p)) ->
  exists m k rt md n, In m F /\ t = TMJws k p /\ dget "iss" p = Some (VStr (m_id m)) /\
    (VerifierSpec.holds (f_keys s0) (m_id m) k \/ own_key jwks_of F E m k) /\
    usable jwks_of F E (f_keys s0) (m_id m) rt /\ adjusted O jwks_of F E (m_id m) rt md /\ tm_schema p = true /\
    (st_tick (f_col (after_deeds E O ds s0)) <= n /\ n <= st_tick (f_col s') /\ unexpired (e_clock E n) p) /\
    (status = true -> exists u, endpoint_in md u /\ said_active ask u p).
Proof.
  intros jwks_of F E O rank ds s0 fuel V ask t status s' p L HR HU HB Hk HA HM H.
  assert (Fi : fine jwks_of F E O (st_tick (f_col s0)) (f_keys s0) s0).
  { split; [exact (living_start jwks_of F E s0 HB Hk)|]. split; [|intros x k _ Hh; left; exact Hh].
    intros x cs Hx D. rewrite (proj2 (proj2 HB)) in D. discriminate D. }
  assert (G := safe_check jwks_of F E rank L HR HU O _ _ fuel V ask t status _ HM (fine_deeds jwks_of F E rank L HR HU O _ _ ds s0 Fi HA)).
  unfold safe in G. rewrite H in G. destruct G as (_ & _ & G).
  destruct (G (Some p) eq_refl p eq_refl) as (m & rt & md & G1 & G2 & (k & n & M1 & M2 & M3 & M4 & M5 & M6) & G4 & G5 & G6).
  exists m, k, rt, md, n. auto 12.
Qed.
Print Assumptions C177_genuine.

(** the keys that are held for members are those of the start, and those that the members or their superiors speak of *)
Theorem C177_keys : forall jwks_of F E O rank ds s0,
  library_shaky jwks_of F E -> hierarchy F rank -> all_checkable jwks_of F E ->
  newborn s0 -> right_keys F (f_keys s0) -> deeds_about F rank ds ->
  right_keys F (f_keys (after_deeds E O ds s0)) /\
  (forall x, In x F -> superiors_of x = [] -> dget (m_id x) (f_keys (after_deeds E O ds s0)) = dget (m_id x) (f_keys s0)) /\
  forall x k, In x F -> VerifierSpec.holds (f_keys (after_deeds E O ds s0)) (m_id x) k ->
    VerifierSpec.holds (f_keys s0) (m_id x) k \/ own_key jwks_of F E x k.
Proof.
  intros jwks_of F E O rank ds s0 L HR HU HB Hk HA.
  destruct (fine_deeds jwks_of F E rank L HR HU O (st_tick (f_col s0)) (f_keys s0) ds s0) as ((_ & V1 & V2) & _ & A); [|exact HA|auto].
  split; [exact (living_start jwks_of F E s0 HB Hk)|]. split; [|intros x k _ Hh; left; exact Hh].
  intros x cs Hx D. rewrite (proj2 (proj2 HB)) in D. discriminate D.
Qed.
Print Assumptions C177_keys.

(** a mark of tmi, and one that somebody else signed *)
Definition mr_mark (k : key) : tmtoken := TMJws k
  [("ref", VStr "https://refeds.org/sirtfi"); ("iat", VInt 1090); ("id", VStr "sirtfi"); ("sub", VStr "rp1");
   ("exp", VInt 50000); ("iss", VStr "tmi")].

Definition mr_ask (u sub id : string) : res (dict val) :=
  if String.eqb u "tmi/status" && String.eqb sub "rp1" then Ok [("active", VBool true)] else Ok [("error", VStr "not_found")].

Definition mr_deeds : list deed :=
  [Check 2 ex_tmenv mr_ask (mr_mark 5) true; Check 2 ex_tmenv mr_ask (mr_mark 5) true; Do (Look 2 "rp"); Do Wait;
   Check 2 ex_tmenv mr_ask (mr_mark 9) false].

Example C177_ex : library_shaky ex_jwks v_fed cr_env /\ hierarchy v_fed v_rank /\ all_checkable ex_jwks v_fed cr_env /\
  newborn v_start /\ right_keys v_fed (f_keys v_start) /\ deeds_about v_fed v_rank mr_deeds /\ by_member v_fed v_rank 2 (mr_mark 5) /\
  (* the first two times the network fails *)
  snd (verify_trust_mark cr_env id_order 2 ex_tmenv mr_ask (mr_mark 5) true v_start) = Err ConnectionError /\
  snd (verify_trust_mark cr_env id_order 2 ex_tmenv mr_ask (mr_mark 5) true (after_deeds cr_env id_order (firstn 1 mr_deeds) v_start))
    = Err FailedConfigurationRetrieval /\
  (* the forged mark is not accepted, tmi's is, and one that has expired by then is not *)
  snd (verify_trust_mark cr_env id_order 2 ex_tmenv mr_ask (mr_mark 9) false (after_deeds cr_env id_order (firstn 4 mr_deeds) v_start)) = Ok None /\
  snd (verify_trust_mark cr_env id_order 2 ex_tmenv mr_ask (mr_mark 5) true (after_deeds cr_env id_order mr_deeds v_start))
    = Ok (Some (claims_of (mr_mark 5))) /\
  snd (verify_trust_mark cr_env id_order 2 ex_tmenv mr_ask v_mark false (after_deeds cr_env id_order mr_deeds v_start)) = Ok None.
Proof.
  split; [exact cr_shaky|]. split; [exact v_hierarchy|]. split; [exact cr_checkable|]. split; [repeat split|]. split; [exact v_keys|].
  assert (BM : forall k, by_member v_fed v_rank 2 (mr_mark k)).
  { intros k k' q iss [= <- <-] [= <-]. split; [|vm_compute; lia]. exists v_tmi. split; [right; left; reflexivity|reflexivity]. }
  split.
  { intros d [<-|[<-|[<-|[<-|[<-|[]]]]]]; try exact I; try exact (BM _). split; [|vm_compute; lia].
    exists v_rp. split; [right; right; left; reflexivity|reflexivity]. }
  split; [exact (BM 5)|]. repeat split; vm_compute; reflexivity.
Qed.
