(** Clients that bring their trust chains with them (C199). *)
From Verif Require Import PyFacts ExampleKit CollectorProps.
From Verif Require Import ClientFacts ClientProps RegistrationFacts RegistrationProps RegistrationGrantProps LiveExample LiveRegisterProps RpFacts.
From Verif Require Import AttackServerFacts AttackServerProps.
From Verif Require Export GetInProps ClientKeysProps.
From Coq Require Import Lia.

(** ** Vocabulary *)

(** [t] was handed out by a member at some time, as [t0] was at the beginning *)
Definition handed_out (jwks_of : val -> option (list key)) (F : list member) (E : cenv) (t t0 : token) : Prop :=
  exists n q, library_net jwks_of F (e_clock E) n q = RText (Some t) /\ library_net jwks_of F (e_clock E) 0 q = RText (Some t0).

(** [ts] are the configuration of [id] and the statements along [rt], upwards, each from a time of its own *)
Definition own_chain (jwks_of : val -> option (list key)) (F : list member) (E : cenv) (id : string) (rt : list string) (ts : list token) : Prop :=
  rt <> [] /\ path F id rt /\
  Forall2 (handed_out jwks_of F E) (rev ts) (chain_along (library_world jwks_of F (e_clock E 0)) id rt).

(** none of the statements has expired *)
Definition none_expired (now : Z) (ts : list token) : Prop :=
  forall k p z, In (TJws k p) ts -> s_exp p = Some z -> (now <= z)%Z.

Lemma handed_tk jwks_of F E t t0 : handed_out jwks_of F E t t0 -> tk t = tk t0.
Proof.
  intros (n & q & H1 & H2). assert (A := net_alike jwks_of F (e_clock E) n 0 q). rewrite H1, H2 in A. cbn [rk option_map] in A. congruence.
Qed.

Lemma handed_all jwks_of F E l : forall l0, Forall2 (handed_out jwks_of F E) l l0 -> map tk l = map tk l0.
Proof. induction l as [|t l IH]; intros l0 H; inversion H as [|? t0 ? l1 Ht Hl]; subst; [reflexivity|]. cbn [map]. rewrite (handed_tk _ _ _ _ _ Ht), (IH _ Hl). reflexivity. Qed.

(** ** What is made of such a chain *)
Section Brought.
Context (jwks_of : val -> option (list key)) (F : list member) (E : cenv) (rank : string -> nat).
Context (L : library_shaky jwks_of F E) (HR : hierarchy F rank) (HU : all_checkable jwks_of F E).
Context (O : iter_order) (n0 : nat) (kj0 : keyjar).
Notation N0 := (library_net jwks_of F (e_clock E) 0).
Notation E0 := (freeze N0 E).
Notation L0 := (ls_run _ _ _ L).
Notation W := (library_world jwks_of F (e_clock E 0)).

Lemma above_m x : In x F -> above W "" (m_id x) = superiors_of x.
Proof. intros Hx. exact (above_member _ _ _ L0 x Hx). Qed.

Lemma brought_verified m rt ts kj : In m F -> own_chain jwks_of F E (m_id m) rt ts -> right_keys F kj ->
  (forall x, In x F -> superiors_of x = [] -> dget (m_id x) kj = dget (m_id x) kj0) ->
  exists kj' tcs, verify_trust_chains E [rev ts] [] kj = (kj', Ok tcs) /\ right_keys F kj' /\
    (forall x, In x F -> superiors_of x = [] -> dget (m_id x) kj' = dget (m_id x) kj0) /\
    ((~ usable jwks_of F E kj0 (m_id m) rt /\ tcs = []) \/
     (usable jwks_of F E kj0 (m_id m) rt /\ exists tc, tcs = [tc] /\ tc_anchor tc = end_of (m_id m) rt /\
        map tk (tc_chain tc) = map tk (chain_along W (m_id m) rt) /\ map settle (tc_verified tc) = map settle (said jwks_of F E (m_id m) rt))).
Proof.
  intros Hm (Hne & Hp & Hts) J Hk. assert (WR' : well_run W E0 "" (m_id m)) by exact (WR _ _ _ rank L0 HR m Hm). assert (Hr : route W "" (m_id m) rt) by exact (path_route _ _ _ L0 _ _ Hp).
  destruct (HU m Hm rt Hp) as [b Hb].
  destruct (call_route E0 W "" (m_id m) WR' (proj1 (proj2 (library_quiet _ _ _ L0 m Hm))) kj rt b Hr Hne (world_jar _ _ _ L0 m _ Hm J) Hb)
    as (kj' & o0 & C1 & _ & C3 & C4 & C5).
  destruct (verifier_near (e_lib E) (lf_picks _ _ _ L0) kj (rev ts) (chain_along W (m_id m) rt) kj' o0 (handed_all _ _ _ _ _ Hts) C1)
    as (o & Eo & Ho).
  exists kj', (match o with Some t => [t] | None => [] end). split.
  { unfold verify_trust_chains. cbn [mfold]. unfold mbind, run_verifier. rewrite app_nil_r, Eo. destruct o; reflexivity. }
  split.
  { assert (JK : jar_ok W (fun e => exists x, In x F /\ m_id x = e) kj').
    { replace kj' with (after_calls (e_lib E0) kj [chain_along W (m_id m) rt]) by (unfold after_calls; cbn [fold_left]; rewrite C1; reflexivity).
      apply after_calls_jar.
      - intros e ks (x & Hx & <-) Hd. cbn [library_world w_key]. rewrite (by_id_In _ _ _ L0 x Hx). exact (J x ks Hx Hd).
      - intros k p Hin. cbn [flat_map] in Hin. rewrite app_nil_r in Hin. unfold chain_along in Hin.
        rewrite FederationProps.jws_app in Hin. apply in_app_iff in Hin.
        destruct Hin as [Hin|[Hin|[]]].
        + exact (along_vouch E0 W "" (m_id m) WR' rt (m_id m) k p (reaches_self W "" (m_id m)) Hr Hin).
        + assert (Ep : p = w_config W (m_id m)) by (injection Hin as _ X; symmetry; exact X). rewrite Ep.
          destruct (wr_config _ _ _ _ WR' (m_id m) (reaches_self W "" (m_id m))) as (_ & _ & Hs & _ & Hv). rewrite Hs. exact Hv. }
    intros x ks Hx Hd. assert (G := JK (m_id x) ks (ex_intro _ x (conj Hx eq_refl)) Hd).
    cbn [library_world w_key] in G. rewrite (by_id_In _ _ _ L0 x Hx) in G. exact G. }
  split.
  { intros x Hx Hs. rewrite (C3 (m_id x)); [exact (Hk x Hx Hs)|]. rewrite (above_m x Hx). exact Hs. }
  assert (Kn : VerifierSpec.known kj (end_of (m_id m) rt) <-> VerifierSpec.known kj0 (end_of (m_id m) rt)).
  { destruct (reach_end W "" (m_id m) rt (m_id m) (reaches_self W "" (m_id m)) Hr) as [Hre Hend].
    destruct (reaches_member _ _ _ L0 "" m _ Hm Hre) as (x & Hx & Ex). rewrite <- Ex in *.
    rewrite (above_m x Hx) in Hend. unfold VerifierSpec.known. rewrite (Hk x Hx Hend). tauto. }
  assert (Us : usable jwks_of F E kj0 (m_id m) rt <-> exists tc, o0 = Some tc).
  { rewrite C4, Kn. unfold usable, accepted. rewrite Hb. split.
    - intros (_ & _ & H1 & H2). split; [exact H1|]. congruence.
    - intros [H1 ->]. auto. }
  destruct o as [tc|], o0 as [tc0|]; try discriminate Ho.
  - right. split; [apply Us; eauto|]. exists tc. split; [reflexivity|]. destruct (C5 tc0 eq_refl) as (D1 & D2 & D3).
    cbn [option_map] in Ho. assert (Ht : tck tc = tck tc0) by congruence. unfold tck in Ht. rewrite D1, D2, D3 in Ht. 
    split; [congruence|]. split; [congruence|]. change (map settle (tc_verified tc) = map settle (claims_along W (m_id m) rt)). congruence.
  - left. split; [|reflexivity]. intros X. apply Us in X. destruct X as [tc X]. discriminate X.
Qed.

(** the collector is not asked, and the chain is used as if it had been collected *)
Lemma brought_chain fuel m rt ts f : In m F -> own_chain jwks_of F E (m_id m) rt ts -> living jwks_of F E n0 kj0 f ->
  exists f1 r, chains_for E O fuel (m_id m) ts f = (f1, r) /\ f_col f1 = f_col f /\ f_chains f1 = f_chains f /\ living jwks_of F E n0 kj0 f1 /\
    ((~ usable jwks_of F E kj0 (m_id m) rt /\ r = Ok []) \/
     (usable jwks_of F E kj0 (m_id m) rt /\
      match policy_call_chain O (said jwks_of F E (m_id m) rt) with
      | Ok (md, _) => exists c, r = Ok [c] /\ ch_md c = md /\ runs_along c (m_id m) rt
      | Err x => r = Err x
      end)).
Proof.
  intros Hm HO (V1 & V2 & V3). assert (HO' := HO). destruct HO' as (Hne & Hp & Hts).
  destruct (brought_verified m rt ts (f_keys f) Hm HO V2 V3) as (kj' & tcs & B1 & B2 & B3 & B4).
  assert (Nt : is_nil ts = false).
  { destruct ts; [|reflexivity]. exfalso. apply handed_all, (f_equal (@length _)) in Hts. rewrite !map_length in Hts. unfold chain_along in Hts. rewrite app_length in Hts. cbn [rev length] in Hts. lia. }
  exists (mkFed (f_col f) kj' (f_chains f)), (apply_policies O tcs).
  split; [unfold chains_for; rewrite Nt; unfold mbind, on_keys; rewrite B1; reflexivity|].
  split; [reflexivity|]. split; [reflexivity|]. split; [split; [exact V1|split; [exact B2|exact B3]]|].
  destruct B4 as [[B4 ->]|(B4 & tc & -> & A1 & A2 & A3)]; [left; auto|right]. split; [exact B4|].
  assert (P := f_equal (policy_call_chain O) A3). rewrite !policy_chain_settle in P. unfold apply_policies. cbn [mapM]. unfold apply_to_chain.
  destruct (policy_call_chain O (tc_verified tc)) as [[md ves]|x], (policy_call_chain O (said jwks_of F E (m_id m) rt)) as [[md0 ves0]|x0];
    cbn [rmap bind fst snd] in P |- *; try discriminate P; [|congruence].
  eexists. split; [reflexivity|]. split; [cbn [ch_md]; congruence|].
  unfold runs_along, ch_anchor. cbn [ch_tc tc_anchor tc_chain]. split; [exact A1|].
  rewrite (names_tk (tc_chain tc)), A2, <- names_tk. unfold chain_along.
  assert (X1 := claims_names _ _ _ rank L0 HR rt _ Hp). change (e_clock E0 0) with (e_clock E 0) in X1.
  assert (X2 := config_names _ _ _ rank L0 HR m Hm). change (e_clock E0 0) with (e_clock E 0) in X2.
  rewrite FederationProps.jws_app, !map_app, X1. f_equal. cbn [jws own map snd]. rewrite X2. reflexivity.
Qed.
End Brought.

(** an old automatic registration is dropped first *)
Lemma auth_forget_with E O fuel R Fl new id provided s : registers Fl id s ->
  client_authentication E O fuel R Fl new true id provided s = client_authentication E O fuel R Fl new true id provided (forget Fl id s) /\
  dget id (r_cdb (a_reg (forget Fl id s))) = None /\ a_fed (forget Fl id s) = a_fed s.
Proof.
  unfold registers, forget. destruct (dget id (r_cdb (a_reg s))) as [ci|] eqn:D; [|auto]. destruct Fl; try contradiction. intros Hf.
  assert (D0 : dget id (ddel id (r_cdb (a_reg s))) = None) by apply dget_ddel_same.
  split; [|auto]. unfold client_authentication, mbind, StateM.get. cbn [a_reg r_cdb a_fed]. rewrite D, D0, Hf. reflexivity.
Qed.

(** no trust chains *)
Lemma auth_none E O fuel R Fl new id provided s f1 : dget id (r_cdb (a_reg s)) = None ->
  chains_for E O fuel id provided (a_fed s) = (f1, Ok []) ->
  client_authentication E O fuel R Fl new true id provided s = (mkA f1 (a_reg s), Err NoTrustedChains).
Proof.
  intros D EC. unfold client_authentication, mbind at 1, StateM.get. rewrite D. cbn [orb].
  replace (match Fl with OIDC => false | _ => false end) with false by (destruct Fl; reflexivity). cbn [orb].
  unfold mbind at 1. unfold on_reg at 1, modify. cbn [a_reg a_fed]. unfold mbind at 1. unfold do_automatic_registration. unfold mbind at 1, on_fed at 1.
  cbn [a_fed a_reg]. rewrite EC. reflexivity.
Qed.

(** ** Histories in which clients bring trust chains *)

Inductive arrival :=
| Came (v : visit)
| Brought (Fl : flavour) (new automatic : bool) (fuel : nat) (id : string) (ts : list token).

Definition do_arrival (E : cenv) (O : iter_order) (R : reg_env) (s : astate) (a : arrival) : astate :=
  match a with
  | Came v => do_visit E O R s v
  | Brought Fl new automatic fuel id ts => fst (client_authentication E O fuel R Fl new automatic id ts s)
  end.

Definition after_arrivals (E : cenv) (O : iter_order) (R : reg_env) (l : list arrival) (s : astate) : astate :=
  fold_left (do_arrival E O R) l s.

(** members that bring a trust chain bring their own *)
Definition honest_arrivals (jwks_of : val -> option (list key)) (F : list member) (E : cenv) (rank : string -> nat) (l : list arrival) : Prop :=
  forall a, In a l ->
  match a with
  | Came v => by_members F rank [v]
  | Brought _ _ _ _ id ts => (exists m, In m F /\ m_id m = id) /\ exists rt, own_chain jwks_of F E id rt ts
  end.

Section Histories.
Context (jwks_of : val -> option (list key)) (F : list member) (E : cenv) (rank : string -> nat).
Context (L : library_shaky jwks_of F E) (HR : hierarchy F rank) (HU : all_checkable jwks_of F E).
Context (O : iter_order) (R : reg_env) (KI : keeps_id R) (PC : passed_on R "client_id").
Context (n0 : nat) (kj0 : keyjar) (db0 : dict (dict val)).

Definition fine (s : astate) : Prop :=
  living jwks_of F E n0 kj0 (a_fed s) /\ grown jwks_of F E O R kj0 db0 (r_cdb (a_reg s)).

Lemma living_stored Fl id cs f : living jwks_of F E n0 kj0 f -> living jwks_of F E n0 kj0 (stored_chains Fl id cs f).
Proof. intros V. unfold stored_chains. destruct Fl; exact V. Qed.

Lemma living_auth Fl new automatic fuel id provided s s' v : living jwks_of F E n0 kj0 (a_fed s) ->
  (forall f1 r, chains_for E O fuel id provided (a_fed s) = (f1, r) -> living jwks_of F E n0 kj0 f1) ->
  client_authentication E O fuel R Fl new automatic id provided s = (s', v) -> living jwks_of F E n0 kj0 (a_fed s').
Proof.
  intros V H Eq. destruct (authentication_fed _ _ _ _ _ _ _ _ _ _ _ _ KI Eq) as [->|(f1 & r & EC & [->|(cs & _ & ->)])]; [exact V|exact (H _ _ EC)|].
  apply living_stored. exact (H _ _ EC).
Qed.

Lemma brought_uses fuel m rt ts s f1 c rest : In m F -> own_chain jwks_of F E (m_id m) rt ts -> living jwks_of F E n0 kj0 (a_fed s) ->
  chains_for E O fuel (m_id m) ts (a_fed s) = (f1, Ok (c :: rest)) ->
  exists rt, usable jwks_of F E kj0 (m_id m) rt /\ adjusted O jwks_of F E (m_id m) rt (ch_md c).
Proof.
  intros Hm HO V EC'. destruct (brought_chain jwks_of F E rank L HR HU O n0 kj0 fuel m rt ts (a_fed s) Hm HO V) as (f1' & r & EC & _ & _ & _ & B).
  rewrite EC in EC'. injection EC' as <- ->. destruct B as [[_ B]|[U B]]; [discriminate B|].
  destruct (policy_call_chain O (said jwks_of F E (m_id m) rt)) as [[md ves]|x] eqn:Ep; [|discriminate B].
  destruct B as (c' & B & B' & _). injection B as <- _. exists rt. split; [exact U|]. exists ves. rewrite B'. exact Ep.
Qed.

Lemma found_uses fuel m s f1 c rest : In m F -> rank (m_id m) < fuel -> living jwks_of F E n0 kj0 (a_fed s) ->
  chains_for E O fuel (m_id m) [] (a_fed s) = (f1, Ok (c :: rest)) ->
  exists rt, usable jwks_of F E kj0 (m_id m) rt /\ adjusted O jwks_of F E (m_id m) rt (ch_md c).
Proof.
  intros Hm Hf V EC. unfold chains_for in EC. cbn [is_nil] in EC.
  destruct (looked_should jwks_of F E rank L HR HU n0 kj0 O fuel m _ _ _ Hm Hf V EC) as [(_ & A2 & _)|[(_ & x & _ & X)|[_ X]]];
    [|discriminate X..].
  destruct (A2 c (or_introl eq_refl)) as (rt & U & _ & Ad). eauto.
Qed.

Lemma brought_fine Fl new automatic fuel m rt ts s : In m F -> own_chain jwks_of F E (m_id m) rt ts -> fine s ->
  fine (do_arrival E O R s (Brought Fl new automatic fuel (m_id m) ts)).
Proof.
  intros Hm HO [V G]. cbn [do_arrival].
  destruct (client_authentication E O fuel R Fl new automatic (m_id m) ts s) as [s' v] eqn:Eq. cbn [fst]. split.
  - refine (living_auth Fl new automatic fuel (m_id m) ts s s' v V _ Eq). intros f1 r EC.
    destruct (brought_chain jwks_of F E rank L HR HU O n0 kj0 fuel m rt ts (a_fed s) Hm HO V) as (f1' & r' & EC' & _ & _ & V1 & _).
    rewrite EC in EC'. injection EC' as -> _. exact V1.
  - refine (knock_grown jwks_of F E O R KI PC kj0 db0 Fl new automatic fuel m ts s s' v Hm _ G Eq).
    intros f1 c rest. exact (brought_uses fuel m rt ts s f1 c rest Hm HO V).
Qed.

Lemma came_fine v s : by_members F rank [v] -> fine s -> fine (do_visit E O R s v).
Proof.
  intros A [V G]. assert (Hv := A v (or_introl eq_refl)). destruct v as [st|Fl new automatic fuel id]; cbn [do_visit].
  - split; [|exact G]. cbn [a_fed]. apply (living_step jwks_of F E rank L HR HU n0 kj0 O _ _ V). destruct st; exact Hv.
  - destruct Hv as [(m & Hm & <-) Hf].
    destruct (client_authentication E O fuel R Fl new automatic (m_id m) [] s) as [s' v] eqn:Eq. cbn [fst]. split.
    + refine (living_auth Fl new automatic fuel (m_id m) [] s s' v V _ Eq). intros f1 r EC. unfold chains_for in EC. cbn [is_nil] in EC.
      exact (proj1 (looked jwks_of F E rank L HR HU n0 kj0 O fuel m _ _ _ Hm Hf V EC)).
    + refine (knock_grown jwks_of F E O R KI PC kj0 db0 Fl new automatic fuel m [] s s' v Hm _ G Eq). intros f1 c rest.
      exact (found_uses fuel m s f1 c rest Hm Hf V).
Qed.

Lemma arrived_fine a s : honest_arrivals jwks_of F E rank [a] -> fine s -> fine (do_arrival E O R s a).
Proof.
  intros A H. assert (Ha := A a (or_introl eq_refl)). destruct a as [v|Fl new automatic fuel id ts].
  - exact (came_fine v s Ha H).
  - destruct Ha as [(m & Hm & <-) (rt & HO)]. exact (brought_fine Fl new automatic fuel m rt ts s Hm HO H).
Qed.

Lemma honest_one a l : honest_arrivals jwks_of F E rank (a :: l) -> honest_arrivals jwks_of F E rank [a] /\ honest_arrivals jwks_of F E rank l.
Proof.
  intros A. split; [|intros a' Ha; apply A; right; exact Ha]. intros a' [<-|[]]. apply A. left. reflexivity.
Qed.

Lemma arrivals_fine l : forall s, honest_arrivals jwks_of F E rank l -> fine s -> fine (after_arrivals E O R l s).
Proof.
  unfold after_arrivals. induction l as [|a l IH]; intros s A H; [exact H|]. cbn [fold_left]. destruct (honest_one _ _ A) as [A1 A2].
  exact (IH _ A2 (arrived_fine a s A1 H)).
Qed.

Context (HN : no_keys_in_nothing R) (CP : claims_passed_on R) (ck0 : ckeyjar).

Lemma arrived_keys a s : honest_arrivals jwks_of F E rank [a] -> fine s ->
  keys_hold jwks_of F E O R kj0 ck0 (r_keys (a_reg s)) -> keys_hold jwks_of F E O R kj0 ck0 (r_keys (a_reg (do_arrival E O R s a))).
Proof.
  intros A [V _] K. assert (Ha := A a (or_introl eq_refl)). destruct a as [[st|Fl new automatic fuel id]|Fl new automatic fuel id ts]; cbn [do_arrival do_visit].
  - exact K.
  - destruct (Ha _ (or_introl eq_refl)) as [(m & Hm & <-) Hf].
    destruct (client_authentication E O fuel R Fl new automatic (m_id m) [] s) as [s' v] eqn:Eq. cbn [fst].
    refine (knock_keys_with jwks_of F E O R KI PC HN CP kj0 ck0 Fl new automatic fuel m [] s s' v Hm _ K Eq). intros f1 c rest.
    exact (found_uses fuel m s f1 c rest Hm Hf V).
  - destruct Ha as [(m & Hm & <-) (rt & HO)].
    destruct (client_authentication E O fuel R Fl new automatic (m_id m) ts s) as [s' v] eqn:Eq. cbn [fst].
    refine (knock_keys_with jwks_of F E O R KI PC HN CP kj0 ck0 Fl new automatic fuel m ts s s' v Hm _ K Eq). intros f1 c rest.
    exact (brought_uses fuel m rt ts s f1 c rest Hm HO V).
Qed.

Lemma arrivals_keys l : forall s, honest_arrivals jwks_of F E rank l -> fine s -> keys_hold jwks_of F E O R kj0 ck0 (r_keys (a_reg s)) ->
  keys_hold jwks_of F E O R kj0 ck0 (r_keys (a_reg (after_arrivals E O R l s))).
Proof.
  unfold after_arrivals. induction l as [|a l IH]; intros s A H K; [exact K|]. cbn [fold_left]. destruct (honest_one _ _ A) as [A1 A2].
  exact (IH _ A2 (arrived_fine a s A1 H) (arrived_keys a s A1 H K)).
Qed.
End Histories.

(** ** C199: a client that brings its trust chain *)

(** Whoever is let in because of a trust chain it brought has brought one that is still valid. *)
Definition C199_full : Prop := forall jwks_of F E O R rank s0 l Fl new automatic fuel m rt ts s' rid,
  library_shaky jwks_of F E -> forwards E -> hierarchy F rank -> all_checkable jwks_of F E -> keeps_id R -> passed_on R "client_id" ->
  newborn (a_fed s0) -> right_keys F (f_keys (a_fed s0)) -> honest_arrivals jwks_of F E rank l -> In m F ->
  own_chain jwks_of F E (m_id m) rt ts ->
  let s := after_arrivals E O R l s0 in
  registers Fl (m_id m) s ->
  client_authentication E O fuel R Fl new automatic (m_id m) ts s = (s', Ok (Use rid)) ->
  none_expired (e_clock E (st_tick (f_col (a_fed s)))) ts.

(** The member gets in if nothing is wrong with what the policies along the way make of its metadata, and is turned away if the server does
    not know the keys of the trust anchor or the constraints along the way are not met. No request is made. Missing: whether the chain has
    expired does not matter. *)
Theorem C199_brought_partial : forall jwks_of F E O R rank s0 l Fl new fuel m rt ts,
  library_shaky jwks_of F E -> hierarchy F rank -> all_checkable jwks_of F E -> keeps_id R -> passed_on R "client_id" ->
  newborn (a_fed s0) -> right_keys F (f_keys (a_fed s0)) -> honest_arrivals jwks_of F E rank l -> In m F ->
  own_chain jwks_of F E (m_id m) rt ts ->
  let s := after_arrivals E O R l s0 in
  let kj := f_keys (a_fed s0) in
  registers Fl (m_id m) s ->
  exists s' v, client_authentication E O fuel R Fl new true (m_id m) ts s = (s', v) /\ f_col (a_fed s') = f_col (a_fed s) /\
    (~ usable jwks_of F E kj (m_id m) rt -> v = Err NoTrustedChains /\ others_kept (m_id m) s s') /\
    (forall md d, usable jwks_of F E kj (m_id m) rt -> adjusted O jwks_of F E (m_id m) rt md -> claims_for md (kind_of Fl) d ->
       good_client R (new_name Fl new) (m_id m) d ->
       exists rid, v = Ok (Use rid) /\ let_in jwks_of F E O R kj Fl m rid s').
Proof.
  intros jwks_of F E O R rank s0 l Fl new fuel m rt ts L HR HU KI PC HB Hk HA Hm HO s kj RG.
  assert (Hs : fine jwks_of F E O R (st_tick (f_col (a_fed s0))) kj (r_cdb (a_reg s0)) s).
  { apply (arrivals_fine jwks_of F E rank L HR HU O R KI PC); [exact HA|]. split; [exact (living_start jwks_of F E _ HB Hk)|].
    apply grown_refl. }
  destruct Hs as [V _].
  destruct (brought_chain jwks_of F E rank L HR HU O _ kj fuel m rt ts (a_fed s) Hm HO V) as (f1 & r & EC & Ec & _ & _ & B).
  destruct (client_authentication E O fuel R Fl new true (m_id m) ts s) as [s' v] eqn:Eq. exists s', v. split; [reflexivity|]. split.
  { destruct (authentication_fed _ _ _ _ _ _ _ _ _ _ _ _ KI Eq) as [->|(f1' & r' & EC' & [->|(cs & _ & ->)])]; [reflexivity|..];
      rewrite EC in EC'; injection EC' as <- <-; [exact Ec|]. unfold stored_chains. destruct Fl; exact Ec. }
  destruct (auth_forget_with E O fuel R Fl new (m_id m) ts s RG) as (E1 & D0 & Ef). rewrite <- Ef in EC.
  split.
  - intros NU. destruct B as [[_ ->]|[U _]]; [|destruct (NU U)].
    rewrite E1, (auth_none E O fuel R Fl new (m_id m) ts _ f1 D0 EC) in Eq. injection Eq as <- <-. split; [reflexivity|].
    exact (forget_others Fl (m_id m) s).
  - intros md d U [ves Ad] CF GC. destruct B as [[NU _]|[_ B]]; [destruct (NU U)|]. rewrite Ad in B. destruct B as (c & -> & Hc & _).
    rewrite <- Hc in CF.
    destruct (chain_registered_with E O fuel R Fl new (m_id m) ts (forget Fl (m_id m) s) f1 c [] d KI D0 EC CF GC)
      as (s2 & rid & ci & X1 & _ & X3 & X4 & X5 & X6).
    rewrite E1, X1 in Eq. injection Eq as <- <-. exists rid. split; [reflexivity|].
    exists rt, (ch_md c), d, ci. split; [exact U|]. split; [exists ves; rewrite Hc; exact Ad|]. auto.
Qed.
Print Assumptions C199_brought_partial.

(** Clients that bring their trust chains are stored with their own metadata, like all others. *)
Theorem C199_only_right_clients : forall jwks_of F E O R rank s0 l,
  library_shaky jwks_of F E -> hierarchy F rank -> all_checkable jwks_of F E -> keeps_id R -> passed_on R "client_id" ->
  newborn (a_fed s0) -> right_keys F (f_keys (a_fed s0)) -> honest_arrivals jwks_of F E rank l ->
  forall x ci, dget x (r_cdb (a_reg (after_arrivals E O R l s0))) = Some ci ->
  dget x (r_cdb (a_reg s0)) = Some ci \/ client_right jwks_of F E O R (f_keys (a_fed s0)) x ci.
Proof.
  intros jwks_of F E O R rank s0 l L HR HU KI PC HB Hk HA.
  apply (arrivals_fine jwks_of F E rank L HR HU O R KI PC (st_tick (f_col (a_fed s0))) (f_keys (a_fed s0)) (r_cdb (a_reg s0)) l s0 HA).
  split; [exact (living_start jwks_of F E _ HB Hk)|]. apply grown_refl.
Qed.
Print Assumptions C199_only_right_clients.

(** nor given keys that are not its own *)
Theorem C199_only_right_keys : forall jwks_of F E O R rank s0 l,
  library_shaky jwks_of F E -> hierarchy F rank -> all_checkable jwks_of F E -> keeps_id R -> passed_on R "client_id" ->
  no_keys_in_nothing R -> claims_passed_on R ->
  newborn (a_fed s0) -> right_keys F (f_keys (a_fed s0)) -> honest_arrivals jwks_of F E rank l ->
  forall x k, In k (ckeys_of (r_keys (a_reg (after_arrivals E O R l s0))) x) ->
  In k (ckeys_of (r_keys (a_reg s0)) x) \/
  match k with
  | KPub p => client_key_right jwks_of F E O R (f_keys (a_fed s0)) x p
  | KSecret s => s = rg_secret R x
  end.
Proof.
  intros jwks_of F E O R rank s0 l L HR HU KI PC HN CP HB Hk HA.
  refine (arrivals_keys jwks_of F E rank L HR HU O R KI PC (st_tick (f_col (a_fed s0))) (f_keys (a_fed s0)) (r_cdb (a_reg s0)) HN CP
    (r_keys (a_reg s0)) l s0 HA _ _).
  - split; [exact (living_start jwks_of F E _ HB Hk)|]. apply grown_refl.
  - intros x k H. left. exact H.
Qed.
Print Assumptions C199_only_right_keys.

(** The federation of C142. What rp collected at the beginning has expired after two days without requests; it is let in nevertheless. *)
Definition br_clock (n : nat) : Z := (1100 + 43000 * Z.of_nat n)%Z.
Definition br_env : cenv := mkEnv 300 ["ta"] (library_net ex_jwks v_fed br_clock) br_clock all_keys wk_url tenant_url.

Lemma br_shaky : library_shaky ex_jwks v_fed br_env.
Proof.
  constructor.
  - exact v_run.
  - intros n q. left. reflexivity.
  - intros n. cbn [e_clock br_env]. unfold br_clock. lia.
  - intros id m m' n I1 I2 H1 H2 _. exfalso. cbn [e_wk e_tenant br_env] in H1, H2. unfold wk_url in H1. unfold tenant_url in H2.
    apply (f_equal String.length) in H1, H2.
    assert (Hap : forall a b, String.length (a ++ b) = String.length a + String.length b).
    { intros a b. induction a as [|c a IH]; cbn; [reflexivity|]. rewrite IH. reflexivity. }
    rewrite Hap in H1, H2. live_members; cbn in H1, H2; lia.
Qed.

Lemma br_forwards : forwards br_env.
Proof. intros n m Hn. cbn [e_clock br_env]. unfold br_clock. lia. Qed.

Lemma br_checkable : all_checkable ex_jwks v_fed br_env.
Proof. intros m Hm. exact (v_checkable m Hm). Qed.

Definition br_chain : list token := rev (chain_along (library_world ex_jwks v_fed 1100) "rp" ["ta"]).

Lemma br_own : own_chain ex_jwks v_fed br_env "rp" ["ta"] br_chain.
Proof.
  split; [discriminate|]. split; [exact (v_up v_rp (or_intror (or_intror (or_introl eq_refl))) ltac:(discriminate))|].
  unfold br_chain. rewrite rev_involutive. change (e_clock br_env 0) with 1100%Z.
  constructor; [exists 0, (QFetch "ta/fetch" "ta" "rp"); split; vm_compute; reflexivity|].
  constructor; [exists 0, (QDoc "rp/wk"); split; vm_compute; reflexivity|constructor].
Qed.

Definition br_waits : list arrival := repeat (Came (Fed Wait)) 4.
Definition br_late : astate := after_arrivals br_env id_order ex_reg br_waits v_server.
Definition br_knock : astate * res verdict := client_authentication br_env id_order 0 ex_reg OIDC false true "rp" br_chain br_late.

Lemma br_honest : honest_arrivals ex_jwks v_fed br_env v_rank br_waits.
Proof. intros a Ha. apply repeat_spec in Ha. subst a. intros v [<-|[]]. exact I. Qed.

Theorem C199_expired_refuted : ~ C199_full.
Proof.
  intros H. assert (K : snd br_knock = Ok (Use "rp")) by (vm_compute; reflexivity).
  assert (X : none_expired (e_clock br_env (st_tick (f_col (a_fed br_late)))) br_chain).
  { refine (H ex_jwks v_fed br_env id_order ex_reg v_rank v_server br_waits OIDC false true 0 v_rp ["ta"] br_chain (fst br_knock) "rp"
      br_shaky br_forwards v_hierarchy br_checkable ex_keeps_id eq_refl _ v_keys br_honest (or_intror (or_intror (or_introl eq_refl))) br_own _ _).
    - repeat split.
    - vm_compute. exact I.
    - rewrite <- K. apply surjective_pairing. }
  unfold none_expired in X.
  assert (T : (e_clock br_env (st_tick (f_col (a_fed br_late))) > 87500)%Z) by (vm_compute; reflexivity).
  assert (Y : exists k p, In (TJws k p) br_chain /\ s_exp p = Some 87500%Z).
  { eexists; eexists; split; [left; vm_compute; reflexivity|vm_compute; reflexivity]. }
  destruct Y as (k & p & Y1 & Y2). assert (Z := X k p _ Y1 Y2). lia.
Qed.
Print Assumptions C199_expired_refuted.

(** Before, and when nothing can be reached. *)
Definition br_down : cenv := mkEnv 300 ["ta"] (fun _ _ => RNoConnection) br_clock all_keys wk_url tenant_url.

Example C199_ex : library_shaky ex_jwks v_fed br_env /\ all_checkable ex_jwks v_fed br_env /\ own_chain ex_jwks v_fed br_env "rp" ["ta"] br_chain /\
  honest_arrivals ex_jwks v_fed br_env v_rank (Brought OIDC false true 0 "rp" br_chain :: br_waits) /\
  registers OIDC "rp" br_late /\ snd br_knock = Ok (Use "rp") /\ f_col (a_fed (fst br_knock)) = f_col (a_fed br_late) /\
  (* who has no chain and cannot be reached does not get in *)
  snd (client_authentication br_down id_order 9 ex_reg OIDC false true "rp" [] v_server) = Err ConnectionError /\
  snd (client_authentication br_down id_order 9 ex_reg OIDC false true "rp" br_chain v_server) = Ok (Use "rp") /\
  (* the keys in its metadata, with a server that reads them *)
  keeps_id web_reg /\ passed_on web_reg "client_id" /\ no_keys_in_nothing web_reg /\ claims_passed_on web_reg /\
  ckeys_of (r_keys (a_reg (after_arrivals br_env id_order web_reg [Brought OIDC false true 0 "rp" br_chain] v_server))) "rp" = [KPub 4; KPub 4] /\
  (* the server does not know the trust anchor *)
  snd (client_authentication br_env id_order 0 ex_reg OIDC false true "rp" br_chain (mkA (mkFed (mkState [] [] 0) [] []) ex_start)) = Err NoTrustedChains.
Proof.
  split; [exact br_shaky|]. split; [exact br_checkable|]. split; [exact br_own|]. split.
  { intros a [<-|Ha]; [|exact (br_honest a Ha)]. split; [exists v_rp; split; [right; right; left; reflexivity|reflexivity]|]. exists ["ta"]. exact br_own. }
  split; [vm_compute; exact I|]. do 4 (split; [vm_compute; reflexivity|]).
  split; [exact web_keeps_id|]. split; [reflexivity|]. split; [exact web_nothing|]. split; [exact web_passes|].
  split; vm_compute; reflexivity.
Qed.
