(** Registration responses, some of them forged, in a federation whose requests fail while time passes (C179). *)
From Verif Require Import PyFacts ExampleKit CollectorProps FederationProps CollectorRepeat CollectorRepeatProps WellRunFacts WellRunProps.
From Verif Require Import ClientFacts RpSpec RpFacts RpProps LiveExample LiveResolveProps LiveRegisterProps LiveAnswerProps ClientsRightProps.
From Verif Require Export MotionLive.
From Coq Require Import Lia.

(** ** What a client does *)
Inductive event :=
| Other (st : step)                              (* the federation part is used for something else *)
| Arrive (fuel : nat) (a : RpModel.answer).      (* a registration response, real or not *)

Definition do_event (E : cenv) (O : iter_order) (me : string) (s : fstate) (ev : event) : fstate :=
  match ev with
  | Other st => do_step E O s st
  | Arrive fuel a => fst (parse_oidc E O fuel me a s)
  end.

Definition after_events (E : cenv) (O : iter_order) (me : string) (evs : list event) (s : fstate) : fstate :=
  fold_left (do_event E O me) evs s.

(** a member says that a key is its own, or somebody above it says so *)
Definition handed_out (jwks_of : val -> option (list key)) (F : list member) (E : cenv) (x : key) : Prop :=
  exists m, In m F /\
    (vouches_for (w_config (library_world jwks_of F (e_clock E 0)) (m_id m)) x \/
     exists a, In a (superiors_of m) /\ vouches_for (w_about (library_world jwks_of F (e_clock E 0)) a (m_id m)) x).

(** [good] are the keys of those who do as they should: the ones that are handed out and the ones [kj] has.  Nobody else can sign with
    them, so an answer signed with one of them is one that was [made] for [me] *)
Definition signatures_mean (jwks_of : val -> option (list key)) (F : list member) (E : cenv) (good : key -> Prop)
    (made : RpModel.answer -> Prop) (me : string) (kj : keyjar) : Prop :=
  (forall x, handed_out jwks_of F E x -> good x) /\
  (forall e x, VerifierSpec.holds kj e x -> good x) /\
  (forall a, made a -> s_sub (an_claims a) = me /\ forall ks x, s_jwks (an_claims a) = Some ks -> In x ks -> good x).

(** an answer says that it comes from a member; and is real if it is signed with such a key *)
Definition may_arrive (F : list member) (rank : string -> nat) (good : key -> Prop) (made : RpModel.answer -> Prop) (me : string)
    (fuel : nat) (a : RpModel.answer) : Prop :=
  (exists mo, In mo F /\ m_id mo = s_iss (an_claims a) /\ rank (m_id mo) < fuel) /\ rank me < fuel /\
  (good (an_signer a) -> made a).

Definition events_about (F : list member) (rank : string -> nat) (good : key -> Prop) (made : RpModel.answer -> Prop) (me : string)
    (evs : list event) : Prop :=
  forall ev, In ev evs ->
  match ev with
  | Other (Look fuel id) | Other (RevokeSpec.Ask fuel id) => (exists m, In m F /\ m_id m = id) /\ rank id < fuel
  | Other Wait => True
  | Arrive fuel a => may_arrive F rank good made me fuel a
  end.

(** the keys of [e] are in [kj], or those of somebody above it *)
Inductive trusted (F : list member) (kj : keyjar) : string -> Prop :=
| trusted_known e : VerifierSpec.known kj e -> trusted F kj e
| trusted_below m a : In m F -> In a (superiors_of m) -> trusted F kj a -> trusted F kj (m_id m).

(** ** The verifier *)
Lemma tokens_app L ts1 ts2 : forall kj n ves,
  verify_tokens L kj n ves (ts1 ++ ts2) =
  match verify_tokens L kj n ves ts1 with (kj1, Ok out) => verify_tokens L kj1 n out ts2 | (kj1, Err x) => (kj1, Err x) end.
Proof.
  induction ts1 as [|[|k p] ts1 IH]; intros kj n ves; [reflexivity|apply IH|]. cbn [verify_tokens app].
  destruct (is_nil _); [reflexivity|]. destruct (kmem _ _); [|reflexivity].
  destruct (s_jwks p); [apply IH|]. destruct (Nat.eqb _ _); [apply IH|reflexivity].
Qed.

Lemma policy_front O f f0 leaf : map settle f = map settle f0 -> policy_call O f leaf = policy_call O f0 leaf.
Proof.
  intros H. unfold policy_call. destruct (s_metadata leaf) as [m|]; [|reflexivity].
  generalize (@nil (string * option metadata)) as acc. generalize (dkeys m) as ks. intros ks. revert leaf.
  assert (P : forall leaf t, policy_type O f leaf t = policy_type O f0 leaf t).
  { intros leaf t. unfold policy_type. rewrite <- (gather_settle O f), <- (gather_settle O f0), H. reflexivity. }
  induction ks as [|t ks IH]; intros leaf acc; [reflexivity|]. cbn [foldM fst snd]. rewrite P.
  destruct (policy_type O f0 leaf t) as [r|x]; [|reflexivity]. cbn [bind]. apply IH.
Qed.

Lemma jws_tk l l0 : map tk l = map tk l0 -> map settle (map snd (jws l)) = map settle (map snd (jws l0)).
Proof.
  revert l0. induction l as [|t l IH]; intros [|t0 l0] H; try discriminate H; [reflexivity|]. cbn [map] in H.
  assert (H1 : tk t = tk t0) by congruence. assert (H2 : map tk l = map tk l0) by congruence.
  destruct t as [|k p], t0 as [|k0 p0]; try discriminate H1; cbn [jws map snd]; [exact (IH _ H2)|].
  rewrite (IH _ H2). cbn in H1. congruence.
Qed.

Section Answers.
Context (jwks_of : val -> option (list key)) (F : list member) (E : cenv) (rank : string -> nat).
Context (L : library_shaky jwks_of F E) (HR : hierarchy F rank).
Context (good : key -> Prop) (made : RpModel.answer -> Prop) (m : member) (Hm : In m F).
Context (n0 : nat) (kj0 : keyjar) (SM : signatures_mean jwks_of F E good made (m_id m) kj0).
Notation N0 := (library_net jwks_of F (e_clock E) 0).
Notation E0 := (freeze N0 E).
Notation W := (library_world jwks_of F (e_clock E 0)).
Let L0 := ls_run jwks_of F E L.

Definition sound_jar (kj : keyjar) : Prop :=
  right_keys F kj /\
  (forall x, In x F -> superiors_of x = [] -> dget (m_id x) kj = dget (m_id x) kj0) /\
  (forall e x, VerifierSpec.holds kj e x -> good x) /\
  (forall e, VerifierSpec.known kj e -> trusted F kj0 e).

Lemma sound_add kj x a ks : sound_jar kj -> In x F -> In a (superiors_of x) -> trusted F kj0 a ->
  In (m_key x) ks \/ VerifierSpec.known kj (m_id x) -> (forall k, In k ks -> good k) ->
  sound_jar (add_keys (e_lib E) kj (m_id x) ks).
Proof.
  intros (S1 & S2 & S3 & S4) Hx Ha Ta Hk Hg. split; [|split; [|split]].
  - intros y ls Hy Hd. destruct (string_dec (m_id y) (m_id x)) as [Ei|N].
    + assert (y = x) by (apply (lf_ids _ _ _ L0); assumption). subst y.
      assert (G : VerifierSpec.holds (add_keys (e_lib E) kj (m_id x) ks) (m_id x) (m_key x)).
      { apply holds_add. destruct Hk as [Hk|[l Hl]]; [right; auto|left]. exists l. split; [exact Hl|exact (S1 x l Hx Hl)]. }
      destruct G as (l & Hl & Hin). congruence.
    + rewrite add_other in Hd by exact N. exact (S1 y ls Hy Hd).
  - intros y Hy Hs. rewrite add_other; [apply S2; assumption|]. intros Ei.
    assert (y = x) by (apply (lf_ids _ _ _ L0); assumption). subst y. rewrite Hs in Ha. destruct Ha.
  - intros e k H. apply holds_add in H. destruct H as [H|[_ H]]; [exact (S3 e k H)|exact (Hg k H)].
  - intros e [l Hl]. destruct (string_dec e (m_id x)) as [->|N]; [exact (trusted_below F kj0 x a Hx Ha Ta)|].
    rewrite add_other in Hl by exact N. apply S4. exists l. exact Hl.
Qed.

Lemma upto_trusted top e rt : upto F top e rt -> trusted F kj0 (end_of e rt) -> trusted F kj0 e.
Proof. induction 1 as [x Hx _|x a r Hx _ Ha _ IH]; intros T; [exact T|]. exact (trusted_below F kj0 x a Hx Ha (IH T)). Qed.

Lemma upto_member top e rt : upto F top e rt -> exists x, In x F /\ m_id x = e.
Proof. intros H. destruct H; eauto. Qed.

(** what a superior says about somebody *)
Lemma about_good top x a : In x F -> m_id x <> top -> In a (superiors_of x) ->
  s_iss (w_about W a (m_id x)) = a /\ s_sub (w_about W a (m_id x)) = m_id x /\
  exists ks, s_jwks (w_about W a (m_id x)) = Some ks /\ In (m_key x) ks /\ forall k, In k ks -> good k.
Proof.
  intros Hx Hn Ha. assert (WR := upto_run _ _ _ rank L0 HR top x Hx).
  assert (Ab : In a (above W top (m_id x))).
  { assert (A := above_to _ _ _ L0 top x Hx). change (e_clock E0 0) with (e_clock E 0) in A. rewrite A.
    destruct (String.eqb_spec (m_id x) top); [contradiction|exact Ha]. }
  destruct (wr_about _ _ _ _ WR (m_id x) a (reaches_self _ _ _) Ab) as (A1 & A2 & (ks & A3 & A4) & _).
  change (e_clock E0 0) with (e_clock E 0) in *.
  split; [exact A1|]. split; [exact A2|]. exists ks. split; [exact A3|]. split.
  - cbn [library_world w_key] in A4. rewrite (by_id_In _ _ _ L0 x Hx) in A4. exact A4.
  - intros k Hk. apply (proj1 SM). exists x. split; [exact Hx|right]. exists a. split; [exact Ha|]. exists ks. auto.
Qed.

(** the statements along a way up *)
Lemma chain_tokens top e rt : upto F top e rt -> trusted F kj0 (end_of e rt) -> forall c kj n ves kj' r,
  map tk c = map tk (along W e rt) -> sound_jar kj -> verify_tokens (e_lib E) kj n ves c = (kj', r) ->
  sound_jar kj' /\ (rt <> [] -> forall out, r = Ok out -> VerifierSpec.known kj' e).
Proof.
  induction 1 as [x Hx _|x a rt Hx Hn Ha Hr IH]; intros T c kj n ves kj' r Hc S H.
  { destruct c; [|discriminate Hc]. cbn in H. injection H as <- <-. split; [exact S|intros X; contradiction]. }
  cbn [end_of] in T. cbn [along] in Hc. rewrite map_app in Hc. apply map_eq_app in Hc. destruct Hc as (c1 & c2 & -> & Hc1 & Hc2).
  destruct c2 as [|t [|]]; try discriminate Hc2. assert (Ht : tk t = tk (TJws (w_key W a) (w_about W a (m_id x)))) by (cbn [map] in Hc2; congruence).
  apply tk_jws in Ht. destruct Ht as (p & -> & Hp). destruct (settle_fields _ _ Hp) as (Pi & Ps & Pj & _).
  destruct (about_good top x a Hx Hn Ha) as (_ & A2 & ks & A3 & A4 & A5). rewrite A2 in Ps. rewrite A3 in Pj.
  rewrite tokens_app in H. destruct (verify_tokens (e_lib E) kj n ves c1) as [kj1 r1] eqn:E1.
  destruct (IH T c1 kj n ves kj1 r1 Hc1 S E1) as (S1 & _).
  destruct r1 as [out|y]; [|injection H as <- <-; split; [exact S1|discriminate]].
  cbn [verify_tokens] in H. destruct (is_nil _); [injection H as <- <-; split; [exact S1|discriminate]|].
  destruct (kmem _ _); [|injection H as <- <-; split; [exact S1|discriminate]].
  rewrite Pj, Ps in H. injection H as <- <-. split.
  - apply (sound_add kj1 x a ks S1 Hx Ha (upto_trusted _ _ _ Hr T) (or_introl A4) A5).
  - intros _ _ _. assert (G : VerifierSpec.holds (add_keys (e_lib E) kj1 (m_id x) ks) (m_id x) (m_key x)) by (apply holds_add; auto).
    destruct G as (l & G & _). exists l. exact G.
Qed.

(** chains of [x] that end at [top] *)
Definition near_way (top : string) (x : member) (c : list token) (rt : list string) : Prop :=
  upto F top (m_id x) rt /\ rt <> [] /\ map tk c = map tk (along W (m_id x) rt).

(** what comes after the statements does no harm *)
Definition harmless (x : member) (extra : list token) : Prop := forall a kj n ves kj' r,
  sound_jar kj -> VerifierSpec.known kj (m_id x) -> In a (superiors_of x) -> trusted F kj0 a ->
  verify_tokens (e_lib E) kj n ves extra = (kj', r) -> sound_jar kj'.

Lemma way_first top x c rt : In x F -> near_way top x c rt ->
  exists k p l, c = TJws k p :: l /\ s_iss p = end_of (m_id x) rt.
Proof.
  intros Hx (N1 & N2 & N3). assert (WR := upto_run _ _ _ rank L0 HR top x Hx).
  destruct (first_issuer E0 W top (m_id x) WR rt (m_id x) (reaches_self _ _ _) (upto_route _ _ _ L0 _ _ _ N1) N2) as (k & p0 & l0 & A & Hi).
  change (e_clock E0 0) with (e_clock E 0) in A. rewrite A in N3. destruct c as [|t c]; [discriminate N3|].
  assert (Ht : tk t = tk (TJws k p0)) by (cbn [map] in N3; congruence). apply tk_jws in Ht. destruct Ht as (p & -> & Hp).
  exists k, p, c. split; [reflexivity|]. rewrite (proj1 (settle_fields _ _ Hp)). exact Hi.
Qed.

Lemma way_call top x c rt extra kj kj' r : In x F -> near_way top x c rt -> harmless x extra -> sound_jar kj ->
  verifier_call (e_lib E) kj (c ++ extra) = (kj', r) -> sound_jar kj'.
Proof.
  intros Hx N Hh S H. destruct (way_first top x c rt Hx N) as (k & p & l & Ec & Hi). destruct N as (N1 & N2 & N3).
  assert (Ef : kj' = fst (verify_trust_chain (e_lib E) kj (c ++ extra))).
  { unfold verifier_call in H. destruct (verify_trust_chain (e_lib E) kj (c ++ extra)) as [kj1 [[|y ys]|y]]; injection H as <- _; reflexivity. }
  clear H. subst kj'. rewrite Ec. unfold verify_trust_chain. cbn [app trusted_anchor]. unfold dmem.
  destruct (dget (s_iss p) kj) as [ls|] eqn:Ed; [|exact S]. assert (T : trusted F kj0 (end_of (m_id x) rt)).
  { rewrite <- Hi. apply S. exists ls. exact Ed. }
  change (TJws k p :: l ++ extra) with ((TJws k p :: l) ++ extra). rewrite <- Ec. generalize (length (c ++ extra) - 1) as n. intros n. rewrite tokens_app.
  destruct (verify_tokens (e_lib E) kj n [] c) as [kj1 r1] eqn:E1.
  destruct (chain_tokens top (m_id x) rt N1 T c kj n [] kj1 r1 N3 S E1) as (S1 & K1).
  destruct r1 as [out|y]; [|exact S1]. destruct (verify_tokens (e_lib E) kj1 n out extra) as [kj2 r2] eqn:E2.
  assert (S2 : sound_jar kj2).
  { assert (HA : exists a, In a (superiors_of x) /\ trusted F kj0 a).
    { remember (m_id x) as e eqn:Ex. destruct N1 as [y Hy _|y a rt Hy _ Ha Hr]; [contradiction|].
      assert (y = x) by (apply (lf_ids _ _ _ L0); assumption). subst y. exists a. split; [exact Ha|]. exact (upto_trusted _ _ _ Hr T). }
    destruct HA as (a & Ha & Ta). exact (Hh a kj1 n out kj2 r2 S1 (K1 N2 out eq_refl) Ha Ta E2). }
  destruct r2 as [out2|y]; exact S2.
Qed.

Lemma way_chains top x extra chains : In x F -> harmless x extra -> (forall c, In c chains -> exists rt, near_way top x c rt) ->
  forall kj acc kj' r, sound_jar kj ->
  mfold (fun acc c => do tc <- run_verifier E (c ++ extra) in ret (match tc with Some t => acc ++ [t] | None => acc end)) chains acc kj = (kj', r) ->
  sound_jar kj' /\
  forall tcs, r = Ok tcs -> forall tc, In tc tcs -> In tc acc \/
    exists c rt kj1, near_way top x c rt /\ sound_jar kj1 /\ snd (verifier_call (e_lib E) kj1 (c ++ extra)) = Ok (Some tc).
Proof.
  intros Hx Hh. induction chains as [|c chains IH]; intros Hc kj acc kj' r S H.
  { cbn in H. injection H as <- <-. split; [exact S|]. intros tcs [= <-] tc Hin. auto. }
  cbn [mfold] in H. unfold mbind at 1 in H. unfold mbind at 1 in H. unfold run_verifier at 1 in H.
  destruct (Hc c (or_introl eq_refl)) as (rt & N).
  destruct (verifier_call (e_lib E) kj (c ++ extra)) as [kj1 r1] eqn:Ev. assert (S1 := way_call top x c rt extra kj kj1 r1 Hx N Hh S Ev).
  destruct r1 as [o|y]; [|injection H as <- <-; split; [exact S1|discriminate]]. unfold ret at 1 in H.
  destruct (IH (fun c h => Hc c (or_intror h)) kj1 _ kj' r S1 H) as (I1 & I2). split; [exact I1|].
  intros tcs Hr tc Hin. destruct (I2 tcs Hr tc Hin) as [X|X]; [|right; exact X]. destruct o as [t|]; [|left; exact X].
  apply in_app_or in X. destruct X as [X|[->|[]]]; [left; exact X|right]. exists c, rt, kj. rewrite Ev. auto.
Qed.

(** ** Collecting *)
Lemma chains_of top fuel x s s' r : In x F -> rank (m_id x) < fuel -> MotionFacts.J E N0 n0 (f_col s) ->
  collect_trust_chains E fuel (m_id x) top s = (s', r) ->
  MotionFacts.J E N0 n0 (f_col s') /\ f_keys s' = f_keys s /\ f_chains s' = f_chains s /\
  forall cl, r = Ok cl -> (forall c, In c (fst cl) -> exists rt, near_way top x c rt) /\
    exists leaf, snd cl = Some leaf /\ tk leaf = tk (own W (m_id x)).
Proof.
  intros Hx Hf HJ H. assert (Q := library_quiet _ _ _ L0 x Hx). assert (HF := proj1 (proj2 Q)).
  assert (WR := upto_run _ _ _ rank L0 HR top x Hx). assert (RK := upto_ranked _ _ _ rank L0 HR top x Hx).
  assert (V : visited E0 (f_col (fresh_start []))) by constructor.
  destruct (collect_routes E0 W top (m_id x) rank fuel (fresh_start []) Q V WR RK Hf) as (s1 & chains & C1 & _ & _ & _ & _ & C5).
  assert (Q' := Q). destruct Q' as (HS & HF' & HC & Hid). assert (HC' := hints_clean E0 _ HS HC).
  destruct (collect_eq E0 HS HF' HC' top fuel (m_id x) Hid (f_col (fresh_start [])) (visited_consistent E0 HS HF' HC' _ V)) as (s2 & E1 & _).
  unfold collect_trust_chains, mbind, on_col in C1. rewrite E1 in C1.
  assert (R := r_collect E N0 n0 (moving_alike _ _ _ L) (moving_apart _ _ _ L) (moving_dated _ _ _ L) (dated0 _ _ _ L) (lf_picks _ _ _ L0)
     (moving_valid _ _ _ L) (moving_valid0 _ _ _ L) (moving_clean _ _ _ L) fuel top (m_id x) (f_col s) (proj2 (so_id _ _ _ (lf_sound _ _ _ L0 x Hx))) HJ).
  unfold runs in R. unfold collect_trust_chains, mbind, on_col in H.
  destruct (collect E fuel top (m_id x) (f_col s)) as [c1 r1]. destruct R as (_ & R2 & R3).
  destruct (pcollect E0 fuel top (m_id x)) as [[[tr0 leaf0]|]|y]; [|unfold ret in C1; discriminate C1|discriminate C1].
  remember (own W (m_id x)) as ow eqn:How. unfold ret in C1.
  assert (C1a : chains = map (map tok_of) (tree2chains tr0)) by congruence. assert (C1b : ow = leaf0) by congruence. clear C1.
  assert (Fail : forall y, r1 = Err y -> MotionFacts.J E N0 n0 (f_col s') /\ f_keys s' = f_keys s /\ f_chains s' = f_chains s /\
    forall cl, r = Ok cl -> (forall c, In c (fst cl) -> exists rt, near_way top x c rt) /\
      exists leaf, snd cl = Some leaf /\ tk leaf = tk ow).
  { intros y ->. injection H as <- <-. cbn [f_col f_keys f_chains]. split; [exact R2|]. split; [reflexivity|]. split; [reflexivity|discriminate]. }
  destruct R3 as [[_ R3]|[(_ & y & _ & R3)|[R3 _]]]; [exact (Fail _ R3)..|].
  destruct r1 as [o|y]; [|discriminate R3]. cbn in R3. injection R3 as R3. destruct o as [[tr leaf]|]; [|discriminate R3].
  cbn in R3. assert (Etr : tmap esk tr = tmap esk tr0) by congruence. assert (El : tk leaf = tk leaf0) by congruence.
  unfold ret in H. injection H as <- <-. cbn [f_col f_keys f_chains]. split; [exact R2|]. split; [reflexivity|]. split; [reflexivity|].
  intros cl [= <-]. cbn [fst snd]. split; [|exists leaf; split; [reflexivity|congruence]].
  intros c Hc. assert (G := chains_near _ _ Etr). rewrite <- C1a in G.
  apply (in_map (map tk)) in Hc. rewrite G in Hc. apply in_map_iff in Hc. destruct Hc as (c0 & Ec & Hc). apply C5 in Hc.
  destruct Hc as (rt & Hr & Hne & ->). exists rt. split; [exact (route_upto _ _ _ L0 top _ _ Hr x Hx eq_refl)|]. split; [exact Hne|]. symmetry. exact Ec.
Qed.

(** ** The state of the client *)
Definition alive (s : fstate) : Prop := MotionFacts.J E N0 n0 (f_col s) /\ sound_jar (f_keys s).

Lemma nothing_harmless x : harmless x [].
Proof. intros a kj n ves kj' r S _ _ _ H. cbn in H. injection H as <- <-. exact S. Qed.

Lemma own_harmless x leaf : In x F -> tk leaf = tk (own W (m_id x)) -> harmless x [leaf].
Proof.
  intros Hx Hl a kj n ves kj' r S K Ha Ta H. apply tk_jws in Hl. destruct Hl as (p & -> & Hp). destruct (settle_fields _ _ Hp) as (Pi & Ps & Pj & _).
  assert (WR := upto_run _ _ _ rank L0 HR "" x Hx).
  destruct (wr_config _ _ _ _ WR (m_id x) (reaches_self _ _ _)) as (_ & _ & C3 & _ & ks & C4 & C5).
  change (e_clock E0 0) with (e_clock E 0) in *. rewrite C3 in Ps. rewrite C4 in Pj.
  cbn [verify_tokens] in H. destruct (is_nil _); [injection H as <- <-; exact S|]. destruct (kmem _ _); [|injection H as <- <-; exact S].
  rewrite Pj, Ps in H. injection H as <- <-. apply (sound_add kj x a ks S Hx Ha Ta (or_intror K)).
  intros k Hk. apply (proj1 SM). exists x. split; [exact Hx|left]. exists ks. auto.
Qed.

Lemma answer_harmless fuel a : may_arrive F rank good made (m_id m) fuel a -> harmless m [an_tok a].
Proof.
  intros (_ & _ & Hg) b kj n ves kj' r S K Ha Ta H. unfold an_tok in H. cbn [verify_tokens] in H.
  destruct (is_nil _) eqn:En; [injection H as <- <-; exact S|]. destruct (kmem _ _) eqn:Ek; [|injection H as <- <-; exact S].
  assert (G : good (an_signer a)).
  { apply kmem_In in Ek. unfold verify_keys in Ek. apply filter_In in Ek. destruct Ek as [Ek _]. unfold keys_of in Ek.
    destruct (dget (s_iss (an_claims a)) kj) as [l|] eqn:Ed; [|destruct Ek]. apply (proj1 (proj2 (proj2 S)) (s_iss (an_claims a))). exists l. auto. }
  destruct (proj2 (proj2 SM) a (Hg G)) as [Hs Hj]. destruct (s_jwks (an_claims a)) as [ks|].
  - rewrite Hs in H. injection H as <- <-. apply (sound_add kj m b ks S Hm Ha Ta (or_intror K)). intros k Hk. exact (Hj ks k eq_refl Hk).
  - destruct (Nat.eqb _ _); injection H as <- <-; exact S.
Qed.

Lemma alive_looked O fuel x s s' r : In x F -> rank (m_id x) < fuel -> alive s ->
  get_verified_trust_chains E O fuel (m_id x) s = (s', r) -> alive s'.
Proof.
  intros Hx Hf (HJ & S) H. unfold get_verified_trust_chains in H. unfold mbind at 1 in H.
  destruct (collect_trust_chains E fuel (m_id x) "" s) as [s1 r1] eqn:Ec.
  destruct (chains_of "" fuel x s s1 r1 Hx Hf HJ Ec) as (J1 & K1 & _ & N1).
  assert (A1 : alive s1) by (split; [exact J1|rewrite K1; exact S]).
  destruct r1 as [[chains leaf]|y]; [|injection H as <- <-; exact A1]. destruct (N1 _ eq_refl) as (N2 & lf & Hl & Ht). cbn [fst snd] in *. subst leaf.
  destruct chains as [|c cs]; [injection H as <- <-; exact A1|]. unfold mbind, on_keys in H.
  destruct (verify_trust_chains E (c :: cs) [lf] (f_keys s1)) as [kj r2] eqn:Ev.
  assert (S2 : sound_jar kj).
  { destruct A1 as [_ A1]. exact (proj1 (way_chains "" x [lf] (c :: cs) Hx (own_harmless x lf Hx Ht) N2 _ _ _ _ A1 Ev)). }
  destruct r2 as [tcs|y]; injection H as <- <-; (split; [exact J1|exact S2]).
Qed.

Lemma alive_step O s st : alive s ->
  match st with
  | Look fuel id | RevokeSpec.Ask fuel id => (exists x, In x F /\ m_id x = id) /\ rank id < fuel
  | Wait => True
  end -> alive (do_step E O s st).
Proof.
  intros H Hst. destruct st as [fuel id|fuel id|]; cbn [do_step].
  - destruct Hst as [(x & Hx & <-) Hf]. destruct (get_verified_trust_chains E O fuel (m_id x) s) as [s' r] eqn:Eg.
    exact (alive_looked O fuel x s s' r Hx Hf H Eg).
  - destruct Hst as [(x & Hx & <-) Hf]. unfold get_trust_chains. unfold mbind at 1. unfold StateM.get at 1.
    destruct (dget (m_id x) (f_chains s)) as [cs|]; [exact H|]. unfold mbind.
    destruct (get_verified_trust_chains E O fuel (m_id x) s) as [s' r] eqn:Eg.
    assert (G := alive_looked O fuel x s s' r Hx Hf H Eg). destruct r as [cs|y]; [|exact G].
    destruct (is_nil cs); exact G.
  - destruct H as (H1 & H2). split; [|exact H2]. cbn [f_col]. apply (J_later E N0 n0 (f_col s)); [lia|exact H1].
Qed.

(** ** A response *)
Lemma opened fuel a s s' r : may_arrive F rank good made (m_id m) fuel a -> alive s -> open_response E fuel a s = (s', r) ->
  alive s' /\
  forall pa, r = Ok pa -> fst pa = an_claims a /\ an_anchor a = Some (snd pa) /\ In (snd pa) (e_anchors E) /\
    lib_valid (e_lib E) (e_clock E (st_tick (f_col s))) (an_claims a) = true /\
    exists ro, upto F (snd pa) (s_iss (an_claims a)) ro /\ ro <> [].
Proof.
  intros ((mo & Hmo & Eo & Hfo) & _ & _) A H. unfold open_response in H. rewrite opened_fed in H.
  destruct (verify_self_signed E (e_clock E (st_tick (f_col s))) (Some (an_tok a))) as [tp|y] eqn:Es; [|injection H as <- <-; split; [exact A|discriminate]].
  assert (Etp : snd tp = an_claims a /\ lib_valid (e_lib E) (e_clock E (st_tick (f_col s))) (an_claims a) = true).
  { unfold verify_self_signed, an_tok in Es. destruct (s_jwks (an_claims a)) as [ks|]; [|discriminate Es].
    destruct (kmem _ _); [|discriminate Es]. destruct (lib_valid _ _ _); [|discriminate Es]. injection Es as <-. auto. }
  destruct Etp as [Etp Ev]. rewrite Etp in H. unfold mbind at 1, lift at 1 in H.
  destruct (an_anchor a) as [ta|]; [|injection H as <- <-; split; [exact A|discriminate]].
  destruct (smem ta (e_anchors E)) eqn:Ea; [|injection H as <- <-; split; [exact A|discriminate]]. cbn [negb] in H.
  unfold mbind at 1, signature_verifies in H. unfold mbind at 1 in H. rewrite <- Eo in H.
  destruct (collect_trust_chains E fuel (m_id mo) ta s) as [s1 r1] eqn:Ec. destruct A as [HJ S].
  destruct (chains_of ta fuel mo s s1 r1 Hmo Hfo HJ Ec) as (J1 & K1 & _ & N1).
  assert (A1 : alive s1) by (split; [exact J1|rewrite K1; exact S]).
  destruct r1 as [cl|y]; [|injection H as <- <-; split; [exact A1|discriminate]]. destruct (N1 _ eq_refl) as (N2 & _).
  destruct (fst cl) as [|c cs] eqn:Ecs; cbn [is_nil] in H; [injection H as <- <-; split; [exact A1|discriminate]|].
  unfold mbind, on_keys in H. destruct (verify_trust_chains E (c :: cs) [] (f_keys s1)) as [kj r2] eqn:E2.
  assert (S2 : sound_jar kj) by (destruct A1 as [_ A1]; exact (proj1 (way_chains ta mo [] (c :: cs) Hmo (nothing_harmless mo) N2 _ _ _ _ A1 E2))).
  destruct r2 as [tcs|y]; injection H as <- <-; (split; [split; [exact J1|exact S2]|]); [|discriminate].
  intros pa [= <-]. cbn [fst snd]. split; [reflexivity|]. split; [reflexivity|]. split; [apply smem_In; exact Ea|]. split; [exact Ev|].
  destruct (N2 c (or_introl eq_refl)) as (ro & R1 & R2 & _). exists ro. rewrite <- Eo. auto.
Qed.

(** what has to be the case when the metadata [md] are taken from [a] *)
Definition answer_right (O : iter_order) (a : RpModel.answer) (md : metadata) : Prop :=
  exists ta ro rt, an_anchor a = Some ta /\ In ta (e_anchors E) /\
    upto F ta (s_iss (an_claims a)) ro /\ ro <> [] /\ trusted F kj0 (s_iss (an_claims a)) /\
    upto F ta (m_id m) rt /\ rt <> [] /\ trusted F kj0 (end_of (m_id m) rt) /\ accepted (said jwks_of F E (m_id m) rt) /\
    left_over O jwks_of F E (m_id m) rt a md.

Lemma arrived O fuel a s s' r : may_arrive F rank good made (m_id m) fuel a -> alive s -> parse_oidc E O fuel (m_id m) a s = (s', r) ->
  alive s' /\ forall md, r = Ok md -> made a /\ lib_valid (e_lib E) (e_clock E (st_tick (f_col s))) (an_claims a) = true /\ answer_right O a md.
Proof.
  intros MA A H. unfold parse_oidc in H. unfold mbind at 1 in H. destruct (open_response E fuel a s) as [s1 r1] eqn:E1.
  destruct (opened fuel a s s1 r1 MA A E1) as (A1 & O1).
  destruct r1 as [pa|y]; [|injection H as <- <-; split; [exact A1|discriminate]].
  destruct (O1 pa eq_refl) as (P1 & P2 & P3 & P4 & ro & P5 & P6). clear O1. unfold mbind at 1 in H.
  destruct (collect_trust_chains E fuel (m_id m) (snd pa) s1) as [s2 r2] eqn:E2. destruct A1 as [J1 S1].
  destruct (chains_of (snd pa) fuel m s1 s2 r2 Hm (proj1 (proj2 MA)) J1 E2) as (J2 & K2 & _ & N2).
  assert (A2 : alive s2) by (split; [exact J2|rewrite K2; exact S1]).
  destruct r2 as [cl|y]; [|injection H as <- <-; split; [exact A2|discriminate]]. destruct (N2 _ eq_refl) as (N3 & _).
  unfold mbind at 1, on_keys in H. destruct (verify_trust_chains E (fst cl) [an_tok a] (f_keys s2)) as [kj r3] eqn:E3.
  destruct (way_chains (snd pa) m [an_tok a] (fst cl) Hm (answer_harmless fuel a MA) N3 _ _ _ _ (proj2 A2) E3) as (S3 & T3).
  assert (A3 : alive (mkFed (f_col s2) kj (f_chains s2))) by (split; [exact J2|exact S3]).
  destruct r3 as [tcs|y]; [|injection H as <- <-; split; [exact A3|discriminate]].
  destruct tcs as [|tc [|]]; [injection H as <- <-; split; [exact A3|discriminate]| |injection H as <- <-; split; [exact A3|discriminate]].
  destruct (T3 _ eq_refl tc (or_introl eq_refl)) as [[]|(c & rt & kj1 & N & S & Hv)].
  destruct (way_first _ m c rt Hm N) as (k & p & l & Ec & Hi). destruct N as (N4 & N5 & N6).
  apply call_ok in Hv. destruct Hv as ((V1 & V2) & _).
  unfold verify_trust_chain in V1. rewrite Ec in V1. cbn [app trusted_anchor] in V1. unfold dmem in V1.
  destruct (dget (s_iss p) kj1) as [ls|] eqn:Ed; [|injection V1 as V1; symmetry in V1; contradiction].
  assert (T : trusted F kj0 (end_of (m_id m) rt)) by (rewrite <- Hi; apply S; exists ls; exact Ed).
  change (TJws k p :: l ++ [an_tok a]) with ((TJws k p :: l) ++ [an_tok a]) in V1. rewrite <- Ec in V1.
  destruct (verify_tokens (e_lib E) kj1 (length (c ++ [an_tok a]) - 1) [] (c ++ [an_tok a])) as [kj2 r4] eqn:E4.
  destruct r4 as [out|y]; [|discriminate V1]. cbn [snd] in V1.
  assert (Out : out = map snd (jws c) ++ [an_claims a]).
  { destruct (tokens_any _ _ _ _ _ _ _ E4) as (pre & post & _ & _ & _ & _ & _ & X). destruct (X out eq_refl) as [_ ->].
    cbn [app]. rewrite jws_app, map_app. reflexivity. }
  assert (Sg : exists kjx, sound_jar kjx /\ VerifierSpec.holds kjx (s_iss (an_claims a)) (an_signer a)).
  { rewrite tokens_app in E4. destruct (verify_tokens (e_lib E) kj1 _ [] c) as [kj3 r5] eqn:E5.
    destruct (chain_tokens _ _ _ N4 T _ _ _ _ _ _ N6 S E5) as (S5 & _).
    destruct r5 as [out5|y]; [|discriminate E4]. exists kj3. split; [exact S5|]. unfold an_tok in E4. cbn [verify_tokens] in E4.
    destruct (is_nil _); [discriminate E4|]. destruct (kmem _ _) eqn:Ek; [|discriminate E4].
    apply kmem_In in Ek. unfold verify_keys in Ek. apply filter_In in Ek. destruct Ek as [Ek _]. unfold keys_of in Ek.
    destruct (dget (s_iss (an_claims a)) kj3) as [l3|] eqn:E6; [|destruct Ek]. exists l3. auto. }
  destruct Sg as (kjx & Sx & Hx). assert (Tx : trusted F kj0 (s_iss (an_claims a))).
  { apply Sx. destruct Hx as (l3 & X & _). exists l3. exact X. }
  assert (Gx : good (an_signer a)) by exact (proj1 (proj2 (proj2 Sx)) _ _ Hx).
  assert (Md := proj2 (proj2 MA) Gx). destruct (proj2 (proj2 SM) a Md) as [Hsub _].
  set (front := map snd (jws c)) in *. assert (Fr : front <> []) by (unfold front; rewrite Ec; discriminate).
  assert (Sf : map settle front = map settle (removelast (said jwks_of F E (m_id m) rt))).
  { assert (X := said_front jwks_of F E0 (m_id m) rt). change (said jwks_of F E0 (m_id m) rt) with (said jwks_of F E (m_id m) rt) in X.
    rewrite X. unfold claims_up. exact (jws_tk _ _ N6). }
  assert (Hacc : meets_restrictions (front ++ [an_claims a]) = Ok true /\ tc_verified tc = front ++ [an_claims a]).
  { rewrite Out in V1. destruct (front ++ [an_claims a]) as [|z zs] eqn:Ez; [destruct front; discriminate Ez|]. cbn [is_nil] in V1.
    destruct (meets_restrictions (z :: zs)) as [[|]|y]; cbn [bind] in V1; [|injection V1 as V1; symmetry in V1; contradiction|discriminate V1].
    injection V1 as V1. auto. }
  destruct Hacc as [Hacc Htc].
  assert (Hsaid : accepted (said jwks_of F E (m_id m) rt)).
  { unfold accepted. assert (X := answer_constraints jwks_of F E0 rank L0 HR m rt a Hm Hsub).
    change (said jwks_of F E0 (m_id m) rt) with (said jwks_of F E (m_id m) rt) in X. rewrite <- X, <- Hacc.
    rewrite <- (meets_settle (claims_up _ _ _ ++ _)), <- (meets_settle (front ++ _)), !map_app. f_equal. f_equal.
    rewrite Sf, <- (said_front jwks_of F E0). reflexivity. }
  assert (Ls : (match given_metadata (fst pa) with Some mm => set_leaf_metadata mm tc | None => Ok tc end) = Ok tc).
  { rewrite P1. destruct (given_metadata (an_claims a)) as [mm|] eqn:Eg; [|reflexivity]. exact (set_leaf_same mm tc _ _ Htc (given_same _ _ Eg)). }
  unfold mbind at 1, lift at 1 in H. rewrite Ls in H. unfold mbind at 1, lift at 1 in H.
  destruct (apply_to_chain O tc) as [ch|y] eqn:Eap; [|injection H as <- <-; split; [exact A3|discriminate]].
  unfold mbind at 1, lift at 1 in H.
  destruct (type_of_chain ch "openid_relying_party") as [o|y] eqn:Et; [|injection H as <- <-; split; [exact A3|discriminate]].
  assert (R : s' = mkFed (f_col s2) kj (f_chains s2) /\ forall md, r = Ok md -> o = Some md).
  { destruct o as [[|y ys]|]; injection H as <- <-; (split; [reflexivity|]); intros md X; [discriminate X|injection X as <-; reflexivity|discriminate X]. }
  destruct R as [-> R]. split; [exact A3|]. intros md Hmd. specialize (R md Hmd). subst o.
  split; [exact Md|]. split; [exact P4|]. exists (snd pa), ro, rt. split; [exact P2|]. split; [exact P3|]. split; [exact P5|]. split; [exact P6|].
  split; [exact Tx|]. split; [exact N4|]. split; [exact N5|]. split; [exact T|]. split; [exact Hsaid|].
  unfold apply_to_chain, policy_call_chain in Eap. rewrite Htc, rev_unit in Eap.
  destruct (is_nil (rev front)) eqn:En.
  { exfalso. apply Fr. rewrite <- (rev_involutive front). destruct (rev front); [reflexivity|discriminate En]. }
  rewrite rev_involutive in Eap. rewrite (policy_front O _ _ _ Sf) in Eap.
  unfold left_over. destruct (policy_call O (removelast (said jwks_of F E (m_id m) rt)) (an_claims a)) as [[mm leaf']|y]; [|discriminate Eap].
  cbn [bind fst snd] in Eap. injection Eap as <-. unfold type_of_chain, dindex in Et. cbn [ch_md] in Et.
  exists mm, leaf'. split; [reflexivity|]. destruct (dget "openid_relying_party" mm) as [o|]; [|discriminate Et]. injection Et as ->. reflexivity.
Qed.

Lemma alive_events O evs : forall s, alive s -> events_about F rank good made (m_id m) evs -> alive (after_events E O (m_id m) evs s).
Proof.
  unfold after_events. induction evs as [|ev evs IH]; intros s A B; [exact A|]. cbn [fold_left]. apply IH; [|intros e He; exact (B e (or_intror He))].
  assert (G := B ev (or_introl eq_refl)). destruct ev as [st|fuel a]; cbn [do_event].
  - apply alive_step; [exact A|]. destruct st; exact G.
  - destruct (parse_oidc E O fuel (m_id m) a s) as [s' r] eqn:Ep. exact (proj1 (arrived O fuel a s s' r G A Ep)).
Qed.

Lemma alive_start s : newborn s -> f_keys s = kj0 -> n0 = st_tick (f_col s) -> right_keys F kj0 -> alive s.
Proof.
  intros (B1 & B2 & _) Hkj Hn Hk. unfold alive. rewrite Hkj. split.
  - split; [lia|]. rewrite B1, B2. split; [intros id e X; discriminate X|intros a e v _ _ X; discriminate X].
  - split; [exact Hk|]. split; [reflexivity|]. split; [exact (proj1 (proj2 SM))|]. intros e K. apply trusted_known, K.
Qed.
End Answers.

(** C179: whatever has happened before, an answer is only taken if it was made for the client, comes from somebody with a way up to the
    anchor it names and whose keys lead back to those the client started with, has not expired, and what is taken is what the
    policies along such a way of the client leave of it *)
Theorem C179_only_right_answers : forall jwks_of F E O rank good made m s0 evs fuel a s' md,
  library_shaky jwks_of F E -> hierarchy F rank -> In m F -> newborn s0 -> right_keys F (f_keys s0) ->
  signatures_mean jwks_of F E good made (m_id m) (f_keys s0) -> events_about F rank good made (m_id m) evs ->
  may_arrive F rank good made (m_id m) fuel a ->
  parse_oidc E O fuel (m_id m) a (after_events E O (m_id m) evs s0) = (s', Ok md) ->
  made a /\ lib_valid (e_lib E) (e_clock E (st_tick (f_col (after_events E O (m_id m) evs s0)))) (an_claims a) = true /\
  answer_right jwks_of F E m (f_keys s0) O a md.
Proof.
  intros jwks_of F E O rank good made m s0 evs fuel a s' md L HR Hm NB RK SM EV MA H.
  assert (A := alive_start jwks_of F E good made m (st_tick (f_col s0)) (f_keys s0) SM s0 NB eq_refl eq_refl RK).
  apply (alive_events jwks_of F E rank L HR good made m Hm _ _ SM O evs) in A; [|exact EV].
  exact (proj2 (arrived jwks_of F E rank L HR good made m Hm _ _ SM O fuel a _ s' (Ok md) MA A H) md eq_refl).
Qed.
Print Assumptions C179_only_right_answers.

(** and the keys that the client has: those of members are among them, those of entities with no superiors are the ones from the
    beginning, none is an outsider's, and they all lead back to the ones from the beginning *)
Theorem C179_keys : forall jwks_of F E O rank good made m s0 evs,
  library_shaky jwks_of F E -> hierarchy F rank -> In m F -> newborn s0 -> right_keys F (f_keys s0) ->
  signatures_mean jwks_of F E good made (m_id m) (f_keys s0) -> events_about F rank good made (m_id m) evs ->
  let kj := f_keys (after_events E O (m_id m) evs s0) in
  right_keys F kj /\
  (forall x, In x F -> superiors_of x = [] -> dget (m_id x) kj = dget (m_id x) (f_keys s0)) /\
  (forall e x, VerifierSpec.holds kj e x -> good x) /\
  (forall e, VerifierSpec.known kj e -> trusted F (f_keys s0) e).
Proof.
  intros jwks_of F E O rank good made m s0 evs L HR Hm NB RK SM EV.
  assert (A := alive_start jwks_of F E good made m (st_tick (f_col s0)) (f_keys s0) SM s0 NB eq_refl eq_refl RK).
  apply (alive_events jwks_of F E rank L HR good made m Hm _ _ SM O evs) in A; [|exact EV]. exact (proj2 A).
Qed.
Print Assumptions C179_keys.

(** The federation of C175.  tmi answers as an OP; an outsider with the key 9 answers in its name and for somebody else. *)
Definition aw_answer (k : key) (sub : string) : RpModel.answer :=
  mkAnswer k (mkStmt "tmi" sub (Some 50000%Z) (Some [k])
    (Some [("openid_relying_party", [("client_id", VStr "rp"); ("contacts", VList [VStr "rp"])])]) None None None) (Some "ta").

Definition aw_made (a : RpModel.answer) : Prop := a = aw_answer 5 "rp".
Definition aw_good (x : key) : Prop := In x [1; 3; 5].

Definition aw_events : list event :=
  [Arrive 2 (aw_answer 5 "rp"); Arrive 2 (aw_answer 9 "rp"); Other (Look 2 "rp"); Arrive 2 (aw_answer 9 "ta"); Other Wait; Arrive 2 (aw_answer 9 "rp")].

Lemma aw_mean : signatures_mean ex_jwks v_fed cr_env aw_good aw_made "rp" [("ta", [1])].
Proof.
  split; [|split].
  - intros x (m & Hm & [(ks & Hk & Hx)|(a & Ha & ks & Hk & Hx)]).
    + live_members; vm_compute in Hk; injection Hk as <-; destruct Hx as [<-|[]]; unfold aw_good; cbn; auto.
    + live_members; simpl in Ha; repeat destruct Ha as [<-|Ha]; try destruct Ha; vm_compute in Hk; injection Hk as <-; destruct Hx as [<-|[]]; unfold aw_good; cbn; auto.
  - intros e x (l & Hl & Hx). cbn in Hl. destruct (String.eqb e "ta"); [|discriminate Hl]. injection Hl as <-. destruct Hx as [<-|[]]. left. reflexivity.
  - intros a ->. split; [reflexivity|]. intros ks x [= <-] [<-|[]]. unfold aw_good. cbn. auto.
Qed.

Lemma aw_may k sub : (k = 5 /\ sub = "rp") \/ k = 9 -> may_arrive v_fed v_rank aw_good aw_made "rp" 2 (aw_answer k sub).
Proof.
  intros H. split; [exists v_tmi; split; [right; left; reflexivity|split; [reflexivity|vm_compute; lia]]|]. split; [vm_compute; lia|].
  intros G. destruct H as [[-> ->]| ->]; [reflexivity|]. cbn in G. destruct G as [G|[G|[G|[]]]]; discriminate G.
Qed.

Example C179_ex : library_shaky ex_jwks v_fed cr_env /\ hierarchy v_fed v_rank /\ In v_rp v_fed /\ newborn v_start /\
  signatures_mean ex_jwks v_fed cr_env aw_good aw_made "rp" (f_keys v_start) /\
  events_about v_fed v_rank aw_good aw_made "rp" aw_events /\
  (* the first answer is real but the network is down; then only a forged one arrives, which is found out when the network is back *)
  snd (parse_oidc cr_env id_order 2 "rp" (aw_answer 5 "rp") v_start) = Err ConnectionError /\
  snd (parse_oidc cr_env id_order 2 "rp" (aw_answer 9 "rp") (after_events cr_env id_order "rp" aw_events v_start)) = Err BadSignature /\
  (* the real one is taken then *)
  snd (parse_oidc cr_env id_order 2 "rp" (aw_answer 5 "rp") (after_events cr_env id_order "rp" aw_events v_start))
    = Ok [("client_id", VStr "rp"); ("contacts", VList [VStr "rp"; VStr "ta"])].
Proof.
  split; [exact cr_shaky|]. split; [exact v_hierarchy|]. split; [right; right; left; reflexivity|]. split; [repeat split|].
  split; [exact aw_mean|]. split.
  { intros ev [<-|[<-|[<-|[<-|[<-|[<-|[]]]]]]]; try (apply aw_may; auto); [|exact I]. split; [|vm_compute; lia].
    exists v_rp. split; [right; right; left; reflexivity|reflexivity]. }
  split; [vm_compute; reflexivity|]. split; vm_compute; reflexivity.
Qed.
