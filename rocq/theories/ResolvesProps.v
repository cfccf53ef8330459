(** Resolvers answer as soon as requests do not fail any more (C184). *)
From Verif Require Import PyFacts ExampleKit CollectorProps CollectorRepeat CollectorRepeatProps VerifierFacts FetchFacts PolicyProps FederationProps.
From Verif Require Import RpSpec RpFacts ResolveModel ResolveFacts ResolveProps TrustMarkVerifierProps LiveExample LiveResolveProps LiveAnswerProps ClientsRightProps GetInProps.
From Verif Require Export ResolverRightProps.
From Verif Require Import ResolveFacts.
From Coq Require Import Lia.

(** ** What a collection leaves in the caches *)

(** nothing is lost: no configuration and no statement *)
Definition grows (s s' : cstate) : Prop :=
  (forall id, held id s -> held id s') /\
  (forall a e, clean a -> clean e -> dget (cache_key a e) (st_es s) <> None -> dget (cache_key a e) (st_es s') <> None).

Lemma grows_refl s : grows s s.
Proof. split; auto. Qed.

Lemma grows_trans s1 s2 s3 : grows s1 s2 -> grows s2 s3 -> grows s1 s3.
Proof. intros [A B] [C D]. split; auto. Qed.

(** the statements along a way and the configurations of those on it are there *)
Fixpoint linked (s : cstate) (e : string) (rt : list string) : Prop :=
  match rt with [] => True | a :: rt' => dget (cache_key a e) (st_es s) <> None /\ held a s /\ linked s a rt' end.

Lemma linked_end s : forall rt e, linked s e rt -> rt <> [] -> held (end_of e rt) s.
Proof. induction rt as [|a rt IH]; intros e H N; [contradiction|]. destruct H as (_ & H1 & H2). cbn [end_of]. destruct rt; [exact H1|]. apply IH; [exact H2|discriminate]. Qed.

Lemma got_cfg E id s s1 r : cfg_getitem E id s = (s1, r) ->
  st_es s1 = st_es s /\
  match r with
  | Ok (Some e) => s1 = s /\ dget id (st_cfg s) = Some e
  | Ok None => forall i, i <> id -> dget i (st_cfg s1) = dget i (st_cfg s)
  | Err _ => True
  end.
Proof.
  unfold cfg_getitem, cache_getitem. destruct s as [cfg es tick]. cbn [st_cfg st_es st_tick].
  destruct (dget id cfg) as [e|] eqn:Ed; [|intros H; injection H as H1 H2; subst; auto].
  destruct (ce_class e); try (intros H; injection H as H1 H2; subst; auto; fail).
  destruct (s_exp (ce_stmt e)); [|intros H; injection H as H1 H2; subst; auto].
  destruct (Z.ltb _ _); intros H; injection H as H1 H2; subst; [auto|].
  split; [reflexivity|]. intros i N. cbn [st_cfg]. apply dget_ddel_other, N.
Qed.

Lemma got_configuration E id s s1 r : get_entity_configuration E id s = (s1, r) -> st_cfg s1 = st_cfg s /\ st_es s1 = st_es s.
Proof.
  unfold get_entity_configuration, get_document. destruct (e_net E (st_tick s) (QDoc (e_wk E id))); try (intros [= <- <-]; auto; fail).
  destruct (String.eqb _ _); intros [= <- <-]; auto.
Qed.

Lemma got_endpoint E id s s1 ep : get_federation_fetch_endpoint E id s = (s1, Ok ep) ->
  st_es s1 = st_es s /\ held id s1 /\ forall i, held i s -> held i s1.
Proof.
  assert (Fetch : forall s, (do signed <- get_entity_configuration E id in
      do tp <- open_self_signed E signed in do ep' <- lift (get_endpoint (snd tp)) in
      do _ <- cfg_set id (mkEntry (snd tp) (Some (fst tp)) CDict) in ret ep') s = (s1, Ok ep) ->
      st_es s1 = st_es s /\ held id s1 /\ forall i, i <> id -> held i s -> held i s1).
  { clear s. intros s. unfold mbind at 1. destruct (get_entity_configuration E id s) as [s2 [t|x]] eqn:Eg; [|discriminate].
    destruct (got_configuration _ _ _ _ _ Eg) as [G1 G2]. unfold mbind at 1, open_self_signed.
    destruct (verify_self_signed _ _ _) as [tp|x]; [|discriminate]. unfold mbind at 1, lift. destruct (get_endpoint (snd tp)) as [ep'|x]; [|discriminate].
    unfold mbind, cfg_set, modify, ret. intros [= <- <-]. cbn [st_es]. split; [exact G2|]. unfold held. cbn [st_cfg]. unfold cache_set. split.
    - eexists. apply dget_dset_same.
    - intros i N [c H]. exists c. rewrite dget_dset_other by exact N. rewrite G1. exact H. }
  unfold get_federation_fetch_endpoint. unfold mbind at 1. destruct (cfg_getitem E id s) as [s2 r] eqn:Ec.
  destruct (got_cfg _ _ _ _ _ Ec) as [C1 C2]. destruct r as [[e|]|x]; [| |discriminate].
  - destruct C2 as [-> C2]. unfold mbind at 1, lift. destruct (get_endpoint (ce_stmt e)) as [ep0|x]; [|discriminate].
    destruct (String.eqb ep0 ""); cbn [negb].
    + intros H. destruct (Fetch s H) as (F1 & F2 & F3). split; [exact F1|]. split; [exact F2|]. intros i Hi.
      destruct (string_dec i id) as [->|N]; [exact F2|exact (F3 i N Hi)].
    + intros [= <- <-]. split; [reflexivity|]. split; [exists e; exact C2|auto].
  - unfold mbind at 1, ret at 1. cbn [String.eqb negb]. intros H. destruct (Fetch s2 H) as (F1 & F2 & F3). split; [congruence|]. split; [exact F2|].
    intros i Hi. destruct (string_dec i id) as [->|N]; [exact F2|]. apply (F3 i N). destruct Hi as [c Hi]. exists c. rewrite (C2 i N). exact Hi.
Qed.

Lemma cfg_tick E id s s1 r : cfg_getitem E id s = (s1, r) -> st_tick s1 = st_tick s.
Proof. unfold cfg_getitem. destruct (cache_getitem _ _ _ _ _ _) as [c x]. intros H. injection H as <- _. reflexivity. Qed.

Lemma config_tick E id s s1 r : get_chain_config E id s = (s1, r) -> st_tick s1 = st_tick s.
Proof.
  unfold get_chain_config, mbind. destruct (cfg_getitem E id s) as [s2 [o|x]] eqn:Ec; apply cfg_tick in Ec.
  - destruct o as [e|]; [destruct (ce_jws e)|]; unfold ret, raise; intros H; injection H as <- _; exact Ec.
  - intros H. injection H as <- _. exact Ec.
Qed.

Lemma stmts_tick E : forall path s s1 r, get_chain_statements E path s = (s1, r) -> st_tick s1 = st_tick s.
Proof.
  induction path as [|a path IH]; intros s s1 r H; [injection H as <- _; reflexivity|].
  destruct path as [|b path]; [injection H as <- _; reflexivity|].
  rewrite chain_statements_cons in H. unfold mbind in H. unfold es_getitem in H. destruct (cache_getitem _ _ _ _ _ _) as [c [v|x]].
  2:{ injection H as <- _. reflexivity. }
  destruct (get_chain_statements E (b :: path) _) as [s2 [vs|x]] eqn:Eg; apply IH in Eg; injection H as <- _; exact Eg.
Qed.

Lemma get_chain_tick E path a wta s s1 r : get_chain E path a wta s = (s1, r) -> st_tick s1 = st_tick s.
Proof.
  unfold get_chain. destruct path as [|e path]; [intros H; injection H as <- _; reflexivity|]. unfold mbind at 1.
  destruct (get_chain_config E e s) as [s2 [t|x]] eqn:E1; apply config_tick in E1.
  2:{ intros H. injection H as <- _. exact E1. }
  unfold mbind at 1. destruct (get_chain_statements E (e :: path) s2) as [s3 [vs|x]] eqn:E2; apply stmts_tick in E2.
  2:{ intros H. injection H as <- _. congruence. }
  destruct wta; [|intros H; injection H as <- _; congruence]. unfold mbind.
  destruct (get_chain_config E a s3) as [s4 [t'|x]] eqn:E3; apply config_tick in E3; intros H; injection H as <- _; congruence.
Qed.

Lemma same_length A B (P : A -> B -> Prop) l l' : Forall2 P l l' -> List.length l = List.length l'.
Proof. induction 1 as [|x y l l' _ _ IH]; [reflexivity|]. cbn [List.length]. rewrite IH. reflexivity. Qed.

Section Resolves.
Context (jwks_of : val -> option (list key)) (F : list member) (E : cenv) (rank : string -> nat).
Context (L : library_shaky jwks_of F E) (HR : hierarchy F rank) (n0 : nat).
Notation N0 := (library_net jwks_of F (e_clock E) 0).
Notation E0 := (freeze N0 E).
Notation W := (library_world jwks_of F (e_clock E 0)).
Notation J := (MotionFacts.J E N0 n0).
Let L0 := ls_run jwks_of F E L.

Definition settled (s : cstate) (top e : string) : Prop := forall rt, upto F top e rt -> linked s e rt.

Lemma upto_clean top e rt : upto F top e rt -> clean e.
Proof. intros H. destruct H; apply (member_clean jwks_of F E L); assumption. Qed.

Lemma grows_linked s s' top e rt : grows s s' -> upto F top e rt -> linked s e rt -> linked s' e rt.
Proof.
  intros [G1 G2] U. induction U as [x Hx _|x a rt Hx _ Ha Hr IH]; [auto|]. cbn [linked]. intros (H1 & H2 & H3).
  split; [|split; [apply G1, H2|apply IH, H3]]. apply G2; [exact (upto_clean _ _ _ Hr)|apply (member_clean jwks_of F E L), Hx|exact H1].
Qed.

Lemma got_statement e a s s' v : clean e -> clean a -> J s -> get_entity_statement E e a s = (s', Ok (Some v)) ->
  grows s s' /\ dget (cache_key a e) (st_es s') <> None.
Proof.
  intros He Ha.
  assert (Miss : forall s, dget (cache_key a e) (st_es s) = None -> get_entity_statement E e a s = (s', Ok (Some v)) ->
                 grows s s' /\ dget (cache_key a e) (st_es s') <> None).
  { clear s. intros s Ek H. unfold get_entity_statement in H. unfold mbind at 1 in H. unfold es_getitem, cache_getitem in H. rewrite Ek in H.
    unfold mbind at 1, ret at 1 in H. unfold mbind at 1 in H.
    destruct (get_federation_fetch_endpoint E a _) as [s1 [ep|x]] eqn:Ee; [|discriminate H].
    destruct (got_endpoint _ _ _ _ _ Ee) as (G1 & G2 & G3). cbn [st_es st_cfg] in G1, G3.
    destruct (String.eqb ep ""); [discriminate H|]. unfold mbind at 1, get_document in H.
    destruct (e_net E (st_tick s1) (QFetch ep a e)) as [t| | |]; try discriminate H.
    unfold mbind at 1, lift, unverified in H. destruct t as [[|k p]|]; try discriminate H.
    unfold mbind at 1, es_set, modify, cache_set in H. destruct (s_exp p) as [z|]; [|discriminate H].
    unfold mbind, ret in H. injection H as <- _. cbn [st_es st_cfg]. split.
    - split; [intros id Hi; apply G3; exact Hi|]. cbn [st_es]. intros a' e' Ha' He' H. rewrite !dget_dset.
      destruct (String.eqb _ _); [discriminate|]. destruct (String.eqb _ _); [discriminate|]. rewrite G1. exact H.
    - rewrite dget_dset_other by apply key_kinds_same. rewrite dget_dset_same. discriminate. }
  intros Hs H. destruct (dget (cache_key a e) (st_es s)) as [v0|] eqn:Ek; [|exact (Miss s Ek H)].
  destruct (proj2 (proj2 Hs) a e v0 Ha He Ek) as [(k & p & p0 & z & -> & Hz & Ht & PS & Hp) B].
  destruct (Z.le_gt_cases (clock_of E s) (z - e_delta E)) as [Hc|Hc].
  - rewrite (es_fresh E e a s (ESTok (TJws k p)) z Ek Ht Hc) in H. injection H as <- _. split; [apply grows_refl|]. rewrite Ek. discriminate.
  - rewrite (es_stale E e a s (ESTok (TJws k p)) z Ek Ht) in H by lia.
    assert (Wk : dget (cache_key a e) (st_es (without e a s)) = None).
    { unfold without. cbn [st_es]. rewrite dget_ddel_other by apply key_kinds_same. apply dget_ddel_same. }
    destruct (Miss _ Wk H) as [[G1 G2] G3]. split; [|exact G3]. split; [exact G1|]. intros a' e' Ha' He' Hne.
    destruct (String.eqb_spec (cache_key a' e') (cache_key a e)) as [->|N]; [exact G3|]. apply G2; [exact Ha'|exact He'|].
    unfold without. cbn [st_es]. rewrite dget_ddel_other by (apply key_kinds; assumption). rewrite dget_ddel_other by exact N. exact Hne.
Qed.

Lemma config_at x : In x F -> pverified E0 (m_id x) = Ok (own W (m_id x), w_config W (m_id x)).
Proof. intros Hx. exact (wr_pverified E0 W "" (m_id x) (upto_run _ _ _ rank L0 HR "" x Hx) (m_id x) (reaches_self _ _ _)). Qed.

Lemma got_branch fuel top x a y s s' b : In x F -> In y F -> m_id y = a -> m_id x <> top -> In a (superiors_of x) -> J s ->
  (forall p s s' t, J s -> settle p = settle (w_config W a) -> collect_tree E fuel top a (Some p) s = (s', Ok t) -> grows s s' /\ settled s' top a) ->
  collect_branch E (collect_tree E fuel top) (m_id x) a s = (s', Ok b) ->
  grows s s' /\ dget (cache_key a (m_id x)) (st_es s') <> None /\ held a s' /\ settled s' top a.
Proof.
  intros Hx Hy Ey Hn Ha Hs Hrec H. unfold collect_branch in H.
  assert (Hxa : String.eqb (m_id x) a = false).
  { apply String.eqb_neq. intros X. rewrite <- X in Ha. exact (no_self F rank HR x Hx Ha). }
  rewrite Hxa in H. cbn [andb] in H. unfold mbind at 1 in H.
  assert (Cx : clean (m_id x)) by (apply (member_clean jwks_of F E L), Hx). assert (Ca : clean a) by (rewrite <- Ey; apply (member_clean jwks_of F E L), Hy).
  assert (R := r_statement E N0 n0 (moving_alike _ _ _ L) (moving_apart _ _ _ L) (moving_dated _ _ _ L) (dated0 _ _ _ L) (lf_picks _ _ _ L0)
     (moving_valid _ _ _ L) (moving_valid0 _ _ _ L) (m_id x) a s Cx Ca Hs). unfold runs in R.
  destruct (get_entity_statement E (m_id x) a s) as [s1 [o|e]] eqn:Es; [|discriminate H]. destruct R as (_ & J1 & R3).
  destruct R3 as [[_ R3]|[(_ & e & _ & R3)|[R3 R4]]]; [discriminate R3|discriminate R3|].
  assert (WR := upto_run _ _ _ rank L0 HR top x Hx).
  assert (Ab : In a (above W top (m_id x))).
  { assert (A := above_to _ _ _ L0 top x Hx). change (e_clock E0 0) with (e_clock E 0) in A. rewrite A. destruct (String.eqb_spec (m_id x) top); [contradiction|exact Ha]. }
  rewrite (wr_pstatement E0 W top (m_id x) WR (library_fresh _ _ _ L0) (m_id x) a (reaches_self _ _ _) Ab) in R3.
  destruct o as [v|]; [|discriminate R3]. destruct (got_statement _ _ _ _ _ Cx Ca Hs Es) as [G1 G2].
  destruct (R4 _ eq_refl v eq_refl) as [Tv _]. rewrite Tv in H. unfold mbind at 1 in H.
  destruct (cfg_getitem E a s1) as [s2 r] eqn:Ec. destruct (got_cfg _ _ _ _ _ Ec) as [C1 C2].
  destruct r as [[e|]|e]; [| |discriminate H].
  2:{ exfalso. unfold mbind in H. cbn [option_map] in H. destruct fuel; discriminate H. }
  destruct C2 as [-> C2]. unfold mbind in H. cbn [option_map] in H.
  destruct (collect_tree E fuel top a (Some (ce_stmt e)) s1) as [s3 [t|y0]] eqn:Et; [|discriminate H]. unfold ret in H. injection H as <- _.
  destruct (proj1 (proj2 J1) a e C2) as (n & u & k & p & p0' & z & _ & _ & _ & _ & -> & Hv' & Hp). cbn [ce_stmt] in Et.
  assert (P0 : p0' = w_config W a) by (rewrite <- Ey in Hv' |- *; rewrite (config_at y Hy) in Hv'; congruence). subst p0'.
  destruct (Hrec p s1 s3 t J1 Hp Et) as [G3 G4].
  split; [exact (grows_trans _ _ _ G1 G3)|]. split; [exact (proj2 G3 _ _ Ca Cx G2)|]. split; [apply (proj1 G3); eexists; exact C2|exact G4].
Qed.

Lemma got_tree top fuel : forall x p s s' t, In x F -> J s -> settle p = settle (w_config W (m_id x)) ->
  collect_tree E fuel top (m_id x) (Some p) s = (s', Ok t) -> grows s s' /\ settled s' top (m_id x).
Proof.
  induction fuel as [|fuel IH]; intros x p s s' t Hx Hs Hp H; [discriminate H|]. cbn [collect_tree] in H.
  destruct (settle_fields _ _ Hp) as (Hi & _ & _ & _ & _ & _ & Hh). rewrite Hi, Hh in H.
  assert (WR := upto_run _ _ _ rank L0 HR top x Hx).
  destruct (wr_config _ _ _ _ WR (m_id x) (reaches_self _ _ _)) as (_ & Ci & _). change (e_clock E0 0) with (e_clock E 0) in Ci. rewrite Ci in H.
  assert (Sup := member_superiors _ _ _ L0 x Hx). change (e_clock E0 0) with (e_clock E 0) in Sup. unfold superiors in Sup.
  assert (None_up : (m_id x = top \/ superiors_of x = []) -> forall s, settled s top (m_id x)).
  { intros Hno s1 rt U. inversion U as [y Hy _ Ey|y a r Hy Hn Ha Hr Ey]; subst; [exact I|].
    assert (y = x) by (apply (lf_ids _ _ _ L0); assumption). subst y. destruct Hno as [X|X]; [contradiction|rewrite X in Ha; destruct Ha]. }
  destruct (s_hints (w_config W (m_id x))) as [hints|].
  2:{ unfold ret in H. injection H as <- _. split; [apply grows_refl|]. apply None_up. auto. }
  destruct (String.eqb_spec (m_id x) top) as [Et|Nt].
  { unfold ret in H. injection H as <- _. split; [apply grows_refl|]. apply None_up. auto. }
  unfold mbind at 1 in H.
  destruct (mfold (fun acc authority => do b <- collect_branch E (collect_tree E fuel top) (m_id x) authority in ret (dset authority b acc)) hints [] s)
    as [s1 [bs|y]] eqn:Em; [|discriminate H]. unfold ret in H. injection H as <- _.
  assert (Fold : forall l acc s bs, (forall a, In a l -> In a (superiors_of x)) -> J s ->
    mfold (fun acc authority => do b <- collect_branch E (collect_tree E fuel top) (m_id x) authority in ret (dset authority b acc)) l acc s = (s1, Ok bs) ->
    grows s s1 /\ forall a, In a l -> dget (cache_key a (m_id x)) (st_es s1) <> None /\ held a s1 /\ settled s1 top a).
  { clear - L L0 HR IH Hx Nt. induction l as [|a l IHl]; intros acc s bs Hl Hs H.
    { cbn in H. injection H as -> _. split; [apply grows_refl|intros a []]. }
    cbn [mfold] in H. unfold mbind at 1 in H. unfold mbind at 1 in H.
    destruct (lf_superiors _ _ _ L0 x a Hx (Hl a (or_introl eq_refl))) as (y & Hy & Ey & _).
    assert (Ca : clean a) by (rewrite <- Ey; apply (member_clean jwks_of F E L), Hy).
    assert (Cx : clean (m_id x)) by (apply (member_clean jwks_of F E L), Hx).
    assert (R := r_branch E N0 n0 (moving_alike _ _ _ L) (moving_apart _ _ _ L) (moving_dated _ _ _ L) (dated0 _ _ _ L) (lf_picks _ _ _ L0)
       (moving_valid _ _ _ L) (moving_valid0 _ _ _ L) fuel top (m_id x) a s Cx Ca
       (fun t0 p0 p s2 HJ Hv Hp => r_tree E N0 n0 (moving_alike _ _ _ L) (moving_apart _ _ _ L) (moving_dated _ _ _ L) (dated0 _ _ _ L) (lf_picks _ _ _ L0)
          (moving_valid _ _ _ L) (moving_valid0 _ _ _ L) (moving_clean _ _ _ L) top fuel a t0 p0 p s2 Ca HJ Hv Hp) Hs). unfold runs in R.
    destruct (collect_branch E (collect_tree E fuel top) (m_id x) a s) as [s2 [b|e]] eqn:Eb; [|discriminate H]. destruct R as (_ & J2 & _).
    unfold ret at 1 in H.
    destruct (got_branch fuel top x a y s s2 b Hx Hy Ey Nt (Hl a (or_introl eq_refl)) Hs) as (B1 & B2 & B3 & B4); [|exact Eb|].
    { intros p s3 s4 t H3 Hp Ht. rewrite <- Ey in Hp, Ht |- *. exact (IH y p s3 s4 t Hy H3 Hp Ht). }
    destruct (IHl _ s2 bs (fun a' h => Hl a' (or_intror h)) J2 H) as [I1 I2]. split; [exact (grows_trans _ _ _ B1 I1)|].
    intros a' [<-|Ha']; [|exact (I2 a' Ha')]. split; [exact (proj2 I1 _ _ Ca Cx B2)|]. split; [exact (proj1 I1 _ B3)|].
    intros rt U. exact (grows_linked _ _ _ _ _ I1 U (B4 rt U)). }
  subst hints. destruct (Fold _ _ _ _ (fun a h => h) Hs Em) as [F1 F2]. split; [exact F1|].
  intros rt U. inversion U as [y Hy _ Ey|y a r Hy Hn Ha Hr Ey]; subst; [exact I|].
  assert (y = x) by (apply (lf_ids _ _ _ L0); assumption). subst y. destruct (F2 a Ha) as (G1 & G2 & G3). cbn [linked]. auto.
Qed.

Lemma got_collection top fuel x s s' tr t : In x F -> J s -> collect E fuel top (m_id x) s = (s', Ok (Some (tr, t))) ->
  held (m_id x) s' /\ settled s' top (m_id x).
Proof.
  intros Hx Hs H. unfold collect in H. unfold mbind at 1, StateM.get at 1 in H. unfold cache_get in H.
  assert (Fetch : forall s', (do signed <- get_entity_configuration E (m_id x) in
      match signed with
      | None => ret None
      | Some _ => do tp <- open_self_signed E signed in
                  do _ <- cfg_set (m_id x) (mkEntry (snd tp) (Some (fst tp)) CDict) in
                  do tr <- collect_tree E fuel top (m_id x) (Some (snd tp)) in ret (Some (tr, fst tp))
      end) s = (s', Ok (Some (tr, t))) -> held (m_id x) s' /\ settled s' top (m_id x)).
  { clear s' H. intros s' H. unfold mbind at 1 in H.
    assert (R := r_get_entity_configuration E N0 n0 (moving_alike _ _ _ L) (moving_apart _ _ _ L) (m_id x) s Hs). unfold runs in R.
    destruct (get_entity_configuration E (m_id x) s) as [s1 [o|e]]; [|discriminate H]. destruct R as (_ & J1 & R3).
    destruct R3 as [[_ R3]|[(_ & e & _ & R3)|[R3 R4]]]; [discriminate R3|discriminate R3|].
    destruct o as [tok|]; [|discriminate H]. destruct (pconf E0 (m_id x)) as [t0|e] eqn:P0; [|discriminate R3].
    assert (Etk : option_map tk (Some tok) = option_map tk t0) by (cbn [rmap] in R3; congruence).
    unfold mbind at 1 in H.
    assert (Q := r_open E N0 n0 (lf_picks _ _ _ L0) (moving_valid _ _ _ L) (moving_valid0 _ _ _ L) (m_id x) (Some tok) t0 s1 J1 P0 Etk (R4 _ eq_refl)).
    unfold runs in Q. destruct (open_self_signed E (Some tok) s1) as [s2 [tp|e]]; [|discriminate H]. destruct Q as (Q1 & J2 & Q3).
    destruct Q3 as [[_ Q3]|[(_ & e & _ & Q3)|[Q3 Q4]]]; [discriminate Q3|discriminate Q3|].
    destruct (Q4 tp eq_refl) as (n & u & k & p & -> & M1 & M2 & M3).
    destruct (verify_self_signed E0 (e_clock E 0) t0) as [[tok0 p0]|e] eqn:V0; [|discriminate Q3].
    assert (Hv := pverified_at E N0 (m_id x) t0 (tok0, p0) P0 V0). assert (Hv2 := Hv). rewrite (config_at x Hx) in Hv2.
    cbn [rmap] in Q3. unfold tpk in Q3. cbn [fst snd tk] in Q3.
    assert (Hp : settle p = settle (w_config W (m_id x))) by congruence.
    assert (Hk : own W (m_id x) = TJws k (w_config W (m_id x))).
    { assert (X : tk tok0 = TJws k (settle p)) by congruence. assert (Y : tok0 = own W (m_id x)) by congruence. rewrite Y in X.
      unfold own in X |- *. cbn [tk] in X. injection X as X _. f_equal. exact X. }
    unfold mbind at 1, cfg_set, modify in H. cbn [fst snd] in H. unfold mbind, cache_set in H.
    set (s3 := mkState (dset (m_id x) (mkEntry p (Some (TJws k p)) CDict) (st_cfg s2)) (st_es s2) (st_tick s2)) in H.
    assert (J3 : J s3).
    { apply (J_cfg_set E N0 n0 (moving_dated _ _ _ L) s2 (m_id x) n u k p (w_config W (m_id x)) J2 M1); [lia|exact M3| |exact Hp].
      rewrite (config_at x Hx), Hk. reflexivity. }
    destruct (collect_tree E fuel top (m_id x) (Some p) s3) as [s4 [tr'|e]] eqn:Et; [|discriminate H]. unfold ret in H. injection H as <- _ _.
    destruct (got_tree top fuel x p s3 s4 tr' Hx J3 Hp Et) as [G1 G2]. split; [|exact G2]. apply (proj1 G1). eexists. unfold s3. cbn [st_cfg]. apply dget_dset_same. }
  destruct (dget (m_id x) (st_cfg s)) as [e|] eqn:Ed; [|unfold mbind at 1, ret at 1 in H; exact (Fetch s' H)].
  destruct (proj1 (proj2 Hs) (m_id x) e Ed) as (n & u & k & p & p0 & z & _ & _ & _ & Hz & -> & Hv & Hp). cbn [ce_stmt ce_jws] in H.
  unfold mbind at 1 in H. unfold mbind at 1, now at 1 in H. unfold mbind at 1, lift at 1, too_old at 1 in H. rewrite Hz in H.
  destruct (Z.leb (z + e_delta E) (e_clock E (st_tick s))); [exact (Fetch s' H)|].
  unfold ret at 1 in H. unfold mbind in H.
  destruct (collect_tree E fuel top (m_id x) (Some p) s) as [s4 [tr'|e]] eqn:Et; [|discriminate H]. unfold ret in H. injection H as <- _ _.
  assert (P0 : p0 = w_config W (m_id x)) by (rewrite (config_at x Hx) in Hv; congruence). subst p0.
  destruct (got_tree top fuel x p s s4 tr' Hx Hs Hp Et) as [G1 G2]. split; [|exact G2]. apply (proj1 G1). eexists. exact Ed.
Qed.
(** ** The chain that is read from the caches *)
Lemma conf_there id s : J s -> held id s ->
  (exists t, get_chain_config E id s = (s, Ok t)) \/ aged E n0 (st_tick s).
Proof.
  intros Hs [c Hc]. unfold get_chain_config, mbind.
  destruct (r_cfg_getitem E N0 n0 id s Hs) as [(e & G & D)|[[G D]|(s1 & G & _ & _ & A & _)]]; [|congruence|right; exact A].
  rewrite G. destruct (proj1 (proj2 Hs) id e D) as (n & u & k & p & p0 & z & _ & _ & _ & _ & -> & _). left. eexists. reflexivity.
Qed.

Lemma stmts_there top e rt s : J s -> upto F top e rt -> linked s e rt ->
  exists vs, get_chain_statements E (e :: rt) s = (s, Ok vs) /\ map names_in vs = map Some (upwards e rt).
Proof.
  intros Hs U. induction U as [x Hx _|x b r Hx Hn Hb Hr IH]; intros Lk; [exists []; split; reflexivity|].
  destruct Lk as (L1 & _ & L3). destruct (IH L3) as (vs & I1 & I2).
  destruct (stmts_read jwks_of F E rank L HR n0 top _ _ s Hs (upto_up F top x b r Hx Hn Hb Hr)) as (vs' & S1 & S2).
  exists vs'. split; [exact S1|]. rewrite chain_statements_cons in S1. unfold mbind in S1.
  unfold es_getitem, cache_getitem in S1. destruct (dget (cache_key b (m_id x)) (st_es s)) as [v|] eqn:Ed; [|contradiction L1; reflexivity].
  assert (S1' : vs' = Some v :: vs). { destruct s as [c es tk0]. cbn [st_cfg st_es st_tick] in *. rewrite I1 in S1. unfold ret in S1. congruence. }
  rewrite S1' in S2 |- *. cbn [upwards map] in S2 |- *. inversion S2 as [|o n l l' H1 H2 E1 E2]. destruct H1 as [H1|H1]; [discriminate H1|].
  rewrite H1, I2. reflexivity.
Qed.

Lemma chain_there top m rt wta s s' r : J s -> In m F -> upto F top (m_id m) rt -> (exists x, In x F /\ m_id x = top) ->
  held (m_id m) s -> linked s (m_id m) rt -> (wta = true -> held top s) -> get_chain E (m_id m :: rt) top wta s = (s', r) ->
  (exists l, r = Ok l /\ map names_in l = Some (m_id m, m_id m) :: map Some (upwards (m_id m) rt) ++ (if wta then [Some (top, top)] else [])) \/
  aged E n0 (st_tick s).
Proof.
  intros Hs Hm Hu Hx H1 H2 H3 H.
  destruct (conf_there _ s Hs H1) as [(t & C1)|A]; [|right; exact A].
  destruct (stmts_there top _ rt s Hs Hu H2) as (vs & S1 & S2).
  destruct (chain_reads jwks_of F E rank L HR n0 top m rt wta s s' r Hs Hm Hu Hx H) as [_ G].
  unfold get_chain in H. unfold mbind at 1 in H. rewrite C1 in H. unfold mbind at 1 in H. rewrite S1 in H. destruct wta.
  - destruct (conf_there _ s Hs (H3 eq_refl)) as [(t' & C2)|A]; [|right; exact A].
    unfold mbind in H. rewrite C2 in H. unfold ret in H. injection H as <- <-. left. eexists. split; [reflexivity|].
    assert (G1 := G _ eq_refl). cbn [map]. inversion G1 as [|o n l l' X1 X2 E1 E2]. destruct X1 as [X1|X1]; [discriminate X1|].
    rewrite X1. f_equal. rewrite map_app, S2. f_equal.
    apply Forall2_app_inv_l in X2. destruct X2 as (l1 & l2 & Y1 & Y2 & Y3).
    assert (Ln : List.length l1 = List.length (map Some (upwards (m_id m) rt))).
    { rewrite <- (same_length _ _ _ _ _ Y1), <- S2, map_length. reflexivity. }
    assert (Y4 : l2 = [Some (top, top)]).
    { apply (f_equal (skipn (List.length l1))) in Y3. rewrite Ln in Y3 at 1. rewrite !skipn_app, !skipn_all, <- Ln in Y3.
      rewrite !Nat.sub_diag in Y3. cbn in Y3. congruence. }
    subst l2. inversion Y2 as [|o' n' k k' Z1 Z2 E3 E4]. destruct Z1 as [Z1|Z1]; [discriminate Z1|]. cbn [map]. rewrite Z1. reflexivity.
  - unfold ret in H. injection H as <- <-. left. eexists. split; [reflexivity|].
    assert (G1 := G _ eq_refl). cbn [map]. inversion G1 as [|o n l l' X1 X2 E1 E2]. destruct X1 as [X1|X1]; [discriminate X1|].
    rewrite X1, S2, app_nil_r. reflexivity.
Qed.

(** what is said of a way that a resolver may take *)
Definition answers_with (O : iter_order) (me : string) (wta : bool) (kj : keyjar) (a : string) (m : member) (t : option string) (r : res rresp) : Prop :=
  exists resp rt md v, r = Ok resp /\
    usable_upto jwks_of F E kj a (m_id m) rt /\ end_of (m_id m) rt = a /\
    adjusted O jwks_of F E (m_id m) rt md /\ asked_for md t v /\ carries (rr_claims resp) v /\
    dget "iss" (rr_claims resp) = Some (VStr me) /\ dget "sub" (rr_claims resp) = Some (VStr (m_id m)) /\
    map names_in (rr_chain resp) = Some (m_id m, m_id m) :: map Some (upwards (m_id m) rt) ++ (if wta then [Some (a, a)] else []).

(** a chain found at the beginning is found now *)
Lemma find_near a : forall cs cs0, map cck cs = map cck cs0 ->
  forall c0, find (fun c => String.eqb a (ch_anchor c)) cs0 = Some c0 ->
  exists c, find (fun c => String.eqb a (ch_anchor c)) cs = Some c /\ cck c = cck c0.
Proof.
  induction cs as [|c cs IH]; intros [|d cs0] H c0 H0; try discriminate. cbn [map] in H.
  assert (E1 : cck c = cck d) by congruence. assert (E2 : map cck cs = map cck cs0) by congruence.
  cbn [find] in *. rewrite (proj2 (cck_names _ _ E1)). destruct (String.eqb a (ch_anchor d)).
  - exists c. split; [reflexivity|congruence].
  - exact (IH cs0 E2 c0 H0).
Qed.

Lemma resolve_there O fuel me jwks wta a m t s s' r kj0 :
  all_checkable_upto jwks_of F E -> In m F -> rank (m_id m) < fuel -> living jwks_of F E n0 kj0 s ->
  (exists rt, usable_upto jwks_of F E (f_keys s) a (m_id m) rt /\ end_of (m_id m) rt = a) ->
  (forall rt, usable_upto jwks_of F E (f_keys s) a (m_id m) rt -> exists x, policy_call_chain O (said jwks_of F E (m_id m) rt) = Ok x) ->
  (forall rt md, usable_upto jwks_of F E (f_keys s) a (m_id m) rt -> end_of (m_id m) rt = a -> adjusted O jwks_of F E (m_id m) rt md ->
     exists v, asked_for md t v) ->
  resolve E O fuel me jwks wta (ask a (m_id m) t) s = (s', r) ->
  answers_with O me wta (f_keys s) a m t r \/
  (outage jwks_of F E (st_tick (f_col s)) (st_tick (f_col s')) /\ exists e, net_error e /\ r = Err e) \/
  aged E n0 (st_tick (f_col s')).
Proof.
  intros HT Hm Hf LV (rt0 & U0 & End0) Pol Ask H. assert (LV' := LV). destruct LV' as (H1 & H2 & H3).
  destruct (resolve E O fuel me jwks wta (ask a (m_id m) t) s) as [s'' r''] eqn:HRes. injection H as -> ->.
  assert (RS := proj2 (proj2 (resolved jwks_of F E rank L HR HT n0 kj0 O fuel me jwks wta a m t s s' r Hm Hf LV HRes))). rename HRes into H.
  destruct (standing_upto jwks_of F E rank L HR a O fuel m (f_keys s) (HT a m Hm) Hm Hf H2) as (tr0 & leaf0 & kj' & tcs0 & P1 & P2 & P3 & P4 & P5).
  (* the same at the beginning *)
  assert (H0 : exists cs0 c0 v0, apply_policies O tcs0 = Ok cs0 /\ find (fun c => String.eqb a (ch_anchor c)) cs0 = Some c0 /\
                 metadata_asked (ch_md c0) t = Ok v0).
  { destruct (resolve E0 O fuel me jwks wta (ask a (m_id m) t) (fresh_start (f_keys s))) as [z' r0] eqn:Er.
    assert (V0 : visited E0 (f_col (fresh_start (f_keys s)))) by constructor.
    assert (CK : checkable_upto jwks_of F E0 a (m_id m)) by exact (HT a m Hm).
    assert (C := C140_resolved jwks_of F E0 O rank fuel me jwks wta m a t _ _ _ L0 HR CK Hm Hf V0 H2 Er).
    destruct r0 as [resp0|x].
    2:{ exfalso. destruct C as [(rt & U & X)|[[_ X]|[_ (rt & md & U & X1 & X2 & X3)]]].
        - destruct (Pol rt U) as (y & Y). change (policy_call_chain O (said jwks_of F E (m_id m) rt) = Err x) in X. congruence.
        - exact (X rt0 U0 End0).
        - destruct (Ask rt md U X1 X2) as (v & Hv). exact (X3 v Hv). }
    clear C. assert (Q := library_quiet _ _ _ L0 m Hm). destruct Q as (HS & HF' & HC & Hid). assert (HC' := hints_clean E0 _ HS HC).
    destruct (collect_eq E0 HS HF' HC' a fuel (m_id m) Hid (f_col (fresh_start (f_keys s))) (visited_consistent E0 HS HF' HC' _ V0)) as (z2 & E1 & _).
    unfold resolve, ask in Er. cbn [rq_anchor rq_sub rq_type] in Er. unfold mbind at 1 2, lift at 1 2, given in Er. cbn beta iota in Er.
    unfold collect_trust_chains, on_col in Er. unfold mbind at 1 in Er. unfold mbind at 1 in Er. rewrite E1, P1 in Er.
    unfold ret at 1 in Er. cbn [fst snd] in Er. unfold mbind at 1, on_keys in Er. cbn [f_keys fresh_start] in Er. rewrite P2 in Er.
    unfold mbind at 1, lift at 1 in Er. destruct (apply_policies O tcs0) as [cs0|x]; [|discriminate Er].
    destruct (find (fun c => String.eqb a (ch_anchor c)) cs0) as [c0|] eqn:Ef; [|discriminate Er].
    change (match t with
            | Some t => let* v := md_index (ch_md c0) t in Ok (VDict [(t, v)])
            | None => Ok (md_val (ch_md c0))
            end) with (metadata_asked (ch_md c0) t) in Er.
    unfold mbind at 1, lift at 1 in Er. destruct (metadata_asked (ch_md c0) t) as [v0|x] eqn:Em; [|discriminate Er].
    exists cs0, c0, v0. auto. }
  destruct H0 as (cs0 & c0 & v0 & Ap0 & Fi0 & Me0).
  assert (R := r_collect E N0 n0 (moving_alike _ _ _ L) (moving_apart _ _ _ L) (moving_dated _ _ _ L) (dated0 _ _ _ L) (lf_picks _ _ _ L0)
              (moving_valid _ _ _ L) (moving_valid0 _ _ _ L) (moving_clean _ _ _ L) fuel a (m_id m) (f_col s) (member_clean jwks_of F E L m Hm) H1). unfold runs in R.
  unfold resolve, ask in H. cbn [rq_anchor rq_sub rq_type] in H. unfold mbind at 1 2, lift at 1 2, given in H. cbn beta iota in H.
  unfold collect_trust_chains, on_col in H. unfold mbind at 1 in H. unfold mbind at 1 in H.
  destruct (collect E fuel a (m_id m) (f_col s)) as [c1 r1] eqn:EC. destruct R as (R1 & R2 & R3). rewrite P1 in R3.
  destruct R3 as [[R3 ->]|[(R3 & y & NE & ->)|[R3 _]]].
  { injection H as <- <-. right. right. exact R3. }
  { injection H as <- <-. right. left. split; [exact (outage_down _ _ _ _ _ R3)|eauto]. }
  destruct r1 as [x|x]; [|discriminate R3].
  cbn in R3. injection R3 as R3. destruct x as [[tr leaf]|]; [|discriminate R3].
  destruct (got_collection a fuel m (f_col s) c1 tr leaf Hm H1 EC) as [Hheld Hset].
  cbn in R3. assert (Etr : tmap esk tr = tmap esk tr0) by congruence. assert (El : tk leaf = tk leaf0) by congruence.
  destruct (verify_chains_near E E0 _ _ leaf leaf0 (f_keys s) kj' tcs0 (lf_picks _ _ _ L0) eq_refl (chains_near _ _ Etr) El P2) as (tcs & V & Ht).
  unfold ret at 1 in H. cbn [fst snd] in H. unfold mbind at 1, on_keys in H. cbn [f_keys] in H. rewrite V in H.
  unfold mbind at 1, lift at 1 in H. cbn [f_col f_chains f_keys] in H.
  assert (PN := policies_near O tcs tcs0 Ht). rewrite Ap0 in PN.
  destruct (apply_policies O tcs) as [cs|x]; [|discriminate PN]. cbn in PN. injection PN as PN.
  destruct (find_near a cs cs0 PN c0 Fi0) as (c & Fi & Ec). rewrite Fi in H.
  apply find_some in Fi0. destruct Fi0 as [Hin0 Eanc]. apply String.eqb_eq in Eanc.
  destruct (P5 cs0 Ap0 c0 Hin0) as (rt & U & Hend & Hpath & Hadj & _).
  assert (Q1 : tc_iss_path (ch_tc c) = m_id m :: rt) by (rewrite <- Hpath; unfold cck, tck in Ec; congruence).
  assert (Q2 : ch_md c = ch_md c0) by (unfold cck in Ec; congruence).
  assert (Hend' : end_of (m_id m) rt = a) by congruence.
  change (match t with
          | Some t => let* v := md_index (ch_md c) t in Ok (VDict [(t, v)])
          | None => Ok (md_val (ch_md c))
          end) with (metadata_asked (ch_md c) t) in H.
  rewrite Q2 in H. unfold mbind at 1, lift at 1 in H. rewrite Me0 in H.
  rewrite Q1 in H. unfold mbind at 1 in H. cbn [f_col f_keys f_chains] in H.
  destruct (get_chain E (m_id m :: rt) a wta c1) as [c2 r2] eqn:Eg.
  assert (Hx : exists x, In x F /\ m_id x = a) by (rewrite <- Hend'; exact (upto_end_member _ _ _ _ (proj1 U))).
  assert (Lk := Hset rt (proj1 U)).
  assert (Ha : held a c1) by (rewrite <- Hend'; apply linked_end; [exact Lk|exact (proj1 (proj2 U))]).
  destruct (chain_there a m rt wta c1 c2 r2 R2 Hm (proj1 U) Hx Hheld Lk (fun _ => Ha) Eg) as [(l & -> & Nl)|AG].
  2:{ right. right. assert (Tk : st_tick c2 = st_tick c1) by exact (get_chain_tick _ _ _ _ _ _ _ Eg). destruct r2 as [l|x].
      - unfold mbind, now, lift, ret in H. cbn [f_col f_keys f_chains] in H.
        destruct (create_entity_statement _ _ _ _ _); injection H as <- _; cbn [f_col]; rewrite Tk; exact AG.
      - injection H as <- _. cbn [f_col]. rewrite Tk. exact AG. }
  left. unfold mbind, now, lift, ret in H. cbn [f_col f_keys f_chains] in H.
  destruct (create_total (e_clock E (st_tick c2)) me (m_id m) jwks [("metadata", v0)]) as (p & Hp).
  { intros k [<-|[<-|[<-|[]]]]; reflexivity. }
  { intros w Hw. discriminate Hw. }
  rewrite Hp in H. injection H as <- <-. apply metadata_asked_ok in Me0.
  assert (ND : NoDup (dkeys [("metadata", v0)])) by (apply nodupb_sound; reflexivity).
  assert (Cl := create_claims _ _ _ _ _ _ ND Hp).
  exists (mkRresp p l), rt, (ch_md c0), v0. split; [reflexivity|]. split; [exact U|]. split; [exact Hend'|]. split; [exact Hadj|].
  split; [exact Me0|]. cbn [rr_claims rr_chain].
  split. { unfold carries. rewrite Cl. reflexivity. }
  split; [rewrite Cl; reflexivity|]. split; [rewrite Cl; reflexivity|]. exact Nl.
Qed.
End Resolves.

(** C184: after whatever has happened, a resolver answers: with what the policies along a way of the entity to the anchor make of its
    metadata and with every statement along that way, if there is such a way, no policy on the ways is in conflict, and there is
    metadata of the kind asked for; unless one of the requests fails, or a day has passed since the resolver began *)
Theorem C184_resolves : forall jwks_of F E O rank js s0 fuel me jwks wta a m t s' r,
  library_shaky jwks_of F E -> forwards E -> hierarchy F rank -> all_checkable jwks_of F E -> all_checkable_upto jwks_of F E ->
  newborn s0 -> right_keys F (f_keys s0) -> jobs_about F rank js -> In m F -> rank (m_id m) < fuel ->
  let s := after_jobs E O js s0 in
  (exists rt, usable_upto jwks_of F E (f_keys s) a (m_id m) rt /\ end_of (m_id m) rt = a) ->
  (forall rt, usable_upto jwks_of F E (f_keys s) a (m_id m) rt -> exists x, policy_call_chain O (said jwks_of F E (m_id m) rt) = Ok x) ->
  (forall rt md, usable_upto jwks_of F E (f_keys s) a (m_id m) rt -> end_of (m_id m) rt = a -> adjusted O jwks_of F E (m_id m) rt md ->
     exists v, asked_for md t v) ->
  resolve E O fuel me jwks wta (ask a (m_id m) t) s = (s', r) ->
  (exists resp rt md v, r = Ok resp /\
    usable_upto jwks_of F E (f_keys s) a (m_id m) rt /\ end_of (m_id m) rt = a /\
    adjusted O jwks_of F E (m_id m) rt md /\ asked_for md t v /\ carries (rr_claims resp) v /\
    dget "iss" (rr_claims resp) = Some (VStr me) /\ dget "sub" (rr_claims resp) = Some (VStr (m_id m)) /\
    map names_in (rr_chain resp) = Some (m_id m, m_id m) :: map Some (upwards (m_id m) rt) ++ (if wta then [Some (a, a)] else [])) \/
  (outage jwks_of F E (st_tick (f_col s)) (st_tick (f_col s')) /\ exists e, net_error e /\ r = Err e) \/
  (e_clock E (st_tick (f_col s0)) + 86400 - e_delta E <= e_clock E (st_tick (f_col s')))%Z.
Proof.
  intros jwks_of F E O rank js s0 fuel me jwks wta a m t s' r L HF HR HU HT HB Hk HA Hm Hf s H1 H2 H3 H.
  assert (V := living_jobs jwks_of F E rank L HR HU HT _ _ O js s0 (living_start jwks_of F E s0 HB Hk) HA).
  destruct (resolve_there jwks_of F E rank L HR _ O fuel me jwks wta a m t s s' r _ HT Hm Hf V H1 H2 H3 H) as [X|[X|X]].
  - left. exact X.
  - right. left. exact X.
  - right. right. exact (aged_day jwks_of F E L _ _ HF X).
Qed.
Print Assumptions C184_resolves.

(** the federation and the jobs of C176: two answers come to nothing, and later there is one *)
Definition rs_after (n : nat) : fstate := after_jobs cr_env id_order (firstn n rr_jobs) v_start.

Example C184_ex : library_shaky ex_jwks v_fed cr_env /\ forwards cr_env /\ hierarchy v_fed v_rank /\ all_checkable ex_jwks v_fed cr_env /\
  all_checkable_upto ex_jwks v_fed cr_env /\ newborn v_start /\ right_keys v_fed (f_keys v_start) /\ jobs_about v_fed v_rank rr_jobs /\
  usable_upto ex_jwks v_fed cr_env (f_keys (rs_after 5)) "ta" "rp" ["ta"] /\
  (forall rt, usable_upto ex_jwks v_fed cr_env (f_keys (rs_after 5)) "ta" "rp" rt ->
     rt = ["ta"] /\ exists x, policy_call_chain id_order (said ex_jwks v_fed cr_env "rp" rt) = Ok x) /\
  (forall rt md, usable_upto ex_jwks v_fed cr_env (f_keys (rs_after 5)) "ta" "rp" rt -> end_of "rp" rt = "ta" ->
     adjusted id_order ex_jwks v_fed cr_env "rp" rt md -> exists v, asked_for md (Some "openid_relying_party") v) /\
  snd (resolve cr_env id_order 2 "ta" (VInt 1) true (ask "ta" "rp" (Some "openid_relying_party")) (rs_after 0)) = Err ConnectionError /\
  snd (resolve cr_env id_order 2 "ta" (VInt 1) true (ask "ta" "rp" (Some "openid_relying_party")) (rs_after 1)) = Err FailedConfigurationRetrieval /\
  (exists s' resp, resolve cr_env id_order 2 "ta" (VInt 1) true (ask "ta" "rp" (Some "openid_relying_party")) (rs_after 5) = (s', Ok resp) /\
    map names_in (rr_chain resp) = [Some ("rp", "rp"); Some ("ta", "rp"); Some ("ta", "ta")] /\
    (e_clock cr_env (st_tick (f_col s')) < e_clock cr_env (st_tick (f_col v_start)) + 86400 - e_delta cr_env)%Z).
Proof.
  destruct C176_ex as (X1 & X2 & X3 & X4 & X5 & X6 & X7 & _). assert (Hr : In v_rp v_fed) by (simpl; auto).
  assert (One : forall rt, usable_upto ex_jwks v_fed cr_env (f_keys (rs_after 5)) "ta" "rp" rt -> rt = ["ta"]).
  { intros rt (Hp & Hn & _). destruct (v_upto v_rp rt Hr Hp) as [-> | ->]; [contradiction Hn; reflexivity|reflexivity]. }
  split; [exact X1|]. split; [exact cr_forwards|]. split; [exact X2|]. split; [exact X3|]. split; [exact X4|]. split; [exact X5|].
  split; [exact X6|]. split; [exact X7|]. split.
  { split; [exact (v_upto_ta v_rp Hr ltac:(discriminate))|]. split; [discriminate|]. split; [exists [1]; vm_compute; reflexivity|vm_compute; reflexivity]. }
  split. { intros rt U. rewrite (One rt U). split; [reflexivity|]. eexists. vm_compute. reflexivity. }
  split.
  { intros rt md U _ (ves & A). rewrite (One rt U) in A. vm_compute in A. injection A as <- _. eexists. apply metadata_asked_ok. reflexivity. }
  split; [vm_compute; reflexivity|]. split; [vm_compute; reflexivity|].
  eexists _, _. split; [vm_compute; reflexivity|]. split; [reflexivity|]. vm_compute. reflexivity.
Qed.
