(** Collections while time passes: the documents that are served differ from those at the beginning in the times
    they end only, and so does what is made of them. *)
From Verif Require Import PyFacts WellRunProps.
From Verif Require Export MotionSpec CollectorRepeat.
From Coq Require Import Lia.

(** ** Statements but for the time they end *)
Definition settle (p : stmt) : stmt :=
  mkStmt (s_iss p) (s_sub p) (option_map (fun _ => 0%Z) (s_exp p)) (s_jwks p) (s_metadata p) (s_policy p) (s_constraints p) (s_hints p).

Definition tk (t : token) : token := match t with TJunk => TJunk | TJws k p => TJws k (settle p) end.
Definition esk (v : esval) : esval := match v with ESTok t => ESTok (tk t) | ESExp z => ESExp z end.

Fixpoint tmap {A B} (f : A -> B) (t : tree A) : tree B :=
  match t with
  | T bs => T (map (fun b => (fst b, match snd b with None => None | Some (v, u) => Some (f v, tmap f u) end)) bs)
  end.

Definition bmap {A B} (f : A -> B) (b : option (A * tree A)) : option (B * tree B) :=
  match b with None => None | Some (v, u) => Some (f v, tmap f u) end.

Definition rmap {A B} (f : A -> B) (r : res A) : res B := match r with Ok a => Ok (f a) | Err e => Err e end.

Definition rk (r : response) : response := match r with RText t => RText (option_map tk t) | r => r end.

Lemma settle_fields p q : settle p = settle q ->
  s_iss p = s_iss q /\ s_sub p = s_sub q /\ s_jwks p = s_jwks q /\ s_metadata p = s_metadata q /\
  s_policy p = s_policy q /\ s_constraints p = s_constraints q /\ s_hints p = s_hints q.
Proof. unfold settle. intros [=]. auto 10. Qed.

Lemma settle_exp p q : settle p = settle q -> s_exp p = None -> s_exp q = None.
Proof. unfold settle. intros H Hp. injection H as _ _ He _ _ _ _ _. rewrite Hp in He. destruct (s_exp q); [discriminate|reflexivity]. Qed.

Lemma tk_jws t k p : tk t = tk (TJws k p) -> exists q, t = TJws k q /\ settle q = settle p.
Proof. destruct t as [|k' q]; cbn; [discriminate|]. intros H. assert (k' = k) as -> by congruence. exists q. split; [reflexivity|congruence]. Qed.

Lemma tmap_chains A B (f : A -> B) : forall t, tree2chains (tmap f t) = map (map f) (tree2chains t).
Proof.
  fix IH 1. intros [bs]. cbn [tmap tree2chains]. rewrite flat_map_concat_map, map_map, flat_map_concat_map.
  rewrite concat_map, map_map. f_equal. induction bs as [|[a b] bs IHb]; [reflexivity|]. cbn [map]. f_equal; [|exact IHb].
  cbn [fst snd]. destruct b as [[v u]|]; [|reflexivity]. specialize (IH u). destruct u as [us]. cbn [tmap] in *.
  destruct us as [|[x y] us]; [reflexivity|]. cbn [map]. cbn [map] in IH. rewrite IH, !map_map. apply map_ext.
  intros l. rewrite map_app. reflexivity.
Qed.

Lemma dset_map A B (f : A -> B) k v (d : dict A) :
  map (fun b => (fst b, f (snd b))) (dset k v d) = dset k (f v) (map (fun b => (fst b, f (snd b))) d).
Proof.
  induction d as [|[x y] d IH]; [reflexivity|]. cbn [dset map fst snd]. destruct (String.eqb k x); cbn [map fst snd]; [reflexivity|].
  rewrite IH. reflexivity.
Qed.

Lemma tmap_T A B (f : A -> B) bs : tmap f (T bs) = T (map (fun b => (fst b, bmap f (snd b))) bs).
Proof. cbn [tmap]. f_equal. Qed.

Section Motion.
Context (E : cenv) (N0 : request -> response) (n0 : nat).
Notation E0 := (freeze N0 E).
Context (HA : forall n q, rk (e_net E n q) = rk (N0 q) \/ (failed (e_net E n q) /\ e_net E n q <> N0 q))
        (HT : forall id n, N0 (QDoc (e_wk E id)) <> R404 -> e_tenant E id <> e_wk E id -> e_net E n (QDoc (e_wk E id)) = R404 ->
              N0 (QDoc (e_tenant E id)) = R404)
        (HD : forall n q k p, e_net E n q = RText (Some (TJws k p)) -> s_exp p <> None)
        (HD0 : forall q k p, N0 q = RText (Some (TJws k p)) -> s_exp p <> None)
        (HP : forall k p, lib_picks (e_lib E) (TJws k p) k = true)
        (HV : forall n u k p, e_net E n (QDoc u) = RText (Some (TJws k p)) -> lib_valid (e_lib E) (e_clock E (S n)) p = true)
        (HV0 : forall u k p, N0 (QDoc u) = RText (Some (TJws k p)) -> lib_valid (e_lib E) (e_clock E 0) p = true)
        (HC : forall id t p hints a, pverified E0 id = Ok (t, p) -> s_hints p = Some hints -> In a hints -> clean a).

(** a configuration that was handed out has ended *)
Definition aged (N : nat) : Prop :=
  exists n m u k p z, n0 <= n /\ n < m /\ m <= N /\ e_net E n (QDoc u) = RText (Some (TJws k p)) /\
    s_exp p = Some z /\ (z - e_delta E <= e_clock E m)%Z.

Lemma aged_more N N' : N <= N' -> aged N -> aged N'.
Proof. intros H (n & m & u & k & p & z & H1 & H2 & H3 & H4). exists n, m, u, k, p, z. repeat (split; [lia|]). exact H4. Qed.

Definition good_entry (N : nat) (id : string) (e : centry) : Prop :=
  exists n u k p p0 z, n0 <= n /\ n < N /\ e_net E n (QDoc u) = RText (Some (TJws k p)) /\ s_exp p = Some z /\
    e = mkEntry p (Some (TJws k p)) CDict /\ pverified E0 id = Ok (TJws k p0, p0) /\ settle p = settle p0.

Definition good_pair (s : cstate) (a e : string) (v : esval) : Prop :=
  exists k p p0 z, v = ESTok (TJws k p) /\ s_exp p = Some z /\ dget (time_key a e) (st_es s) = Some (ESExp z) /\
    pstatement E0 a e = Ok (Some (ESTok (TJws k p0))) /\ settle p = settle p0.

Definition backed (s : cstate) (a : string) : Prop := (exists c, dget a (st_cfg s) = Some c) \/ aged (st_tick s).

Definition J (s : cstate) : Prop :=
  n0 <= st_tick s /\
  (forall id e, dget id (st_cfg s) = Some e -> good_entry (st_tick s) id e) /\
  (forall a e v, clean a -> clean e -> dget (cache_key a e) (st_es s) = Some v -> good_pair s a e v /\ backed s a).

Lemma J_later s tick : st_tick s <= tick -> J s -> J (mkState (st_cfg s) (st_es s) tick).
Proof.
  intros Ht (J0 & J1 & J2). split; [cbn; lia|]. split.
  - intros id e H. destruct (J1 id e H) as (n & u & k & p & p0 & z & H1 & H2 & H3). exists n, u, k, p, p0, z.
    split; [exact H1|]. split; [cbn; lia|exact H3].
  - intros a e v Ha He H. destruct (J2 a e v Ha He H) as [G B]. split; [exact G|].
    destruct B as [B|B]; [left; exact B|right]. exact (aged_more _ _ Ht B).
Qed.

(** a request failed *)
Definition down (n n' : nat) : Prop := exists i q, n <= i /\ i < n' /\ failed (e_net E i q) /\ e_net E i q <> N0 q.

Lemma down_more n n' m m' : m <= n -> n' <= m' -> down n n' -> down m m'.
Proof. intros H1 H2 (i & q & H3 & H4 & H5). exists i, q. split; [lia|]. split; [lia|exact H5]. Qed.

Definition gave_up {A} (n n' : nat) (r : res A) : Prop := down n n' /\ exists x, net_error x /\ r = Err x.

(** ** Running *)
Definition runs {A B} (m : M cstate A) (s : cstate) (g : A -> B) (r0 : res A) (Post : cstate -> A -> Prop) : Prop :=
  match m s with
  | (s1, r) => st_tick s <= st_tick s1 /\ J s1 /\
      ((aged (st_tick s1) /\ r = Err TypeError) \/ gave_up (st_tick s) (st_tick s1) r \/
       (rmap g r = rmap g r0 /\ forall x, r = Ok x -> Post s1 x))
  end.

Lemma runs_bind A B C D (m : M cstate A) (f : A -> M cstate C) s (g : A -> B) (g' : C -> D) r0 f0 P Q :
  runs m s g r0 P ->
  (forall s1 x x0, st_tick s <= st_tick s1 -> J s1 -> P s1 x -> r0 = Ok x0 -> g x = g x0 -> runs (f x) s1 g' (f0 x0) Q) ->
  runs (mbind m f) s g' (bind r0 f0) Q.
Proof.
  unfold runs, mbind. intros H Hf. destruct (m s) as [s1 [x|e]]; destruct H as (H1 & H2 & H3).
  - destruct H3 as [[_ H3]|[(_ & x1 & _ & H3)|[H3 H4]]]; [discriminate|discriminate|]. destruct r0 as [x0|e]; [|discriminate].
    cbn [rmap] in H3. injection H3 as H3. specialize (Hf s1 x x0 H1 H2 (H4 x eq_refl) eq_refl H3).
    cbn [bind]. destruct (f x s1) as [s2 r]. destruct Hf as (F1 & F2 & F3). split; [lia|]. split; [exact F2|].
    destruct F3 as [F3|[(F3 & F4)|F3]]; [left; exact F3| |right; right; exact F3].
    right. left. split; [apply (down_more (st_tick s1) (st_tick s2)); [lia|lia|exact F3]|exact F4].
  - split; [exact H1|]. split; [exact H2|]. destruct H3 as [[H3 H4]|[(H3 & x1 & H4 & H5)|[H3 _]]].
    + left. split; [exact H3|]. injection H4 as ->. reflexivity.
    + right. left. split; [exact H3|]. injection H5 as ->. eauto.
    + right. right. destruct r0 as [x0|e0]; [discriminate|]. cbn in H3. injection H3 as ->. split; [reflexivity|discriminate].
Qed.

Lemma runs_step A C D (m : M cstate A) (f : A -> M cstate C) s s1 x (g' : C -> D) r0 Q :
  m s = (s1, Ok x) -> st_tick s <= st_tick s1 -> runs (f x) s1 g' r0 Q -> runs (mbind m f) s g' r0 Q.
Proof.
  unfold runs, mbind. intros -> Ht H. destruct (f x s1) as [s2 r]. destruct H as (F1 & F2 & F3). split; [lia|]. split; [exact F2|].
  destruct F3 as [F3|[(F3 & F4)|F3]]; [left; exact F3| |right; right; exact F3].
  right. left. split; [apply (down_more (st_tick s1) (st_tick s2)); [lia|lia|exact F3]|exact F4].
Qed.

Lemma runs_ret A B (a a0 : A) s (g : A -> B) (P : cstate -> A -> Prop) : J s -> g a = g a0 -> P s a -> runs (ret a) s g (Ok a0) P.
Proof.
  intros Hs Hg Hp. unfold runs, ret. split; [lia|]. split; [exact Hs|]. right. right. cbn. rewrite Hg. split; [reflexivity|].
  intros x [= <-]. exact Hp.
Qed.

Lemma runs_raise A B e s (g : A -> B) P : J s -> runs (raise e) s g (Err e) P.
Proof. intros Hs. unfold runs, raise. split; [lia|]. split; [exact Hs|]. right. right. split; [reflexivity|discriminate]. Qed.

Lemma runs_post A B (m : M cstate A) s (g : A -> B) r0 (P Q : cstate -> A -> Prop) :
  runs m s g r0 P -> (forall s1 x, P s1 x -> Q s1 x) -> runs m s g r0 Q.
Proof.
  unfold runs. destruct (m s) as [s1 r]. intros (H1 & H2 & H3) HPQ. split; [exact H1|]. split; [exact H2|].
  destruct H3 as [H3|[H3|[H3 H4]]]; [left; exact H3|right; left; exact H3|right; right; split; [exact H3|]]. intros x Hx. apply HPQ, H4, Hx.
Qed.

(** ** Documents *)
Definition read (r : response) : res (option token) :=
  match r with RText t => Ok t | R404 => Err MissingPage | RStatus => Err FailedConfigurationRetrieval | RNoConnection => Err ConnectionError end.

Lemma pdoc_alike n q : rk (e_net E n q) = rk (N0 q) -> rmap (option_map tk) (read (e_net E n q)) = rmap (option_map tk) (pdoc E0 q).
Proof. unfold pdoc, read. cbn [e_net freeze]. intros H. destruct (e_net E n q), (N0 q); cbn in H |- *; try discriminate; congruence. Qed.

Lemma read_failed r : failed r -> exists x, net_error x /\ read r = Err x.
Proof. intros [->|[->| ->]]; cbn; unfold net_error; eauto 10. Qed.

(** the answer to a request made before [N] *)
Definition came (q : request -> Prop) (s : cstate) (t : option token) : Prop :=
  forall k p, t = Some (TJws k p) -> exists n u, n0 <= n /\ S n = st_tick s /\ q u /\ e_net E n u = RText (Some (TJws k p)).

Lemma came_document q s t : n0 <= st_tick s -> read (e_net E (st_tick s) q) = Ok t ->
  came (fun u => u = q) (mkState (st_cfg s) (st_es s) (S (st_tick s))) t.
Proof.
  intros Hs Ht k p ->. exists (st_tick s), q. split; [exact Hs|]. split; [reflexivity|].
  split; [reflexivity|]. unfold read in Ht. destruct (e_net E (st_tick s) q); try discriminate. congruence.
Qed.

Lemma r_get_document q s : J s -> runs (get_document E q) s (option_map tk) (pdoc E0 q) (came (fun u => u = q)).
Proof.
  intros Hs. unfold runs, get_document. fold (read (e_net E (st_tick s) q)). cbn [st_tick]. split; [lia|].
  split; [apply (J_later s); [lia|exact Hs]|]. right. destruct (HA (st_tick s) q) as [A|[B1 B2]].
  - right. split; [apply pdoc_alike, A|]. intros t Ht. apply came_document; [exact (proj1 Hs)|exact Ht].
  - left. destruct (read_failed _ B1) as (x & X1 & X2). split; [|exists x; auto].
    exists (st_tick s), q. split; [lia|]. split; [lia|auto].
Qed.

Definition is_doc (u : request) : Prop := exists x, u = QDoc x.

Lemma r_get_entity_configuration id s : J s ->
  runs (get_entity_configuration E id) s (option_map tk) (pconf E0 id) (came is_doc).
Proof.
  intros Hs. unfold get_entity_configuration, pconf. cbn [e_wk e_tenant freeze].
  assert (Came : forall q s t, came (fun u => u = QDoc q) s t -> came is_doc s t).
  { intros q s' t H' k p Ht. destruct (H' k p Ht) as (n & u & A1 & A2 & -> & A3). exists n, (QDoc q).
    split; [exact A1|]. split; [exact A2|]. split; [exists q; reflexivity|exact A3]. }
  set (s1 := mkState (st_cfg s) (st_es s) (S (st_tick s))).
  assert (H1 : J s1) by (apply (J_later s); [lia|exact Hs]).
  assert (G0 : get_document E (QDoc (e_wk E id)) s = (s1, read (e_net E (st_tick s) (QDoc (e_wk E id))))) by reflexivity.
  unfold runs. rewrite G0. clear G0. destruct (HA (st_tick s) (QDoc (e_wk E id))) as [A|[B1 B2]].
  - assert (P := pdoc_alike _ _ A). destruct (read (e_net E (st_tick s) (QDoc (e_wk E id)))) as [t|x] eqn:Er.
    + split; [cbn; lia|]. split; [exact H1|]. right. right.
      destruct (pdoc E0 (QDoc (e_wk E id))) as [t0|e0]; [|discriminate]. split; [exact P|].
      intros y [= <-]. eapply Came, came_document; [exact (proj1 Hs)|exact Er].
    + destruct (pdoc E0 (QDoc (e_wk E id))) as [t0|e0]; [discriminate|]. cbn in P. injection P as <-.
      destruct x; try (split; [cbn; lia|]; split; [exact H1|]; right; right; split; [reflexivity|discriminate]).
      destruct (String.eqb (e_tenant E id) (e_wk E id)).
      * split; [cbn; lia|]. split; [exact H1|]. right. right. split; [reflexivity|discriminate].
      * assert (G := r_get_document (QDoc (e_tenant E id)) s1 H1). unfold runs in G.
        destruct (get_document E (QDoc (e_tenant E id)) s1) as [s2 r2]. destruct G as (G1 & G2 & G3). cbn [st_tick s1] in G1, G3.
        split; [lia|]. split; [exact G2|].
        destruct G3 as [G3|[(G3 & G4)|[G3 G4]]]; [left; exact G3|right; left|right; right; split; [exact G3|]].
        -- split; [apply (down_more (S (st_tick s)) (st_tick s2)); [lia|lia|exact G3]|exact G4].
        -- intros y Hy. eapply Came, G4, Hy.
  - assert (Dn : forall n, S (st_tick s) <= n -> down (st_tick s) n).
    { intros n Hn. exists (st_tick s), (QDoc (e_wk E id)). split; [lia|]. split; [lia|auto]. }
    assert (Out : forall x, net_error x -> gave_up (A := option token) (st_tick s) (st_tick s1) (Err x)).
    { intros x Hx. split; [apply Dn; cbn; lia|eauto]. }
    destruct B1 as [B1|[B1|B1]]; rewrite B1; cbn [read];
      try (split; [cbn; lia|]; split; [exact H1|]; right; left; apply Out; unfold net_error; auto; fail).
    destruct (String.eqb_spec (e_tenant E id) (e_wk E id)) as [Et|Et].
    { split; [cbn; lia|]. split; [exact H1|]. right. left. apply Out. unfold net_error. auto. }
    assert (T0 : N0 (QDoc (e_tenant E id)) = R404) by (apply (HT id (st_tick s)); congruence).
    unfold get_document. cbn [st_cfg st_es st_tick s1]. fold (read (e_net E (S (st_tick s)) (QDoc (e_tenant E id)))).
    split; [lia|]. split; [apply (J_later s1); [cbn; lia|exact H1]|]. right. left. split; [apply Dn; lia|].
    destruct (HA (S (st_tick s)) (QDoc (e_tenant E id))) as [A|[B3 _]]; [|exact (read_failed _ B3)].
    rewrite T0 in A. destruct (e_net E (S (st_tick s)) (QDoc (e_tenant E id))); try discriminate A. exists MissingPage.
    split; [left; reflexivity|reflexivity].
Qed.

Lemma picked k p ks : kmem k (filter (lib_picks (e_lib E) (TJws k p)) ks) = kmem k ks.
Proof.
  unfold kmem. induction ks as [|x ks IH]; [reflexivity|]. cbn [filter existsb].
  destruct (lib_picks (e_lib E) (TJws k p) x) eqn:Ex; cbn [existsb]; [rewrite IH; reflexivity|].
  destruct (Nat.eqb_spec k x) as [<-|N]; [rewrite HP in Ex; discriminate|exact IH].
Qed.

Definition tpk (x : token * stmt) : token * stmt := (tk (fst x), settle (snd x)).

(** what the check gives is what was checked *)
Definition checked (s : cstate) (x : token * stmt) : Prop :=
  exists n u k p, x = (TJws k p, p) /\ n0 <= n /\ S n = st_tick s /\ e_net E n (QDoc u) = RText (Some (TJws k p)).

Lemma doc_at_0 id t : pconf E0 id = Ok (Some t) -> exists u, N0 (QDoc u) = RText (Some t).
Proof.
  unfold pconf, pdoc. cbn [e_net e_wk e_tenant freeze].
  destruct (N0 (QDoc (e_wk E id))) as [t'| | |] eqn:E1; try discriminate.
  - intros [= ->]. eauto.
  - destruct (String.eqb _ _); [discriminate|]. destruct (N0 (QDoc (e_tenant E id))) eqn:E2; try discriminate.
    intros [= ->]. eauto.
Qed.

Lemma r_open id t t0 s : J s -> pconf E0 id = Ok t0 -> option_map tk t = option_map tk t0 -> came is_doc s t ->
  runs (open_self_signed E t) s tpk (verify_self_signed E0 (e_clock E 0) t0) checked.
Proof.
  intros Hs H0 Ht Hc. unfold runs, open_self_signed. split; [lia|]. split; [exact Hs|]. right. right.
  unfold verify_self_signed. cbn [e_lib freeze]. destruct t as [[|k p]|], t0 as [[|k0 p0]|]; cbn in Ht; try discriminate Ht;
    try (split; [reflexivity|discriminate]).
  assert (k = k0) as <- by congruence. assert (Hp : settle p = settle p0) by congruence.
  destruct (settle_fields _ _ Hp) as (_ & _ & Hj & _). rewrite Hj.
  destruct (s_jwks p0) as [ks|]; [|split; [reflexivity|discriminate]]. rewrite !picked.
  destruct (kmem k ks); [|split; [reflexivity|discriminate]].
  destruct (Hc k p eq_refl) as (n & u & C1 & C2 & (x & ->) & C3). rewrite <- C2, (HV _ _ _ _ C3).
  destruct (doc_at_0 _ _ H0) as (u0 & D). rewrite (HV0 _ _ _ D). cbn [rmap]. unfold tpk. cbn [fst snd tk]. rewrite Hp.
  split; [reflexivity|]. intros y [= <-]. exists n, x, k, p. auto.
Qed.

Lemma endpoint_settle p p0 : settle p = settle p0 -> get_endpoint p = get_endpoint p0.
Proof. intros H. destruct (settle_fields _ _ H) as (_ & _ & _ & Hm & _). unfold get_endpoint. rewrite Hm. reflexivity. Qed.

(** ** The caches *)
Lemma r_cfg_getitem id s : J s ->
  (exists e, cfg_getitem E id s = (s, Ok (Some e)) /\ dget id (st_cfg s) = Some e) \/
  (cfg_getitem E id s = (s, Ok None) /\ dget id (st_cfg s) = None) \/
  (exists s1, cfg_getitem E id s = (s1, Ok None) /\ st_tick s1 = st_tick s /\ J s1 /\ aged (st_tick s) /\
     exists e, dget id (st_cfg s) = Some e).
Proof.
  intros (J0 & J1 & J2). unfold cfg_getitem, cache_getitem. destruct (dget id (st_cfg s)) as [e|] eqn:Ed.
  2:{ right. left. destruct s; auto. }
  destruct (J1 id e Ed) as (n & u & k & p & p0 & z & H1 & H2 & H3 & H4 & -> & H6 & H7). cbn [ce_class ce_stmt].
  rewrite H4. destruct (Z.ltb_spec (e_clock E (st_tick s)) (z - e_delta E)) as [Hz|Hz].
  { left. exists (mkEntry p (Some (TJws k p)) CDict). destruct s; auto. }
  right. right. assert (AG : aged (st_tick s)).
  { exists n, (st_tick s), u, k, p, z. repeat (split; [assumption || lia|]). lia. }
  eexists. split; [reflexivity|]. split; [reflexivity|]. split; [|split; [exact AG|eauto]].
  split; [exact J0|]. split.
  - intros i e H. cbn [st_cfg] in H. destruct (String.eqb_spec i id) as [->|N].
    + rewrite dget_ddel_same in H. discriminate.
    + rewrite dget_ddel_other in H by exact N. exact (J1 i e H).
  - intros a e v Ha He H. destruct (J2 a e v Ha He H) as [G B]. split; [exact G|].
    destruct B as [(c & B)|B]; [|right; exact B]. destruct (String.eqb_spec a id) as [->|N]; [right; exact AG|].
    left. exists c. cbn [st_cfg]. rewrite dget_ddel_other by exact N. exact B.
Qed.

Lemma J_cfg_set s id n u k p p0 : J s -> n0 <= n -> n < st_tick s -> e_net E n (QDoc u) = RText (Some (TJws k p)) ->
  pverified E0 id = Ok (TJws k p0, p0) -> settle p = settle p0 ->
  J (mkState (dset id (mkEntry p (Some (TJws k p)) CDict) (st_cfg s)) (st_es s) (st_tick s)).
Proof.
  intros (J0 & J1 & J2) H1 H2 H3 H4 H5. split; [exact J0|]. split.
  - intros i e H. cbn [st_cfg] in H. rewrite dget_dset in H. destruct (String.eqb_spec i id) as [->|N]; [|exact (J1 i e H)].
    injection H as <-. destruct (s_exp p) as [z|] eqn:Ez; [|exfalso; exact (HD _ _ _ _ H3 Ez)].
    exists n, u, k, p, p0, z. auto 10.
  - intros a e v Ha He H. destruct (J2 a e v Ha He H) as [G B]. split; [exact G|].
    destruct B as [(c & B)|B]; [|right; exact B]. left. cbn [st_cfg]. rewrite dget_dset. destruct (String.eqb a id); eauto.
Qed.

Lemma pverified_at id t0 x0 : pconf E0 id = Ok t0 -> verify_self_signed E0 (e_clock E 0) t0 = Ok x0 -> pverified E0 id = Ok x0.
Proof. intros H1 H2. unfold pverified. rewrite H1. exact H2. Qed.

Definition held (id : string) (s : cstate) : Prop := exists c, dget id (st_cfg s) = Some c.

Lemma r_fetch_endpoint id s : J s ->
  runs (get_federation_fetch_endpoint E id) s (fun x => x) (pendpoint E0 id) (fun s1 _ => held id s1).
Proof.
  intros Hs.
  assert (Fetch : forall s, J s -> runs (do signed <- get_entity_configuration E id in
      do tp <- open_self_signed E signed in do ep' <- lift (get_endpoint (snd tp)) in
      do _ <- cfg_set id (mkEntry (snd tp) (Some (fst tp)) CDict) in ret ep') s (fun x => x) (pendpoint E0 id) (fun s1 _ => held id s1)).
  { clear s Hs. intros s Hs. unfold pendpoint, pverified.
    assert (Assoc : forall A B C (r : res A) (f : A -> res B) (g : B -> res C), bind (bind r f) g = bind r (fun x => bind (f x) g)) by (intros A B C [a|e] f g; reflexivity).
    rewrite Assoc. clear Assoc.
    eapply runs_bind; [apply r_get_entity_configuration, Hs|]. intros s1 t t0 Ht1 H1 C1 P0 Etk.
    eapply runs_bind; [apply (r_open id t t0 s1 H1 P0 Etk C1)|]. intros s2 x x0 Ht2 H2 C2 V0 Ex.
    destruct C2 as (n & u & k & p & -> & N1 & N2 & N3). destruct x0 as [tok0 p0]. unfold tpk in Ex. cbn [fst snd tk] in Ex.
    assert (Hp : settle p = settle p0) by congruence.
    assert (Hv : pverified E0 id = Ok (tok0, p0)) by (eapply pverified_at; eassumption).
    assert (tok0 = TJws k p0) as ->.
    { apply pverified_inv in Hv. destruct Hv as [_ (k' & keys & -> & _)]. cbn in Ex. congruence. }
    cbn [fst snd]. rewrite (endpoint_settle p p0 Hp). destruct (get_endpoint p0) as [ep|e] eqn:Ee.
    2:{ unfold runs, mbind, lift. split; [lia|]. split; [exact H2|]. right. right. split; [reflexivity|discriminate]. }
    unfold runs, mbind, lift, cfg_set, modify, ret, cache_set. cbn [st_tick].
    split; [lia|]. split; [apply (J_cfg_set s2 id n u k p p0 H2 N1); [lia|exact N3|exact Hv|exact Hp]|]. right. right.
    split; [reflexivity|]. intros y _. exists (mkEntry p (Some (TJws k p)) CDict). cbn [st_cfg]. apply dget_dset_same. }
  unfold get_federation_fetch_endpoint. destruct (r_cfg_getitem id s Hs) as [(e & G & Ge)|[[G Ge]|(s1 & G & Gt & Gj & _)]].
  - eapply runs_step; [exact G|lia|]. destruct (proj1 (proj2 Hs) id e Ge) as (n & u & k & p & p0 & z & _ & _ & _ & _ & -> & Hv & Hp).
    cbn [ce_stmt]. assert (Hpe : pendpoint E0 id = get_endpoint p) by (unfold pendpoint; rewrite Hv; symmetry; apply endpoint_settle, Hp).
    destruct (get_endpoint p) as [ep|x] eqn:Eg.
    + eapply runs_step; [reflexivity|lia|]. destruct (String.eqb_spec ep "") as [->|N]; cbn [negb].
      * apply Fetch, Hs.
      * rewrite Hpe. apply runs_ret; [exact Hs|reflexivity|]. eexists. exact Ge.
    + rewrite Hpe. unfold runs, mbind, lift. split; [lia|]. split; [exact Hs|]. right. right. split; [reflexivity|discriminate].
  - eapply runs_step; [exact G|lia|]. eapply runs_step; [reflexivity|lia|]. cbn [String.eqb negb]. apply Fetch, Hs.
  - eapply runs_step; [exact G|lia|]. eapply runs_step; [reflexivity|lia|]. cbn [String.eqb negb]. apply Fetch, Gj.
Qed.

Definition tok_backed (a : string) (s : cstate) (x : option esval) : Prop :=
  forall v, x = Some v -> es_truthy v = true /\ backed s a.

Lemma J_without s e a : clean a -> clean e -> J s -> J (without e a s).
Proof.
  intros Ha He (J0 & J1 & J2). split; [exact J0|]. split; [exact J1|].
  intros a' e' v Ha' He' H. unfold without in *. cbn [st_es] in H.
  rewrite dget_ddel_other in H by (apply key_kinds; assumption).
  destruct (String.eqb_spec (cache_key a' e') (cache_key a e)) as [X|N]; [rewrite X, dget_ddel_same in H; discriminate|].
  rewrite dget_ddel_other in H by exact N. destruct (J2 a' e' v Ha' He' H) as [(k & p & p0 & z & G1 & G2 & G3 & G4) B].
  split; [|exact B]. exists k, p, p0, z. split; [exact G1|]. split; [exact G2|]. split; [|exact G4]. cbn [st_es].
  rewrite dget_ddel_other.
  - rewrite dget_ddel_other; [exact G3|]. intros X. symmetry in X. revert X. apply key_kinds; assumption.
  - intros X. apply time_key_inj in X; [|assumption..]. destruct X as [-> ->]. apply N. reflexivity.
Qed.

Lemma r_statement e a s : clean e -> clean a -> J s ->
  runs (get_entity_statement E e a) s (option_map esk) (pstatement E0 a e) (tok_backed a).
Proof.
  intros He Ha.
  assert (Miss : forall s, J s -> dget (cache_key a e) (st_es s) = None ->
                 runs (get_entity_statement E e a) s (option_map esk) (pstatement E0 a e) (tok_backed a)).
  { clear s. intros s Hs Ek. unfold get_entity_statement.
    assert (G0 : es_getitem E (cache_key a e) s = (s, Ok None)).
    { unfold es_getitem, cache_getitem. rewrite Ek. destruct s; reflexivity. }
    eapply runs_step; [exact G0|lia|]. eapply runs_step; [reflexivity|lia|]. unfold pstatement.
    eapply runs_bind; [apply r_fetch_endpoint, Hs|]. intros s1 ep ep0 Ht1 H1 Hh P0 Eep. cbv beta in Eep. subst ep0.
    destruct (String.eqb_spec ep "") as [->|N].
    { apply runs_ret; [exact H1|reflexivity|]. intros v X. discriminate X. }
    assert (Hd := r_get_document (QFetch ep a e) s1 H1).
    unfold runs in Hd. unfold runs, mbind at 1. 
    remember (get_document E (QFetch ep a e) s1) as out eqn:Eo.
    assert (Eo2 : st_cfg (fst out) = st_cfg s1) by (rewrite Eo; reflexivity).
    destruct out as [s2 r]. cbn [fst] in Eo2. destruct Hd as (D1 & D2 & D3). clear Eo.
    destruct r as [t|x].
    2:{ split; [lia|]. split; [exact D2|]. destruct D3 as [[D3 D4]|[(D3 & x1 & D4 & D5)|[D3 _]]]; [left; split; [exact D3|injection D4 as ->; reflexivity]| |].
        { right. left. injection D5 as ->. split; [apply (down_more (st_tick s1) (st_tick s2)); [lia|lia|exact D3]|eauto]. }
        right. right. destruct (pdoc E0 (QFetch ep a e)) as [t0|x0]; [discriminate|]. cbn in D3. injection D3 as ->. split; [reflexivity|discriminate]. }
    destruct D3 as [[_ D3]|[(_ & x1 & _ & D3)|[D3 D4]]]; [discriminate|discriminate|].
    destruct (pdoc E0 (QFetch ep a e)) as [t0|x0] eqn:Ep; [|discriminate]. cbn in D3. injection D3 as D3. cbn [bind].
    destruct t as [[|k p]|], t0 as [[|k0 p0]|]; cbn in D3; try discriminate D3;
      try (unfold mbind, lift; cbn; split; [lia|]; split; [exact D2|]; right; right; split; [reflexivity|discriminate]).
    assert (k = k0) as <- by congruence. assert (Hp : settle p = settle p0) by congruence. clear D3.
    destruct (D4 _ eq_refl k p eq_refl) as (n & u & N1 & N2 & -> & N3).
    destruct (s_exp p) as [z|] eqn:Ez; [|exfalso; exact (HD _ _ _ _ N3 Ez)].
    assert (Hz0 : exists z0, s_exp p0 = Some z0).
    { unfold pdoc in Ep. cbn [e_net freeze] in Ep. destruct (N0 (QFetch ep a e)) as [t| | |] eqn:En; try discriminate.
      injection Ep as ->. destruct (s_exp p0) as [z0|] eqn:Ez0; [eauto|exfalso; exact (HD0 _ _ _ En Ez0)]. }
    destruct Hz0 as (z0 & Ez0).
    assert (PS : pstatement E0 a e = Ok (Some (ESTok (TJws k p0)))).
    { unfold pstatement. rewrite P0. cbn [bind]. apply String.eqb_neq in N. rewrite N, Ep. cbn [bind unverified].
      rewrite Ez0. reflexivity. }
    unfold mbind, lift, unverified, es_set, modify, ret, cache_set. cbn beta iota zeta. rewrite Ez. cbn [st_cfg st_es st_tick bind]. rewrite Ez0.
    set (es' := dset (time_key a e) (ESExp z) (dset (cache_key a e) (ESTok (TJws k p)) (st_es s2))).
    assert (G1 : dget (cache_key a e) es' = Some (ESTok (TJws k p))).
    { unfold es'. rewrite dget_dset_other by apply key_kinds_same. apply dget_dset_same. }
    assert (G2 : dget (time_key a e) es' = Some (ESExp z)) by apply dget_dset_same.
    assert (Gother : forall a' e', clean a' -> (a', e') <> (a, e) ->
       dget (cache_key a' e') es' = dget (cache_key a' e') (st_es s2) /\
       dget (time_key a' e') es' = dget (time_key a' e') (st_es s2)).
    { intros a' e' Ha' N'. unfold es'. split.
      - rewrite dget_dset_other by (apply key_kinds; assumption).
        rewrite dget_dset_other; [reflexivity|]. intros X. apply cache_key_inj in X; [|assumption..].
        destruct X as [-> ->]. apply N'. reflexivity.
      - rewrite dget_dset_other.
        + rewrite dget_dset_other; [reflexivity|]. intros X. symmetry in X. revert X. apply key_kinds; assumption.
        + intros X. apply time_key_inj in X; [|assumption..]. destruct X as [-> ->]. apply N'. reflexivity. }
    assert (Hdec : forall a' e', (a', e') = (a, e) \/ (a', e') <> (a, e)).
    { intros a' e'. destruct (string_dec a' a) as [->|N4]; [|right; congruence].
      destruct (string_dec e' e) as [->|N5]; [left; reflexivity|right; congruence]. }
    assert (Bk : held a s2) by (unfold held; rewrite Eo2; exact Hh).
    split; [lia|]. split.
    { destruct D2 as (J0 & J1 & J2). split; [exact J0|]. split; [exact J1|]. cbn [st_es st_cfg st_tick].
      intros a' e' v Ha' He' H. destruct (Hdec a' e') as [[= -> ->]|N'].
      - rewrite G1 in H. injection H as <-. split; [|left; exact Bk]. exists k, p, p0, z. auto.
      - destruct (Gother a' e' Ha' N') as [O1 O2]. rewrite O1 in H. destruct (J2 a' e' v Ha' He' H) as [G B]. split; [|exact B].
        destruct G as (k' & p' & p0' & z' & G3 & G4 & G5 & G6). exists k', p', p0', z'. split; [exact G3|]. split; [exact G4|].
        split; [cbn [st_es]; rewrite O2; exact G5|exact G6]. }
    right. right. cbn [rmap option_map esk tk]. rewrite Hp. split; [reflexivity|]. intros x [= <-] v [= <-].
    split; [reflexivity|left; exact Bk]. }
  intros Hs. destruct (dget (cache_key a e) (st_es s)) as [v|] eqn:Ek; [|apply Miss; assumption].
  destruct (proj2 (proj2 Hs) a e v Ha He Ek) as [(k & p & p0 & z & -> & Hz & Ht & PS & Hp) B].
  destruct (Z.le_gt_cases (clock_of E s) (z - e_delta E)) as [Hc|Hc].
  - unfold runs. rewrite (es_fresh E e a s (ESTok (TJws k p)) z Ek Ht Hc). split; [lia|]. split; [exact Hs|]. right. right.
    rewrite PS. cbn [rmap option_map esk tk]. rewrite Hp. split; [reflexivity|]. intros x [= <-] v [= <-]. split; [reflexivity|exact B].
  - unfold runs. rewrite (es_stale E e a s (ESTok (TJws k p)) z Ek Ht) by lia.
    change (st_tick s) with (st_tick (without e a s)). apply Miss; [apply J_without; assumption|].
    unfold without. cbn [st_es]. rewrite dget_ddel_other by apply key_kinds_same. apply dget_ddel_same.
Qed.

(** ** The tree *)
Lemma r_branch fuel stop_at entity a s : clean entity -> clean a ->
  (forall t0 p0 p s, J s -> pverified E0 a = Ok (t0, p0) -> settle p = settle p0 ->
     runs (collect_tree E fuel stop_at a (Some p)) s (tmap esk) (ptree E0 fuel stop_at a p0) (fun _ _ => True)) ->
  J s -> runs (collect_branch E (collect_tree E fuel stop_at) entity a) s (bmap esk) (pbranch E0 (ptree E0 fuel stop_at) entity a) (fun _ _ => True).
Proof.
  intros He Ha Hrec Hs. unfold collect_branch, pbranch. cbn [e_anchors freeze].
  destruct (String.eqb entity a && smem entity (e_anchors E)); [apply runs_ret; auto|].
  eapply runs_bind; [apply r_statement; assumption|]. intros s1 x x0 Ht1 H1 Hb PS Ex.
  destruct x as [v|], x0 as [v0|]; try discriminate Ex; [|apply runs_ret; auto].
  destruct (Hb v eq_refl) as [-> B]. cbn in Ex. injection Ex as Ex.
  assert (Hpv : exists t0 p0, pverified E0 a = Ok (t0, p0)).
  { unfold pstatement, pendpoint in PS. destruct (pverified E0 a) as [[t0 p0]|x]; [eauto|discriminate]. }
  destruct Hpv as (t0 & p0 & Hv). rewrite Hv. cbn [bind snd].
  assert (Tail : forall s2 p, J s2 -> settle p = settle p0 ->
    runs (do t <- collect_tree E fuel stop_at a (Some p) in ret (Some (v, t))) s2 (bmap esk)
      (let* t := ptree E0 fuel stop_at a p0 in Ok (Some (v0, t))) (fun _ _ => True)).
  { intros s2 p H2 Hp. eapply runs_bind; [apply (Hrec t0 p0 p s2 H2 Hv Hp)|]. intros s3 tr tr0 _ H3 _ _ Etr.
    apply runs_ret; [exact H3| |exact I]. cbn. rewrite Ex, Etr. reflexivity. }
  assert (Gone : forall s2, J s2 -> aged (st_tick s2) ->
    runs (do t <- collect_tree E fuel stop_at a None in ret (Some (v, t))) s2 (bmap esk)
      (let* t := ptree E0 fuel stop_at a p0 in Ok (Some (v0, t))) (fun _ _ => True)).
  { intros s2 H2 AG. destruct fuel as [|fuel]; [apply runs_raise; exact H2|]. unfold runs, mbind. cbn [collect_tree raise].
    split; [lia|]. split; [exact H2|]. left. auto. }
  destruct (r_cfg_getitem a s1 H1) as [(e & G & Ge)|[[G Ge]|(s2 & G & Gt & Gj & Ga & _)]].
  - eapply runs_step; [exact G|lia|]. destruct (proj1 (proj2 H1) a e Ge) as (n & u & k & p & p0' & z & _ & _ & _ & _ & -> & Hv' & Hp).
    rewrite Hv in Hv'. injection Hv' as -> <-. cbn [option_map ce_stmt]. apply Tail; assumption.
  - eapply runs_step; [exact G|lia|]. cbn [option_map]. apply Gone; [exact H1|]. destruct B as [(c & B)|B]; [congruence|exact B].
  - eapply runs_step; [exact G|lia|]. cbn [option_map]. apply Gone; [exact Gj|]. rewrite Gt. exact Ga.
Qed.

Lemma r_mfold A B C (f : B -> A -> M cstate B) (f0 : B -> A -> res B) (g : B -> C) l :
  (forall x b b0 s, In x l -> J s -> g b = g b0 -> runs (f b x) s g (f0 b0 x) (fun _ _ => True)) ->
  forall b b0 s, J s -> g b = g b0 -> runs (mfold f l b) s g (foldM f0 l b0) (fun _ _ => True).
Proof.
  induction l as [|x l IH]; intros Hf b b0 s Hs Hg; cbn [mfold foldM]; [apply runs_ret; auto|].
  eapply runs_bind; [apply Hf; [left; reflexivity|exact Hs|exact Hg]|]. intros s1 y y0 _ H1 _ _ Ey.
  apply IH; [|exact H1|exact Ey]. intros x' b' b0' s' Hin. apply Hf. right. exact Hin.
Qed.

Lemma r_tree stop_at fuel : forall entity t0 p0 p s, clean entity -> J s -> pverified E0 entity = Ok (t0, p0) -> settle p = settle p0 ->
  runs (collect_tree E fuel stop_at entity (Some p)) s (tmap esk) (ptree E0 fuel stop_at entity p0) (fun _ _ => True).
Proof.
  induction fuel as [|fuel IH]; intros entity t0 p0 p s He Hs Hv Hp; cbn [collect_tree ptree]; [apply runs_raise; exact Hs|].
  destruct (settle_fields _ _ Hp) as (Hi & _ & _ & _ & _ & _ & Hh). rewrite Hi, Hh.
  destruct (s_hints p0) as [hints|] eqn:Eh; [|apply runs_ret; auto].
  destruct (String.eqb (s_iss p0) stop_at); [apply runs_ret; auto|].
  eapply runs_bind.
  - apply (r_mfold _ _ _ _ _ (map (fun b => (fst b, bmap esk (snd b))))); [|exact Hs|reflexivity].
    intros a b b0 s1 Hin H1 Hb. assert (Ha : clean a) by (eapply HC; eassumption).
    eapply runs_bind.
    + apply r_branch; [exact He|exact Ha| |exact H1]. intros t1 p1 p2 s2 H2 Hv' Hp'. exact (IH a t1 p1 p2 s2 Ha H2 Hv' Hp').
    + intros s2 x x0 _ H2 _ _ Ex. apply runs_ret; [exact H2| |exact I]. rewrite !dset_map, Hb, Ex. reflexivity.
  - intros s1 bs bs0 _ H1 _ _ Eb. apply runs_ret; [exact H1| |exact I]. rewrite !tmap_T, Eb. reflexivity.
Qed.

Definition ck (x : option (tree esval * token)) : option (tree esval * token) :=
  match x with None => None | Some (tr, t) => Some (tmap esk tr, tk t) end.

Lemma r_collect fuel stop_at id s : clean id -> J s ->
  runs (collect E fuel stop_at id) s ck (pcollect E0 fuel stop_at id) (fun _ _ => True).
Proof.
  intros Hid Hs. unfold collect. eapply runs_step; [reflexivity|lia|]. unfold cache_get.
  assert (Fetch : runs (do signed <- get_entity_configuration E id in
      match signed with
      | None => ret None
      | Some _ => do tp <- open_self_signed E signed in
                  do _ <- cfg_set id (mkEntry (snd tp) (Some (fst tp)) CDict) in
                  do tr <- collect_tree E fuel stop_at id (Some (snd tp)) in ret (Some (tr, fst tp))
      end) s ck (pcollect E0 fuel stop_at id) (fun _ _ => True)).
  { unfold pcollect. eapply runs_bind; [apply r_get_entity_configuration, Hs|]. intros s1 t t0 Ht1 H1 C1 P0 Etk.
    destruct t as [t|], t0 as [t0|]; try discriminate Etk; [|apply runs_ret; auto].
    eapply runs_bind; [apply (r_open id (Some t) (Some t0) s1 H1 P0 Etk C1)|]. intros s2 x x0 Ht2 H2 C2 V0 Ex.
    destruct C2 as (n & u & k & p & -> & N1 & N2 & N3). destruct x0 as [tok0 p0]. unfold tpk in Ex. cbn [fst snd tk] in Ex.
    assert (Hp : settle p = settle p0) by congruence.
    assert (Hv : pverified E0 id = Ok (tok0, p0)) by (eapply pverified_at; eassumption).
    assert (tok0 = TJws k p0) as ->.
    { assert (Hv2 := Hv). apply pverified_inv in Hv2. destruct Hv2 as [_ (k' & keys & -> & _)]. cbn in Ex. congruence. }
    cbn [fst snd].
    eapply (runs_step _ _ _ _ _ _ _ tt); [reflexivity|cbn; lia|].
    eapply runs_bind.
    - apply (r_tree stop_at fuel id (TJws k p0) p0 p); [exact Hid| |exact Hv|exact Hp].
      apply (J_cfg_set s2 id n u k p p0 H2 N1); [lia|exact N3|exact Hv|exact Hp].
    - intros s3 tr tr0 _ H3 _ _ Etr. apply runs_ret; [exact H3| |exact I]. cbn. rewrite Etr, Hp. reflexivity. }
  destruct (dget id (st_cfg s)) as [e|] eqn:Ed; [|eapply runs_step; [reflexivity|lia|exact Fetch]].
  destruct (proj1 (proj2 Hs) id e Ed) as (n & u & k & p & p0 & z & _ & _ & _ & Hz & -> & Hv & Hp).
  cbn [ce_stmt ce_jws].
  destruct (Z.leb (z + e_delta E) (e_clock E (st_tick s))) eqn:El.
  - eapply runs_step; [unfold mbind, now, lift, too_old; rewrite Hz, El; reflexivity|lia|exact Fetch].
  - eapply runs_step; [unfold mbind, now, lift, too_old; rewrite Hz, El; reflexivity|lia|].
    cbn beta iota. assert (Hv2 := Hv). apply pverified_inv in Hv2. destruct Hv2 as [Hc _].
    assert (Hvs : verify_self_signed E0 (e_clock E 0) (Some (TJws k p0)) = Ok (TJws k p0, p0))
      by (unfold pverified in Hv; rewrite Hc in Hv; exact Hv).
    unfold pcollect. rewrite Hc. cbn [bind]. change (e_clock E0 0) with (e_clock E 0). rewrite Hvs. cbn [bind fst snd].
    eapply runs_bind; [apply (r_tree stop_at fuel id (TJws k p0) p0 p s Hid Hs Hv Hp)|].
    intros s3 tr tr0 _ H3 _ _ Etr. apply runs_ret; [exact H3| |exact I]. cbn. rewrite Etr, Hp. reflexivity.
Qed.

End Motion.

(** ** Verification *)
Definition tck (c : trust_chain) : trust_chain :=
  mkTC (tc_anchor c) (map tk (tc_chain c)) 0 (tc_iss_path c) (map settle (tc_verified c)).

Lemma settle_metadata p : s_metadata (settle p) = s_metadata p.
Proof. reflexivity. Qed.

Lemma check_upper_settle l : forall d acc, check_upper (map settle l) d acc = check_upper l d acc.
Proof.
  induction l as [|s l IH]; intros d acc; [reflexivity|]. cbn [map check_upper].
  change (s_constraints (settle s)) with (s_constraints s).
  destruct (s_constraints s) as [c|]; [|apply IH]. cbv zeta. destruct (Z.ltb _ 0); [reflexivity|].
  destruct (update_naming_constraints c acc) as [a|x]; [|reflexivity]. cbn [bind]. change (s_sub (settle s)) with (s_sub s).
  destruct (name_ok (s_sub s) a) as [[|]|x]; cbn [bind]; [apply IH|reflexivity|reflexivity].
Qed.

Lemma meets_settle c : meets_restrictions (map settle c) = meets_restrictions c.
Proof.
  unfold meets_restrictions. rewrite <- map_rev. destruct (rev c) as [|leaf up]; [reflexivity|]. cbn [map].
  rewrite <- map_rev, check_upper_settle. reflexivity.
Qed.

Section Verify.
Context (L : keyjar_lib) (HP : forall k p, lib_picks L (TJws k p) k = true).

Lemma verify_tokens_near ts : forall ts0 kj n ves ves0 kj' out0,
  map tk ts = map tk ts0 -> map settle ves = map settle ves0 -> verify_tokens L kj n ves0 ts0 = (kj', Ok out0) ->
  exists out, verify_tokens L kj n ves ts = (kj', Ok out) /\ map settle out = map settle out0.
Proof.
  induction ts as [|t ts IH]; intros [|t0 ts0] kj n ves ves0 kj' out0 Ht Hv H; try discriminate Ht.
  { cbn in H |- *. injection H as <- <-. exists ves. auto. }
  cbn [map] in Ht. injection Ht as Ht Hts.
  destruct t0 as [|k p0]; [destruct t; [|discriminate Ht]; cbn [verify_tokens] in H |- *; eapply IH; eassumption|].
  apply tk_jws in Ht. destruct Ht as (p & -> & Hp). cbn [verify_tokens] in H |- *. unfold verify_keys in H |- *.
  destruct (settle_fields _ _ Hp) as (Hi & Hs & Hj & _). rewrite Hi, Hs, Hj.
  destruct (is_nil (filter (lib_picks L (TJws k p0)) (keys_of kj (s_iss p0)))) eqn:En; [discriminate|].
  destruct (kmem k (filter (lib_picks L (TJws k p0)) (keys_of kj (s_iss p0)))) eqn:Ek; [|discriminate].
  assert (Hin : In k (filter (lib_picks L (TJws k p)) (keys_of kj (s_iss p0)))).
  { apply filter_In. split; [|apply HP]. apply kmem_In, filter_In in Ek. apply Ek. }
  assert (N : is_nil (filter (lib_picks L (TJws k p)) (keys_of kj (s_iss p0))) = false).
  { destruct (filter (lib_picks L (TJws k p)) (keys_of kj (s_iss p0))); [destruct Hin|reflexivity]. }
  rewrite N, (proj2 (kmem_In _ _) Hin).
  assert (Hl : length ves = length ves0) by (rewrite <- (map_length settle ves), Hv; apply map_length).
  assert (Hv' : map settle (ves ++ [p]) = map settle (ves0 ++ [p0])) by (rewrite !map_app, Hv; cbn [map]; rewrite Hp; reflexivity).
  destruct (s_jwks p0) as [jwks|]; [eapply IH; eassumption|]. rewrite Hl. destruct (Nat.eqb (length ves0) n); [|discriminate].
  eapply IH; eassumption.
Qed.

Lemma expires_near c : forall c0 z z0 e0, map settle c = map settle c0 -> expires_from z0 c0 = Ok e0 -> exists e, expires_from z c = Ok e.
Proof.
  induction c as [|p c IH]; intros [|p0 c0] z z0 e0 H H0; try discriminate H; [eexists; reflexivity|].
  cbn [map] in H. assert (Hp : settle p = settle p0) by congruence. assert (Hc : map settle c = map settle c0) by congruence.
  cbn [expires_from] in H0 |- *. destruct (s_exp p) as [e|] eqn:Ep.
  - destruct (s_exp p0); [|discriminate]. eapply IH; eassumption.
  - rewrite (settle_exp _ _ Hp Ep) in H0. discriminate.
Qed.

Lemma verifier_near kj ts ts0 kj' o0 : map tk ts = map tk ts0 -> verifier_call L kj ts0 = (kj', Ok o0) ->
  exists o, verifier_call L kj ts = (kj', Ok o) /\ option_map tck o = option_map tck o0.
Proof.
  intros Ht. unfold verifier_call, verify_trust_chain. destruct ts0 as [|t0 ts0]; [discriminate|]. destruct ts as [|t ts]; [discriminate|].
  assert (Ta : trusted_anchor kj t = trusted_anchor kj t0).
  { cbn [map] in Ht. injection Ht as Ht _. destruct t as [|k p], t0 as [|k0 p0]; try discriminate Ht; [reflexivity|]. cbn in Ht |- *.
    assert (Hp : settle p = settle p0) by congruence. rewrite (proj1 (settle_fields _ _ Hp)). reflexivity. }
  rewrite Ta. destruct (trusted_anchor kj t0) as [[|]|x]; [| |discriminate].
  2:{ intros [= <- <-]. exists None. auto. }
  assert (Hl : length (t :: ts) = length (t0 :: ts0)) by (rewrite <- (map_length tk (t :: ts)), Ht; apply map_length).
  rewrite Hl. destruct (verify_tokens L kj (length (t0 :: ts0) - 1) [] (t0 :: ts0)) as [kj1 [ves0|x]] eqn:Ev; [|discriminate].
  destruct (verify_tokens_near (t :: ts) (t0 :: ts0) kj _ [] [] kj1 ves0 Ht eq_refl Ev) as (ves & Ev' & Hv). rewrite Ev'.
  assert (Mr : meets_restrictions ves = meets_restrictions ves0) by (rewrite <- meets_settle, Hv; apply meets_settle).
  destruct ves as [|p ves], ves0 as [|p0 ves0]; try discriminate Hv.
  { cbn. intros [= <- <-]. exists None. auto. }
  cbn [is_nil]. rewrite Mr. destruct (meets_restrictions (p0 :: ves0)) as [[|]|x]; cbn [bind]; [| |discriminate].
  2:{ intros [= <- <-]. exists None. auto. }
  unfold trust_chain_expires_at. intros H. destruct (expires_from (-1) (p0 :: ves0)) as [e0|x] eqn:Ee; [|discriminate].
  destruct (expires_near (p :: ves) (p0 :: ves0) (-1)%Z (-1)%Z e0 Hv Ee) as (e & ->). cbn [bind] in H |- *. injection H as <- <-.
  eexists. split; [reflexivity|]. cbn [option_map]. unfold tck. cbn [tc_anchor tc_chain tc_iss_path tc_verified]. rewrite Ht, Hv.
  assert (Hi : map s_iss (p :: ves) = map s_iss (p0 :: ves0)).
  { assert (X : forall l, map s_iss l = map s_iss (map settle l)) by (intros l; rewrite map_map; reflexivity).
    rewrite X, Hv. symmetry. apply X. }
  rewrite Hi. cbn [map] in Hi. injection Hi as ->  _. reflexivity.
Qed.
End Verify.

Lemma verify_chains_near E E0 chains chains0 leaf leaf0 kj kj' tcs0 :
  (forall k p, lib_picks (e_lib E) (TJws k p) k = true) -> e_lib E0 = e_lib E ->
  map (map tk) chains = map (map tk) chains0 -> tk leaf = tk leaf0 ->
  verify_trust_chains E0 chains0 [leaf0] kj = (kj', Ok tcs0) ->
  exists tcs, verify_trust_chains E chains [leaf] kj = (kj', Ok tcs) /\ map tck tcs = map tck tcs0.
Proof.
  intros HP HL Hc Hleaf. unfold verify_trust_chains.
  cut (forall acc acc0 kj, map tck acc = map tck acc0 ->
    mfold (fun acc c => do tc <- run_verifier E0 (c ++ [leaf0]) in ret (match tc with Some t => acc ++ [t] | None => acc end)) chains0 acc0 kj = (kj', Ok tcs0) ->
    exists tcs, mfold (fun acc c => do tc <- run_verifier E (c ++ [leaf]) in ret (match tc with Some t => acc ++ [t] | None => acc end)) chains acc kj = (kj', Ok tcs) /\
                map tck tcs = map tck tcs0).
  { intros G. apply G. reflexivity. }
  clear kj. revert chains0 Hc. induction chains as [|c chains IH]; intros [|c0 chains0] Hc acc acc0 kj Ha H; try discriminate Hc.
  { cbn in H |- *. injection H as <- <-. exists acc. auto. }
  cbn [map] in Hc. assert (Hc1 : map tk c = map tk c0) by congruence. assert (Hc2 : map (map tk) chains = map (map tk) chains0) by congruence.
  cbn [mfold] in H |- *. unfold mbind at 1 in H. unfold mbind at 1 in H. unfold run_verifier at 1 in H. rewrite HL in H.
  destruct (verifier_call (e_lib E) kj (c0 ++ [leaf0])) as [kj1 [o0|x]] eqn:Ev; [|discriminate].
  destruct (verifier_near (e_lib E) HP kj (c ++ [leaf]) (c0 ++ [leaf0]) kj1 o0) as (o & Eo & Ho); [rewrite !map_app, Hc1; cbn [map]; rewrite Hleaf; reflexivity|exact Ev|].
  unfold mbind at 1. unfold mbind at 1. unfold run_verifier at 1. rewrite Eo. unfold ret at 1. unfold ret at 1 in H.
  eapply IH; [exact Hc2| |exact H]. destruct o as [t|], o0 as [t0|]; try discriminate Ho; [|exact Ha].
  rewrite !map_app, Ha. cbn [map]. cbn in Ho. congruence.
Qed.

(** ** Policies *)
Lemma foldM_map A B C (f : B -> C -> res B) (g : A -> C) l : forall b, foldM f (map g l) b = foldM (fun b a => f b (g a)) l b.
Proof. induction l as [|a l IH]; intros b; [reflexivity|]. cbn [map foldM]. destruct (f b (g a)); cbn [bind]; [apply IH|reflexivity]. Qed.

Lemma gather_settle O c t : gather_policies O (map settle c) t = gather_policies O c t.
Proof. destruct c as [|p c]; [reflexivity|]. cbn [map gather_policies]. rewrite foldM_map. reflexivity. Qed.

Lemma policy_type_settle O front leaf t :
  policy_type O (map settle front) (settle leaf) t = rmap (fun r => (fst r, settle (snd r))) (policy_type O front leaf t).
Proof.
  unfold policy_type. rewrite gather_settle. destruct (gather_policies O front t) as [r|x]; [|reflexivity]. cbn [bind].
  rewrite settle_metadata. destruct (s_metadata leaf) as [m|] eqn:Em; [|reflexivity]. destruct (dget t m) as [md|]; [|reflexivity].
  destruct (apply_policy O md r) as [[md' b]|x]; [|reflexivity]. cbn [bind rmap fst snd]. destruct b; [|reflexivity].
  unfold set_type_metadata. rewrite settle_metadata, Em. reflexivity.
Qed.

Lemma policy_chain_settle O c :
  policy_call_chain O (map settle c) = rmap (fun r => (fst r, map settle (snd r))) (policy_call_chain O c).
Proof.
  unfold policy_call_chain. rewrite <- map_rev. destruct (rev c) as [|leaf up]; [reflexivity|]. cbn [map].
  destruct up as [|p up]; cbn [map is_nil].
  { rewrite settle_metadata. destruct (s_metadata leaf) as [m|]; [|reflexivity]. cbn [bind]. destruct (dindex "" m); reflexivity. }
  change (settle p :: map settle up) with (map settle (p :: up)). rewrite <- map_rev.
  cut (forall front, policy_call O (map settle front) (settle leaf) = rmap (fun r => (fst r, settle (snd r))) (policy_call O front leaf)).
  { intros ->. destruct (policy_call O (rev (p :: up)) leaf) as [r|x]; [|reflexivity]. cbn [rmap bind fst snd]. rewrite map_app. reflexivity. }
  intros front. unfold policy_call. rewrite settle_metadata. destruct (s_metadata leaf) as [m|]; [|reflexivity].
  generalize (@nil (string * option metadata)) as acc. generalize (dkeys m) as ks. clear. intros ks. revert leaf.
  induction ks as [|t ks IH]; intros leaf acc; [reflexivity|]. cbn [foldM fst snd]. rewrite policy_type_settle.
  destruct (policy_type O front leaf t) as [r|x]; [|reflexivity]. cbn [rmap bind fst snd]. apply IH.
Qed.

Definition cck (c : tchain) : tchain := mkTChain (tck (ch_tc c)) (ch_md c).

Lemma apply_near O tc tc0 : tck tc = tck tc0 -> rmap cck (apply_to_chain O tc) = rmap cck (apply_to_chain O tc0).
Proof.
  intros H. assert (Hv : map settle (tc_verified tc) = map settle (tc_verified tc0)) by (unfold tck in H; congruence).
  assert (P := f_equal (policy_call_chain O) Hv). rewrite !policy_chain_settle in P. unfold apply_to_chain.
  destruct (policy_call_chain O (tc_verified tc)) as [r|x], (policy_call_chain O (tc_verified tc0)) as [r0|x0];
    cbn [rmap bind] in P |- *; try discriminate P; [|congruence].
  unfold cck, tck in *. cbn [ch_tc ch_md tc_anchor tc_chain tc_iss_path tc_verified].
  assert (P1 : fst r = fst r0) by congruence. assert (P2 : map settle (snd r) = map settle (snd r0)) by congruence.
  rewrite P1, P2. congruence.
Qed.

Lemma policies_near O tcs : forall tcs0, map tck tcs = map tck tcs0 ->
  rmap (map cck) (apply_policies O tcs) = rmap (map cck) (apply_policies O tcs0).
Proof.
  induction tcs as [|c tcs IH]; intros [|c0 tcs0] H; try discriminate H; [reflexivity|]. cbn [map] in H.
  assert (H1 : tck c = tck c0) by congruence. assert (H2 : map tck tcs = map tck tcs0) by congruence.
  unfold apply_policies in *. cbn [mapM]. assert (A := apply_near O c c0 H1). specialize (IH tcs0 H2).
  destruct (apply_to_chain O c), (apply_to_chain O c0); cbn [rmap bind] in A |- *; try discriminate A; [|congruence].
  destruct (mapM (apply_to_chain O) tcs), (mapM (apply_to_chain O) tcs0); cbn [rmap bind map] in IH |- *; try discriminate IH; congruence.
Qed.

(** ** The whole *)
Lemma tok_esk v : tk (tok_of v) = tok_of (esk v).
Proof. destruct v; reflexivity. Qed.

Lemma chains_near tr tr0 : tmap esk tr = tmap esk tr0 ->
  map (map tk) (map (map tok_of) (tree2chains tr)) = map (map tk) (map (map tok_of) (tree2chains tr0)).
Proof.
  intros H. assert (G := f_equal (@tree2chains esval) H). rewrite !tmap_chains in G.
  assert (X : forall l : list (list esval), map (map tk) (map (map tok_of) l) = map (map tok_of) (map (map esk) l)).
  { intros l. rewrite !map_map. apply map_ext. intros c. rewrite !map_map. apply map_ext, tok_esk. }
  rewrite !X, G. reflexivity.
Qed.

Lemma get_verified_near E N0 n0 O fuel id s s' r tr0 leaf0 kj' tcs0 :
  (forall n q, rk (e_net E n q) = rk (N0 q) \/ (failed (e_net E n q) /\ e_net E n q <> N0 q)) ->
  (forall id n, N0 (QDoc (e_wk E id)) <> R404 -> e_tenant E id <> e_wk E id -> e_net E n (QDoc (e_wk E id)) = R404 ->
     N0 (QDoc (e_tenant E id)) = R404) ->
  (forall n q k p, e_net E n q = RText (Some (TJws k p)) -> s_exp p <> None) ->
  (forall q k p, N0 q = RText (Some (TJws k p)) -> s_exp p <> None) ->
  (forall k p, lib_picks (e_lib E) (TJws k p) k = true) ->
  (forall n u k p, e_net E n (QDoc u) = RText (Some (TJws k p)) -> lib_valid (e_lib E) (e_clock E (S n)) p = true) ->
  (forall u k p, N0 (QDoc u) = RText (Some (TJws k p)) -> lib_valid (e_lib E) (e_clock E 0) p = true) ->
  (forall id t p hints a, pverified (freeze N0 E) id = Ok (t, p) -> s_hints p = Some hints -> In a hints -> clean a) ->
  clean id -> J E N0 n0 (f_col s) ->
  pcollect (freeze N0 E) fuel "" id = Ok (Some (tr0, leaf0)) ->
  verify_trust_chains (freeze N0 E) (map (map tok_of) (tree2chains tr0)) [leaf0] (f_keys s) = (kj', Ok tcs0) ->
  get_verified_trust_chains E O fuel id s = (s', r) ->
  J E N0 n0 (f_col s') /\ f_chains s' = f_chains s /\
  ((aged E n0 (st_tick (f_col s')) /\ r = Err TypeError /\ f_keys s' = f_keys s) \/
   (gave_up E N0 (st_tick (f_col s)) (st_tick (f_col s')) r /\ f_keys s' = f_keys s) \/
   (f_keys s' = kj' /\ rmap (map cck) r = rmap (map cck) (apply_policies O tcs0))).
Proof.
  intros HA HT HD HD0 HP HV HV0 HC Hid Hs Hp0 Hv0 H.
  assert (R := r_collect E N0 n0 HA HT HD HD0 HP HV HV0 HC fuel "" id (f_col s) Hid Hs). unfold runs in R.
  unfold get_verified_trust_chains, collect_trust_chains, on_col in H. unfold mbind at 1 in H. unfold mbind at 1 in H.
  destruct (collect E fuel "" id (f_col s)) as [c1 r1]. destruct R as (_ & R2 & R3). rewrite Hp0 in R3.
  destruct R3 as [[R3 R4]|[(R3 & x & R4 & R5)|[R3 _]]].
  { rewrite R4 in H. injection H as <- <-. cbn [f_col f_chains f_keys]. split; [exact R2|]. split; [reflexivity|]. left. auto. }
  { rewrite R5 in H. injection H as <- <-. cbn [f_col f_chains f_keys]. split; [exact R2|]. split; [reflexivity|]. right. left.
    split; [split; [exact R3|eauto]|reflexivity]. }
  destruct r1 as [x|x]; [|discriminate R3]. cbn in R3. injection R3 as R3. destruct x as [[tr leaf]|]; [|discriminate R3].
  cbn in R3. assert (Etr : tmap esk tr = tmap esk tr0) by congruence. assert (El : tk leaf = tk leaf0) by congruence.
  destruct (verify_chains_near E (freeze N0 E) _ _ leaf leaf0 (f_keys s) kj' tcs0 HP eq_refl (chains_near _ _ Etr) El Hv0) as (tcs & V & Ht).
  unfold ret at 1 in H. destruct (map (map tok_of) (tree2chains tr)) as [|c0 cs0].
  - cbn in V. injection V as <- <-. unfold ret in H. injection H as <- <-. cbn [f_col f_chains f_keys]. split; [exact R2|].
    split; [reflexivity|]. right. right. split; [reflexivity|]. destruct tcs0; [reflexivity|discriminate Ht].
  - unfold mbind, on_keys in H. cbn [f_keys] in H. rewrite V in H. unfold lift in H. injection H as <- <-. cbn [f_col f_chains f_keys].
    split; [exact R2|]. split; [reflexivity|]. right. right. split; [reflexivity|]. apply policies_near, Ht.
Qed.
