(** What becomes of the configuration of a context (C157) and of the issuers and owners of trust marks an anchor is given
    (C158). *)
From Verif Require Import PyFacts VerifierFacts ContextModel TrustMarkVerifierModel EndpointsProps.
From Coq Require Import Sorted Structures.OrderedTypeEx.

(** ** Order *)

(** [x] comes before [y], or is [y] *)
Definition before (x y : string) : Prop := x = y \/ String_as_OT.lt x y.

(** [l] is in ascending order without repetitions *)
Definition ascending (l : list string) : Prop := StronglySorted String_as_OT.lt l.

Lemma leb_before x y : String.leb x y = true -> before x y.
Proof.
  unfold String.leb. destruct (String.compare x y) eqn:C; intros H; [| |discriminate H].
  - left. apply String.compare_eq_iff. exact C.
  - right. apply String_as_OT.cmp_lt. exact C.
Qed.

Lemma leb_after x y : String.leb x y = false -> String_as_OT.lt y x.
Proof.
  unfold String.leb. destruct (String.compare x y) eqn:C; intros H; [discriminate H|discriminate H|].
  apply String_as_OT.cmp_lt. unfold String_as_OT.cmp. rewrite String.compare_antisym, C. reflexivity.
Qed.

Lemma insert_In x l y : In y (insert x l) <-> x = y \/ In y l.
Proof.
  induction l as [|z l IH]; simpl; [tauto|]. destruct (String.leb x z); simpl; [tauto|]. rewrite IH. tauto.
Qed.

Lemma sorted_In l y : In y (sorted l) <-> In y l.
Proof. induction l as [|x l IH]; simpl; [tauto|]. rewrite insert_In, IH. tauto. Qed.

Lemma insert_ascending x l : ascending l -> ~ In x l -> ascending (insert x l).
Proof.
  unfold ascending. induction l as [|y l IH]; intros H N; simpl; [repeat constructor|].
  inversion H as [|? ? H1 H2]; subst. rewrite Forall_forall in H2. destruct (String.leb x y) eqn:C.
  - assert (L : String_as_OT.lt x y).
    { destruct (leb_before x y C) as [->|L]; [contradiction N; left; reflexivity|exact L]. }
    constructor; [exact H|]. apply Forall_forall. intros z [<-|Hz]; [exact L|]. apply (String_as_OT.lt_trans x y z L), H2, Hz.
  - apply leb_after in C. constructor; [apply IH; [exact H1|intros X; apply N; right; exact X]|].
    apply Forall_forall. intros z Hz. apply insert_In in Hz. destruct Hz as [<-|Hz]; [exact C|apply H2, Hz].
Qed.

Lemma sorted_ascending l : NoDup l -> ascending (sorted l).
Proof.
  induction l as [|x l IH]; intros N; simpl; [constructor|]. inversion N as [|? ? N1 N2]; subst.
  apply insert_ascending; [apply IH, N2|]. rewrite sorted_In. exact N1.
Qed.

Lemma sorted_set_spec l : ascending (sorted (str_set l)) /\ forall x, In x (sorted (str_set l)) <-> In x l.
Proof.
  split; [apply sorted_ascending, NoDup_nodup|]. intros x. rewrite sorted_In. apply nodup_In.
Qed.

(** ** Picking a chain *)

(** the chain [c] is picked out of [cs] by the list [prio]: no chain of [cs] has an anchor that comes earlier in the list *)
Definition preferred (prio : list string) (cs : list tchain) (c : tchain) : Prop :=
  In c cs /\ exists l1 l2, prio = l1 ++ ch_anchor c :: l2 /\ forall c', In c' cs -> ~ In (ch_anchor c') l1.

Lemma by_priority prio cs c : pick_by_priority prio cs = Some c -> preferred prio cs c.
Proof.
  induction prio as [|a prio IH]; cbn [pick_by_priority]; intros H; [discriminate H|].
  destruct (find (fun c => String.eqb (ch_anchor c) a) cs) as [c'|] eqn:Ef.
  - injection H as <-. apply find_some in Ef. destruct Ef as [I E]. apply String.eqb_eq in E.
    split; [exact I|]. exists [], prio. split; [rewrite E; reflexivity|]. intros ? _ [].
  - destruct (IH H) as (I & l1 & l2 & -> & N). split; [exact I|]. exists (a :: l1), l2. split; [reflexivity|].
    intros c' Hc' [X|X]; [|exact (N c' Hc' X)].
    assert (Y := find_none _ _ Ef c' Hc'). cbn in Y. rewrite X, String.eqb_refl in Y. discriminate Y.
Qed.

Lemma no_priority prio cs : pick_by_priority prio cs = None -> forall c, In c cs -> ~ In (ch_anchor c) prio.
Proof.
  induction prio as [|a prio IH]; cbn [pick_by_priority]; intros H c Hc; [intros []|].
  destruct (find (fun c => String.eqb (ch_anchor c) a) cs) as [c'|] eqn:Ef; [discriminate H|].
  intros [->|X]; [|exact (IH H c Hc X)].
  assert (Y := find_none _ _ Ef c Hc). cbn in Y. rewrite String.eqb_refl in Y. discriminate Y.
Qed.

Lemma picked prio cs c : pick_trust_chain prio cs = Ok c -> 2 <= length cs ->
  (exists c', In c' cs /\ In (ch_anchor c') prio) -> preferred prio cs c.
Proof.
  intros H Hl (c' & I & Ip). unfold pick_trust_chain in H.
  destruct cs as [|c0 [|c1 cs]]; [destruct I|simpl in Hl; inversion Hl as [|? X]; inversion X|].
  destruct (pick_by_priority prio (c0 :: c1 :: cs)) as [c2|] eqn:E.
  - injection H as ->. apply by_priority, E.
  - destruct (no_priority _ _ E c' I Ip).
Qed.

(** ** C157 *)

(** A context that is given a priority list, or whose configuration has one, goes by it: of several chains one is picked
    whose anchor no other chain precedes in the list. *)
Theorem C157_priority : forall file upstream conf a cx p cs c,
  make_context file upstream conf a = Ok cx -> ca_tr_prio a = None ->
  (p <> [] /\ ca_prio a = p) \/ (ca_prio a = [] /\ cf_prio conf = Some p) ->
  pick_trust_chain (cx_prio cx) cs = Ok c -> 2 <= length cs -> (exists c', In c' cs /\ In (ch_anchor c') p) ->
  preferred p cs c.
Proof.
  intros file upstream conf a cx p cs c H Ht Hp Hc Hl He. unfold make_context in H. cbv zeta in H.
  apply bind_ok in H. destruct H as (pr & H1 & H2). injection H2 as <-. cbn [cx_prio] in Hc. rewrite Ht in Hc.
  assert (pr = p) as ->; [|exact (picked p cs c Hc Hl He)].
  unfold first_priority in H1. destruct Hp as [(Np & E)|(E & Ec)]; rewrite E in H1.
  - destruct p; [contradiction|]. injection H1 as <-. reflexivity.
  - cbn [is_nil negb] in H1. rewrite Ec in H1. injection H1 as <-. reflexivity.
Qed.
Print Assumptions C157_priority.

(** Without a priority list the trusted roots are gone through in ascending order: the chain that is picked leads to the
    trusted root whose identifier is the least. *)
Theorem C157_roots : forall file upstream conf a cx v d cs c,
  make_context file upstream conf a = Ok cx -> ca_tr_prio a = None -> ca_prio a = [] -> cf_prio conf = None ->
  get_trusted_roots file (cx_roots cx) = Ok v -> v = VDict d ->
  pick_trust_chain (cx_prio cx) cs = Ok c -> 2 <= length cs -> (exists c', In c' cs /\ In (ch_anchor c') (dkeys d)) ->
  In c cs /\ In (ch_anchor c) (dkeys d) /\
  forall c', In c' cs -> In (ch_anchor c') (dkeys d) -> before (ch_anchor c) (ch_anchor c').
Proof.
  intros file upstream conf a cx v d cs c H Ht Hp Hf Hv -> Hc Hl (c0 & I0 & K0). unfold make_context in H. cbv zeta in H.
  apply bind_ok in H. destruct H as (pr & H1 & H2). injection H2 as <-. cbn [cx_prio cx_roots] in *. rewrite Ht in Hc.
  unfold first_priority in H1. rewrite Hp, Hf in H1. cbn [is_nil negb] in H1. rewrite Hv in H1.
  cbn [bind keys_of_val] in H1. injection H1 as <-.
  destruct (sorted_set_spec (dkeys d)) as [As Is].
  destruct (picked _ cs c Hc Hl) as (I & l1 & l2 & El & N).
  { exists c0. split; [exact I0|]. apply Is, K0. }
  split; [exact I|]. split.
  - apply Is. rewrite El. apply in_or_app. right. left. reflexivity.
  - intros c' I' K'. apply Is in K'. rewrite El in K', As. apply in_app_or in K'. destruct K' as [X|[X|X]].
    + destruct (N c' I' X).
    + left. exact X.
    + right. assert (A2 : ascending (ch_anchor c :: l2)).
      { clear - As. induction l1 as [|x l1 IH]; [exact As|]. apply IH. inversion As. assumption. }
      inversion A2 as [|? ? _ F]. rewrite Forall_forall in F. apply F, X.
Qed.
Print Assumptions C157_roots.

(** the values a federation entity is given are those it works with *)
Definition C157_entity_full : Prop := forall file id hints more cx,
  entity_context file id hints more = Ok cx ->
  (ma_prio more <> [] -> cx_prio cx = ma_prio more) /\ (rt_true (ma_roots more) = true -> cx_roots cx = ma_roots more) /\
  (forall z, ma_lifetime more = Some z -> z <> 0%Z -> cx_lifetime cx = z) /\
  (src_true (ma_marks more) = true -> cx_marks cx = ma_marks more).

Definition two_roots : dict val := [("ta1", VInt 1); ("ta2", VInt 2)].

(** they are not: FederationEntity takes any keyword argument and passes none of these on *)
Theorem C157_entity_refuted : ~ C157_entity_full.
Proof.
  intros H. destruct (H (fun _ => Err KeyError) "e" (SrcList [VStr "ta1"]) (mkMore None SrcNone (RtDict two_roots) ["ta2"; "ta1"]) _
                        ltac:(vm_compute; reflexivity)) as (X & _).
  specialize (X ltac:(discriminate)). vm_compute in X. discriminate X.
Qed.
Print Assumptions C157_entity_refuted.

(** Whatever it is given, it has no priorities, no trusted roots and no trust marks, and its statements are valid for a day;
    so it always takes the first chain it is offered.  Only the superiors are those it is given. *)
Theorem C157_entity_partial : forall file id hints more,
  exists cx, entity_context file id hints more = Ok cx /\ cx_id cx = id /\ cx_prio cx = [] /\
    get_trusted_roots file (cx_roots cx) = Ok (VDict []) /\ get_trust_marks file (cx_marks cx) = Ok (VList []) /\
    cx_lifetime cx = 86400%Z /\ (src_true hints = true -> cx_hints cx = hints) /\
    forall c cs, pick_trust_chain (cx_prio cx) (c :: cs) = Ok c.
Proof.
  intros file id hints more. unfold entity_context, make_context. cbn -[Z.eqb String.eqb src_true].
  eexists. split; [reflexivity|]. cbn [cx_id cx_prio cx_roots cx_marks cx_lifetime cx_hints].
  split; [destruct (String.eqb id ""); reflexivity|]. split; [reflexivity|]. split; [reflexivity|]. split; [reflexivity|].
  split; [reflexivity|]. split; [intros ->; reflexivity|]. intros c cs. destruct cs; reflexivity.
Qed.
Print Assumptions C157_entity_partial.

(** the configuration of the client and of the server part of a federation entity is what these work with *)
Definition C157_parts_full : Prop := forall file id conf cx,
  service_context file id conf None SrcNone = Ok cx \/ server_context file id conf = Ok cx ->
  (forall z, cf_lifetime conf = Some z -> cx_lifetime cx = z) /\
  (forall m, cf_marks conf = Some m -> cx_marks cx = m).

(** they are not: the default of the argument comes before the lifetime in the configuration, and the server part forgets
    the trust marks *)
Theorem C157_parts_refuted : ~ C157_parts_full /\
  (forall file id conf cx, service_context file id conf None SrcNone = Ok cx -> cx_lifetime cx = 86400%Z) /\
  (forall file id conf cx, server_context file id conf = Ok cx -> cx_lifetime cx = 86400%Z /\ cx_marks cx = SrcNone).
Proof.
  split; [|split].
  - intros H. destruct (H (fun _ => Err KeyError) "e" (mkConf None (Some 3600%Z) None None None None) _ (or_introl eq_refl)) as [X _].
    specialize (X 3600%Z eq_refl). vm_compute in X. discriminate X.
  - intros file id conf cx H. unfold service_context, make_context in H. cbv zeta in H. apply bind_ok in H.
    destruct H as (pr & _ & H). injection H as <-. reflexivity.
  - intros file id conf cx H. unfold server_context in H. apply bind_ok in H. destruct H as (c & H1 & H2). injection H2 as <-.
    unfold make_context in H1. cbv zeta in H1. apply bind_ok in H1. destruct H1 as (pr & _ & H1). injection H1 as <-.
    split; reflexivity.
Qed.
Print Assumptions C157_parts_refuted.

(** The rest of the configuration of the two parts is used: superiors, trusted roots, priorities; by the client part also
    the trust marks, unless it is given others. *)
Theorem C157_parts_partial : forall file id conf cx,
  server_context file id conf = Ok cx \/ service_context file id conf None SrcNone = Ok cx ->
  (forall h, cf_hints conf = Some h -> cx_hints cx = h) /\ (forall r, cf_roots conf = Some r -> cx_roots cx = r) /\
  (forall p, cf_prio conf = Some p -> cx_prio cx = p) /\
  (service_context file id conf None SrcNone = Ok cx -> forall m, cf_marks conf = Some m -> cx_marks cx = m).
Proof.
  assert (G : forall file up conf a cx, make_context file up conf a = Ok cx -> ca_tr_prio a = None -> ca_prio a = [] ->
     src_true (ca_hints a) = false -> rt_true (ca_roots a) = false ->
     (forall h, cf_hints conf = Some h -> cx_hints cx = h) /\ (forall r, cf_roots conf = Some r -> cx_roots cx = r) /\
     (forall p, cf_prio conf = Some p -> cx_prio cx = p) /\
     (src_true (ca_marks a) = false -> forall m, cf_marks conf = Some m -> cx_marks cx = m)).
  { intros file up conf a cx H A1 A2 A3 A4. unfold make_context in H. cbv zeta in H. apply bind_ok in H.
    destruct H as (pr & H1 & H2). rewrite A1, A3, A4 in H2. injection H2 as <-. cbn [cx_hints cx_roots cx_prio cx_marks].
    split; [intros h ->; reflexivity|]. split; [intros r ->; reflexivity|]. split.
    - intros p Hp. unfold first_priority in H1. rewrite A2, Hp in H1. injection H1 as <-. reflexivity.
    - intros Hm m ->. rewrite Hm. reflexivity. }
  assert (S1 : forall file id conf cx, service_context file id conf None SrcNone = Ok cx ->
     (forall h, cf_hints conf = Some h -> cx_hints cx = h) /\ (forall r, cf_roots conf = Some r -> cx_roots cx = r) /\
     (forall p, cf_prio conf = Some p -> cx_prio cx = p) /\ (forall m, cf_marks conf = Some m -> cx_marks cx = m)).
  { intros file id conf cx H. destruct (G _ _ _ _ _ H eq_refl eq_refl eq_refl eq_refl) as (G1 & G2 & G3 & G4).
    split; [exact G1|]. split; [exact G2|]. split; [exact G3|exact (G4 eq_refl)]. }
  intros file id conf cx [H|H].
  - unfold server_context in H. apply bind_ok in H. destruct H as (c & H1 & H2). injection H2 as <-.
    destruct (G _ _ _ _ _ H1 eq_refl eq_refl eq_refl eq_refl) as (G1 & G2 & G3 & _). cbn [cx_hints cx_roots cx_prio cx_marks].
    split; [exact G1|]. split; [exact G2|]. split; [exact G3|]. intros H. apply (S1 _ _ _ _ H).
  - destruct (S1 _ _ _ _ H) as (G1 & G2 & G3 & G4). auto.
Qed.
Print Assumptions C157_parts_partial.

Definition chain_to (a : string) : tchain := mkTChain (mkTC a [] 0 ["e"; a] []) (ByType []).

Example C157_ex :
  (exists cx, make_context (fun _ => Err KeyError) "e" no_conf (mkCargs "e" 86400 SrcNone (RtDict two_roots) SrcNone ["ta2"; "ta1"] None) = Ok cx /\
     pick_trust_chain (cx_prio cx) [chain_to "ta3"; chain_to "ta1"; chain_to "ta2"] = Ok (chain_to "ta2")) /\
  (exists cx, make_context (fun _ => Ok (VDict two_roots)) "e" no_conf (mkCargs "e" 86400 SrcNone (RtFile "roots.json") SrcNone [] None) = Ok cx /\
     get_trusted_roots (fun _ => Ok (VDict two_roots)) (cx_roots cx) = Ok (VDict two_roots) /\
     pick_trust_chain (cx_prio cx) [chain_to "ta2"; chain_to "ta1"] = Ok (chain_to "ta1")) /\
  (exists cx, entity_context (fun _ => Err KeyError) "e" (SrcList [VStr "ta1"]) (mkMore None SrcNone (RtDict two_roots) ["ta2"; "ta1"]) = Ok cx /\
     cx_hints cx = SrcList [VStr "ta1"] /\ pick_trust_chain (cx_prio cx) [chain_to "ta1"; chain_to "ta2"] = Ok (chain_to "ta1")) /\
  (exists cx, service_context (fun _ => Err KeyError) "e" (mkConf None (Some 60%Z) None None (Some (SrcList [VStr "i"])) (Some ["x"])) None SrcNone = Ok cx /\
     cx_prio cx = ["x"] /\ cx_lifetime cx = 86400%Z).
Proof.
  split; [eexists; split; vm_compute; reflexivity|]. split; [eexists; split; [vm_compute; reflexivity|split; vm_compute; reflexivity]|].
  split; eexists; (split; [vm_compute; reflexivity|split; vm_compute; reflexivity]).
Qed.

(** ** C158 *)

(** what an anchor says about itself *)
Definition anchor_says (fe : fed_server) (k : string) : option val :=
  published (fe_get_metadata federation_entity_schema fe "federation_entity") "federation_entity" k.

(** the issuers and the owners of trust marks that make_federation_combo is given are published *)
Definition C158_full : Prop := forall fe issuers owners, issuers <> [] -> owners <> [] ->
  anchor_says (fst (make_combo_fe fe issuers owners)) "trust_mark_issuers" = Some (VDict issuers) /\
  anchor_says (fst (make_combo_fe fe issuers owners)) "trust_mark_owners" = Some (VDict owners).

Definition an_issuer : dict val := [("https://mark", VList [VStr "https://tmi"])].
Definition an_owner : dict val := [("https://mark", VDict [("sub", VStr "https://owner"); ("jwks", VInt 7)])].

Lemma other_names eps k : well_named eps -> In k ["trust_mark_issuers"; "trust_mark_owners"] ->
  dget k (get_endpoint_claims eps) = None.
Proof.
  intros [W _] I. unfold get_endpoint_claims.
  assert (G : forall l info, (forall e, In e l -> ep_endpoint_name e = "" \/ endpoint_named (ep_endpoint_name e)) ->
              dget k info = None -> dget k (fold_left endpoint_claims l info) = None).
  { induction l as [|e l IH]; intros info Hl D; [exact D|]. cbn [fold_left]. apply IH; [intros x Hx; apply Hl; right; exact Hx|].
    unfold endpoint_claims. destruct (String.eqb_spec (ep_endpoint_name e) ""); [exact D|].
    destruct (Hl e (or_introl eq_refl)) as [X|[p X]]; [contradiction|].
    assert (L : last_char (ep_endpoint_name e) = Some "t"%char) by (rewrite X; apply last_app; reflexivity).
    assert (N : forall s, In s ["_auth_methods"; "_auth_signing_alg_values"; ""] -> k <> (ep_endpoint_name e ++ s)%string).
    { intros s Hs. generalize (ep_endpoint_name e) at 1, L. clear - I Hs. intros n Ln ->.
      simpl in I, Hs. destruct Hs as [<-|[<-|[<-|[]]]]; destruct I as [I|[I|[]]].
      all: do 25 (try (destruct n as [|c n]; [cbn in I; discriminate I || (cbn in Ln; discriminate Ln)|]; cbn in I; try discriminate I; injection I as <- I)).
      all: try (cbn in I; discriminate I). }
    rewrite set_if_other by (apply N; simpl; tauto). rewrite set_if_other by (apply N; simpl; tauto).
    rewrite dget_dset_other; [exact D|]. intros ->. apply (N "" ltac:(simpl; tauto)). clear. induction (ep_endpoint_name e); [reflexivity|cbn; f_equal; assumption]. }
  apply G; [exact W|reflexivity].
Qed.

(** They are not published, whatever they are: what the anchor says is as if they had not been given; and if it says
    nothing about issuers otherwise, every trust mark with a delegation makes the verifier fail with KeyError, also if the
    mark, its issuer and its owner are among those that were given. *)
Theorem C158_refuted : ~ C158_full /\
  forall fe issuers owners, well_named (map snd (fe_endpoint fe)) -> dget "trust_mark_issuers" (fe_prefer fe) = None ->
    anchor_says (fst (make_combo_fe fe issuers owners)) "trust_mark_issuers" = None /\
    forall V id d md, dget "federation_entity" (fe_get_metadata federation_entity_schema (fst (make_combo_fe fe issuers owners)) "federation_entity") = Some (VDict md) ->
      check_delegation V md id d = Err KeyError.
Proof.
  assert (G : forall fe issuers owners, well_named (map snd (fe_endpoint fe)) -> dget "trust_mark_issuers" (fe_prefer fe) = None ->
    anchor_says (fst (make_combo_fe fe issuers owners)) "trust_mark_issuers" = None).
  { intros fe issuers owners W D. unfold anchor_says, fe_get_metadata. rewrite published_type, server_metadata_get.
    rewrite other_names by (exact W || simpl; tauto). exact D. }
  split.
  - intros H. destruct (H (mkFedServer [] []) an_issuer an_owner ltac:(discriminate) ltac:(discriminate)) as [X _].
    vm_compute in X. discriminate X.
  - intros fe issuers owners W D. split; [exact (G fe issuers owners W D)|]. intros V id d md E.
    assert (X := G fe issuers owners W D). unfold anchor_says, published in X. rewrite E in X. unfold check_delegation, dindex. rewrite X. reflexivity.
Qed.
Print Assumptions C158_refuted.

(** the delegation [d] was signed by the owner of the mark [id] according to [owners] *)
Definition by_owner (V : tmenv) (owners : dict val) (id d : string) : Prop :=
  exists info j k iss ks, dget id owners = Some (VDict info) /\ dget "jwks" info = Some j /\
    dget "sub" info = Some (VStr iss) /\ tm_jwks V j = Ok ks /\ tm_deleg V d = Some (k, iss) /\ In k ks.

(** Given as preferences they are published as they are, and a delegation by the owner of a mark that somebody may issue is
    accepted.  Missing: given as the arguments of that name. *)
Theorem C158_preferences_partial : forall fe issuers owners,
  well_named (map snd (fe_endpoint fe)) ->
  dget "trust_mark_issuers" (fe_prefer fe) = Some (VDict issuers) -> dget "trust_mark_owners" (fe_prefer fe) = Some (VDict owners) ->
  anchor_says fe "trust_mark_issuers" = Some (VDict issuers) /\ anchor_says fe "trust_mark_owners" = Some (VDict owners) /\
  forall V id d, dmem id issuers = true -> by_owner V owners id d ->
    check_delegation V (get_server_metadata federation_entity_schema (fe_prefer fe) (map snd (fe_endpoint fe))) id d = Ok true.
Proof.
  intros fe issuers owners W D1 D2.
  assert (G : forall k, In k ["trust_mark_issuers"; "trust_mark_owners"] ->
     dget k (get_server_metadata federation_entity_schema (fe_prefer fe) (map snd (fe_endpoint fe))) = dget k (fe_prefer fe)).
  { intros k Hk. rewrite server_metadata_get, other_names by (exact W || exact Hk). destruct Hk as [<-|[<-|[]]]; reflexivity. }
  unfold anchor_says, fe_get_metadata. rewrite !published_type, !G by (simpl; tauto). split; [exact D1|]. split; [exact D2|].
  intros V id d Hi (info & j & k & iss & ks & O1 & O2 & O3 & O4 & O5 & O6).
  unfold check_delegation, dindex. rewrite !G by (simpl; tauto). rewrite D1, D2. cbn [bind contains]. rewrite Hi. cbn [negb].
  unfold dmem. rewrite O1. cbn [negb bind vindex dindex]. unfold dindex. rewrite O1. cbn [bind vindex]. unfold dindex. rewrite O2. cbn [bind].
  rewrite O3. cbn [bind]. rewrite O4. cbn [bind]. rewrite O5. cbn [py_eqb]. rewrite String.eqb_refl. cbn [andb].
  apply kmem_In in O6. rewrite O6. reflexivity.
Qed.
Print Assumptions C158_preferences_partial.

Example C158_ex :
  let V := mkTMEnv (fun _ _ => true) (fun v => match v with VInt z => Ok [Z.to_nat z] | _ => Err ValueError end)
             (fun d => if String.eqb d "deleg" then Some (7, "https://owner") else None) in
  let fe := mkFedServer [("trust_mark_issuers", VDict an_issuer); ("trust_mark_owners", VDict an_owner)] [("status", status_ep)] in
  well_named (map snd (fe_endpoint fe)) /\ by_owner V an_owner "https://mark" "deleg" /\
  check_delegation V (get_server_metadata federation_entity_schema (fe_prefer fe) (map snd (fe_endpoint fe))) "https://mark" "deleg" = Ok true /\
  check_delegation V (get_server_metadata federation_entity_schema [] [status_ep]) "https://mark" "deleg" = Err KeyError.
Proof.
  cbv zeta. split; [exact status_named|]. split.
  { eexists _, _, _, _, _. split; [reflexivity|]. split; [reflexivity|]. split; [reflexivity|]. split; [reflexivity|].
    split; [reflexivity|]. left. reflexivity. }
  split; vm_compute; reflexivity.
Qed.
