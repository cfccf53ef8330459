(** Statements made through a context (C161). *)
From Verif Require Import PyFacts ExampleKit FetchFacts FetchProps ContextModel.
From Coq Require Import Lia.

(** the claim [k] is asked for, and it is not something empty *)
Definition asked (args : dict val) (k : string) (v : val) : Prop := dget k args = Some v /\ truthy v = true.

(** the claim [k] is not asked for, or it is asked for with something empty *)
Definition unasked (args : dict val) (k : string) : Prop := forall v, dget k args = Some v -> truthy v = false.

(** The claims that are asked for are there. *)
Record says_given (now : Z) (args p : dict val) : Prop := mkGiven {
  sg_keys : forall v, asked args "jwks" v -> dget "jwks" p = Some v;
  sg_list : forall ks, unasked args "jwks" -> dget "keys" args = Some ks ->
            dget "jwks" p = Some (VDict [("keys", ks)]) /\ dget "keys" p = None;
  sg_life : forall z, dget "lifetime" args = Some (VInt z) -> z <> 0%Z -> dget "exp" p = Some (VInt (now + z));
  sg_more : forall k v, In k ["metadata"; "metadata_policy"; "authority_hints"; "trust_marks"; "constraints"; "aud"] ->
            asked args k v -> dget k p = Some v;
  sg_other : forall k v, ~ In k ["iss"; "sub"; "iat"; "exp"; "jwks"; "keys"; "lifetime"; "include_jwks"; "metadata"; "metadata_policy";
                                 "authority_hints"; "trust_marks"; "constraints"; "aud"] ->
             dget k args = Some v -> dget k p = Some v
}.

(** What is not asked for is taken from the context: its lifetime, its trust marks and its superiors, as they can be read,
    and the keys of the entity. *)
Record says_default (file : string -> res val) (cx : context) (now : Z) (own : val) (args p : dict val) : Prop := mkDefault {
  sd_keys : unasked args "jwks" -> dget "keys" args = None -> dget "include_jwks" args = None -> dget "jwks" p = Some own;
  sd_life : unasked args "lifetime" -> cx_lifetime cx <> 0%Z -> dget "exp" p = Some (VInt (now + cx_lifetime cx));
  sd_marks : forall m, unasked args "trust_marks" -> get_trust_marks file (cx_marks cx) = Ok m -> truthy m = true ->
             dget "trust_marks" p = Some m;
  sd_hints : forall h, unasked args "authority_hints" -> get_authority_hints file (cx_hints cx) = Ok h -> truthy h = true ->
             dget "authority_hints" p = Some h
}.

Definition C161_full : Prop := forall file cx now iss sub own args p,
  NoDup (dkeys args) -> ctx_statement file cx now iss sub own args = Ok p ->
  says_given now args p /\ says_default file cx now own args p.

(** the superiors are in a file: its name is published *)
Theorem C161_refuted : ~ C161_full.
Proof.
  intros H.
  destruct (H (fun _ => Ok (VList [VStr "https://ta"])) (mkContext "e" 3600 (SrcList []) (RtDict []) (SrcFile "hints.json") [])
             1000%Z "e" "e" (VInt 1) [] _ (NoDup_nil _) ltac:(vm_compute; reflexivity)) as (_ & D).
  assert (X := sd_hints _ _ _ _ _ _ D (VList [VStr "https://ta"])). vm_compute in X.
  specialize (X ltac:(intros v Y; discriminate Y) eq_refl eq_refl). discriminate X.
Qed.
Print Assumptions C161_refuted.

Lemma filled_some k args v : filled k args = Some v <-> asked args k v.
Proof.
  unfold filled, asked. destruct (dget k args) as [w|]; [|split; [intros X; discriminate X|intros (X & _); discriminate X]].
  destruct (truthy w) eqn:T; split.
  - intros X. injection X as <-. auto.
  - intros (X & _). exact X.
  - intros X. discriminate X.
  - intros (X & Y). injection X as <-. congruence.
Qed.

Lemma filled_none k args : filled k args = None <-> unasked args k.
Proof.
  unfold filled, unasked. destruct (dget k args) as [w|]; [|split; [intros _ v X; discriminate X|reflexivity]].
  destruct (truthy w) eqn:T; split.
  - intros X. discriminate X.
  - intros X. rewrite (X w eq_refl) in T. discriminate T.
  - intros _ v X. injection X as <-. exact T.
  - reflexivity.
Qed.

Lemma NoDup_ddel {A} k (d : dict A) : NoDup (dkeys d) -> NoDup (dkeys (ddel k d)).
Proof.
  intros H. induction d as [|[a v] d IH]; [exact H|]. cbn [ddel]. inversion H as [|? ? N H' E]; subst.
  destruct (String.eqb_spec k a) as [->|Nk]; [exact (IH H')|]. cbn [dkeys map fst]. constructor; [|exact (IH H')].
  intros X. apply N. clear -X. induction d as [|[b w] d IH]; [exact X|]. cbn [ddel] in X. cbn [dkeys map fst In].
  destruct (String.eqb k b); [right; exact (IH X)|]. destruct X as [X|X]; [left; exact X|right; exact (IH X)].
Qed.

Lemma dget_ddel {A} k j (d : dict A) : dget j (ddel k d) = if String.eqb j k then None else dget j d.
Proof.
  destruct (String.eqb_spec j k) as [->|N]; [apply dget_ddel_same|]. apply dget_ddel_other. congruence.
Qed.

(** the keys in the arguments that are passed on *)
Lemma with_jwks_spec args : NoDup (dkeys args) ->
  NoDup (dkeys (with_jwks args)) /\
  (forall k, k <> "jwks" -> k <> "keys" -> dget k (with_jwks args) = dget k args) /\
  (forall v, asked args "jwks" v -> dget "jwks" (with_jwks args) = Some v) /\
  (unasked args "jwks" -> forall ks, dget "keys" args = Some ks ->
     dget "jwks" (with_jwks args) = Some (VDict [("keys", ks)]) /\ dget "keys" (with_jwks args) = None) /\
  (unasked args "jwks" -> dget "keys" args = None -> dget "jwks" (with_jwks args) = None).
Proof.
  intros ND. unfold with_jwks. destruct (filled "jwks" args) as [w|] eqn:Ef.
  - apply filled_some in Ef. assert (Eu : ~ unasked args "jwks") by (intros U; destruct Ef as (E & T); rewrite (U w E) in T; discriminate T).
    split; [apply NoDup_dset; exact ND|]. split; [intros k N1 N2; apply dget_dset_other; exact N1|].
    split; [|split; intros U; contradiction].
    intros v (E & T). destruct Ef as (E' & _). rewrite E' in E. injection E as ->. apply dget_dset_same.
  - apply filled_none in Ef.
    assert (Ea : forall v, ~ asked args "jwks" v) by (intros v (E & T); rewrite (Ef v E) in T; discriminate T).
    cbv zeta. assert (Ed : dget "keys" (ddel "jwks" args) = dget "keys" args) by (rewrite dget_ddel; reflexivity).
    rewrite Ed.
    destruct (dget "keys" args) as [ks|] eqn:Ek.
    + split; [apply NoDup_dset, NoDup_ddel, NoDup_ddel, ND|]. split; [|split; [intros v A; destruct (Ea v A)|split]].
      * intros k N1 N2. rewrite dget_dset_other by exact N1. rewrite !dget_ddel.
        destruct (String.eqb_spec k "keys"); [contradiction|]. destruct (String.eqb_spec k "jwks"); [contradiction|]. reflexivity.
      * intros _ ks' E. injection E as <-. split; [apply dget_dset_same|].
        rewrite dget_dset_other by discriminate. rewrite dget_ddel. reflexivity.
      * intros _ X. discriminate X.
    + split; [apply NoDup_ddel, ND|]. split; [|split; [intros v A; destruct (Ea v A)|split]].
      * intros k N1 N2. rewrite dget_ddel. destruct (String.eqb_spec k "jwks"); [contradiction|]. reflexivity.
      * intros _ ks' E. discriminate E.
      * intros _ _. rewrite dget_ddel. reflexivity.
Qed.

(** Whatever can be stated says what is asked for, and what the context has where nothing is asked for, unless the superiors
    are in a file. *)
Theorem C161_partial : forall file cx now iss sub own args p,
  NoDup (dkeys args) -> (forall path, cx_hints cx <> SrcFile path) ->
  ctx_statement file cx now iss sub own args = Ok p ->
  says_given now args p /\ says_default file cx now own args p.
Proof.
  intros file cx now iss sub own args p ND NF H. unfold ctx_statement in H.
  destruct (with_jwks_spec args ND) as (W1 & W2 & W3 & W4 & W5).
  set (a1 := with_jwks args) in *.
  set (a2 := match filled "lifetime" a1 with Some _ => a1 | None => dset "lifetime" (VInt (cx_lifetime cx)) a1 end) in *.
  assert (N2 : NoDup (dkeys a2)) by (unfold a2; destruct (filled "lifetime" a1); [exact W1|apply NoDup_dset; exact W1]).
  assert (G2 : forall k, k <> "lifetime" -> dget k a2 = dget k a1).
  { intros k N. unfold a2. destruct (filled "lifetime" a1); [reflexivity|]. apply dget_dset_other. exact N. }
  assert (L2 : match filled "lifetime" args with
               | Some v => dget "lifetime" a2 = Some v
               | None => dget "lifetime" a2 = Some (VInt (cx_lifetime cx)) end).
  { unfold a2. assert (E : filled "lifetime" a1 = filled "lifetime" args) by (unfold filled; rewrite W2 by discriminate; reflexivity).
    rewrite E. destruct (filled "lifetime" args) as [v|] eqn:Ef; [|apply dget_dset_same].
    apply filled_some in Ef. rewrite W2 by discriminate. apply Ef. }
  apply bind_ok in H. destruct H as (a3 & H3 & H).
  assert (N3 : NoDup (dkeys a3)).
  { destruct (filled "trust_marks" a2); [injection H3 as <-; exact N2|]. apply bind_ok in H3. destruct H3 as (m & _ & H3).
    injection H3 as <-. destruct (truthy m); [apply NoDup_dset|]; exact N2. }
  assert (G3 : forall k, k <> "trust_marks" -> dget k a3 = dget k a2).
  { intros k N. destruct (filled "trust_marks" a2); [injection H3 as <-; reflexivity|]. apply bind_ok in H3. destruct H3 as (m & _ & H3).
    injection H3 as <-. destruct (truthy m); [apply dget_dset_other; exact N|reflexivity]. }
  assert (M3 : match filled "trust_marks" args with
               | Some v => dget "trust_marks" a3 = Some v
               | None => forall m, get_trust_marks file (cx_marks cx) = Ok m -> truthy m = true -> dget "trust_marks" a3 = Some m end).
  { assert (E : filled "trust_marks" a2 = filled "trust_marks" args).
    { unfold filled. rewrite G2, W2 by discriminate. reflexivity. }
    rewrite E in H3. destruct (filled "trust_marks" args) as [v|] eqn:Ef.
    - injection H3 as <-. apply filled_some in Ef. rewrite G2, W2 by discriminate. apply Ef.
    - intros m Hm T. rewrite Hm in H3. cbn [bind] in H3. rewrite T in H3. injection H3 as <-. apply dget_dset_same. }
  assert (E : filled "authority_hints" a3 = filled "authority_hints" args).
  { unfold filled. rewrite G3, G2, W2 by discriminate. reflexivity. }
  rewrite E in H. clear E.
  (* the claims other than the superiors, and the superiors *)
  assert (Q : (forall k, k <> "authority_hints" -> dget k p = claim_of now iss sub own a3 k) /\
              match filled "authority_hints" args with
              | Some v => dget "authority_hints" p = Some v
              | None => forall h, get_authority_hints file (cx_hints cx) = Ok h -> truthy h = true -> dget "authority_hints" p = Some h end).
  { destruct (filled "authority_hints" args) as [v|] eqn:Ef.
    - split; [intros k _; apply create_claims; [exact N3|exact H]|]. rewrite (create_claims _ _ _ _ _ _ N3 H).
      change (claim_of now iss sub own a3 "authority_hints") with (if_truthy (dget "authority_hints" a3)).
      rewrite G3, G2, W2 by discriminate. apply filled_some in Ef. destruct Ef as (-> & T). cbn [if_truthy]. rewrite T. reflexivity.
    - apply bind_ok in H. destruct H as (h & Hh & H). apply bind_ok in H. destruct H as (q & Hq & H). injection H as <-.
      assert (N4 : NoDup (dkeys (dset "authority_hints" h a3))) by (apply NoDup_dset; exact N3).
      assert (C : forall k, k <> "authority_hints" ->
                claim_of now iss sub own (dset "authority_hints" h a3) k = claim_of now iss sub own a3 k).
      { intros k N. unfold claim_of, arg_or. rewrite !dget_dset_other by (exact N || discriminate). reflexivity. }
      split.
      + intros k N. rewrite <- (C k N), <- (create_claims _ _ _ _ _ _ N4 Hq).
        destruct (cx_hints cx); try reflexivity. apply dget_dset_other. exact N.
      + intros h' Hh' T. destruct (cx_hints cx) as [|l|path|r|] eqn:Eh; try discriminate Hh'.
        * cbn in Hh, Hh'. injection Hh as <-. injection Hh' as <-. rewrite (create_claims _ _ _ _ _ _ N4 Hq).
          change (claim_of now iss sub own (dset "authority_hints" (VList l) a3) "authority_hints")
            with (if_truthy (dget "authority_hints" (dset "authority_hints" (VList l) a3))).
          rewrite dget_dset_same. cbn [if_truthy]. rewrite T. reflexivity.
        * destruct (NF path). reflexivity.
        * cbn in Hh, Hh'. rewrite Hh in Hh'. injection Hh' as <-. apply dget_dset_same. }
  destruct Q as (Q & QH).
  assert (AL : forall k, k <> "trust_marks" -> k <> "lifetime" -> dget k a3 = dget k a1).
  { intros k X1 X2. rewrite G3, G2 by assumption. reflexivity. }
  assert (T3 : dget "trust_marks" p = dget "trust_marks" a3) by (rewrite Q by discriminate; reflexivity).
  assert (J3 : dget "jwks" p = match dget "jwks" a1 with Some v => Some v
                               | None => if truthy (arg_or "include_jwks" (VBool true) args) then Some own else None end).
  { rewrite Q by discriminate. change (claim_of now iss sub own a3 "jwks") with
      (match dget "jwks" a3 with Some v => Some v | None => if truthy (arg_or "include_jwks" (VBool true) a3) then Some own else None end).
    unfold arg_or. rewrite (AL "jwks"), (AL "include_jwks"), (W2 "include_jwks") by discriminate. reflexivity. }
  split; constructor.
  - intros v A. rewrite J3, (W3 v A). reflexivity.
  - intros ks U K. destruct (W4 U ks K) as (X & Y). split; [rewrite J3, X; reflexivity|].
    rewrite Q by discriminate. change (claim_of now iss sub own a3 "keys") with (dget "keys" a3). rewrite AL by discriminate. exact Y.
  - intros z Hz Nz. rewrite Q by discriminate. unfold claim_of. cbn -[arg_or dget Z.add].
    unfold arg_or. rewrite G3 by discriminate.
    assert (A : asked args "lifetime" (VInt z)).
    { split; [exact Hz|]. cbn [truthy]. destruct (Z.eqb_spec z 0); [contradiction|reflexivity]. }
    apply filled_some in A. rewrite A in L2. rewrite L2. destruct (Z.eqb_spec z 0); [contradiction|reflexivity].
  - intros k v Hk A. destruct (String.eqb_spec k "authority_hints") as [->|N1].
    { apply filled_some in A. rewrite A in QH. exact QH. }
    destruct (String.eqb_spec k "trust_marks") as [->|N2'].
    { apply filled_some in A. rewrite A in M3. rewrite T3. exact M3. }
    rewrite (Q k N1). destruct A as (A & T).
    assert (X : dget k a3 = Some v).
    { rewrite AL; [rewrite W2; [exact A|..]|exact N2'|];
        intros ->; cbn [In] in Hk; repeat (destruct Hk as [Hk|Hk]; [discriminate Hk|]); exact Hk. }
    unfold claim_of. rewrite X. cbn [In] in Hk.
    destruct Hk as [<-|[<-|[<-|[<-|[<-|[<-|[]]]]]]]; try contradiction; cbn -[truthy]; rewrite T; reflexivity.
  - intros k v Hk A. assert (X : dget k a3 = Some v).
    { rewrite AL; [rewrite W2; [exact A|..]|..]; intros ->; apply Hk; cbn [In]; tauto. }
    rewrite Q by (intros ->; apply Hk; cbn [In]; tauto). unfold claim_of. rewrite X.
    repeat match goal with
    | |- context [String.eqb k ?b] => destruct (String.eqb_spec k b) as [Y|_]; [exfalso; apply Hk; rewrite Y; cbn [In]; tauto|]
    end. cbn [orb].
    assert (S : smem k filtered = false).
    { destruct (smem k filtered) eqn:S; [|reflexivity]. apply smem_In in S. exfalso. apply Hk. unfold filtered in S. cbn [In] in S |- *. tauto. }
    rewrite S. reflexivity.
  - intros U K I. rewrite J3, (W5 U K). unfold arg_or. rewrite I. reflexivity.
  - intros U Nz. rewrite Q by discriminate. unfold claim_of. cbn -[arg_or dget Z.add]. unfold arg_or. rewrite G3 by discriminate.
    apply filled_none in U. rewrite U in L2. rewrite L2. destruct (Z.eqb_spec (cx_lifetime cx) 0); [contradiction|reflexivity].
  - intros m U Hm T. apply filled_none in U. rewrite U in M3. rewrite T3. exact (M3 m Hm T).
  - intros h U Hh T. apply filled_none in U. rewrite U in QH. exact (QH h Hh T).
Qed.
Print Assumptions C161_partial.

(** a superior states the keys of a subordinate, without and with a list of keys; nothing else is asked for *)
Definition st_cx : context :=
  mkContext "https://ta" 3600 (SrcCall (Ok (VList [VStr "mark"]))) (RtDict []) (SrcList [VStr "https://root"]) [].

Example C161_ex : exists p,
  ctx_statement (fun _ => Err OtherException) st_cx 1000 "https://ta" "https://rp" (VInt 1)
    [("metadata", VDict [("openid_relying_party", VDict [])]); ("keys", VList [VInt 7]); ("crit", VStr "x")] = Ok p /\
  dget "jwks" p = Some (VDict [("keys", VList [VInt 7])]) /\ dget "exp" p = Some (VInt 4600) /\
  dget "trust_marks" p = Some (VList [VStr "mark"]) /\ dget "authority_hints" p = Some (VList [VStr "https://root"]) /\
  dget "crit" p = Some (VStr "x").
Proof. eexists. split; [vm_compute; reflexivity|]. repeat split; reflexivity. Qed.
