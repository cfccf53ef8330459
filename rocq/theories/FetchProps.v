(** The fetch endpoint (C50, C51, C67-C70). *)
From Verif Require Import FetchFacts.

(** ** Vocabulary *)

(** dictionaries have each key once *)
Definition dicts_ok (S : fserver) (db : subs) : Prop :=
  (forall sub e, dget sub db = Some e -> NoDup (dkeys e)) /\
  (forall x p, dget x (fs_policy S) = Some p -> NoDup (dkeys p)).

(** there is a registration for the entity, and it is not empty *)
Definition registered (db : subs) (sub : string) (e : dict val) : Prop := dget sub db = Some e /\ e <> [].

(** the subject asked for: the entity itself if none is given *)
Definition wanted (S : fserver) (q : freq) : string :=
  match fq_sub q with Some s => if String.eqb s "" then fs_id S else s | None => fs_id S end.

(** the request names no other issuer *)
Definition for_us (S : fserver) (q : freq) : Prop := issuer_of S q = fs_id S.

(** ** An entity for the examples *)
Definition ex_srv : fserver := mkFserver "ta" (VStr "keys of ta") [("federation_entity", VDict [])] None
  [("openid_provider", [("metadata_policy", VDict [("scope", VDict [("one_of", VList [VStr "openid"])])])]);
   ("openid_relying_party", [("metadata", VDict [("contacts", VStr "ops")])]);
   ("rp2", [("metadata_policy", VDict [("openid_relying_party", VDict [])])])].

Definition ex_subs : subs :=
  [("op", [("jwks", VStr "keys of op"); ("entity_types", VList [VStr "openid_provider"])]);
   ("rp", [("jwks", VStr "keys of rp"); ("entity_types", VList [VStr "openid_relying_party"; VStr "openid_provider"]);
           ("authority_hints", VList [VStr "ta"])]);
   ("rp2", [("jwks", VStr "keys of rp2"); ("entity_types", VList [VStr "openid_provider"])]);
   ("nokeys", [("intermediate", VBool true)])].

Lemma ex_dicts : dicts_ok ex_srv ex_subs.
Proof.
  split; intros x e H; apply dget_In in H; simpl in H;
    repeat destruct H as [H|H]; try contradiction; injection H as <- <-; simpl;
    repeat (constructor; [simpl; intuition discriminate|]); constructor.
Qed.

(** ** Lemmas *)

Lemma find_filled_some k d e : find_filled k d = Some e <-> dget k d = Some e /\ e <> [].
Proof.
  unfold find_filled. destruct (dget k d) as [x|]; [|split; [discriminate|intros [H _]; discriminate]].
  destruct x; simpl; split.
  - discriminate.
  - intros [[= <-] C]. congruence.
  - intros [= <-]. split; [reflexivity|discriminate].
  - intros [H _]. exact H.
Qed.

Lemma find_filled_none k d : find_filled k d = None <-> (forall e, dget k d = Some e -> e = []).
Proof.
  unfold find_filled. destruct (dget k d) as [x|]; [|split; [discriminate|reflexivity]].
  destruct x; simpl; split; try discriminate.
  - intros _ e [= <-]. reflexivity.
  - reflexivity.
  - intros H. specialize (H _ eq_refl). discriminate.
Qed.

Lemma NoDup_ddel A k (d : dict A) : NoDup (dkeys d) -> NoDup (dkeys (ddel k d)).
Proof.
  induction d as [|[k' v] d IH]; simpl; intros H; [constructor|]. inversion H as [|? ? Hn Hd]; subst.
  destruct (String.eqb_spec k k') as [->|N]; [auto|]. simpl. constructor; [|auto].
  intros Hi. apply Hn. destruct (key_In_dget _ _ _ Hi) as [w Hw].
  rewrite dget_ddel_other in Hw by congruence. eapply dget_In_key, Hw.
Qed.

Lemma with_hints_nodup iss e : NoDup (dkeys e) -> NoDup (dkeys (with_hints iss e)).
Proof. unfold with_hints. destruct (dmem "authority_hints" e); [auto|apply NoDup_dset]. Qed.

Lemma kept_nodup S db iss sub e :
  dicts_ok S db -> dget sub db = Some e -> NoDup (dkeys (kept S iss sub e)).
Proof.
  intros [H1 H2] He. apply H1 in He. unfold kept, own_policy.
  destruct (find_filled sub (fs_policy S)) as [p|]; [apply NoDup_dupdate|]; apply with_hints_nodup; exact He.
Qed.

Lemma stmt_args_nodup S sub e args :
  NoDup (dkeys e) -> stmt_args S sub e = Ok args -> NoDup (dkeys args).
Proof.
  intros H. unfold stmt_args. destruct (own_policy S sub); [intros [= <-]; exact H|].
  destruct (dget "entity_types" e) as [ts|]; [|intros [= <-]; exact H].
  intros G. apply bind_ok in G. destruct G as (l & _ & G). apply bind_ok in G. destruct G as ([m mp] & _ & G).
  injection G as <-. destruct (is_nil m && is_nil mp); [|apply NoDup_dset, NoDup_dset]; apply NoDup_ddel; exact H.
Qed.

Lemma own_nodup S : NoDup (dkeys (own_args S)).
Proof.
  unfold own_args. destruct (fs_hints S); simpl; repeat (constructor; [simpl; intuition discriminate|]); constructor.
Qed.

(** a response is the entity's own statement or one about a registered subordinate *)
Lemma fetch_inv S now q db db' p :
  dicts_ok S db -> fetch S now q db = (db', Ok p) ->
  (own_request S q = true /\ db' = db /\
   (forall k, dget k p = claim_of now (fs_id S) (fs_id S) (fs_jwks S) (own_args S) k)) \/
  (exists sub e args, own_request S q = false /\ fq_sub q = Some sub /\ sub <> "" /\ sub <> issuer_of S q /\
     registered db sub e /\
     stmt_args S sub (kept S (issuer_of S q) sub e) = Ok args /\ NoDup (dkeys args) /\
     (forall k, dget k p = claim_of now (issuer_of S q) sub (fs_jwks S) args k)).
Proof.
  intros Hd H. rewrite fetch_eq in H. destruct (own_request S q) eqn:Eo.
  - left. injection H as <- H. split; [reflexivity|]. split; [reflexivity|].
    exact (create_claims _ _ _ _ _ _ (own_nodup S) H).
  - right. unfold own_request in Eo. destruct (fq_sub q) as [sub|]; [|discriminate].
    apply orb_false_iff in Eo. destruct Eo as [N1 N2]. apply String.eqb_neq in N1, N2.
    destruct (find_filled sub db) as [e|] eqn:Ee; [|discriminate]. injection H as _ H.
    apply bind_ok in H. destruct H as (args & Ha & Hc). apply find_filled_some in Ee.
    assert (ND : NoDup (dkeys args)) by (eapply stmt_args_nodup; [apply (kept_nodup S db); [exact Hd|apply Ee]|exact Ha]).
    exists sub, e, args. repeat (split; [first [reflexivity|assumption]|]).
    exact (create_claims _ _ _ _ _ _ ND Hc).
Qed.

(** ** C50 *)

Definition C50_full : Prop := forall S now q db db' p,
  dicts_ok S db -> fetch S now q db = (db', Ok p) ->
  dget "iss" p = Some (VStr (fs_id S)) /\ dget "sub" p = Some (VStr (wanted S q)) /\
  (wanted S q <> fs_id S -> exists e, registered db (wanted S q) e).

(** the requester chooses the issuer *)
Theorem C50_known_subjects_refuted : ~ C50_full.
Proof.
  intros H.
  assert (G : exists db' p, fetch ex_srv 0 (mkFreq (Some "evil") (Some "op")) ex_subs = (db', Ok p) /\
                            dget "iss" p = Some (VStr "evil")).
  { eexists. eexists. split; vm_compute; reflexivity. }
  destruct G as (db' & p & G & E). destruct (H _ _ _ _ _ _ ex_dicts G) as (C & _). rewrite E in C. discriminate.
Qed.

(** Also false without the issuer: a request that names the same unknown entity as issuer and subject is
    answered with the entity's own configuration. *)
Theorem C50_wanted_subject_refuted : ~ (forall S now q db db' p,
  dicts_ok S db -> fetch S now q db = (db', Ok p) -> dget "sub" p = Some (VStr (wanted S q))).
Proof.
  intros H.
  assert (G : exists db' p, fetch ex_srv 0 (mkFreq (Some "x") (Some "x")) ex_subs = (db', Ok p) /\
                            dget "sub" p = Some (VStr "ta")).
  { eexists. eexists. split; vm_compute; reflexivity. }
  destruct G as (db' & p & G & E). specialize (H _ _ _ _ _ _ ex_dicts G). rewrite E in H. discriminate.
Qed.

(** Missing: requests that name another issuer.  For all others the full statement holds. *)
Theorem C50_known_subjects_partial : forall S now q db db' p,
  dicts_ok S db -> for_us S q -> fetch S now q db = (db', Ok p) ->
  dget "iss" p = Some (VStr (fs_id S)) /\ dget "sub" p = Some (VStr (wanted S q)) /\
  (wanted S q <> fs_id S -> exists e, registered db (wanted S q) e).
Proof.
  intros S now q db db' p Hd Hu H. red in Hu. unfold wanted.
  destruct (fetch_inv _ _ _ _ _ _ Hd H) as [(Ho & _ & Hc)|(sub & e & args & Ho & Es & N1 & N2 & Hr & _ & _ & Hc)].
  - rewrite !Hc. unfold claim_of. cbn. split; [reflexivity|]. unfold own_request in Ho.
    destruct (fq_sub q) as [sub|]; [|split; [reflexivity|congruence]].
    destruct (String.eqb sub "") eqn:E0; [split; [reflexivity|congruence]|].
    cbn [orb] in Ho. apply String.eqb_eq in Ho. rewrite Ho, Hu. split; [reflexivity|congruence].
  - rewrite !Hc, Es, Hu. unfold claim_of. cbn. split; [reflexivity|].
    destruct (String.eqb_spec sub ""); [contradiction|]. split; [reflexivity|]. intros _. exists e. exact Hr.
Qed.

(** whatever issuer is named: statements are about the entity itself or about the registered subordinate asked for *)
Theorem C50_subjects : forall S now q db db' p,
  dicts_ok S db -> fetch S now q db = (db', Ok p) ->
  (dget "iss" p = Some (VStr (fs_id S)) /\ dget "sub" p = Some (VStr (fs_id S)) /\ db' = db) \/
  (exists e, dget "iss" p = Some (VStr (issuer_of S q)) /\ dget "sub" p = Some (VStr (wanted S q)) /\
     registered db (wanted S q) e).
Proof.
  intros S now q db db' p Hd H. unfold wanted.
  destruct (fetch_inv _ _ _ _ _ _ Hd H) as [(_ & E & Hc)|(sub & e & args & _ & Es & N1 & N2 & Hr & _ & _ & Hc)].
  - left. rewrite !Hc. auto.
  - right. exists e. rewrite !Hc, Es. destruct (String.eqb_spec sub ""); [contradiction|]. auto.
Qed.

(** unknown subjects are rejected *)
Theorem C50_unknown_rejected : forall S now q db,
  for_us S q -> wanted S q <> fs_id S -> (forall e, ~ registered db (wanted S q) e) ->
  fetch S now q db = (db, Err UnknownEntity).
Proof.
  intros S now q db Hu Hw Hr. red in Hu. rewrite fetch_eq. unfold own_request, wanted in *.
  destruct (fq_sub q) as [sub|]; [|congruence].
  destruct (String.eqb sub "") eqn:E0; [congruence|]. cbn [orb]. rewrite Hu.
  destruct (String.eqb_spec sub (fs_id S)); [congruence|].
  destruct (find_filled sub db) as [e|] eqn:E; [|reflexivity]. apply find_filled_some in E.
  exfalso. exact (Hr e E).
Qed.

(** registrations the endpoint can work with *)
Definition plain_registration (S : fserver) (sub : string) (e : dict val) : Prop :=
  (forall k, In k ["iss"; "sub"; "key_jar"] -> dget k e = None) /\
  (forall v, dget "lifetime" e = Some v -> exists z, v = VInt z) /\
  (forall v, dget "entity_types" e = Some v -> exists ts, v = VList (map VStr ts)) /\
  (forall p k v, dget sub (fs_policy S) = Some p -> dget k p = Some v -> k = "metadata" \/ k = "metadata_policy").

Lemma type_policies_some pol ts : forall acc, exists r,
  foldM (fun '(m, mp) t =>
           match t with
           | VStr et =>
               match find_filled et pol with
               | None => Ok (m, mp)
               | Some p => Ok (add_typed "metadata" et p m, add_typed "metadata_policy" et p mp)
               end
           | _ => if hashable t then Ok (m, mp) else Err TypeError
           end) (map VStr ts) acc = Ok r.
Proof.
  induction ts as [|t ts IH]; intros [m mp]; simpl; [eauto|].
  destruct (find_filled t pol); apply IH.
Qed.

Lemma create_total now iss sub jw args :
  (forall k, In k ["iss"; "sub"; "key_jar"] -> dget k args = None) ->
  (forall v, dget "lifetime" args = Some v -> exists z, v = VInt z) ->
  exists p, create_entity_statement now iss sub jw args = Ok p.
Proof.
  intros H1 H2. unfold create_entity_statement, statement_msg, dmem.
  rewrite !H1 by (simpl; auto). cbn [orb bind]. unfold sign_claims, arg_or.
  destruct (dget "lifetime" args) as [v|]; [|eexists; reflexivity].
  destruct (H2 v eq_refl) as [z ->]. simpl. destruct (Z.eqb z 0); eexists; reflexivity.
Qed.

Lemma kept_other S iss sub e k :
  (forall p k v, dget sub (fs_policy S) = Some p -> dget k p = Some v -> k = "metadata" \/ k = "metadata_policy") ->
  (forall p, dget sub (fs_policy S) = Some p -> NoDup (dkeys p)) ->
  k <> "authority_hints" -> k <> "metadata" -> k <> "metadata_policy" ->
  dget k (kept S iss sub e) = dget k e.
Proof.
  intros Hp Hnd N1 N2 N3. unfold kept, own_policy.
  assert (Hw : dget k (with_hints iss e) = dget k e).
  { unfold with_hints. destruct (dmem "authority_hints" e); [reflexivity|apply dget_dset_other; exact N1]. }
  destruct (find_filled sub (fs_policy S)) as [p|] eqn:E; [|exact Hw]. apply find_filled_some in E.
  rewrite dget_dupdate by (apply Hnd, E).
  destruct (dget k p) as [v|] eqn:Ev; [|exact Hw]. destruct (Hp p k v (proj1 E) Ev); congruence.
Qed.

(** registered subjects get their statement *)
Theorem C50_known_answered : forall S now q db e,
  dicts_ok S db -> for_us S q -> wanted S q <> fs_id S ->
  registered db (wanted S q) e -> plain_registration S (wanted S q) e ->
  exists db' p, fetch S now q db = (db', Ok p).
Proof.
  intros S now q db e Hd Hu Hw Hr (P1 & P2 & P3 & P4). red in Hu. rewrite fetch_eq. unfold own_request, wanted in *.
  destruct (fq_sub q) as [sub|]; [|congruence].
  destruct (String.eqb sub "") eqn:E0; [congruence|]. cbn [orb]. rewrite Hu.
  destruct (String.eqb_spec sub (fs_id S)); [congruence|].
  assert (E := proj2 (find_filled_some _ _ _) Hr). rewrite E. eexists.
  set (e1 := kept S (fs_id S) sub e).
  assert (K : forall k, k <> "authority_hints" -> k <> "metadata" -> k <> "metadata_policy" -> dget k e1 = dget k e).
  { intros k. apply kept_other; [exact P4|]. intros p Hp. exact (proj2 Hd _ _ Hp). }
  assert (A1 : forall k, In k ["iss"; "sub"; "key_jar"] -> dget k e1 = None).
  { intros k Hk. rewrite K; [apply P1; exact Hk| | |]; intros ->; simpl in Hk; intuition discriminate. }
  assert (A2 : forall v, dget "lifetime" e1 = Some v -> exists z, v = VInt z).
  { intros v. rewrite K by discriminate. apply P2. }
  assert (A : exists args, stmt_args S sub e1 = Ok args /\
    (forall k, k = "metadata" \/ k = "metadata_policy" \/ k = "entity_types" \/ dget k args = dget k e1)).
  { unfold stmt_args. destruct (own_policy S sub); [exists e1; auto|].
    destruct (dget "entity_types" e1) as [v|] eqn:Et; [|exists e1; auto].
    rewrite K in Et by discriminate. destruct (P3 v Et) as [ts ->]. cbn [py_list bind].
    destruct (type_policies_some (fs_policy S) ts ([], [])) as [[m mp] Em].
    unfold type_policies. rewrite Em. cbn [bind]. eexists. split; [reflexivity|]. intros k.
    destruct (String.eqb_spec k "metadata"); [auto|]. destruct (String.eqb_spec k "metadata_policy"); [auto|].
    destruct (String.eqb_spec k "entity_types"); [auto|]. right. right. right.
    destruct (is_nil m && is_nil mp); [apply dget_ddel_other; assumption|].
    cbn [dupdate fold_left fst snd]. rewrite !dget_dset_other by assumption. apply dget_ddel_other; assumption. }
  destruct A as (args & Ha & Hk). rewrite Ha. cbn [bind].
  destruct (create_total now (fs_id S) sub (fs_jwks S) args) as [p Hp].
  - intros k Hi. destruct (Hk k) as [->|[->|[->|Ek]]]; try (simpl in Hi; intuition discriminate). rewrite Ek. apply A1. exact Hi.
  - destruct (Hk "lifetime") as [C|[C|[C|Ek]]]; try discriminate. rewrite Ek. exact A2.
  - exists p. rewrite Hp. reflexivity.
Qed.

Example C50_ex :
  for_us ex_srv (mkFreq None (Some "op")) /\ for_us ex_srv (mkFreq (Some "ta") (Some "op")) /\
  snd (fetch ex_srv 1000 (mkFreq None (Some "op")) ex_subs) =
    Ok [("sub", VStr "op");
        ("metadata_policy", VDict [("openid_provider", VDict [("scope", VDict [("one_of", VList [VStr "openid"])])])]);
        ("authority_hints", VList [VStr "ta"]); ("jwks", VStr "keys of op"); ("iss", VStr "ta");
        ("iat", VInt 1000); ("exp", VInt 87400)] /\
  snd (fetch ex_srv 1000 (mkFreq None (Some "stranger")) ex_subs) = Err UnknownEntity /\
  (exists p, snd (fetch ex_srv 1000 (mkFreq None None) ex_subs) = Ok p /\ dget "sub" p = Some (VStr "ta")) /\
  plain_registration ex_srv "op" [("jwks", VStr "keys of op"); ("entity_types", VList [VStr "openid_provider"])].
Proof.
  split; [reflexivity|]. split; [reflexivity|]. split; [vm_compute; reflexivity|]. split; [vm_compute; reflexivity|].
  split; [eexists; split; vm_compute; reflexivity|].
  split; [intros k Hk; simpl in Hk; repeat destruct Hk as [<-|Hk]; try contradiction; reflexivity|].
  split; [discriminate|]. split; [intros v [= <-]; exists ["openid_provider"]; reflexivity|]. discriminate.
Qed.

(** ** C51 *)

Definition C51_full : Prop := forall S db h now q,
  dicts_ok S db -> snd (fetch S now q (serve S h db)) = snd (fetch S now q db).

(** a request naming another issuer changes what later requests get to see *)
Theorem C51_history_refuted : ~ C51_full.
Proof.
  intros H.
  specialize (H ex_srv ex_subs [(900%Z, mkFreq (Some "evil") (Some "op"))] 1000%Z (mkFreq None (Some "op")) ex_dicts).
  vm_compute in H. discriminate.
Qed.

(** what the requester named the first time is what everybody is told from then on *)
Example C51_poisoned :
  exists p, snd (fetch ex_srv 1000 (mkFreq None (Some "op"))
                   (serve ex_srv [(900%Z, mkFreq (Some "evil") (Some "op"))] ex_subs)) = Ok p /\
            dget "iss" p = Some (VStr "ta") /\ dget "authority_hints" p = Some (VList [VStr "evil"]).
Proof. eexists. split; [vm_compute; reflexivity|]. split; reflexivity. Qed.

Lemma dset_same A k (v : A) d : dget k d = Some v -> dset k v d = d.
Proof.
  induction d as [|[k' v'] d IH]; simpl; [discriminate|].
  destruct (String.eqb_spec k k') as [->|N]; [intros [= ->]; reflexivity|]. intros H. rewrite IH by exact H. reflexivity.
Qed.

Lemma dupdate_same A (d e : dict A) : (forall k v, In (k, v) e -> dget k d = Some v) -> dupdate d e = d.
Proof.
  unfold dupdate. induction e as [|[k v] e IH]; simpl; intros H; [reflexivity|].
  rewrite dset_same by (apply H; auto). apply IH. intros k' v' Hi. apply H. auto.
Qed.

Lemma with_hints_has iss e : dmem "authority_hints" (with_hints iss e) = true.
Proof.
  unfold with_hints. destruct (dmem "authority_hints" e) eqn:E; [exact E|]. unfold dmem. rewrite dget_dset_same. reflexivity.
Qed.

Lemma kept_idem S i j sub e :
  (forall p, dget sub (fs_policy S) = Some p -> NoDup (dkeys p)) ->
  kept S j sub (kept S i sub e) = kept S i sub e.
Proof.
  intros Hp. unfold kept, own_policy. destruct (find_filled sub (fs_policy S)) as [p|] eqn:E.
  - apply find_filled_some in E. destruct E as [E _]. apply Hp in E.
    assert (M : dmem "authority_hints" (dupdate (with_hints i e) p) = true).
    { unfold dmem. rewrite dget_dupdate by exact E. destruct (dget "authority_hints" p); [reflexivity|].
      apply (with_hints_has i e). }
    unfold with_hints at 1. rewrite M. apply dupdate_same. intros k v Hi.
    rewrite dget_dupdate by exact E. rewrite (In_dget_nodup _ _ _ _ E Hi). reflexivity.
  - unfold with_hints at 1. rewrite with_hints_has. reflexivity.
Qed.

Lemma dset_nonempty A k (v : A) d : dset k v d <> [].
Proof. destruct d as [|[k' v'] d]; simpl; [discriminate|]. destruct (String.eqb k k'); discriminate. Qed.

Lemma dupdate_nonempty A (d e : dict A) : d <> [] -> dupdate d e <> [].
Proof.
  unfold dupdate. revert d. induction e as [|[k v] e IH]; simpl; intros d H; [exact H|]. apply IH, dset_nonempty.
Qed.

Lemma kept_nonempty S i sub e : e <> [] -> kept S i sub e <> [].
Proof.
  intros H. assert (W : with_hints i e <> []).
  { unfold with_hints. destruct (dmem "authority_hints" e); [exact H|apply dset_nonempty]. }
  unfold kept. destruct (own_policy S sub); [apply dupdate_nonempty|]; exact W.
Qed.

(** requests about a subordinate, with the issuer they name *)
Definition asked (S : fserver) (h : list (Z * freq)) (sub iss : string) : Prop :=
  exists t q, In (t, q) h /\ fq_sub q = Some sub /\ issuer_of S q = iss.

Lemma find_filled_dset k k' e d :
  e <> [] -> find_filled k (dset k' e d) = if String.eqb k k' then Some e else find_filled k d.
Proof.
  intros H. unfold find_filled. rewrite dget_dset. destruct (String.eqb k k'); [|reflexivity].
  destruct e; [congruence|reflexivity].
Qed.

(** all that requests do to the store *)
Lemma serve_entry S h sub :
  (forall p, dget sub (fs_policy S) = Some p -> NoDup (dkeys p)) -> forall db,
  find_filled sub (serve S h db) = find_filled sub db \/
  exists e i, find_filled sub db = Some e /\ asked S h sub i /\ find_filled sub (serve S h db) = Some (kept S i sub e).
Proof.
  intros Hp. induction h as [|[t q] h IH]; intros db; simpl; [left; reflexivity|].
  assert (M : forall i, asked S h sub i -> asked S ((t, q) :: h) sub i).
  { intros i (t0 & q0 & Hi & Hr). exists t0, q0. split; [right; exact Hi|exact Hr]. }
  rewrite fetch_eq. destruct (own_request S q).
  { cbn [fst]. destruct (IH db) as [E|(e & i & E1 & E2 & E3)]; [left; exact E|right; exists e, i; auto]. }
  destruct (fq_sub q) as [s|] eqn:Es.
  2:{ cbn [fst]. destruct (IH db) as [E|(e & i & E1 & E2 & E3)]; [left; exact E|right; exists e, i; auto]. }
  destruct (find_filled s db) as [e0|] eqn:E0.
  2:{ cbn [fst]. destruct (IH db) as [E|(e & i & E1 & E2 & E3)]; [left; exact E|right; exists e, i; auto]. }
  cbn [fst]. set (db1 := dset s _ db).
  assert (N0 : e0 <> []) by (apply find_filled_some in E0; apply E0).
  assert (F1 := find_filled_dset sub s (kept S (issuer_of S q) s e0) db (kept_nonempty S _ s e0 N0)).
  fold db1 in F1. destruct (String.eqb_spec sub s) as [<-|Ns].
  - assert (A0 : asked S ((t, q) :: h) sub (issuer_of S q)) by (exists t, q; simpl; auto).
    right. destruct (IH db1) as [E|(e & i & E1 & E2 & E3)].
    + exists e0, (issuer_of S q). split; [exact E0|]. split; [exact A0|]. etransitivity; [exact E|exact F1].
    + assert (E1' := eq_trans (eq_sym E1) F1). injection E1' as ->. exists e0, (issuer_of S q). split; [exact E0|]. split; [exact A0|].
      rewrite E3. f_equal. apply kept_idem. exact Hp.
  - destruct (IH db1) as [E|(e & i & E1 & E2 & E3)].
    + left. etransitivity; [exact E|exact F1].
    + right. exists e, i. split; [exact (eq_trans (eq_sym F1) E1)|]. auto.
Qed.

(** Missing: requests that name another issuer fix the authority hints of a subordinate registered
    without.  What holds: if the hints are registered, or all requests for the subordinate name the same
    issuer, the response is the one to the first request. *)
Theorem C51_history_partial : forall S db h now q,
  dicts_ok S db ->
  (forall e, dget (wanted S q) db = Some e -> dmem "authority_hints" e = true) \/
  (forall i, asked S h (wanted S q) i -> i = issuer_of S q) ->
  snd (fetch S now q (serve S h db)) = snd (fetch S now q db).
Proof.
  intros S db h now q Hd Hw. rewrite !fetch_eq. destruct (own_request S q) eqn:Eo; [reflexivity|].
  unfold wanted, own_request in *. destruct (fq_sub q) as [sub|] eqn:Es; [|reflexivity].
  apply orb_false_iff in Eo. destruct Eo as [N1 N2]. rewrite N1 in Hw.
  assert (Hp : forall p, dget sub (fs_policy S) = Some p -> NoDup (dkeys p)) by (intros p; apply (proj2 Hd)).
  destruct (serve_entry S h sub Hp db) as [->|(e & i & E1 & E2 & ->)].
  - destruct (find_filled sub db); reflexivity.
  - rewrite E1. cbn [snd]. rewrite kept_idem by exact Hp.
    replace (kept S i sub e) with (kept S (issuer_of S q) sub e); [reflexivity|].
    destruct Hw as [Hw|Hw]; [|rewrite (Hw i E2); reflexivity].
    apply find_filled_some in E1. unfold kept, with_hints. rewrite (Hw e (proj1 E1)). reflexivity.
Qed.

(** two outcomes that agree but for one claim *)
Definition agree_but (name : string) (r r' : res (dict val)) : Prop :=
  match r, r' with
  | Ok p, Ok p' => forall k, k <> name -> dget k p = dget k p'
  | Err e, Err e' => e = e'
  | _, _ => False
  end.

Definition creatable (args : dict val) : bool :=
  negb (dmem "iss" args || dmem "sub" args || dmem "key_jar" args) &&
  match arg_or "lifetime" (VInt 86400) args with
  | VInt _ | VBool _ => true
  | v => negb (truthy v)
  end.

Lemma create_outcome now iss sub jw args :
  match create_entity_statement now iss sub jw args with
  | Ok _ => creatable args = true
  | Err e => e = TypeError /\ creatable args = false
  end.
Proof.
  unfold create_entity_statement, statement_msg, creatable.
  destruct (dmem "iss" args || dmem "sub" args || dmem "key_jar" args); cbn [bind negb andb]; [auto|].
  unfold sign_claims. destruct (arg_or "lifetime" (VInt 86400) args) as [|b|z|s|l|d]; cbn [truthy negb]; auto.
  - destruct b; reflexivity.
  - destruct (Z.eqb z 0); reflexivity.
  - destruct (String.eqb s ""); cbn; auto.
  - destruct l; cbn; auto.
  - destruct d; cbn; auto.
Qed.

Lemma create_agree now iss sub jw a b :
  NoDup (dkeys a) -> NoDup (dkeys b) -> (forall k, k <> "authority_hints" -> dget k a = dget k b) ->
  agree_but "authority_hints" (create_entity_statement now iss sub jw a) (create_entity_statement now iss sub jw b).
Proof.
  intros Na Nb H.
  assert (C : forall k, k <> "authority_hints" -> claim_of now iss sub jw a k = claim_of now iss sub jw b k).
  { intros k Hk. unfold claim_of, arg_or.
    rewrite (H k Hk), (H "jwks"), (H "include_jwks"), (H "lifetime"), (H "exp") by discriminate. reflexivity. }
  assert (G : creatable a = creatable b).
  { unfold creatable, arg_or, dmem.
    rewrite (H "iss"), (H "sub"), (H "key_jar"), (H "lifetime") by discriminate. reflexivity. }
  assert (Oa := create_outcome now iss sub jw a). assert (Ob := create_outcome now iss sub jw b).
  destruct (create_entity_statement now iss sub jw a) as [p|x] eqn:Ea;
    destruct (create_entity_statement now iss sub jw b) as [p'|x'] eqn:Eb; simpl.
  - intros k Hk. rewrite (create_claims _ _ _ _ _ _ Na Ea), (create_claims _ _ _ _ _ _ Nb Eb). apply C. exact Hk.
  - destruct Ob. congruence.
  - destruct Oa. congruence.
  - destruct Oa, Ob. congruence.
Qed.

Lemma kept_agree S i j sub e k : k <> "authority_hints" ->
  (forall p, dget sub (fs_policy S) = Some p -> NoDup (dkeys p)) ->
  dget k (kept S i sub e) = dget k (kept S j sub e).
Proof.
  intros N Hp.
  assert (W : forall i, dget k (with_hints i e) = dget k e).
  { intros x. unfold with_hints. destruct (dmem "authority_hints" e); [reflexivity|apply dget_dset_other; exact N]. }
  unfold kept, own_policy. destruct (find_filled sub (fs_policy S)) as [p|] eqn:E; [|rewrite !W; reflexivity].
  apply find_filled_some in E. rewrite !dget_dupdate by (apply Hp, E). rewrite !W. reflexivity.
Qed.

(** nothing but the authority hints depends on earlier requests *)
Theorem C51_all_but_hints : forall S db h now q,
  dicts_ok S db ->
  agree_but "authority_hints" (snd (fetch S now q (serve S h db))) (snd (fetch S now q db)).
Proof.
  intros S db h now q Hd.
  assert (R : forall r, agree_but "authority_hints" r r) by (intros [p|x]; simpl; reflexivity).
  rewrite !fetch_eq. destruct (own_request S q) eqn:Eo; [apply R|].
  destruct (fq_sub q) as [sub|] eqn:Es; [|apply R].
  assert (Hp : forall p, dget sub (fs_policy S) = Some p -> NoDup (dkeys p)) by (intros p; apply (proj2 Hd)).
  destruct (serve_entry S h sub Hp db) as [->|(e & i & E1 & E2 & ->)]; [destruct (find_filled sub db); apply R|].
  rewrite E1. cbn [snd]. rewrite kept_idem by exact Hp. apply find_filled_some in E1. destruct E1 as [E1 _].
  assert (Na := kept_nodup S db i sub e Hd E1). assert (Nb := kept_nodup S db (issuer_of S q) sub e Hd E1).
  assert (K := fun k => kept_agree S i (issuer_of S q) sub e k).
  set (a := kept S i sub e) in *. set (b := kept S (issuer_of S q) sub e) in *.
  unfold stmt_args. destruct (own_policy S sub) as [p|].
  { cbn [bind]. apply create_agree; [exact Na|exact Nb|]. intros k Hk. apply K; [exact Hk|exact Hp]. }
  rewrite (K "entity_types") by (discriminate || exact Hp).
  destruct (dget "entity_types" b) as [ts|].
  2:{ cbn [bind]. apply create_agree; [exact Na|exact Nb|]. intros k Hk. apply K; [exact Hk|exact Hp]. }
  destruct (py_list ts) as [l|x]; cbn [bind]; [|simpl; reflexivity].
  destruct (type_policies (fs_policy S) l) as [[m mp]|x]; cbn [bind]; [|simpl; reflexivity].
  assert (D : forall k, k <> "authority_hints" -> dget k (ddel "entity_types" a) = dget k (ddel "entity_types" b)).
  { intros k Hk. destruct (String.eqb_spec k "entity_types") as [->|N]; [rewrite !dget_ddel_same; reflexivity|].
    rewrite !dget_ddel_other by exact N. apply K; [exact Hk|exact Hp]. }
  destruct (is_nil m && is_nil mp).
  - apply create_agree; [apply NoDup_ddel; exact Na|apply NoDup_ddel; exact Nb|exact D].
  - apply create_agree; [apply NoDup_dupdate, NoDup_ddel; exact Na|apply NoDup_dupdate, NoDup_ddel; exact Nb|].
    intros k Hk. cbn [dupdate fold_left fst snd]. rewrite !dget_dset. rewrite (D k Hk). reflexivity.
Qed.

Example C51_ex : dicts_ok ex_srv ex_subs /\
  asked ex_srv [(900%Z, mkFreq (Some "evil") (Some "rp")); (910%Z, mkFreq None (Some "op"))] "op" "ta" /\
  snd (fetch ex_srv 1000 (mkFreq None (Some "rp"))
     (serve ex_srv [(900%Z, mkFreq (Some "evil") (Some "rp")); (910%Z, mkFreq None (Some "op"))] ex_subs))
  = snd (fetch ex_srv 1000 (mkFreq None (Some "rp")) ex_subs).
Proof.
  split; [exact ex_dicts|]. split; [|vm_compute; reflexivity].
  exists 910%Z, (mkFreq None (Some "op")). simpl. auto.
Qed.

(** ** C67: the keys in a statement are those registered for the subject *)

Definition C67_full : Prop := forall S now q db db' p e,
  dicts_ok S db -> for_us S q -> wanted S q <> fs_id S -> registered db (wanted S q) e ->
  fetch S now q db = (db', Ok p) -> dget "jwks" p = dget "jwks" e.

(** a subordinate registered without keys is given those of its superior *)
Theorem C67_registered_keys_refuted : ~ C67_full.
Proof.
  intros H.
  assert (G : exists db' p, fetch ex_srv 0 (mkFreq None (Some "nokeys")) ex_subs = (db', Ok p) /\ dget "jwks" p = Some (VStr "keys of ta")).
  { eexists. eexists. split; vm_compute; reflexivity. }
  destruct G as (db' & p & G & E).
  enough (C : dget "jwks" p = None) by congruence.
  rewrite (H ex_srv 0%Z (mkFreq None (Some "nokeys")) ex_subs db' p [("intermediate", VBool true)]);
    [reflexivity|exact ex_dicts|reflexivity|discriminate|split; [reflexivity|discriminate]|exact G].
Qed.

(** what the registration says about a claim outside of metadata, policy and hints is what is asked for *)
Lemma stmt_args_other S sub e args k :
  stmt_args S sub e = Ok args -> k <> "metadata" -> k <> "metadata_policy" -> k <> "entity_types" ->
  dget k args = dget k e.
Proof.
  intros H N1 N2 N3. unfold stmt_args in H. destruct (own_policy S sub); [injection H as <-; reflexivity|].
  destruct (dget "entity_types" e) as [ts|]; [|injection H as <-; reflexivity].
  apply bind_ok in H. destruct H as (l & _ & H). apply bind_ok in H. destruct H as ([m mp] & _ & H).
  injection H as <-. destruct (is_nil m && is_nil mp); [apply dget_ddel_other; exact N3|].
  rewrite !dget_dset_other by assumption. apply dget_ddel_other; exact N3.
Qed.

(** policies for entities say something about metadata only *)
Definition policies_ok (S : fserver) : Prop :=
  forall x p k, dget x (fs_policy S) = Some p -> In k (dkeys p) -> k = "metadata" \/ k = "metadata_policy".

Lemma kept_policies S db iss sub e k :
  dicts_ok S db -> policies_ok S -> k <> "authority_hints" -> k <> "metadata" -> k <> "metadata_policy" ->
  dget k (kept S iss sub e) = dget k e.
Proof.
  intros Hd Hp. apply kept_other.
  - intros p k' v E Ev. apply (Hp _ _ _ E). eapply dget_In_key, Ev.
  - intros p. apply (proj2 Hd).
Qed.

(** Missing: subordinates registered without keys.  Whatever issuer the request names, a subordinate
    registered with keys is stated to have these. *)
Theorem C67_registered_keys_partial : forall S now q db db' p jwks e,
  dicts_ok S db -> policies_ok S -> own_request S q = false ->
  registered db (wanted S q) e -> dget "jwks" e = Some jwks ->
  fetch S now q db = (db', Ok p) -> dget "jwks" p = Some jwks.
Proof.
  intros S now q db db' p jwks e Hd Hp Ho Hr Hj H. unfold wanted in Hr.
  destruct (fetch_inv _ _ _ _ _ _ Hd H) as [(C & _)|(sub & e' & args & _ & Es & N1 & _ & Hr' & Ha & _ & Hc)]; [congruence|].
  rewrite Es in Hr. destruct (String.eqb_spec sub ""); [contradiction|].
  assert (e' = e) by (destruct Hr, Hr'; congruence). subst e'.
  rewrite Hc. unfold claim_of. cbn -[dget truthy arg_or].
  rewrite (stmt_args_other _ _ _ _ _ Ha) by discriminate.
  rewrite (kept_policies S db) by (assumption || discriminate). rewrite Hj. reflexivity.
Qed.

Lemma ex_policies : policies_ok ex_srv.
Proof.
  intros x p k H Hk. apply dget_In in H. simpl in H. repeat destruct H as [H|H]; try contradiction;
    injection H as <- <-; simpl in Hk; intuition auto.
Qed.

Example C67_ex : policies_ok ex_srv /\ exists p,
  snd (fetch ex_srv 1000 (mkFreq (Some "evil") (Some "rp2")) ex_subs) = Ok p /\ dget "jwks" p = Some (VStr "keys of rp2").
Proof. split; [exact ex_policies|]. eexists. split; vm_compute; reflexivity. Qed.

(** ** C68: the superior's policies are in the statement *)

(** a policy the entity has for one of the types of the subordinate is in the statement, below the type *)
Definition states_type_policy (p : dict val) (claim et : string) (v : val) : Prop :=
  exists d, dget claim p = Some (VDict d) /\ dget et d = Some v.

Definition C68_full : Prop := forall S now q db db' p e ts et pol claim v,
  dicts_ok S db -> own_request S q = false -> registered db (wanted S q) e ->
  dget "entity_types" e = Some (VList (map VStr ts)) -> In et ts ->
  dget et (fs_policy S) = Some pol -> In claim ["metadata"; "metadata_policy"] -> dget claim pol = Some v ->
  fetch S now q db = (db', Ok p) -> states_type_policy p claim et v.

(** an entity with a policy of its own is not bound by those for its types *)
Theorem C68_policies_refuted : ~ C68_full.
Proof.
  intros H.
  assert (G : exists db' p, fetch ex_srv 0 (mkFreq None (Some "rp2")) ex_subs = (db', Ok p) /\ dget "metadata_policy" p = Some (VDict [("openid_relying_party", VDict [])])).
  { eexists. eexists. split; vm_compute; reflexivity. }
  destruct G as (db' & p & G & E).
  assert (D : states_type_policy p "metadata_policy" "openid_provider"
                (VDict [("scope", VDict [("one_of", VList [VStr "openid"])])])).
  { apply (H ex_srv 0%Z (mkFreq None (Some "rp2")) ex_subs db' p
             [("jwks", VStr "keys of rp2"); ("entity_types", VList [VStr "openid_provider"])] ["openid_provider"] "openid_provider"
             [("metadata_policy", VDict [("scope", VDict [("one_of", VList [VStr "openid"])])])] "metadata_policy");
      [exact ex_dicts|reflexivity|split; [reflexivity|discriminate]|reflexivity|simpl; auto|reflexivity|simpl; auto|reflexivity|exact G]. }
  destruct D as (d & D1 & D2).
  rewrite E in D1. injection D1 as <-. discriminate.
Qed.

Lemma add_typed_get typ et p acc k :
  dget k (add_typed typ et p acc) = if String.eqb k et then
                                      match dget typ p with Some v => Some v | None => dget k acc end
                                    else dget k acc.
Proof.
  unfold add_typed. destruct (dget typ p); [apply dget_dset|destruct (String.eqb k et); reflexivity].
Qed.

(** the policies of the types, and nothing else *)
Lemma type_policies_get pol ts : exists m mp, type_policies pol (map VStr ts) = Ok (m, mp) /\
  forall et, dget et m = (if smem et ts then match find_filled et pol with Some p => dget "metadata" p | None => None end else None) /\
             dget et mp = (if smem et ts then match find_filled et pol with Some p => dget "metadata_policy" p | None => None end else None).
Proof.
  unfold type_policies.
  assert (G : forall m mp, exists m' mp',
    foldM (fun '(m, mp) t =>
             match t with
             | VStr et =>
                 match find_filled et pol with
                 | None => Ok (m, mp)
                 | Some p => Ok (add_typed "metadata" et p m, add_typed "metadata_policy" et p mp)
                 end
             | _ => if hashable t then Ok (m, mp) else Err TypeError
             end) (map VStr ts) (m, mp) = Ok (m', mp') /\
    forall et, dget et m' = (if smem et ts then match find_filled et pol with
                               Some p => match dget "metadata" p with Some v => Some v | None => dget et m end
                               | None => dget et m end else dget et m) /\
               dget et mp' = (if smem et ts then match find_filled et pol with
                               Some p => match dget "metadata_policy" p with Some v => Some v | None => dget et mp end
                               | None => dget et mp end else dget et mp)).
  { induction ts as [|t ts IH]; intros m mp; simpl; [exists m, mp; auto|].
    destruct (find_filled t pol) as [p|] eqn:Et.
    - destruct (IH (add_typed "metadata" t p m) (add_typed "metadata_policy" t p mp)) as (m' & mp' & E & G).
      exists m', mp'. split; [exact E|]. intros et. destruct (G et) as [G1 G2]. rewrite G1, G2, !add_typed_get.
      destruct (String.eqb_spec et t) as [->|N]; cbn [orb].
      + rewrite Et. destruct (smem t ts), (dget "metadata" p), (dget "metadata_policy" p); auto.
      + auto.
    - destruct (IH m mp) as (m' & mp' & E & G). exists m', mp'. split; [exact E|]. intros et.
      destruct (G et) as [G1 G2]. rewrite G1, G2.
      destruct (String.eqb_spec et t) as [->|N]; cbn [orb]; [|auto]. rewrite Et. destruct (smem t ts); auto. }
  destruct (G [] []) as (m & mp & E & H). exists m, mp. split; [exact E|]. intros et. destruct (H et) as [-> ->].
  cbn [dget]. destruct (smem et ts); [|auto]. destruct (find_filled et pol) as [p|]; [|auto].
  destruct (dget "metadata" p), (dget "metadata_policy" p); auto.
Qed.

(** Missing: entities that have a policy of their own.  For all others every policy for one of their types
    is in the statement. *)
Theorem C68_policies_partial : forall S now q db db' p e ts et pol claim v,
  dicts_ok S db -> own_request S q = false -> registered db (wanted S q) e ->
  (forall own, dget (wanted S q) (fs_policy S) = Some own -> own = []) ->
  dget "entity_types" e = Some (VList (map VStr ts)) -> In et ts ->
  dget et (fs_policy S) = Some pol -> In claim ["metadata"; "metadata_policy"] -> dget claim pol = Some v ->
  fetch S now q db = (db', Ok p) -> states_type_policy p claim et v.
Proof.
  intros S now q db db' p e ts et pol claim v Hd Ho Hr Hown Ht Hi Hpol Hcl Hv H. unfold wanted in *.
  destruct (fetch_inv _ _ _ _ _ _ Hd H) as [(C & _)|(sub & e' & args & _ & Es & N1 & _ & Hr' & Ha & _ & Hc)]; [congruence|].
  rewrite Es in *. destruct (String.eqb_spec sub ""); [contradiction|].
  assert (e' = e) by (destruct Hr, Hr'; congruence). subst e'.
  assert (Op : own_policy S sub = None) by (apply find_filled_none; exact Hown).
  unfold stmt_args, kept in Ha. rewrite Op in Ha.
  assert (Et : dget "entity_types" (with_hints (issuer_of S q) e) = Some (VList (map VStr ts))).
  { unfold with_hints. destruct (dmem "authority_hints" e); [exact Ht|]. rewrite dget_dset_other by discriminate. exact Ht. }
  rewrite Et in Ha. cbn [py_list bind] in Ha.
  destruct (type_policies_get (fs_policy S) ts) as (m & mp & Em & G). rewrite Em in Ha. cbn [bind] in Ha.
  assert (F : find_filled et (fs_policy S) = Some pol).
  { apply find_filled_some. split; [exact Hpol|]. intros ->. discriminate. }
  destruct (G et) as [G1 G2]. rewrite (proj2 (smem_In et ts) Hi), F in G1, G2.
  injection Ha as <-. simpl in Hcl. destruct Hcl as [<-|[<-|[]]].
  - rewrite Hv in G1. destruct m as [|x m]; [discriminate|]. cbn [is_nil andb] in Hc.
    exists (x :: m). split; [|exact G1]. rewrite Hc. unfold claim_of. cbn -[dget dset truthy].
    rewrite dget_dset_other by discriminate. rewrite dget_dset_same. reflexivity.
  - rewrite Hv in G2. destruct mp as [|x mp]; [discriminate|]. cbn [is_nil] in Hc. rewrite andb_false_r in Hc.
    exists (x :: mp). split; [|exact G2]. rewrite Hc. unfold claim_of. cbn -[dget dset truthy].
    rewrite dget_dset_same. reflexivity.
Qed.

(** an entity with a policy of its own is told that policy *)
Theorem C68_own_policy : forall S now q db db' p e pol claim v,
  dicts_ok S db -> own_request S q = false -> registered db (wanted S q) e ->
  dget (wanted S q) (fs_policy S) = Some pol -> In claim ["metadata"; "metadata_policy"] ->
  dget claim pol = Some v -> truthy v = true ->
  fetch S now q db = (db', Ok p) -> dget claim p = Some v.
Proof.
  intros S now q db db' p e pol claim v Hd Ho Hr Hpol Hcl Hv Htr H. unfold wanted in *.
  destruct (fetch_inv _ _ _ _ _ _ Hd H) as [(C & _)|(sub & e' & args & _ & Es & N1 & _ & Hr' & Ha & _ & Hc)]; [congruence|].
  rewrite Es in *. destruct (String.eqb_spec sub ""); [contradiction|].
  assert (Op : own_policy S sub = Some pol).
  { apply find_filled_some. split; [exact Hpol|]. intros ->. discriminate. }
  unfold stmt_args, kept in Ha. rewrite Op in Ha. injection Ha as <-.
  assert (G : dget claim (dupdate (with_hints (issuer_of S q) e') pol) = Some v).
  { rewrite dget_dupdate by (apply (proj2 Hd _ _ Hpol)). rewrite Hv. reflexivity. }
  rewrite Hc. simpl in Hcl. destruct Hcl as [<-|[<-|[]]]; unfold claim_of; cbn -[dget truthy];
    rewrite G; cbn [if_truthy]; rewrite Htr; reflexivity.
Qed.

Example C68_ex : exists p p',
  snd (fetch ex_srv 1000 (mkFreq None (Some "rp")) ex_subs) = Ok p /\
  states_type_policy p "metadata" "openid_relying_party" (VDict [("contacts", VStr "ops")]) /\
  states_type_policy p "metadata_policy" "openid_provider" (VDict [("scope", VDict [("one_of", VList [VStr "openid"])])]) /\
  snd (fetch ex_srv 1000 (mkFreq None (Some "rp2")) ex_subs) = Ok p' /\
  dget "metadata_policy" p' = Some (VDict [("openid_relying_party", VDict [])]).
Proof.
  eexists. eexists. split; [vm_compute; reflexivity|]. split; [eexists; split; reflexivity|].
  split; [eexists; split; reflexivity|]. split; vm_compute; reflexivity.
Qed.

(** ** C69: registration details are not published *)

Definition C69_full : Prop := forall S now q db db' p k,
  dicts_ok S db -> policies_ok S -> In k ["entity_types"; "entity_type"; "intermediate"] ->
  fetch S now q db = (db', Ok p) -> dget k p = None.

Theorem C69_internal_refuted : ~ C69_full.
Proof.
  intros H.
  assert (G : exists db' p, fetch ex_srv 0 (mkFreq None (Some "nokeys")) ex_subs = (db', Ok p) /\ dget "intermediate" p = Some (VBool true)).
  { eexists. eexists. split; vm_compute; reflexivity. }
  destruct G as (db' & p & G & E).
  specialize (H _ _ _ _ _ _ "intermediate" ex_dicts ex_policies ltac:(simpl; auto) G). congruence.
Qed.

(** Missing: what the list endpoint goes by (entity_type and intermediate) is published, and entity_types of
    an entity that has a policy of its own.  For all others entity_types stays inside. *)
Theorem C69_internal_partial : forall S now q db db' p,
  dicts_ok S db -> (forall own, dget (wanted S q) (fs_policy S) = Some own -> own = []) ->
  fetch S now q db = (db', Ok p) -> dget "entity_types" p = None.
Proof.
  intros S now q db db' p Hd Hown H. unfold wanted in *.
  destruct (fetch_inv _ _ _ _ _ _ Hd H) as [(_ & _ & Hc)|(sub & e & args & _ & Es & N1 & _ & Hr & Ha & _ & Hc)].
  - rewrite Hc. unfold claim_of, own_args. cbn. destruct (fs_hints S); reflexivity.
  - rewrite Es in *. destruct (String.eqb_spec sub ""); [contradiction|].
    assert (Op : own_policy S sub = None) by (apply find_filled_none; exact Hown).
    rewrite Hc. unfold claim_of. cbn -[dget]. unfold stmt_args in Ha. rewrite Op in Ha.
    destruct (dget "entity_types" (kept S (issuer_of S q) sub e)) as [ts|] eqn:Et; [|injection Ha as <-; exact Et].
    apply bind_ok in Ha. destruct Ha as (l & _ & Ha). apply bind_ok in Ha. destruct Ha as ([m mp] & _ & Ha).
    injection Ha as <-. destruct (is_nil m && is_nil mp); [apply dget_ddel_same|].
    rewrite !dget_dset_other by discriminate. apply dget_ddel_same.
Qed.

Example C69_ex : exists p p', snd (fetch ex_srv 1000 (mkFreq None (Some "rp")) ex_subs) = Ok p /\
  dget "entity_types" p = None /\
  snd (fetch ex_srv 1000 (mkFreq None (Some "rp2")) ex_subs) = Ok p' /\ dget "entity_types" p' <> None.
Proof. eexists. eexists. split; [vm_compute; reflexivity|]. split; [reflexivity|]. split; [vm_compute; reflexivity|discriminate]. Qed.

(** ** C70: every statement expires *)

Definition C70_full : Prop := forall S now q db db' p,
  dicts_ok S db -> policies_ok S -> fetch S now q db = (db', Ok p) ->
  exists z, dget "exp" p = Some (VInt z) /\ (now < z)%Z.

Definition lasting_subs : subs := [("rp", [("jwks", VStr "keys of rp"); ("lifetime", VInt 0)])].

Theorem C70_expires_refuted : ~ C70_full.
Proof.
  intros H.
  assert (D : dicts_ok ex_srv lasting_subs).
  { split; [|exact (proj2 ex_dicts)]. intros x e E. apply dget_In in E. simpl in E. destruct E as [E|[]].
    injection E as <- <-. simpl. repeat (constructor; [simpl; intuition discriminate|]). constructor. }
  assert (G : exists db' p, fetch ex_srv 0 (mkFreq None (Some "rp")) lasting_subs = (db', Ok p) /\ dget "exp" p = None).
  { eexists. eexists. split; vm_compute; reflexivity. }
  destruct G as (db' & p & G & E). destruct (H _ _ _ _ _ _ D ex_policies G) as (z & C & _). congruence.
Qed.

(** Missing: a lifetime of 0.  With a positive lifetime, or none, registered the statement expires after it,
    by default after a day. *)
Theorem C70_expires_partial : forall S now q db db' p,
  dicts_ok S db -> policies_ok S ->
  (forall sub e v, dget sub db = Some e -> dget "lifetime" e = Some v -> exists z, v = VInt z /\ (0 < z)%Z) ->
  fetch S now q db = (db', Ok p) ->
  exists z, dget "exp" p = Some (VInt (now + z)) /\ (0 < z)%Z /\
    (z = 86400%Z \/ exists e, dget (wanted S q) db = Some e /\ dget "lifetime" e = Some (VInt z)).
Proof.
  intros S now q db db' p Hd Hp Hl H. unfold wanted.
  destruct (fetch_inv _ _ _ _ _ _ Hd H) as [(_ & _ & Hc)|(sub & e & args & _ & Es & N1 & _ & Hr & Ha & _ & Hc)].
  - exists 86400%Z. rewrite Hc. unfold claim_of, own_args, arg_or. cbn. split; [destruct (fs_hints S); reflexivity|].
    split; [lia|auto].
  - rewrite Es. destruct (String.eqb_spec sub ""); [contradiction|].
    assert (L : dget "lifetime" args = dget "lifetime" e).
    { rewrite (stmt_args_other _ _ _ _ _ Ha) by discriminate. apply (kept_policies S db); (assumption || discriminate). }
    rewrite Hc. unfold claim_of, arg_or. cbn -[dget Z.add]. rewrite L. destruct Hr as [Hr _].
    destruct (dget "lifetime" e) as [v|] eqn:El.
    + destruct (Hl _ _ _ Hr El) as (z & -> & Hz). exists z. destruct (Z.eqb_spec z 0); [lia|].
      split; [reflexivity|]. split; [exact Hz|]. right. exists e. auto.
    + exists 86400%Z. split; [reflexivity|]. split; [lia|auto].
Qed.

Print Assumptions C50_known_subjects_refuted.
Print Assumptions C50_wanted_subject_refuted.
Print Assumptions C50_known_subjects_partial.
Print Assumptions C50_subjects.
Print Assumptions C50_unknown_rejected.
Print Assumptions C50_known_answered.
Print Assumptions C51_history_refuted.
Print Assumptions C51_history_partial.
Print Assumptions C51_all_but_hints.
Print Assumptions C67_registered_keys_refuted.
Print Assumptions C67_registered_keys_partial.
Print Assumptions C68_policies_refuted.
Print Assumptions C68_policies_partial.
Print Assumptions C68_own_policy.
Print Assumptions C69_internal_refuted.
Print Assumptions C69_internal_partial.
Print Assumptions C70_expires_refuted.
Print Assumptions C70_expires_partial.
