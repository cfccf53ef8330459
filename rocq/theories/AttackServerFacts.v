(** Servers in federations under attack (C148): vocabulary and lemmas. *)
From Verif Require Import PyFacts CollectorFacts VerifierFacts FederationProps RegistrationFacts RegistrationProps ClientFacts RpFacts.
From Verif Require Import ClientProps.
From Verif Require Export ClientModel AttackFacts.

(** ** Vocabulary *)

(** what a server is asked *)
Inductive sact :=
| Serve (a : act)                                                                     (* as a federation entity *)
| Authorize (F : flavour) (new automatic : bool) (id : string) (provided : list token)  (* an authorization request *)
| ExplicitOAuth (t : token)                                                           (* registration requests *)
| ExplicitOIDC (t : token).

Section ServerActs.
Context (E : cenv) (O : iter_order) (fuel : nat) (me : string) (jwks : val) (wta : bool) (R : reg_env) (prio : list string).

Definition serve (a : sact) : M astate unit :=
  match a with
  | Serve a => do _ <- on_fed (perform E O fuel me jwks wta a) in ret tt
  | Authorize F new automatic id provided => do _ <- client_authentication E O fuel R F new automatic id provided in ret tt
  | ExplicitOAuth t => do _ <- explicit_oauth E O fuel R prio t in ret tt
  | ExplicitOIDC t => do _ <- explicit_oidc E O fuel R prio t in ret tt
  end.

Definition sact_from (W : world) (a : sact) : Prop :=
  match a with
  | Serve a => act_from W a
  | Authorize _ _ _ _ provided => forall t, In t provided -> wire W t
  | ExplicitOAuth t | ExplicitOIDC t => wire W t
  end.

Definition after_served (acts : list sact) (s : astate) : astate := fold_left (fun s a => fst (serve a s)) acts s.
End ServerActs.

(** [md] are metadata of a chain that is made of genuine statements *)
Definition genuine_metadata (W : world) (O : iter_order) (md : metadata) : Prop :=
  exists c ty, made_of W O c /\ chain_metadata c ty = Ok md.

(** [k] is one of the keys [md] gives *)
Definition key_in (K : key_sources) (md : metadata) (k : key) : Prop :=
  exists v, (In ("jwks_uri", v) md /\ In k (ks_url K v)) \/
            (In ("jwks", v) md /\ exists ks, ks_jwks K v = Ok ks /\ In k ks).

(** [v] is kept for the redirect URI [u] *)
Definition uri_kept (R : reg_env) (u v : val) : Prop :=
  exists s, u = VStr s /\
    (v = VList [VStr s; VDict []] \/
     v = VList [VStr (fst (rg_split R s)); if truthy (snd (rg_split R s)) then snd (rg_split R s) else VDict []]).

(** keys and redirect URIs of clients are out of such metadata *)
Definition clients_genuine (W : world) (O : iter_order) (R : reg_env) (r : rstate) : Prop :=
  (forall id k, In (KPub k) (ckeys_of (r_keys r) id) -> exists md, genuine_metadata W O md /\ key_in (rg_keys R) md k) /\
  (forall id ci v, dget id (r_cdb r) = Some ci -> dget "redirect_uris" ci = Some v ->
     exists md l vs, genuine_metadata W O md /\ In ("redirect_uris", VList l) md /\ v = VList vs /\ Forall2 (uri_kept R) l vs).

(** ** Lemmas *)

Section Server.
Context (W : world) (E : cenv) (HE : exposed W E).
Context (U : unforgeable W) (TR : truthful W) (D : discreet W).
Context (O : iter_order) (fuel : nat) (R : reg_env) (prio : list string).
Context (Hnull : forall ks, ks_jwks (rg_keys R) VNull = Ok ks -> ks = []).
Context (PO : forall x, In x ["jwks"; "jwks_uri"; "redirect_uris"] -> passed_on R x).

Definition key_ok (k : key) : Prop := exists md, genuine_metadata W O md /\ key_in (rg_keys R) md k.

Lemma add_ckeys_ok kj id ks : (forall e k, In (KPub k) (ckeys_of kj e) -> key_ok k) -> (forall k, In (KPub k) ks -> key_ok k) ->
  forall e k, In (KPub k) (ckeys_of (add_ckeys id ks kj) e) -> key_ok k.
Proof.
  intros H1 H2 e k H. rewrite ckeys_add in H. apply in_app_or in H. destruct H as [H|H]; [exact (H1 e k H)|].
  destruct (String.eqb e id); [exact (H2 k H)|destruct H].
Qed.

Lemma pub_in k l : In (KPub k) (map KPub l) -> In k l.
Proof. intros H. apply in_map_iff in H. destruct H as (x & [= ->] & H). exact H. Qed.

(** a dictionary whose claims are out of genuine metadata *)
Definition claims_of_genuine (d : dict val) : Prop :=
  exists md, genuine_metadata W O md /\
    forall x v, In x ["jwks"; "jwks_uri"; "redirect_uris"] -> dget x d = Some v -> In (x, v) md.

Lemma import_ok d id kj : claims_of_genuine d -> (forall e k, In (KPub k) (ckeys_of kj e) -> key_ok k) ->
  forall e k, In (KPub k) (ckeys_of (fst (import_client_keys (rg_keys R) d id kj)) e) -> key_ok k.
Proof.
  intros (md & G & H) Hk. unfold import_client_keys. destruct (truthy _); [exact Hk|].
  destruct (truthy (field "jwks_uri" d)) eqn:E1.
  - apply add_ckeys_ok; [exact Hk|]. intros k Hin. apply pub_in in Hin. exists md. split; [exact G|].
    unfold field in Hin, E1. destruct (dget "jwks_uri" d) as [v|] eqn:Ed; [|discriminate].
    exists v. left. split; [apply H; [simpl; auto|exact Ed]|exact Hin].
  - destruct (truthy (field "jwks" d)) eqn:E2; [|exact Hk]. destruct (ks_jwks (rg_keys R) (field "jwks" d)) as [ks|x] eqn:Ej; [|exact Hk].
    apply add_ckeys_ok; [exact Hk|]. intros k Hin. apply pub_in in Hin. exists md. split; [exact G|].
    unfold field in Ej, E2. destruct (dget "jwks" d) as [v|] eqn:Ed; [|discriminate].
    exists v. right. split; [apply H; [simpl; auto|exact Ed]|]. exists ks. auto.
Qed.

Lemma get_keys_ok d id kj : claims_of_genuine d -> (forall e k, In (KPub k) (ckeys_of kj e) -> key_ok k) ->
  forall e k, In (KPub k) (ckeys_of (fst (get_keys (rg_keys R) d id kj)) e) -> key_ok k.
Proof.
  intros (md & G & H) Hk. unfold get_keys. destruct (truthy _); [exact Hk|].
  destruct (truthy (field "jwks_uri" d)) eqn:E1.
  - apply add_ckeys_ok; [exact Hk|]. intros k Hin. apply pub_in in Hin. exists md. split; [exact G|].
    unfold field in Hin, E1. destruct (dget "jwks_uri" d) as [v|] eqn:Ed; [|discriminate].
    exists v. left. split; [apply H; [simpl; auto|exact Ed]|exact Hin].
  - destruct (ks_jwks (rg_keys R) (field "jwks" d)) as [ks|x] eqn:Ej; [|exact Hk].
    apply add_ckeys_ok; [exact Hk|]. intros k Hin. apply pub_in in Hin.
    unfold field in Ej. destruct (dget "jwks" d) as [v|] eqn:Ed.
    + exists md. split; [exact G|]. exists v. right. split; [apply H; [simpl; auto|exact Ed]|]. exists ks. auto.
    + apply Hnull in Ej. subst ks. destruct Hin.
Qed.

Definition ri := clients_genuine W O R.

Lemma k_keys (m : M ckeyjar unit) :
  (forall kj, (forall e k, In (KPub k) (ckeys_of kj e) -> key_ok k) -> forall e k, In (KPub k) (ckeys_of (fst (m kj)) e) -> key_ok k) ->
  keeps ri (on_ckeys m) (fun _ => True).
Proof.
  intros H r [H1 H2]. unfold on_ckeys. destruct (m (r_keys r)) as [kj x] eqn:Em. cbn [fst snd]. split; [|trivial].
  split; cbn [r_keys r_cdb]; [|exact H2]. assert (G := H (r_keys r) H1). rewrite Em in G. exact G.
Qed.

Definition entry_ok (ci : dict val) : Prop := forall v, dget "redirect_uris" ci = Some v ->
  exists md l vs, genuine_metadata W O md /\ In ("redirect_uris", VList l) md /\ v = VList vs /\ Forall2 (uri_kept R) l vs.

Lemma set_ok id ci db : entry_ok ci -> (forall i c v, dget i db = Some c -> dget "redirect_uris" c = Some v ->
     exists md l vs, genuine_metadata W O md /\ In ("redirect_uris", VList l) md /\ v = VList vs /\ Forall2 (uri_kept R) l vs) ->
  forall i c v, dget i (dset id ci db) = Some c -> dget "redirect_uris" c = Some v ->
     exists md l vs, genuine_metadata W O md /\ In ("redirect_uris", VList l) md /\ v = VList vs /\ Forall2 (uri_kept R) l vs.
Proof.
  intros Hc H i c v Hg. rewrite dget_dset in Hg. destruct (String.eqb i id); [|exact (H i c v Hg)].
  injection Hg as <-. exact (Hc v).
Qed.

Lemma first_no_uris id new_id set_secret : dget "redirect_uris" (first_entry R id new_id set_secret) = None.
Proof.
  unfold first_entry, add_client_secret. destruct new_id, set_secret; try reflexivity;
    destruct (Z.eqb _ _); reflexivity.
Qed.

Lemma uris_kept req v l : dget "redirect_uris" req = Some (VList l) -> verify_redirect_uris R req = Ok (Done v) ->
  exists vs, v = VList vs /\ Forall2 (uri_kept R) l vs.
Proof.
  intros Dg H. destruct (verify_uris_ok R req req v l eq_refl eq_refl Dg H) as (vs & -> & F & _).
  exists vs. split; [reflexivity|]. clear -F. induction F as [|u w us ws Huw _ IH]; constructor; [|exact IH].
  destruct Huw as (s & -> & [(_ & _ & ->)|(_ & ->)]); exists s; auto.
Qed.

Lemma redirect_is_list req v : verify_redirect_uris R req = Ok (Done v) -> exists l, dget "redirect_uris" req = Some (VList l).
Proof.
  unfold verify_redirect_uris. destruct (dget "redirect_uris" req) as [[| | | |l|]|]; try discriminate. eauto.
Qed.

Lemma info_ok req id new_id set_secret ci : NoDup (dkeys req) -> claims_of_genuine req ->
  client_info R req (first_entry R id new_id set_secret) = Ok (Done ci) -> entry_ok ci.
Proof.
  intros N (md & G & H) Hc v Hv.
  destruct (client_info_done _ _ _ _ Hc) as (c1 & c2 & c3 & c4 & H1 & H2 & H3 & H4 & H5).
  apply (check_algs_le _ _ _ _ _ _ H5) in Hv.
  rewrite (other_uris_get _ _ _ _ "redirect_uris" H4) in Hv by (simpl; intuition discriminate).
  assert (Hv2 : dget "redirect_uris" c2 = Some v).
  { destruct H3 as [->|[l ->]]; [exact Hv|]. rewrite dget_dset_other in Hv by discriminate. exact Hv. }
  destruct H2 as [[Hn ->]|[l [Hl ->]]].
  - exfalso. assert (Hb : dget "redirect_uris" (base_info req (first_entry R id new_id set_secret)) = Some v).
    { destruct H1 as [->|[x ->]]; [exact Hv2|]. rewrite dget_dset_other in Hv2 by discriminate. exact Hv2. }
    rewrite base_info_get in Hb by exact N. cbn [smem ignored existsb] in Hb. rewrite first_no_uris in Hb. discriminate.
  - rewrite dget_dset_same in Hv2. injection Hv2 as ->. destruct (redirect_is_list _ _ Hl) as [us Hus].
    destruct (uris_kept _ _ _ Hus Hl) as (vs & -> & F). exists md, us, vs. split; [exact G|].
    split; [apply H; [simpl; auto|exact Hus]|]. auto.
Qed.

Lemma accepted_claims request req : NoDup (dkeys request) -> accepted_request O R request req ->
  claims_of_genuine request -> claims_of_genuine req.
Proof.
  intros N A (md & G & H). exists md. split; [exact G|]. intros x v Hx Hv. apply H; [exact Hx|].
  destruct (accepted_get _ _ _ _ A N) as [_ G']. specialize (G' x). assert (P := PO x Hx). unfold passed_on in P. rewrite P in G'.
  destruct (dget x request) as [w|]; [|congruence]. destruct (rg_blank R w); congruence.
Qed.

Lemma identified_claims new_id reserved s req id req' : identified R new_id reserved s req id req' ->
  claims_of_genuine req -> claims_of_genuine req'.
Proof.
  intros I (md & G & H). exists md. split; [exact G|]. intros x v Hx Hv. apply H; [exact Hx|].
  rewrite <- Hv. symmetry. apply (identified_get _ _ _ _ _ _ _ _ I). intros ->. simpl in Hx. intuition discriminate.
Qed.

Lemma k_step2 request new_id set_secret reserved : NoDup (dkeys request) -> claims_of_genuine request ->
  keeps ri (step2_process_request O R request new_id set_secret reserved) (fun _ => True).
Proof.
  intros N C r Hr. split; [|trivial].
  destruct (step2_process_request O R request new_id set_secret reserved r) as [r' x] eqn:Es. cbn [fst].
  destruct (step2_end _ _ _ _ _ _ _ _ _ Es) as [_ RE]. destruct Hr as [H1 H2].
  inversion RE as [x0 ND|req id req' x0 ND A I|req id req' ci kj A I CI IK]; subst.
  - split; assumption.
  - split; cbn [r_keys r_cdb]; [exact H1|]. apply set_ok; [|exact H2]. intros v Hv. rewrite first_no_uris in Hv. discriminate.
  - assert (Cq := identified_claims _ _ _ _ _ _ I (accepted_claims _ _ N A C)).
    assert (Nq : NoDup (dkeys req')) by (eapply identified_nodup; [exact I|]; exact (proj1 (accepted_get _ _ _ _ A N))).
    split; cbn [r_keys r_cdb].
    + assert (K := import_ok req' id (r_keys r) Cq H1). rewrite IK in K. cbn [fst] in K.
      unfold with_secret. destruct (_ && _); [|exact K]. apply add_ckeys_ok; [exact K|]. intros k [Hk|[]]. discriminate.
    + apply set_ok; [exact (info_ok _ _ _ _ _ Nq Cq CI)|]. apply set_ok; [|exact H2].
      intros v Hv. rewrite first_no_uris in Hv. discriminate.
Qed.

Lemma request_in md x v : dget x (request_of md) = Some v -> In (x, v) md.
Proof.
  unfold request_of, dupdate. intros H.
  assert (G : forall acc, dget x (fold_left (fun d (e : string * val) => dset (fst e) (snd e) d) md acc) = Some v ->
                In (x, v) md \/ dget x acc = Some v).
  { clear H. induction md as [|[y w] md IH]; intros acc H; cbn [fold_left fst snd] in H; [auto|].
    destruct (IH _ H) as [Hin|Hg]; [left; right; exact Hin|]. rewrite dget_dset in Hg.
    destruct (String.eqb_spec x y) as [->|N]; [injection Hg as ->; left; left; reflexivity|auto]. }
  destruct (G [] H) as [Hin|Hg]; [exact Hin|discriminate].
Qed.

Lemma metadata_claims md : genuine_metadata W O md -> claims_of_genuine md.
Proof. intros G. exists md. split; [exact G|]. intros x v _ Hv. apply dget_In. exact Hv. Qed.

Lemma request_claims md : genuine_metadata W O md -> claims_of_genuine (request_of md).
Proof. intros G. exists md. split; [exact G|]. intros x v _ Hv. apply request_in. exact Hv. Qed.

Lemma with_id_claims md id : genuine_metadata W O md -> claims_of_genuine (dset "client_id" (VStr id) (request_of md)).
Proof.
  intros G. exists md. split; [exact G|]. intros x v Hx Hv. apply request_in. rewrite dget_dset_other in Hv; [exact Hv|].
  intros ->. simpl in Hx. intuition discriminate.
Qed.

Definition ai (s : astate) : Prop := sound W O (a_fed s) /\ ri (a_reg s).

Lemma k_on_fed A (m : M fstate A) Q : keeps (sound W O) m Q -> keeps ai (on_fed m) Q.
Proof.
  intros H s [H1 H2]. unfold on_fed. destruct (H _ H1) as [G1 G2]. destruct (m (a_fed s)) as [f r]; cbn [fst snd] in *.
  split; [split; assumption|exact G2].
Qed.

Lemma k_on_reg A (m : M rstate A) Q : keeps ri m Q -> keeps ai (on_reg m) Q.
Proof.
  intros H s [H1 H2]. unfold on_reg. destruct (H _ H2) as [G1 G2]. destruct (m (a_reg s)) as [f r]; cbn [fst snd] in *.
  split; [split; assumption|exact G2].
Qed.

Definition made (cs : list tchain) : Prop := forall c, In c cs -> made_of W O c.

Lemma k_chains_for id provided : (forall t, In t provided -> wire W t) ->
  keeps (sound W O) (chains_for E O fuel id provided) made.
Proof.
  intros H. unfold chains_for. destruct (is_nil provided).
  - apply (k_get_verified (wire W) W E HE (fun t h => h) (fun n t tp h _ => h) U TR D O fuel).
  - apply (k_provided (wire W) W E U TR D). intros t Ht. apply H. apply in_rev. exact Ht.
Qed.

Lemma k_set_client id ci : entry_ok ci -> keeps ri (set_client id ci) (fun _ => True).
Proof.
  intros H r [H1 H2]. split; [|trivial]. cbn. split; cbn [r_keys r_cdb]; [exact H1|]. apply set_ok; assumption.
Qed.

Lemma entry_more ci k v : k <> "redirect_uris" -> entry_ok ci -> entry_ok (dset k v ci).
Proof. intros N H w Hw. rewrite dget_dset_other in Hw by congruence. exact (H w Hw). Qed.

Lemma k_cdb_set id k v : k <> "redirect_uris" -> keeps ri (cdb_set id k v) (fun _ => True).
Proof.
  intros N. unfold cdb_set. eapply k_bind; [apply k_get|]. intros s Hs.
  eapply k_bind with (Q := fun ci => entry_ok ci).
  { apply k_lift. intros ci Hci. apply dindex_ok in Hci. intros w Hw. exact (proj2 Hs _ _ _ Hci Hw). }
  intros ci Hci. apply k_set_client, entry_more; assumption.
Qed.

Lemma k_alias id rid : keeps ri (alias_client id rid) (fun _ => True).
Proof.
  unfold alias_client. destruct (String.eqb _ _); [apply k_ret; trivial|]. eapply k_bind; [apply k_get|]. intros s Hs.
  eapply k_bind with (Q := fun ci => entry_ok ci).
  { apply k_lift. intros ci Hci. apply dindex_ok in Hci. intros w Hw. exact (proj2 Hs _ _ _ Hci Hw). }
  intros ci Hci. assert (H : entry_ok (dset "entity_id" (VStr id) ci)) by (apply entry_more; [discriminate|exact Hci]).
  eapply k_bind; [apply k_set_client; exact H|]. intros _ _. apply k_set_client. exact H.
Qed.

Lemma k_automatic F new id provided : (forall t, In t provided -> wire W t) ->
  keeps ai (do_automatic_registration E O fuel R F new id provided) (fun _ => True).
Proof.
  intros H. unfold do_automatic_registration. eapply k_bind; [apply k_on_fed, k_chains_for; exact H|].
  intros [|c cs] Hcs; [apply k_raise|].
  eapply k_bind with (Q := fun _ => True).
  { destruct F; try (apply k_ret; trivial). apply k_on_fed. apply (k_store (wire W) W O). exact Hcs. }
  intros _ _. eapply k_bind with (Q := genuine_metadata W O).
  { apply k_lift. intros md Hmd. exists c, (kind_of F). split; [apply Hcs; left; reflexivity|exact Hmd]. }
  intros md Hmd. eapply k_bind with (Q := fun _ => True).
  { apply k_on_reg, k_keys. intros kj Hkj. destruct F.
    - apply get_keys_ok; [apply metadata_claims; exact Hmd|exact Hkj].
    - apply import_ok; [apply metadata_claims; exact Hmd|exact Hkj].
    - apply import_ok; [apply metadata_claims; exact Hmd|exact Hkj]. }
  intros _ _. eapply k_bind.
  { apply k_on_reg, k_step2; [apply NoDup_dset, request_nodup|apply with_id_claims; exact Hmd]. }
  intros [|args] _; [apply k_ret; trivial|].
  destruct (dget "client_id" args) as [[| | |i| |]|]; try apply k_raise; apply k_ret; trivial.
Qed.

Lemma k_authentication F new automatic id provided : (forall t, In t provided -> wire W t) ->
  keeps ai (client_authentication E O fuel R F new automatic id provided) (fun _ => True).
Proof.
  intros H. unfold client_authentication. eapply k_bind; [apply k_get|]. intros s Hs.
  destruct (_ || _); [|apply k_ret; trivial]. destruct automatic; [|apply k_ret; trivial].
  eapply k_bind with (Q := fun _ => True).
  { apply k_on_reg. intros r [H1 H2]. split; [|trivial]. unfold modify. cbn [fst]. destruct F; cbn beta iota; try (split; assumption).
    destruct (dget id (r_cdb (a_reg s))) as [ci|]; [|split; assumption].
    destruct (dmem _ ci); [|split; assumption]. split; cbn [r_keys r_cdb]; [exact H1|].
    intros i c v Hg. destruct (string_dec i id) as [->|N].
    - rewrite dget_ddel_same in Hg. discriminate.
    - rewrite dget_ddel_other in Hg by exact N. exact (H2 i c v Hg). }
  intros _ _. eapply k_bind; [apply k_automatic; exact H|]. intros [rid|] _; [|apply k_ret; trivial].
  eapply k_bind with (Q := fun _ => True).
  { apply k_on_reg. destruct F; [apply k_cdb_set; discriminate|apply k_ret; trivial|apply k_ret; trivial]. }
  intros _ _. eapply k_bind; [apply k_on_reg, k_alias|]. intros _ _. apply k_ret. trivial.
Qed.

Lemma k_explicit_oauth t : wire W t -> keeps ai (explicit_oauth E O fuel R prio t) (fun _ => True).
Proof.
  intros Hw. unfold explicit_oauth. eapply k_bind with (Q := fun _ => True); [apply k_on_fed, (k_on_col (wire W) W O), k_open; trivial|]. intros tp _.
  eapply k_bind with (Q := fun _ => True); [apply k_lift; trivial|]. intros m _.
  eapply k_bind with (Q := fun _ => True); [apply k_lift; trivial|]. intros ty _.
  eapply k_bind; [apply k_on_fed, (k_collect_signed (wire W) W E HE (fun n t tp h _ => h) O fuel); exact Hw|]. intros r [Hr _].
  eapply k_bind.
  { apply k_on_fed, (k_on_keys (wire W) W O), (k_verify_chains W E U TR D). intros ch x Hch Hx. apply in_app_or in Hx.
    destruct Hx as [Hx|[<-|[]]]; [exact (Hr ch x Hch Hx)|apply wire_tok; exact Hw]. }
  intros tcs Htcs. eapply k_bind with (Q := made).
  { apply k_lift. intros cs Hcs. exact (applied_made W O tcs cs Hcs Htcs). }
  intros cs Hcs. eapply k_bind with (Q := fun c => made_of W O c).
  { apply k_lift. intros c Hc. apply Hcs. exact (pick_In _ _ _ Hc). }
  intros c Hc. eapply k_bind with (Q := genuine_metadata W O).
  { apply k_lift. intros md Hmd. exists c, ty. auto. }
  intros md Hmd. apply k_on_reg, k_step2; [apply request_nodup|apply request_claims; exact Hmd].
Qed.

(** everything but explicit registration with OpenID Connect *)
Lemma k_serve me jwks wta a : sact_from W a -> (forall t, a <> ExplicitOIDC t) ->
  keeps ai (serve E O fuel me jwks wta R prio a) (fun _ => True).
Proof.
  destruct a as [a|F new automatic id provided|t|t]; cbn [sact_from serve]; intros H N.
  - eapply k_bind; [apply k_on_fed, (k_perform (wire W) W E HE (fun t h => h) (fun n t tp h _ => h) U TR D O fuel); exact H|].
    intros _ _. apply k_ret. trivial.
  - eapply k_bind; [apply k_authentication; exact H|]. intros _ _. apply k_ret. trivial.
  - eapply k_bind; [apply k_explicit_oauth; exact H|]. intros _ _. apply k_ret. trivial.
  - destruct (N t eq_refl).
Qed.

Lemma after_served_genuine me jwks wta acts : forall s, (forall a, In a acts -> sact_from W a) ->
  (forall t, ~ In (ExplicitOIDC t) acts) -> ai s -> ai (after_served E O fuel me jwks wta R prio acts s).
Proof.
  induction acts as [|a acts IH]; intros s H N Hs; cbn; [exact Hs|]. apply IH.
  - intros b Hb. apply H. right. exact Hb.
  - intros t Ht. apply (N t). right. exact Ht.
  - refine (proj1 (k_serve me jwks wta a (H a (or_introl eq_refl)) _ s Hs)). intros t ->. apply (N t). left. reflexivity.
Qed.

End Server.

(** ** Chains without policies *)

Section NoPolicies.
Context (P : string * val -> Prop) (O : iter_order).

(** no policies, and all claims are as [P] says *)
Definition plain_stmt (q : stmt) : Prop :=
  s_policy q = None /\ forall m ty md, s_metadata q = Some m -> dget ty m = Some md -> Forall P md.

Lemma Forall_dset (k : string) v (d : dict val) : P (k, v) -> Forall P d -> Forall P (dset k v d).
Proof.
  intros Hp H. apply Forall_forall. intros [k' v'] Hin. apply In_dset in Hin. destruct Hin as [->|Hin]; [exact Hp|].
  rewrite Forall_forall in H. exact (H _ Hin).
Qed.

Lemma Forall_dupdate (e : dict val) : forall d, Forall P d -> Forall P e -> Forall P (dupdate d e).
Proof.
  unfold dupdate. induction e as [|[k v] e IH]; intros d Hd He; cbn [fold_left fst snd]; [exact Hd|].
  inversion He; subst. apply IH; [apply Forall_dset; assumption|assumption].
Qed.

Definition plain_rule (r : rule) : Prop := r_policy r = [] /\ Forall P (r_metadata r).

Lemma stmt_rule_plain q ty : plain_stmt q -> plain_rule (stmt_rule q ty).
Proof.
  intros [H1 H2]. unfold stmt_rule. rewrite H1. split; [reflexivity|]. cbn [r_metadata].
  destruct (s_metadata q) as [m|] eqn:Em; [|constructor]. destruct (dget ty m) as [md|] eqn:Ed; [|constructor].
  exact (H2 m ty md eq_refl Ed).
Qed.

Lemma combine_plain a b r : plain_rule a -> plain_rule b -> PolicyModel.combine O a b = Ok r -> plain_rule r.
Proof.
  intros [A1 A2] [B1 B2] H. unfold PolicyModel.combine in H. apply bind_ok in H. destruct H as (md & Hm & H).
  rewrite B1 in H. cbn [is_nil] in H. injection H as <-. split; cbn [r_policy r_metadata]; [exact A1|].
  assert (Hmd : Forall P md).
  { unfold combine_metadata in Hm. destruct (is_nil _); [injection Hm as <-; exact A2|].
    destruct (forallb _ _); [|discriminate]. injection Hm as <-. apply Forall_dupdate; assumption. }
  destruct (is_nil md); assumption.
Qed.

Lemma gather_plain front ty r : (forall q, In q front -> plain_stmt q) -> gather_policies O front ty = Ok r -> plain_rule r.
Proof.
  destruct front as [|q front]; [discriminate|]. cbn [gather_policies]. intros H.
  apply (foldM_inv _ _ _ plain_rule); [|apply stmt_rule_plain, H; left; reflexivity].
  intros acc es acc' Hin I G. destruct (_ && _); [injection G as <-; exact I|]. destruct (existsb _ _); [discriminate|].
  apply (combine_plain acc (stmt_rule es ty)); [exact I|apply stmt_rule_plain, H; right; exact Hin|exact G].
Qed.

Lemma set_type_plain q ty md : plain_stmt q -> Forall P md -> plain_stmt (set_type_metadata q ty md).
Proof.
  intros [H1 H2] Hm. unfold set_type_metadata. destruct (s_metadata q) as [m|] eqn:Em; [|split; [exact H1|]; rewrite Em; discriminate].
  split; cbn [s_policy s_metadata]; [exact H1|]. intros m' ty' md' [= <-] Hg. rewrite dget_dset in Hg.
  destruct (String.eqb ty' ty); [injection Hg as <-; exact Hm|]. exact (H2 m ty' md' eq_refl Hg).
Qed.

(** all claims of the metadata of a chain *)
Definition plain_md (m : tc_metadata) : Prop :=
  match m with
  | ByType d => forall ty md, dget ty d = Some (Some md) -> Forall P md
  | Flat md => Forall P md
  end.

Lemma applied_plain tc c : (forall q, In q (tc_verified tc) -> plain_stmt q) -> apply_to_chain O tc = Ok c -> plain_md (ch_md c).
Proof.
  intros H Ha. unfold apply_to_chain in Ha. apply bind_ok in Ha. destruct Ha as ([m ves] & Hp & [= <-]). cbn [ch_md fst].
  unfold policy_call_chain in Hp. destruct (rev (tc_verified tc)) as [|leaf rfront] eqn:Er; [discriminate|].
  assert (Hl : plain_stmt leaf) by (apply H, in_rev; rewrite Er; left; reflexivity).
  assert (Hf : forall q, In q (rev rfront) -> plain_stmt q).
  { intros q Hq. apply H, in_rev. rewrite Er. right. apply in_rev. exact Hq. }
  destruct (is_nil rfront).
  - apply bind_ok in Hp. destruct Hp as (m0 & Hm & Hp). apply bind_ok in Hp. destruct Hp as (md & Hd & [= <- _]).
    destruct (s_metadata leaf) as [m1|] eqn:Em; [|discriminate]. injection Hm as ->. apply dindex_ok in Hd.
    cbn. exact (proj2 Hl _ _ _ Em Hd).
  - apply bind_ok in Hp. destruct Hp as ([d leaf'] & Hp & [= <- _]). unfold policy_call in Hp.
    destruct (s_metadata leaf) as [m0|]; [|discriminate].
    assert (I : (forall ty md, dget ty (fst (d, leaf')) = Some (Some md) -> Forall P md) /\ plain_stmt (snd (d, leaf'))).
    { revert Hp. apply (foldM_inv _ _ _ (fun acc : dict (option metadata) * stmt => (forall ty md, dget ty (fst acc) = Some (Some md) -> Forall P md) /\ plain_stmt (snd acc))).
      - intros acc t acc' _ [I1 I2] Ha. apply bind_ok in Ha. destruct Ha as (r & Hr & [= <-]). cbn [fst snd].
        unfold policy_type in Hr. apply bind_ok in Hr. destruct Hr as (comb & Hg & Hr). apply gather_plain in Hg; [|exact Hf].
        destruct (s_metadata (snd acc)) as [m1|] eqn:Em.
        2:{ injection Hr as <-. cbn [fst snd]. split; [|exact I2]. intros ty md Hd. rewrite dget_dset in Hd.
            destruct (String.eqb ty t); [discriminate|exact (I1 ty md Hd)]. }
        destruct (dget t m1) as [md1|] eqn:Ed.
        2:{ injection Hr as <-. cbn [fst snd]. split; [|exact I2]. intros ty md Hd. rewrite dget_dset in Hd.
            destruct (String.eqb ty t); [discriminate|exact (I1 ty md Hd)]. }
        apply bind_ok in Hr. destruct Hr as (r' & Hr' & [= <-]). cbn [fst snd].
        assert (F : Forall P (fst r')).
        { unfold apply_policy in Hr'. destruct Hg as [G1 G2]. rewrite G1 in Hr'. cbn [is_nil] in Hr'. injection Hr' as <-. cbn [fst].
          assert (Hmd1 := proj2 I2 _ _ _ Em Ed). destruct (is_nil _); [exact Hmd1|]. apply Forall_dupdate; assumption. }
        split.
        + intros ty md Hd. rewrite dget_dset in Hd. destruct (String.eqb ty t); [injection Hd as <-; exact F|exact (I1 ty md Hd)].
        + destruct (snd r'); [apply set_type_plain; assumption|exact I2].
      - cbn [fst snd]. split; [intros ty md Hd; discriminate|exact Hl]. }
    exact (proj1 I).
Qed.
End NoPolicies.
