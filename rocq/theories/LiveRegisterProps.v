(** Registration of members of a federation whose entities run this library (C142). *)
From Verif Require Import PyFacts ExampleKit CollectorProps FederationProps.
From Verif Require Import ClientFacts ClientProps RegistrationFacts RegistrationProps RegistrationGrantProps.
From Verif Require Import LiveFacts LiveExample.
From Coq Require Import Lia.

(** [d] is the metadata for entity type [t] *)
Definition claims_for (md : tc_metadata) (t : string) (d : dict val) : Prop :=
  match md with
  | ByType m => dget t m = Some (Some d)
  | Flat m => dget t m = Some (VDict d)
  end.

(** the registration request for the client [id] made of its metadata [d] *)
Definition request_for (id : string) (d : dict val) : dict val := dset "client_id" (VStr id) (request_of d).

Definition new_name (Fl : flavour) (new : bool) : bool := match Fl with PAR => true | _ => new end.

(** nothing is wrong with the metadata [d] of the client [id]: see C141; there are keys *)
Definition good_client (R : reg_env) (new_id : bool) (id : string) (d : dict val) : Prop :=
  NoDup (dkeys d) /\ good_request R new_id (request_for id d) /\
  (forall k v, In k algs -> dget k d = Some v -> dmem k (rg_preferred R) = true) /\
  exists v, In v ["signed_jwks_uri"; "jwks_uri"; "jwks"] /\ truthy (field v d) = true.

(** [ks] are in the metadata, and there is no better source of keys *)
Definition keys_inside (R : reg_env) (d : dict val) (ks : list key) : Prop :=
  not_given d "signed_jwks_uri" /\ not_given d "jwks_uri" /\ exists v, given d "jwks" v /\ ks_jwks (rg_keys R) v = Ok ks.

Lemma inside_imported R d ks id kj : keys_inside R d ks -> forall k,
  In k ks -> In (KPub k) (ckeys_of (fst (import_client_keys (rg_keys R) d id kj)) id) /\
             In (KPub k) (ckeys_of (fst (get_keys (rg_keys R) d id kj)) id).
Proof.
  intros (N1 & N2 & v & [Dv Tv] & Hk) k Ik. unfold import_client_keys, get_keys.
  assert (T : forall x, not_given d x -> truthy (field x d) = false).
  { intros x N. destruct (truthy (field x d)) eqn:T; [destruct (N _ (field_given _ _ T)) | reflexivity]. }
  rewrite (T _ N1), (T _ N2). unfold field. rewrite Dv, Tv, Hk. cbn [fst].
  split; rewrite ckeys_add, String.eqb_refl; apply in_or_app; right; apply in_map, Ik.
Qed.

Lemma import_keeps K d id kj e x : In x (ckeys_of kj e) -> In x (ckeys_of (fst (import_client_keys K d id kj)) e).
Proof.
  intros I. unfold import_client_keys. destruct (truthy _); [exact I|]. destruct (truthy _).
  { cbn [fst]. rewrite ckeys_add. apply in_or_app. left. exact I. }
  destruct (truthy _); [|exact I]. destruct (ks_jwks K _); [|exact I]. cbn [fst]. rewrite ckeys_add. apply in_or_app. left. exact I.
Qed.

(** ** Registering a client that nothing is wrong with *)
Lemma good_step O R new_id set_secret id d s : keeps_id R -> good_client R new_id id d ->
  exists s' args rid ci,
    step2_process_request O R (request_for id d) new_id set_secret [] s = (s', Ok (Done args)) /\
    dget "client_id" args = Some (VStr rid) /\ client_of R new_id [] s (request_for id d) rid /\
    dget rid (r_cdb s') = Some ci /\
    (forall k v, dget k d = Some v -> ~ In k checked ->
       ~ In k ["client_id"; "client_salt"; "client_id_issued_at"; "client_secret"; "client_secret_expires_at"] ->
       granted R k v (dget k ci)) /\
    (forall e x, In x (ckeys_of (r_keys s) e) -> In x (ckeys_of (r_keys s') e)).
Proof.
  intros KI (N & G & HA & _).
  destruct (C141_granted_partial O R (request_for id d) new_id set_secret [] s G) as (s' & args & rid & ci & H & CL & D & K & _).
  { intros k v Ik Dk. apply (HA k v Ik). unfold request_for in Dk. rewrite (request_get "client_id" (VStr id) d N) in Dk; [exact Dk|].
    intros ->. unfold algs in Ik. simpl in Ik. intuition discriminate. }
  exists s', args, rid, ci. split; [exact H|].
  destruct (step2_stored O R d _ _ _ _ _ _ _ (request_get "client_id" (VStr id) d) (NoDup_dset _ _ _ _ (request_nodup d)) KI H)
    as (i & ci' & D1 & D2 & CL' & _).
  assert (i = rid).
  { specialize (CL' (gr_passed _ _ _ G "client_id" (or_introl eq_refl))). unfold client_of in *. fold (request_for id d) in CL'. destruct new_id; congruence. }
  subst i. split; [exact D1|]. split; [exact CL|]. split; [exact D|]. split.
  - intros k v Dk N1 N2. apply (K k v); [|exact N1|exact N2]. unfold request_for. rewrite (request_get "client_id" (VStr id) d N); [exact Dk|].
    intros ->. apply N2. left. reflexivity.
  - intros e x I. destruct (step2_done _ _ _ _ _ _ _ _ _ H) as (req & i & req' & c & kj & _ & _ & _ & IK & -> & _). cbn [r_keys].
    assert (X : In x (ckeys_of kj e)) by (rewrite <- (f_equal fst IK : _ = kj); apply import_keeps, I).
    unfold with_secret. destruct (set_secret && _); [|exact X]. rewrite ckeys_add. apply in_or_app. left. exact X.
Qed.

Lemma claims_chain c t d : claims_for (ch_md c) t d -> ClientModel.chain_metadata c t = Ok d.
Proof.
  unfold claims_for, ClientModel.chain_metadata, dindex. destruct (ch_md c) as [m|m]; intros ->; reflexivity.
Qed.

Lemma adjusted_fun O jwks_of F E id rt md md' : adjusted O jwks_of F E id rt md -> adjusted O jwks_of F E id rt md' -> md = md'.
Proof. intros [v H] [v' H']. congruence. Qed.

(** The server finds trust chains of the client [id] that it does not know, and nothing is wrong with what the first of them says about it. *)
Lemma chain_registered_with E O fuel R Fl new id provided s f1 c rest d : keeps_id R -> dget id (r_cdb (a_reg s)) = None ->
  chains_for E O fuel id provided (a_fed s) = (f1, Ok (c :: rest)) -> claims_for (ch_md c) (kind_of Fl) d -> good_client R (new_name Fl new) id d ->
  exists s' rid ci,
    client_authentication E O fuel R Fl new true id provided s = (s', Ok (Use rid)) /\
    (if new_name Fl new then rid = rg_newid R (dkeys (r_cdb (a_reg s))) else rid = id) /\
    dget rid (r_cdb (a_reg s')) = Some ci /\ dget id (r_cdb (a_reg s')) = Some ci /\
    (forall k v, dget k d = Some v -> ~ In k checked ->
       ~ In k ["client_id"; "client_salt"; "client_id_issued_at"; "client_secret"; "client_secret_expires_at";
               "automatic_registered"; "entity_id"] ->
       granted R k v (dget k ci)) /\
    (forall ks k, keys_inside R d ks -> In k ks -> In (KPub k) (ckeys_of (r_keys (a_reg s')) id)).
Proof.
  intros KI Hn GC Hd Hgood.
  assert (Hc := claims_chain c _ d Hd).
  (* the keys *)
  set (imp := match Fl with OIDC => get_keys (rg_keys R) d id | _ => import_client_keys (rg_keys R) d id end).
  assert (HI : exists k1, imp (r_keys (a_reg s)) = (k1, Ok tt) /\
            forall ks k, keys_inside R d ks -> In k ks -> In (KPub k) (ckeys_of k1 id)).
  { assert (Z : snd (imp (r_keys (a_reg s))) = Ok tt).
    { destruct Hgood as (ND & G & _ & x & Ix & Tx).
      assert (J : forall v, dget "jwks" d = Some v -> exists ks, ks_jwks (rg_keys R) v = Ok ks).
      { intros v Dv. apply (gr_jwks _ _ _ G v). unfold request_for. rewrite (request_get _ _ d ND) by discriminate. exact Dv. }
      unfold imp, get_keys, import_client_keys. destruct (truthy (field "signed_jwks_uri" d)) eqn:T1; [destruct Fl; reflexivity|].
      destruct (truthy (field "jwks_uri" d)) eqn:T2; [destruct Fl; reflexivity|].
      assert (T3 : truthy (field "jwks" d) = true) by (simpl in Ix; destruct Ix as [<-|[<-|[<-|[]]]]; congruence).
      rewrite T3. unfold field in *. destruct (dget "jwks" d) as [v|] eqn:Dv; [|discriminate T3]. destruct (J v eq_refl) as [ks ->].
      destruct Fl; reflexivity. }
    destruct (imp (r_keys (a_reg s))) as [k1 r1] eqn:Ei. cbn [snd] in Z. subst r1. exists k1. split; [reflexivity|].
    intros ks k Hin Ik. destruct (inside_imported R d ks id (r_keys (a_reg s)) Hin k Ik) as [I1 I2].
    replace k1 with (fst (imp (r_keys (a_reg s)))) by (rewrite Ei; reflexivity). unfold imp. destruct Fl; assumption. }
  destruct HI as (k1 & Ei & Ik1).
  set (set_secret := match Fl with OIDC => false | _ => true end).
  destruct (good_step O R (new_name Fl new) set_secret id d (mkRState (r_cdb (a_reg s)) k1) KI Hgood)
    as (r2 & args & rid & ci & H2 & Di & CL & D2 & K2 & M2).
  cbn [r_keys] in M2.
  (* the registration *)
  assert (Hauto : exists f2, do_automatic_registration E O fuel R Fl new id provided s = (mkA f2 r2, Ok (Some rid))).
  { unfold do_automatic_registration. unfold mbind at 1, on_fed at 1. rewrite GC.
    assert (Y : forall f2, (do md <- lift (ClientModel.chain_metadata c (kind_of Fl)) in
      do _ <- on_reg (on_ckeys (match Fl with
                                | OIDC => get_keys (rg_keys R) md id
                                | _ => import_client_keys (rg_keys R) md id
                                end)) in
      let new_id := match Fl with PAR => true | _ => new end in
      let set_secret := match Fl with OIDC => false | _ => true end in
      do r <- on_reg (step2_process_request O R (dset "client_id" (VStr id) (request_of md)) new_id set_secret []) in
      match r with
      | Failed => ret None
      | Done args => match dget "client_id" args with
                     | Some (VStr i) => ret (Some i)
                     | Some _ => raise TypeError
                     | None => ret None
                     end
      end) (mkA f2 (a_reg s)) = (mkA f2 r2, Ok (Some rid))).
    { intros f2. rewrite Hc. unfold mbind at 1, lift. unfold mbind at 1, on_reg at 1, on_ckeys. cbn [a_reg a_fed].
      fold imp. rewrite Ei. cbv zeta. fold set_secret. fold (new_name Fl new). fold (request_for id d).
      unfold mbind, on_reg. cbn [a_reg a_fed]. rewrite H2, Di. reflexivity. }
    destruct Fl.
    - unfold mbind at 1, on_fed at 1, store_trust_chain, modify. cbn [a_fed a_reg]. eexists. apply Y.
    - unfold mbind at 1, ret at 1. eexists. apply Y.
    - unfold mbind at 1, ret at 1. eexists. apply Y. }
  destruct Hauto as [f2 Hauto].
  assert (Hrid : if new_name Fl new then rid = rg_newid R (dkeys (r_cdb (a_reg s))) else rid = id).
  { unfold client_of in CL. destruct (new_name Fl new); [exact CL|]. unfold request_for in CL. rewrite dget_dset_same in CL. congruence. }
  set (ci1 := match Fl with OIDC => dset "automatic_registered" (VBool true) ci | _ => ci end).
  set (ci2 := if String.eqb rid id then ci1 else dset "entity_id" (VStr id) ci1).
  assert (Hlast : exists r3, client_authentication E O fuel R Fl new true id provided s = (mkA f2 r3, Ok (Use rid)) /\
     r_keys r3 = r_keys r2 /\ dget rid (r_cdb r3) = Some ci2 /\ dget id (r_cdb r3) = Some ci2).
  { unfold client_authentication. unfold mbind at 1, StateM.get. rewrite Hn.
    replace ((match Fl with OIDC => false | _ => false end) || true) with true by (destruct Fl; reflexivity).
    unfold mbind at 1. unfold on_reg at 1, modify.
    replace (match Fl with OIDC => false | _ => false end) with false by (destruct Fl; reflexivity).
    replace (mkA (a_fed s) (a_reg s)) with s by (destruct s; reflexivity).
    unfold mbind at 1. rewrite Hauto.
    assert (P : forall r4, dget rid (r_cdb r4) = Some ci1 -> exists r3,
      (do _ <- on_reg (alias_client id rid) in ret (Use rid)) (mkA f2 r4) = (mkA f2 r3, Ok (Use rid)) /\
      r_keys r3 = r_keys r4 /\ dget rid (r_cdb r3) = Some ci2 /\ dget id (r_cdb r3) = Some ci2).
    { intros r4 D4. unfold mbind at 1, on_reg, alias_client, ci2. cbn [a_reg a_fed]. destruct (String.eqb_spec rid id) as [Er|Er].
      - exists r4. split; [reflexivity|]. split; [reflexivity|]. rewrite <- Er. split; exact D4.
      - unfold mbind, StateM.get, lift, dindex. rewrite D4. unfold set_client, modify. eexists. split; [reflexivity|].
        cbn [r_keys r_cdb]. split; [reflexivity|]. split; [rewrite dget_dset_other by exact Er; apply dget_dset_same | apply dget_dset_same]. }
    destruct Fl.
    - unfold mbind at 1, on_reg at 1, cdb_set. cbn [a_reg a_fed]. unfold mbind at 1 2, StateM.get, lift, dindex. rewrite D2.
      unfold set_client, modify. destruct (P (mkRState (dset rid ci1 (r_cdb r2)) (r_keys r2))) as (r3 & Q1 & Q2 & Q3); [apply dget_dset_same|].
      exists r3. split; [exact Q1|]. split; [exact Q2 | exact Q3].
    - unfold mbind at 1. unfold on_reg at 1, ret at 1. cbn [a_reg a_fed]. exact (P r2 D2).
    - unfold mbind at 1. unfold on_reg at 1, ret at 1. cbn [a_reg a_fed]. exact (P r2 D2). }
  destruct Hlast as (r3 & Q1 & Q2 & Q3 & Q4).
  exists (mkA f2 r3), rid, ci2. split; [exact Q1|]. split; [exact Hrid|].
  cbn [a_reg]. split; [exact Q3|]. split; [exact Q4|]. split.
  - intros k v Dk N1 N2. assert (Ek : dget k ci2 = dget k ci).
    { assert (E1 : dget k ci1 = dget k ci).
      { unfold ci1. destruct Fl; [|reflexivity|reflexivity]. apply dget_dset_other. intros ->. apply N2. simpl. tauto. }
      unfold ci2. destruct (String.eqb rid id); [exact E1|]. rewrite dget_dset_other; [exact E1|]. intros ->. apply N2. simpl. tauto. }
    rewrite Ek. apply (K2 k v Dk N1). intros I. apply N2. simpl in *. tauto.
  - intros ks k Hin Ik. rewrite Q2. apply M2. exact (Ik1 ks k Hin Ik).
Qed.

Lemma chain_registered E O fuel R Fl new id s f1 c rest d : keeps_id R -> dget id (r_cdb (a_reg s)) = None ->
  chains_for E O fuel id [] (a_fed s) = (f1, Ok (c :: rest)) -> claims_for (ch_md c) (kind_of Fl) d -> good_client R (new_name Fl new) id d ->
  exists s' rid ci,
    client_authentication E O fuel R Fl new true id [] s = (s', Ok (Use rid)) /\
    (if new_name Fl new then rid = rg_newid R (dkeys (r_cdb (a_reg s))) else rid = id) /\
    dget rid (r_cdb (a_reg s')) = Some ci /\ dget id (r_cdb (a_reg s')) = Some ci /\
    (forall k v, dget k d = Some v -> ~ In k checked ->
       ~ In k ["client_id"; "client_salt"; "client_id_issued_at"; "client_secret"; "client_secret_expires_at";
               "automatic_registered"; "entity_id"] ->
       granted R k v (dget k ci)) /\
    (forall ks k, keys_inside R d ks -> In k ks -> In (KPub k) (ckeys_of (r_keys (a_reg s')) id)).
Proof. apply chain_registered_with. Qed.

(** A member of the federation that the server has not heard of and that sends no trust chain is registered and used,
    under an identifier of the server's if that is how the server is configured: with what the policies along one of its
    paths make of its metadata, as far as the server supports it (C141), and with the keys in it. *)
Theorem C142_registered : forall jwks_of F E O rank fuel R Fl new m s,
  library_run jwks_of F E -> hierarchy F rank -> checkable jwks_of F E (m_id m) -> In m F -> rank (m_id m) < fuel ->
  visited E (f_col (a_fed s)) -> right_keys F (f_keys (a_fed s)) -> keeps_id R ->
  dget (m_id m) (r_cdb (a_reg s)) = None ->
  (exists rt, usable jwks_of F E (f_keys (a_fed s)) (m_id m) rt) ->
  (forall rt, usable jwks_of F E (f_keys (a_fed s)) (m_id m) rt -> exists md d,
     adjusted O jwks_of F E (m_id m) rt md /\ claims_for md (kind_of Fl) d /\ good_client R (new_name Fl new) (m_id m) d) ->
  exists s' rid ci rt md d,
    client_authentication E O fuel R Fl new true (m_id m) [] s = (s', Ok (Use rid)) /\
    (if new_name Fl new then rid = rg_newid R (dkeys (r_cdb (a_reg s))) else rid = m_id m) /\
    usable jwks_of F E (f_keys (a_fed s)) (m_id m) rt /\ adjusted O jwks_of F E (m_id m) rt md /\
    claims_for md (kind_of Fl) d /\
    dget rid (r_cdb (a_reg s')) = Some ci /\ dget (m_id m) (r_cdb (a_reg s')) = Some ci /\
    (forall k v, dget k d = Some v -> ~ In k checked ->
       ~ In k ["client_id"; "client_salt"; "client_id_issued_at"; "client_secret"; "client_secret_expires_at";
               "automatic_registered"; "entity_id"] ->
       granted R k v (dget k ci)) /\
    (forall ks k, keys_inside R d ks -> In k ks -> In (KPub k) (ckeys_of (r_keys (a_reg s')) (m_id m))).
Proof.
  intros jwks_of F E O rank fuel R Fl new m s L HR CC Hm Hf V Hk KI Hn [rt0 Hu0] HG.
  destruct (library_chains jwks_of F E rank L HR O fuel m (a_fed s) Hm Hf V (right_jar jwks_of F E L m _ Hm Hk) CC)
    as (f1 & tcs & G1 & _ & _ & _ & _ & G6 & G7).
  destruct (applied_total O tcs) as [cs Ec].
  { intros tc Ht. destruct (G6 tc Ht) as (_ & rt & Hu & _ & B2 & _). destruct (HG rt Hu) as (md & d & [ves Ha] & _).
    rewrite B2. eexists. exact Ha. }
  destruct (applied_of O tcs cs Ec) as [A1 A2].
  destruct cs as [|c rest].
  { exfalso. destruct (G7 rt0 Hu0) as (tc & Ht & _). destruct (A2 tc Ht) as (c & [] & _). }
  destruct (A1 c (or_introl eq_refl)) as (tc & Ht & _ & _ & ves & Hp).
  destruct (G6 tc Ht) as (_ & rt & Hu & _ & B2 & _). rewrite B2 in Hp.
  destruct (HG rt Hu) as (md & d & Ha & Hd & Hgood).
  assert (md = ch_md c) by (apply (adjusted_fun O jwks_of F E (m_id m) rt); [exact Ha | exists ves; exact Hp]). subst md.
  rewrite Ec in G1.
  destruct (chain_registered E O fuel R Fl new (m_id m) s f1 c rest d KI Hn G1 Hd Hgood) as (s' & rid & ci & X1 & X2 & X3 & X4 & X5 & X6).
  exists s', rid, ci, rt, (ch_md c), d. auto 10.
Qed.
Print Assumptions C142_registered.

(** A member without a usable path is turned away, and nothing is stored about it. *)
Theorem C142_unreachable : forall jwks_of F E O rank fuel R Fl new m s,
  library_run jwks_of F E -> hierarchy F rank -> checkable jwks_of F E (m_id m) -> In m F -> rank (m_id m) < fuel ->
  visited E (f_col (a_fed s)) -> right_keys F (f_keys (a_fed s)) ->
  dget (m_id m) (r_cdb (a_reg s)) = None ->
  (forall rt, ~ usable jwks_of F E (f_keys (a_fed s)) (m_id m) rt) ->
  exists s', client_authentication E O fuel R Fl new true (m_id m) [] s = (s', Err NoTrustedChains) /\
    a_reg s' = a_reg s /\ f_chains (a_fed s') = f_chains (a_fed s).
Proof.
  intros jwks_of F E O rank fuel R Fl new m s L HR CC Hm Hf V Hk Hn HU.
  destruct (library_chains jwks_of F E rank L HR O fuel m (a_fed s) Hm Hf V (right_jar jwks_of F E L m _ Hm Hk) CC)
    as (f1 & tcs & G1 & G2 & _ & _ & _ & G6 & _).
  destruct tcs as [|tc tcs].
  2:{ exfalso. destruct (G6 tc (or_introl eq_refl)) as (_ & rt & Hu & _). exact (HU rt Hu). }
  exists (mkA f1 (a_reg s)). split; [|split; [reflexivity | exact G2]].
  unfold client_authentication. unfold mbind at 1, StateM.get. rewrite Hn.
  replace ((match Fl with OIDC => false | _ => false end) || true) with true by (destruct Fl; reflexivity).
  unfold mbind at 1. unfold on_reg at 1, modify.
  replace (match Fl with OIDC => false | _ => false end) with false by (destruct Fl; reflexivity).
  replace (mkA (a_fed s) (a_reg s)) with s by (destruct s; reflexivity).
  unfold mbind at 1. unfold do_automatic_registration. unfold mbind at 1, on_fed at 1, chains_for. cbn [is_nil]. rewrite G1. reflexivity.
Qed.

(** [rp] at a server that supports code and id_token; the policies of [ta] add a contact *)
Definition v_server : astate := mkA v_start ex_start.

Lemma ex_keeps_id : keeps_id ex_reg.
Proof.
  intros ci. cbn [ex_reg rg_comb rg_response].
  exact (dget_filter_key (fun k => smem k ["client_id"; "client_secret"; "redirect_uris"; "response_types"]) "client_id" ci).
Qed.

Definition v_claims : dict val :=
  [("redirect_uris", VList [VStr "https://rp/cb"]); ("jwks", VInt 4); ("response_types", VList [VStr "code"]);
   ("contacts", VList [VStr "ta"])].

Lemma v_adjusted : exists md, adjusted id_order ex_jwks v_fed v_env "rp" ["ta"] md /\ claims_for md "openid_relying_party" v_claims.
Proof. eexists. split; [eexists; vm_compute; reflexivity | vm_compute; reflexivity]. Qed.

Lemma v_good : good_client ex_reg false "rp" v_claims.
Proof.
  split; [apply nodupb_sound; reflexivity|]. split; [|split].
  - constructor.
    + apply nodupb_sound. reflexivity.
    + reflexivity.
    + intros k v H. apply dget_In in H. simpl in H. split; [reflexivity|].
      repeat destruct H as [H|H]; try contradiction; injection H as <- <-; try (eexists; apply granted_passed; reflexivity).
      exists (Some (VList (map VStr ["code"]))). apply (granted_common _ _ _ "response_types_supported" ["code"; "id_token"] ["code"]);
        try reflexivity; [discriminate | repeat constructor; simpl; tauto |].
      intros x; simpl; split; [intros [<-|[]]; auto | intros [[<-|[]] _]; auto].
    + intros k Hk. simpl in Hk. repeat (destruct Hk as [<-|Hk]; [reflexivity|]). destruct Hk.
    + intros _. exists "rp". split; [reflexivity | discriminate].
    + intros v H; injection H as <-; exists ["https://rp/cb"]; split; [reflexivity|]; intros u [<-|[]]; right;
      split; [discriminate|]; split; [reflexivity|]; left; reflexivity.
    + intros v H; discriminate H.
    + intros k v Hk H; simpl in Hk; destruct Hk as [<-|[<-|[<-|[]]]]; discriminate H.
    + intros v H; discriminate H.
    + intros v H; eexists; reflexivity.
  - intros k v Hk H. unfold algs in Hk. simpl in Hk. destruct Hk as [<-|[<-|[]]]; discriminate H.
  - exists "jwks". split; [simpl; tauto | reflexivity].
Qed.

Example C142_ex :
  (forall rt, usable ex_jwks v_fed v_env [("ta", [1])] "rp" rt -> exists md d,
     adjusted id_order ex_jwks v_fed v_env "rp" rt md /\ claims_for md "openid_relying_party" d /\ good_client ex_reg false "rp" d) /\
  exists s' ci, client_authentication v_env id_order 2 ex_reg OIDC false true "rp" [] v_server = (s', Ok (Use "rp")) /\
    dget "rp" (r_cdb (a_reg s')) = Some ci /\ dget "contacts" ci = Some (VList [VStr "ta"]) /\
    dget "response_types" ci = Some (VList [VStr "code"]) /\ ckeys_of (r_keys (a_reg s')) "rp" = [KPub 2; KPub 2].
Proof.
  split.
  - intros rt (Hp & Hn & _). destruct (v_path v_rp rt (or_intror (or_intror (or_introl eq_refl))) Hp) as [-> | ->]; [contradiction Hn; reflexivity|].
    destruct v_adjusted as (md & H1 & H2). exists md, v_claims. split; [exact H1|]. split; [exact H2 | exact v_good].
  - eexists _, _. split; [vm_compute; reflexivity|]. split; [reflexivity|]. split; [reflexivity|]. split; reflexivity.
Qed.

(** a server that knows no keys of [ta] *)
Example C142_ex_unreachable : snd (client_authentication v_env id_order 2 ex_reg OIDC false true "rp" []
    (mkA (mkFed (mkState [] [] 0) [] []) ex_start)) = Err NoTrustedChains.
Proof. vm_compute. reflexivity. Qed.

Print Assumptions C142_unreachable.
