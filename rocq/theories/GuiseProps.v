(** What the application parts of an entity are (C159) and what is published about them (C160). *)
From Verif Require Import PyFacts ExampleKit FetchFacts FetchProps GuiseModel.
From Coq Require Import Lia.

(** ** What a part is *)

(** the names of client and server parts in a federation, and what they stand for *)
Definition client_names : list (string * string * dict string) :=
  [("openid_relying_party", "oidc", oidc_services); ("oauth_client", "oauth2", oauth2_services)].

Definition server_names : list (string * string) :=
  [("openid_provider", "oidc"); ("oauth_authorization_server", "oauth2")].

(** nothing but the name says what the part is *)
Definition named_client (conf : client_conf) : Prop := cc_client_type conf = None /\ cc_entity_type conf = None.

(** a client is of the kind its name says and has the services of its kind, if it is not given others *)
Definition C159_client_full : Prop := forall op_schema as_schema id name kind defaults conf services,
  In (name, kind, defaults) client_names -> named_client conf ->
  exists c, make_part op_schema as_schema id name (SpClient conf services "") = Ok (GClient c) /\
    cl_client_type c = kind /\
    cl_services c = (if is_nil services then if is_nil (cc_services conf) then defaults else cc_services conf else services).

(** an oauth_client without services cannot be made *)
Theorem C159_client_refuted : ~ C159_client_full.
Proof.
  intros H. destruct (H [] [] "https://c" "oauth_client" "oauth2" oauth2_services (mkClientConf None None []) [])
    as (c & X & _).
  - right. left. reflexivity.
  - split; reflexivity.
  - discriminate X.
Qed.
Print Assumptions C159_client_refuted.

(** [what a client is], by the configuration and the arguments: a type in the configuration, the one in the argument, the
    entity type in the configuration, the name *)
Definition own_type (conf : client_conf) (client_type name : string) : string :=
  let first := match cc_client_type conf with Some t => t | None => client_type end in
  if String.eqb first "" then
    if String.eqb (match cc_entity_type conf with Some t => t | None => name end) "oauth_client" then "oauth2" else "oidc"
  else first.

Lemma client_type_spec conf ct name : client_type_of conf ct name = Ok (own_type conf ct name).
Proof.
  unfold client_type_of, own_type. set (f := match cc_client_type conf with Some t => t | None => ct end).
  set (e := match cc_entity_type conf with Some t => t | None => name end).
  destruct (String.eqb_spec f "") as [->|N]; cbn [negb].
  - cbn [String.eqb]. unfold client_types. cbn [dget].
    destruct (String.eqb_spec e "openid_relying_party") as [->|N1]; [reflexivity|].
    destruct (String.eqb_spec e "oauth_client"); reflexivity.
  - reflexivity.
Qed.

(** What a client is made of, and the only way to fail: no services are given or configured, the client is not an OpenID
    Connect one, and it is not the argument that says it is OAuth2. *)
Theorem C159_client_partial : forall op_schema as_schema id name conf services ct,
  match make_part op_schema as_schema id name (SpClient conf services ct) with
  | Ok (GClient c) =>
      cl_client_type c = own_type conf ct name /\
      cl_services c = (if is_nil services then
                         if is_nil (cc_services conf) then
                           if String.eqb (own_type conf ct name) "oidc" then oidc_services else oauth2_services
                         else cc_services conf
                       else services) /\
      (services = [] -> cc_services conf = [] -> own_type conf ct name = "oidc" \/ ct = "oauth2") /\
      cl_schema c = (if String.eqb (own_type conf ct name) "oauth2" then "OauthClientMetadata" else "OIDCRPMetadata")
  | Ok _ => False
  | Err e => e = AttributeError /\ services = [] /\ cc_services conf = [] /\ own_type conf ct name <> "oidc" /\ ct <> "oauth2"
  end.
Proof.
  intros. unfold make_part, make_client. rewrite client_type_spec. cbn [bind]. unfold client_services.
  destruct services as [|s services]; cbn [is_nil negb].
  - destruct (cc_services conf) as [|s r] eqn:Es; cbn [is_nil negb].
    + destruct (String.eqb_spec (own_type conf ct name) "oidc") as [E|N]; cbn [bind].
      * repeat split; auto.
      * destruct (String.eqb_spec ct "oauth2") as [E'|N']; cbn [bind]; repeat split; auto.
    + cbn [bind cl_client_type cl_services]. repeat split; auto. intros _ X. discriminate X.
  - cbn [bind cl_client_type cl_services]. repeat split; auto. intros X. discriminate X.
Qed.
Print Assumptions C159_client_partial.

(** named clients: what the name says, unless it is an oauth_client without services *)
Theorem C159_named_partial : forall op_schema as_schema id name kind defaults conf services,
  In (name, kind, defaults) client_names -> named_client conf ->
  (name = "oauth_client" -> services <> [] \/ cc_services conf <> []) ->
  exists c, make_part op_schema as_schema id name (SpClient conf services "") = Ok (GClient c) /\
    cl_client_type c = kind /\
    cl_services c = (if is_nil services then if is_nil (cc_services conf) then defaults else cc_services conf else services) /\
    cl_entity_type c = name.
Proof.
  intros ops ass id name kind defaults conf services Hn (N1 & N2) Hs.
  assert (T : own_type conf "" name = kind /\ (kind = "oidc" /\ defaults = oidc_services \/ name = "oauth_client")).
  { unfold own_type. rewrite N1, N2. destruct Hn as [Hn|[Hn|[]]]; injection Hn as <- <- <-; split; auto. }
  destruct T as (T & T').
  assert (X := C159_client_partial ops ass id name conf services ""). rewrite T in X.
  destruct (make_part ops ass id name (SpClient conf services "")) as [[c|s|fe| |]|e] eqn:M; try contradiction.
  - exists c. destruct X as (X1 & X2 & X3 & _). split; [reflexivity|]. split; [exact X1|]. split.
    + rewrite X2. destruct services; [|reflexivity]. cbn [is_nil]. destruct (cc_services conf) eqn:Ec; [|reflexivity]. cbn [is_nil].
      destruct T' as [(-> & ->)|T']; [reflexivity|]. destruct (Hs T') as [Y|Y]; contradiction Y; reflexivity.
    + unfold make_part, make_client in M. apply bind_ok in M. destruct M as (c' & M & Y). injection Y as ->.
      apply bind_ok in M. destruct M as (t & _ & M). apply bind_ok in M. destruct M as (l & _ & M). injection M as <-.
      cbn [cl_entity_type]. rewrite N2. reflexivity.
  - destruct X as (_ & -> & X2 & X3 & _). exfalso. destruct T' as [(E & _)|T'].
    + congruence.
    + destruct (Hs T') as [Y|Y]; contradiction.
Qed.
Print Assumptions C159_named_partial.

(** servers: the type that is given, else the one that is configured, else the one the name stands for; a server of another
    name without a type cannot be made *)
Theorem C159_server : forall op_schema as_schema id name conf st,
  match make_part op_schema as_schema id name (SpServer conf st) with
  | Ok (GServer s) =>
      sv_id s = id /\ sv_prefer s = sc_prefer conf /\ sv_endpoint s = sc_endpoint conf /\
      (sv_type s = "oidc" /\ sv_schema s = op_schema \/ sv_type s = "oauth2" /\ sv_schema s = as_schema) /\
      (st <> "" -> sv_type s = st) /\
      (st = "" -> forall t, sc_type conf = Some t -> t <> "" -> sv_type s = t) /\
      (st = "" -> sc_type conf = None -> In (name, sv_type s) server_names)
  | Ok _ => False
  | Err e => e = AttributeError /\ forall t, (st = t \/ st = "" /\ (sc_type conf = Some t \/ sc_type conf = None /\ In (name, t) server_names)) ->
               t <> "oidc" /\ t <> "oauth2"
  end.
Proof.
  intros. unfold make_part, make_server. set (t := server_type_of conf st name).
  assert (Ht : (st <> "" -> t = st) /\ (st = "" -> forall u, sc_type conf = Some u -> u <> "" -> t = u) /\
               (st = "" -> sc_type conf = None -> forall u, In (name, u) server_names -> t = u) /\
               (st = "" -> sc_type conf = None -> t = "" \/ In (name, t) server_names)).
  { unfold t, server_type_of. split; [|split; [|split]].
    - intros N. destruct (String.eqb_spec st ""); [contradiction|]. destruct (String.eqb_spec st ""); [contradiction|reflexivity].
    - intros -> u Hu Nu. cbn [String.eqb]. rewrite Hu. destruct (String.eqb_spec u ""); [contradiction|reflexivity].
    - intros -> Hc u Hu. rewrite Hc. cbn [String.eqb].
      destruct Hu as [Hu|[Hu|[]]]; injection Hu as <- <-; reflexivity.
    - intros -> Hc. rewrite Hc. cbn [String.eqb].
      destruct (String.eqb_spec name "oauth_authorization_server") as [->|]; [right; right; left; reflexivity|].
      destruct (String.eqb_spec name "openid_provider") as [->|]; [right; left; reflexivity|left; reflexivity]. }
  destruct Ht as (T1 & T2 & T3 & T4).
  destruct (String.eqb_spec t "oauth2") as [E|N]; cbn [bind].
  - cbn [sv_id sv_prefer sv_endpoint sv_type sv_schema]. repeat split; auto.
    intros A B. destruct (T4 A B) as [X|X]; [rewrite X in E; discriminate E|exact X].
  - destruct (String.eqb_spec t "oidc") as [E|N']; cbn [bind].
    + cbn [sv_id sv_prefer sv_endpoint sv_type sv_schema]. repeat split; auto.
      intros A B. destruct (T4 A B) as [X|X]; [rewrite X in E; discriminate E|exact X].
    + split; [reflexivity|]. intros u [Hu|(Hs & [Hu|(Hc & Hu)])].
      * subst u. destruct (String.eqb_spec st "") as [->|Ns]; [split; discriminate|]. rewrite <- (T1 Ns). auto.
      * destruct (String.eqb_spec u "") as [->|Nu]; [split; discriminate|]. rewrite <- (T2 Hs u Hu Nu). auto.
      * rewrite <- (T3 Hs Hc u Hu). auto.
Qed.
Print Assumptions C159_server.

(** ** What is published *)

Lemma dget_one {A} k t (v : A) : dget k [(t, v)] = if String.eqb k t then Some v else None.
Proof. reflexivity. Qed.

(** a part that is asked for its metadata tells about itself under the name it is asked for *)
Definition own_name (x : part) (k : string) : Prop :=
  match x with PMeta md => dkeys (md k) = [k] | PHandler | PPlain => True end.

Lemma guise_own_name client_md g k : k <> "" -> own_name (part_of_guise client_md g) k.
Proof.
  intros N. destruct g as [c|s|fe| |]; cbn [part_of_guise own_name]; auto.
  - unfold client_get_metadata, client_entity_type. destruct (String.eqb_spec k ""); [contradiction|reflexivity].
  - unfold server_get_metadata. destruct (String.eqb_spec k ""); [contradiction|reflexivity].
Qed.

Definition said_by (parts : dict part) (k : string) : option val :=
  match dget k parts with Some (PMeta md) => dget k (md k) | _ => None end.

Lemma dget_none_keys {A} k (d : dict A) : dget k d = None -> ~ In k (dkeys d).
Proof.
  induction d as [|[k' v] d IH]; cbn [dget dkeys map In fst].
  - intros _ X. exact X.
  - destruct (String.eqb_spec k k') as [->|N]; [intros X; discriminate X|]. intros H [X|X]; [congruence|exact (IH H X)].
Qed.

Lemma dget_notin {A} k (d : dict A) : ~ In k (dkeys d) -> dget k d = None.
Proof.
  induction d as [|[k' v] d IH]; [reflexivity|]. cbn [dget dkeys map In fst]. intros H.
  destruct (String.eqb_spec k k') as [->|N]; [contradiction H; left; reflexivity|]. apply IH. intros X. apply H. right. exact X.
Qed.

Lemma parts_metadata parts k : NoDup (dkeys parts) -> (forall n x, In (n, x) parts -> own_name x n) ->
  dget k (combo_metadata parts) = said_by parts k.
Proof.
  intros ND HO. unfold combo_metadata.
  enough (G : forall acc, dget k (fold_left (fun acc p => match snd p with
                                            | PMeta md => dupdate acc (md (fst p))
                                            | PHandler | PPlain => acc end) parts acc)
              = match said_by parts k with Some v => Some v | None => dget k acc end).
  { rewrite G. destruct (said_by parts k); reflexivity. }
  induction parts as [|[n x] parts IH]; intros acc; [reflexivity|].
  cbn [fold_left fst snd]. cbn [dkeys map fst] in ND. inversion ND as [|? ? Nn ND' E]; subst.
  rewrite (IH ND' (fun n' x' H => HO n' x' (or_intror H))).
  assert (On := HO n x (or_introl eq_refl)). unfold said_by. cbn [dget].
  destruct (String.eqb_spec k n) as [->|Nk].
  - rewrite (dget_notin n parts Nn). destruct x as [| |md]; [reflexivity|reflexivity|].
    cbn [own_name] in On. rewrite dget_dupdate by (rewrite On; repeat constructor; intros []). reflexivity.
  - destruct (match dget k parts with Some (PMeta md) => dget k (md k) | _ => None end); [reflexivity|].
    destruct x as [| |md]; [reflexivity|reflexivity|]. cbn [own_name] in On.
    rewrite dget_dupdate by (rewrite On; repeat constructor; intros []).
    rewrite dget_notin; [reflexivity|]. rewrite On. intros [X|[]]. congruence.
Qed.

Lemma parts_made op_schema as_schema id config parts : NoDup (dkeys config) ->
  make_parts op_schema as_schema id config = Ok parts ->
  dkeys parts = dkeys config /\
  forall k, match dget k config with
            | Some sp => exists g, dget k parts = Some g /\ make_part op_schema as_schema id k sp = Ok g
            | None => dget k parts = None
            end.
Proof.
  intros ND. unfold make_parts.
  enough (G : forall acc, (forall k, In k (dkeys config) -> ~ In k (dkeys acc)) ->
    foldM (fun parts kv => let* g := make_part op_schema as_schema id (fst kv) (snd kv) in Ok (dset (fst kv) g parts)) config acc = Ok parts ->
    dkeys parts = dkeys acc ++ dkeys config /\
    forall k, match dget k config with
              | Some sp => exists g, dget k parts = Some g /\ make_part op_schema as_schema id k sp = Ok g
              | None => dget k parts = dget k acc
              end).
  { intros H. destruct (G [] (fun _ _ X => X) H) as (G1 & G2). split; [exact G1|]. intros k. specialize (G2 k).
    destruct (dget k config); [exact G2|]. rewrite G2. reflexivity. }
  induction config as [|[n sp] config IH]; intros acc HD H.
  - injection H as <-. cbn [dkeys map]. rewrite app_nil_r. split; [reflexivity|]. intros k. reflexivity.
  - cbn [foldM fst snd] in H. apply bind_ok in H. destruct H as (acc' & H1 & H). apply bind_ok in H1. destruct H1 as (g & H1 & H2).
    injection H2 as <-. cbn [dkeys map fst] in ND. inversion ND as [|? ? Nn ND' E]; subst.
    assert (Na : dkeys (dset n g acc) = dkeys acc ++ [n]).
    { assert (X : ~ In n (dkeys acc)) by (apply HD; left; reflexivity). clear - X. induction acc as [|[a b] acc IHa]; [reflexivity|].
      cbn [dset dkeys map fst]. destruct (String.eqb_spec n a) as [->|Na]; [contradiction X; left; reflexivity|].
      cbn [dkeys map fst app]. f_equal. apply IHa. intros Y. apply X. right. exact Y. }
    destruct (IH ND' (dset n g acc)) as (I1 & I2).
    { intros k Hk. rewrite Na. intros X. apply in_app_or in X. destruct X as [X|[<-|[]]]; [|contradiction].
      exact (HD k (or_intror Hk) X). }
    { exact H. }
    split.
    + rewrite I1, Na, <- app_assoc. reflexivity.
    + intros k. specialize (I2 k). cbn [dget]. destruct (String.eqb_spec k n) as [->|Nk].
      * rewrite (dget_notin n config Nn) in I2. rewrite I2, dget_dset_same. eauto.
      * destruct (dget k config) as [sp'|]; [exact I2|]. rewrite I2, dget_dset_other by congruence. reflexivity.
Qed.

Lemma dget_parts_of client_md parts k :
  dget k (parts_of client_md parts) = option_map (part_of_guise client_md) (dget k parts).
Proof.
  induction parts as [|[n g] parts IH]; [reflexivity|]. cbn [parts_of map dget fst snd option_map].
  destruct (String.eqb k n); [reflexivity|]. exact IH.
Qed.

Lemma parts_of_keys client_md parts : dkeys (parts_of client_md parts) = dkeys parts.
Proof. unfold parts_of, dkeys. rewrite map_map. reflexivity. Qed.

Lemma made_metadata op_schema as_schema client_md id config parts k :
  NoDup (dkeys config) -> ~ In "" (dkeys config) -> make_parts op_schema as_schema id config = Ok parts ->
  dget k (combo_metadata (parts_of client_md parts)) =
  match dget k parts with
  | Some (GClient c) => dget k (client_get_metadata client_md c k)
  | Some (GServer s) => dget k (server_get_metadata s k)
  | Some (GFederation fe) => dget k (fe_get_metadata federation_entity_schema fe k)
  | _ => None
  end.
Proof.
  intros ND NE H. destruct (parts_made _ _ _ _ _ ND H) as (K & _).
  rewrite parts_metadata.
  - unfold said_by. rewrite dget_parts_of. destruct (dget k parts) as [[c|s|fe| |]|]; reflexivity.
  - rewrite parts_of_keys, K. exact ND.
  - intros n x Hx. unfold parts_of in Hx. apply in_map_iff in Hx. destruct Hx as ([n' g] & X & Hg). injection X as <- <-.
    apply guise_own_name. cbn [fst]. intros ->. apply NE. rewrite <- K. apply in_map_iff. exists ("", g). auto.
Qed.

(** what the metadata under a type say about a claim *)
Definition tells (md : dict val) (t claim : string) (v : val) : Prop :=
  exists d, dget t md = Some (VDict d) /\ dget claim d = Some v.

(** Every server of an entity is published under the name of its part, with the identifier of the entity as issuer; the types
    under which something is published are the names of the parts that have metadata. *)
Theorem C160_published : forall op_schema as_schema client_md id config parts,
  NoDup (dkeys config) -> ~ In "" (dkeys config) -> make_parts op_schema as_schema id config = Ok parts ->
  (forall k conf st, dget k config = Some (SpServer conf st) -> In "issuer" op_schema -> In "issuer" as_schema ->
     tells (combo_metadata (parts_of client_md parts)) k "issuer" (VStr id)) /\
  (forall k, dmem k (combo_metadata (parts_of client_md parts)) =
             match dget k config with
             | Some (SpClient _ _ _) | Some (SpServer _ _) | Some (SpFederation _) => true
             | Some SpHandler | Some SpPlain | None => false
             end) /\
  (* a client is published under its name with its metadata for that name *)
  (forall k conf services ct, dget k config = Some (SpClient conf services ct) ->
     exists c, make_client conf services ct k = Ok c /\
       dget k (combo_metadata (parts_of client_md parts)) = Some (VDict (client_md c k))).
Proof.
  intros ops ass cmd id config parts ND NE H. assert (M := made_metadata ops ass cmd id config parts). 
  destruct (parts_made _ _ _ _ _ ND H) as (K & P).
  assert (Nk : forall k sp, dget k config = Some sp -> k <> "").
  { intros k sp Hk ->. apply NE. apply dget_In in Hk. apply in_map_iff. exists ("", sp). auto. }
  split; [|split].
  - intros k conf st Hk I1 I2. specialize (P k). rewrite Hk in P. destruct P as (g & Pg & Pm).
    assert (X := C159_server ops ass id k conf st). rewrite Pm in X. destruct g as [c|s|fe| |]; try contradiction.
    destruct X as (X1 & _ & _ & X4 & _). unfold tells. rewrite (M k ND NE H), Pg. unfold server_get_metadata.
    destruct (String.eqb_spec k ""); [destruct (Nk k _ Hk); assumption|]. rewrite dget_one, String.eqb_refl.
    eexists. split; [reflexivity|]. cbn [fold_left].
    assert (I : In "issuer" (sv_schema s)) by (destruct X4 as [(_ & ->)|(_ & ->)]; assumption).
    apply smem_In in I. rewrite I, X1. destruct (smem "certificate_issuer" (sv_schema s)).
    + rewrite dget_dset_other by discriminate. apply dget_dset_same.
    + apply dget_dset_same.
  - intros k. unfold dmem. rewrite (M k ND NE H). specialize (P k).
    destruct (dget k config) as [sp|] eqn:Hk.
    + destruct P as (g & -> & Pm).
      assert (N := Nk k sp Hk). destruct (String.eqb_spec k "") as [|_]; [contradiction|].
      destruct sp as [conf sv ct|conf st|fe| |]; cbn [make_part] in Pm.
      * apply bind_ok in Pm. destruct Pm as (c & _ & Pm). injection Pm as <-. unfold client_get_metadata, client_entity_type.
        destruct (String.eqb_spec k ""); [contradiction|]. rewrite dget_one, String.eqb_refl. reflexivity.
      * apply bind_ok in Pm. destruct Pm as (s & _ & Pm). injection Pm as <-. unfold server_get_metadata.
        destruct (String.eqb_spec k ""); [contradiction|]. rewrite dget_one, String.eqb_refl. reflexivity.
      * injection Pm as <-. unfold fe_get_metadata. rewrite dget_one, String.eqb_refl. reflexivity.
      * injection Pm as <-. reflexivity.
      * injection Pm as <-. reflexivity.
    + rewrite P. reflexivity.
  - intros k conf services ct Hk. assert (N := Nk k _ Hk). specialize (P k). rewrite Hk in P. destruct P as (g & Pg & Pm).
    cbn [make_part] in Pm. apply bind_ok in Pm. destruct Pm as (c & Pm & Pe). injection Pe as <-. exists c. split; [exact Pm|].
    rewrite (M k ND NE H), Pg. unfold client_get_metadata, client_entity_type.
    destruct (String.eqb_spec k ""); [contradiction|]. rewrite dget_one, String.eqb_refl. reflexivity.
Qed.
Print Assumptions C160_published.

Lemma endpoint_claims_nodup l : NoDup (dkeys (get_endpoint_claims l)).
Proof.
  assert (SI : forall p l d, NoDup (dkeys d) -> NoDup (dkeys (set_if p l d))).
  { intros p l' d Hd. unfold set_if. destruct (is_nil l'); [exact Hd|]. apply NoDup_dset. exact Hd. }
  unfold get_endpoint_claims. generalize (@nil (string * val)) (NoDup_nil string : NoDup (dkeys (@nil (string * val)))).
  induction l as [|e l IH]; intros acc Ha; [exact Ha|]. cbn [fold_left]. apply IH.
  unfold endpoint_claims. destruct (String.eqb (ep_endpoint_name e) ""); [exact Ha|]. apply SI, SI, NoDup_dset, Ha.
Qed.

(** what the endpoints of a server have to say about themselves (C153), and its preferences, if they belong to the schema, are
    not the issuer and are not named like a claim about an endpoint, are in what is published *)
Theorem C160_server_claims : forall op_schema as_schema client_md id config parts k conf st,
  NoDup (dkeys config) -> ~ In "" (dkeys config) -> make_parts op_schema as_schema id config = Ok parts ->
  dget k config = Some (SpServer conf st) -> NoDup (dkeys (sc_prefer conf)) ->
  exists d, dget k (combo_metadata (parts_of client_md parts)) = Some (VDict d) /\
    (forall claim v, dget claim (sc_prefer conf) = Some v -> In claim op_schema -> In claim as_schema ->
       ~ In claim ["issuer"; "certificate_issuer"] -> ~ In claim (dkeys (get_endpoint_claims (map snd (sc_endpoint conf)))) ->
       dget claim d = Some v) /\
    (forall claim v, dget claim (get_endpoint_claims (map snd (sc_endpoint conf))) = Some v ->
       ~ In claim ["issuer"; "certificate_issuer"] -> dget claim d = Some v) /\
    (forall claim, ~ In claim op_schema -> ~ In claim as_schema ->
       ~ In claim (dkeys (get_endpoint_claims (map snd (sc_endpoint conf)))) -> dget claim d = None).
Proof.
  intros ops ass cmd id config parts k conf st ND NE H Hk NP.
  destruct (parts_made _ _ _ _ _ ND H) as (K & P).
  assert (Nk : k <> "").
  { intros ->. apply NE. apply dget_In in Hk. apply in_map_iff. exists ("", SpServer conf st). auto. }
  specialize (P k). rewrite Hk in P. destruct P as (g & Pg & Pm).
  assert (X := C159_server ops ass id k conf st). rewrite Pm in X. destruct g as [c|s|fe| |]; try contradiction.
  destruct X as (X1 & X2 & X3 & X4 & _). rewrite (made_metadata ops ass cmd id config parts k ND NE H), Pg.
  unfold server_get_metadata. destruct (String.eqb_spec k ""); [contradiction|]. rewrite dget_one, String.eqb_refl.
  eexists. split; [reflexivity|]. cbn [fold_left]. rewrite X1, X2, X3.
  set (eps := get_endpoint_claims (map snd (sc_endpoint conf))).
  set (base := get_server_metadata (sv_schema s) (sc_prefer conf) (map snd (sc_endpoint conf))).
  assert (B : forall claim, ~ In claim ["issuer"; "certificate_issuer"] \/ ~ In claim (sv_schema s) ->
     dget claim (if smem "certificate_issuer" (sv_schema s)
                 then dset "certificate_issuer" (VStr id) (if smem "issuer" (sv_schema s) then dset "issuer" (VStr id) base else base)
                 else if smem "issuer" (sv_schema s) then dset "issuer" (VStr id) base else base) = dget claim base).
  { intros claim Hc.
    assert (U : forall p d, In p ["issuer"; "certificate_issuer"] ->
              dget claim (if smem p (sv_schema s) then dset p (VStr id) d else d) = dget claim d).
    { intros p d Hp. destruct (smem p (sv_schema s)) eqn:Ep; [|reflexivity]. rewrite dget_dset_other; [reflexivity|].
      intros ->. apply smem_In in Ep. destruct Hc as [Hc|Hc]; apply Hc; assumption. }
    rewrite (U "certificate_issuer") by (right; left; reflexivity). apply U. left. reflexivity. }
  assert (NE' : NoDup (dkeys eps)).
  { apply endpoint_claims_nodup. }
  assert (G : forall claim, dget claim base = match dget claim eps with
                | Some v => Some v
                | None => if smem claim (sv_schema s) then dget claim (sc_prefer conf) else None
                end).
  { intros claim. unfold base, get_server_metadata. fold eps. rewrite dget_dupdate by exact NE'.
    destruct (dget claim eps); [reflexivity|]. clear -NP. induction (sc_prefer conf) as [|[n v] l IH].
    - cbn. destruct (smem claim (sv_schema s)); reflexivity.
    - cbn [dkeys map fst] in NP. inversion NP as [|? ? Nn NP' E]; subst. cbn [filter fst].
      destruct (smem n (sv_schema s)) eqn:En; cbn [dget]; destruct (String.eqb_spec claim n) as [->|Ne].
      + rewrite En. reflexivity.
      + apply IH. exact NP'.
      + rewrite (IH NP'), En. reflexivity.
      + apply IH. exact NP'. }
  split; [|split].
  - intros claim v Hv I1 I2 Ni Nep. rewrite B by (left; exact Ni). rewrite G, (dget_notin claim eps Nep).
    assert (I : In claim (sv_schema s)) by (destruct X4 as [(_ & ->)|(_ & ->)]; assumption).
    apply smem_In in I. rewrite I. exact Hv.
  - intros claim v Hv Ni. rewrite B by (left; exact Ni). rewrite G. fold eps in Hv. rewrite Hv. reflexivity.
  - intros claim I1 I2 Nep.
    assert (I : ~ In claim (sv_schema s)) by (destruct X4 as [(_ & ->)|(_ & ->)]; assumption).
    rewrite B by (right; exact I). rewrite G, (dget_notin claim eps Nep).
    destruct (smem claim (sv_schema s)) eqn:Es; [|reflexivity]. apply smem_In in Es. contradiction.
Qed.
Print Assumptions C160_server_claims.

(** an entity with an OP, a relying party and a federation entity, and an authorization server under a name of its own *)
Definition g_op : server_conf :=
  mkServerConf None [("scopes_supported", VList [VStr "openid"]); ("issuer", VStr "https://other")]
    [("authorization", mkEndpoint "authorization" "authorization_endpoint" "https://e/authz" [] [])].

Definition g_config : dict spec :=
  [("federation_entity", SpFederation (mkFedServer [("name", VStr "E")] []));
   ("openid_provider", SpServer g_op "");
   ("openid_relying_party", SpClient (mkClientConf None None []) [] "");
   ("my_as", SpServer (mkServerConf (Some "oauth2") [] []) "");
   ("handler", SpHandler)].

Definition g_schema : list string := ["issuer"; "authorization_endpoint"; "scopes_supported"].

Example C160_ex : exists parts,
  make_parts g_schema g_schema "https://e" g_config = Ok parts /\ NoDup (dkeys g_config) /\ ~ In "" (dkeys g_config) /\
  combo_metadata (parts_of (fun c t => [("type", VStr t); ("client_type", VStr (cl_client_type c))]) parts) =
    [("federation_entity", VDict [("name", VStr "E")]);
     ("openid_provider", VDict [("scopes_supported", VList [VStr "openid"]); ("issuer", VStr "https://e");
                                ("authorization_endpoint", VStr "https://e/authz")]);
     ("openid_relying_party", VDict [("type", VStr "openid_relying_party"); ("client_type", VStr "oidc")]);
     ("my_as", VDict [("issuer", VStr "https://e")])].
Proof.
  eexists. split; [vm_compute; reflexivity|]. split; [apply nodupb_sound; reflexivity|]. split; [|vm_compute; reflexivity].
  intros H. cbn in H. repeat (destruct H as [H|H]; [discriminate H|]). exact H.
Qed.

(** an oauth_client with services, and one that is told its type *)
Example C159_ex :
  (exists c, make_part [] [] "https://e" "oauth_client" (SpClient (mkClientConf None None [("x", "X")]) [] "") = Ok (GClient c) /\
     cl_client_type c = "oauth2" /\ get_service c "x" = Some "X") /\
  (exists c, make_part [] [] "https://e" "oauth_client" (SpClient (mkClientConf None None []) [] "oauth2") = Ok (GClient c) /\
     get_service c "discovery" = Some "idpyoidc.client.oauth2.server_metadata.ServerMetadata") /\
  make_part [] [] "https://e" "some_server" (SpServer (mkServerConf None [] []) "") = Err AttributeError.
Proof. split; [|split]; [eexists; repeat split..|reflexivity]. Qed.
