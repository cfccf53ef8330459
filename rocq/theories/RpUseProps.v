(** The relying party: provider metadata, the choice of registration and authorization requests (C101-C107). *)
From Verif Require Import PyFacts CollectorProps ExampleKit WellRunProps ChainsSpec ChainsProps ClientProps.
From Verif Require Export RpProps.

(** ** Facts *)

Lemma rp_fed_ok A (m : M fstate A) s s' a :
  rp_fed m s = (s', Ok a) -> exists f, m (p_fed s) = (f, Ok a) /\
    s' = mkRp f (p_keys s) (p_info s) (p_issuer s) (p_store s) (p_asked s).
Proof. unfold rp_fed. destruct (m (p_fed s)) as [f r]. intros [= <- ->]. exists f. auto. Qed.

(** what a successful collection leaves *)
Lemma collect_inv E O fuel K prio s s' info :
  collect_metadata E O fuel K prio s = (s', Ok info) ->
  exists f cs d c iss kj,
    get_verified_trust_chains E O fuel (p_issuer s) (p_fed s) = (f, Ok cs) /\ cs <> [] /\
    save_trust_chains (p_store s) cs = Ok d /\ pick_trust_chain prio cs = Ok c /\
    chain_metadata c "openid_provider" = Ok info /\ dget "issuer" info = Some (VStr iss) /\
    import_keys K info iss (p_keys s) = (kj, Ok tt) /\
    s' = mkRp f kj info (p_issuer s) (Some d) (p_asked s).
Proof.
  unfold collect_metadata. unfold mbind at 1, StateM.get at 1. unfold mbind at 1.
  destruct (rp_fed (get_verified_trust_chains E O fuel (p_issuer s)) s) as [s1 [cs|e]] eqn:E1; [|discriminate].
  apply rp_fed_ok in E1. destruct E1 as (f & E1 & ->). destruct cs as [|c0 cs]; [discriminate|]. cbn [is_nil].
  unfold mbind at 1, lift at 1. cbn [p_store].
  destruct (save_trust_chains (p_store s) (c0 :: cs)) as [d|e] eqn:E2; [|discriminate].
  unfold mbind at 1, modify at 1. cbn [p_fed p_keys p_info p_issuer p_store p_asked].
  unfold mbind at 1, lift at 1. destruct (pick_trust_chain prio (c0 :: cs)) as [c|e] eqn:E3; [|discriminate].
  unfold mbind at 1, lift at 1. destruct (chain_metadata c "openid_provider") as [md|e] eqn:E4; [|discriminate].
  unfold mbind at 1, lift at 1. unfold dindex at 1.
  destruct (dget "issuer" md) as [v|] eqn:E5; [|discriminate]. cbn [bind].
  destruct v as [| | |iss| |]; try discriminate.
  unfold mbind at 1, modify at 1. cbn [p_fed p_keys p_info p_issuer p_store p_asked].
  unfold mbind at 1. cbn [p_fed p_keys p_info p_issuer p_store p_asked].
  destruct (import_keys K md iss (p_keys s)) as [kj [[]|e]] eqn:E6; [|discriminate].
  unfold ret. intros [= <- <-]. exists f, (c0 :: cs), d, c, iss, kj.
  split; [exact E1|]. split; [discriminate|]. repeat split; assumption.
Qed.

Lemma import_keys_other K info iss e kj kj' r :
  import_keys K info iss kj = (kj', r) -> e <> iss -> dget e kj' = dget e kj.
Proof.
  unfold import_keys, add_ckeys. intros H N.
  destruct (dmem "jwks_uri" info); [|destruct (dmem "jwks" info); [destruct (truthy (field "jwks" info));
    [destruct (ks_jwks K (field "jwks" info))|]|]]; injection H as <- _;
    try (apply dget_dset_other; exact N); reflexivity.
Qed.

(** whatever happens during a collection, what was asked for stays *)
Lemma collect_asked E O fuel K prio s : p_asked (fst (collect_metadata E O fuel K prio s)) = p_asked s.
Proof.
  unfold collect_metadata. unfold mbind at 1, StateM.get at 1. unfold mbind at 1, rp_fed.
  destruct (get_verified_trust_chains E O fuel (p_issuer s) (p_fed s)) as [f [cs|e]]; [|reflexivity].
  destruct (is_nil cs); [reflexivity|].
  unfold mbind at 1, lift at 1. cbn [p_store]. destruct (save_trust_chains (p_store s) cs) as [d|e]; [|reflexivity].
  unfold mbind at 1, modify at 1. unfold mbind at 1, lift at 1.
  destruct (pick_trust_chain prio cs) as [c|e]; [|reflexivity].
  unfold mbind at 1, lift at 1. destruct (chain_metadata c "openid_provider") as [md|e]; [|reflexivity].
  unfold mbind at 1, lift at 1.
  destruct (let* v := dindex "issuer" md in match v with VStr i => Ok i | _ => Err TypeError end) as [iss|e]; [|reflexivity].
  unfold mbind at 1, modify at 1. unfold mbind at 1. cbn [p_fed p_keys p_info p_issuer p_store p_asked].
  destruct (import_keys K md iss (p_keys s)) as [kj [[]|e]]; reflexivity.
Qed.

(** ** An example: op below ta and tb *)

Definition op_md (iss : string) (types : list string) : dict metadata :=
  [("openid_provider", [("issuer", VStr iss); ("client_registration_types_supported", VList (map VStr types));
                        ("federation_registration_endpoint", VStr "reg"); ("jwks", VStr "keys")])].

Definition op_ec (iss : string) (types : list string) : stmt :=
  mkStmt "op" "op" (Some 1000%Z) (Some [4]) (Some (op_md iss types)) None None (Some ["ta"; "tb"]).

Definition only (t : string) : dict mpolicy :=
  [("openid_provider", [("client_registration_types_supported", [("subset_of", VList [VStr t])])])].

Definition two (iss : string) (types : list string) (pa pb : option (dict mpolicy)) : cenv := ex_env
  [("op/wk", TJws 4 (op_ec iss types)); ("ta/wk", TJws 1 (ec "ta" 1 1000 None)); ("tb/wk", TJws 2 (ec "tb" 2 1000 None))]
  [("ta/fetch op", TJws 1 (mkStmt "ta" "op" (Some 900%Z) (Some [4]) None pa None None));
   ("tb/fetch op", TJws 2 (mkStmt "tb" "op" (Some 900%Z) (Some [4]) None pb None None))]
  ["ta"; "tb"].

Definition two_keys : keyjar := [("ta", [1]); ("tb", [2])].

Definition some_keys : key_sources := mkSources (fun _ => []) (fun _ => Ok [4]).

Definition start : rp := mkRp (fresh two_keys) [] [] "op" None [].

(** ** C101 *)

(** the metadata in use is that of a verified chain for the issuer: of the first chain to the preferred anchor, or of
    the first chain when there is no chain to an anchor of the list *)
Theorem C101_from_verified_chain : forall E O fuel K prio s s' info,
  collect_metadata E O fuel K prio s = (s', Ok info) ->
  exists f cs c, get_verified_trust_chains E O fuel (p_issuer s) (p_fed s) = (f, Ok cs) /\ In c cs /\
    backed E O fuel (p_issuer s) [] (p_fed s) c /\ chain_metadata c "openid_provider" = Ok info /\ p_info s' = info /\
    (forall fid, preferred prio cs fid -> first_at cs fid c) /\
    ((forall fid, In fid prio -> no_chain cs fid) -> exists l, cs = c :: l).
Proof.
  intros E O fuel K prio s s' info H. apply collect_inv in H.
  destruct H as (f & cs & d & c & iss & kj & Hg & Hne & _ & Hp & Hm & _ & _ & ->).
  assert (I : In c cs).
  { destruct cs as [|c0 [|c1 cs]]; [contradiction Hne; reflexivity|injection Hp as <-; left; reflexivity|].
    unfold pick_trust_chain in Hp. assert (G := pick_by_priority_spec prio (c0 :: c1 :: cs)).
    destruct (pick_by_priority prio (c0 :: c1 :: cs)) as [c2|]; injection Hp as <-; [|left; reflexivity].
    destruct G as (fid & _ & (pre & post & G & _)). rewrite G. apply in_elt. }
  exists f, cs, c. split; [exact Hg|]. split; [exact I|]. split.
  { apply (chains_backed E O fuel (p_issuer s) [] (p_fed s) f cs c); [exact Hg|exact I]. }
  split; [exact Hm|]. split; [reflexivity|]. split.
  - intros fid Hf. apply (C40_by_priority prio cs fid c Hf). exact Hp.
  - intros N. rewrite (C40_otherwise_first prio cs N) in Hp. destruct cs as [|c0 cs]; [discriminate Hp|].
    injection Hp as <-. exists cs. reflexivity.
Qed.
Print Assumptions C101_from_verified_chain.

(** do_provider_info gives an issuer without metadata only for provider information that was there before *)
Theorem C101_provider_info : forall E O fuel K prio s s' v,
  do_provider_info E O fuel K prio s = (s', Ok v) ->
  p_info s = [] \/ (exists i, p_info s = [("issuer", VStr i)]) ->
  exists c iss, backed E O fuel iss [] (p_fed s) c /\ chain_metadata c "openid_provider" = Ok (p_info s') /\
    dget "issuer" (p_info s') = Some v /\
    iss = match bare_issuer (p_info s) with Some i => i | None => p_issuer s end /\ p_issuer s' = iss.
Proof.
  intros E O fuel K prio s s' v H Hi. unfold do_provider_info in H. unfold mbind at 1, StateM.get at 1 in H.
  assert (T : forall s1 info s2 v', collect_metadata E O fuel K prio s1 = (s2, Ok info) ->
    v' = provider_issuer s2 -> p_fed s1 = p_fed s ->
    exists c iss, backed E O fuel iss [] (p_fed s) c /\ chain_metadata c "openid_provider" = Ok (p_info s2) /\
      dget "issuer" (p_info s2) = Some v' /\ iss = p_issuer s1 /\ p_issuer s2 = iss).
  { intros s1 info s2 v' Hc Hv Hs. destruct (C101_from_verified_chain _ _ _ _ _ _ _ _ Hc)
      as (f & cs & c & Hg & I & B & Hm & Hi' & _).
    destruct (collect_inv _ _ _ _ _ _ _ _ Hc) as (f' & cs' & d & c' & iss & kj & _ & _ & _ & _ & _ & Hs' & _ & E2).
    exists c, (p_issuer s1). rewrite Hi'. split; [rewrite <- Hs; exact B|]. split; [exact Hm|].
    subst v'. unfold provider_issuer. rewrite Hi', Hs'. rewrite E2. auto. }
  destruct Hi as [Hi|[i Hi]]; rewrite Hi in H |- *.
  - cbn [is_nil] in H. cbn [bare_issuer]. unfold mbind at 1 in H. destruct (collect_metadata E O fuel K prio s) as [s2 [info|e]] eqn:Hc; [|discriminate].
    unfold mbind, StateM.get, ret in H. injection H as <- <-. exact (T s info s2 _ Hc eq_refl eq_refl).
  - cbn [is_nil bare_issuer String.eqb Ascii.eqb Bool.eqb] in H |- *.
    unfold mbind at 1 in H. unfold mbind at 1, modify at 1 in H.
    match type of H with context [collect_metadata E O fuel K prio ?x] => set (s1 := x) in H end.
    destruct (collect_metadata E O fuel K prio s1) as [s2 [info|e]] eqn:Hc; [|discriminate].
    unfold mbind, StateM.get, ret in H. injection H as <- <-. exact (T s1 info s2 _ Hc eq_refl eq_refl).
Qed.
Print Assumptions C101_provider_info.

Example C101_ex : exists s' info,
  collect_metadata (two "op" ["automatic"; "explicit"] (Some (only "automatic")) (Some (only "explicit"))) id_order 3
    some_keys ["tb"; "ta"] start = (s', Ok info) /\
  dget "client_registration_types_supported" info = Some (VList [VStr "explicit"]).
Proof. eexists. eexists. split; vm_compute; reflexivity. Qed.

(** ** C102 *)

(** the keys of nobody but the issuer change *)
Definition C102_full : Prop := forall E O fuel K prio s s' info,
  collect_metadata E O fuel K prio s = (s', Ok info) ->
  forall e, e <> p_issuer s -> dget e (p_keys s') = dget e (p_keys s).

(** op says in its metadata that it is bank *)
Theorem C102_keys_of_issuer_refuted : ~ C102_full.
Proof.
  intros H.
  assert (G : exists s' info, collect_metadata (two "bank" ["automatic"] None None) id_order 3 some_keys [] start = (s', Ok info)
                /\ dget "bank" (p_keys s') = Some [KPub 4]).
  { eexists. eexists. split; vm_compute; reflexivity. }
  destruct G as (s' & info & G & Hk). assert (N : "bank" <> p_issuer start) by discriminate.
  specialize (H _ _ _ _ _ _ _ _ G _ N). rewrite Hk in H. discriminate H.
Qed.
Print Assumptions C102_keys_of_issuer_refuted.

(** the keys the metadata of an OP gives it: those at jwks_uri, otherwise those in jwks *)
Inductive gives_keys (K : key_sources) (info : dict val) : list key -> Prop :=
| GK_uri u : dget "jwks_uri" info = Some u -> truthy u = true -> gives_keys K info (ks_url K u)
| GK_no_uri u : dget "jwks_uri" info = Some u -> truthy u = false -> gives_keys K info []
| GK_jwks j ks : dget "jwks_uri" info = None -> dget "jwks" info = Some j -> truthy j = true -> ks_jwks K j = Ok ks ->
    gives_keys K info ks
| GK_no_jwks j : dget "jwks_uri" info = None -> dget "jwks" info = Some j -> truthy j = false -> gives_keys K info []
| GK_none : dget "jwks_uri" info = None -> dget "jwks" info = None -> gives_keys K info [].

Definition known_keys (kj : ckeyjar) (e : string) : list ckey := match dget e kj with Some ks => ks | None => [] end.

(** Missing: the issuer in the metadata is not compared with the entity.  What holds: only the keys of the entity named
    as issuer in the metadata change; those the metadata gives are added, and when that is the issuer asked for the full
    statement holds. *)
Theorem C102_keys_of_issuer_partial : forall E O fuel K prio s s' info,
  collect_metadata E O fuel K prio s = (s', Ok info) ->
  exists iss, dget "issuer" info = Some (VStr iss) /\
    (forall e, e <> iss -> dget e (p_keys s') = dget e (p_keys s)) /\
    (exists new, gives_keys K info new /\ known_keys (p_keys s') iss = known_keys (p_keys s) iss ++ map KPub new).
Proof.
  intros E O fuel K prio s s' info H. apply collect_inv in H.
  destruct H as (f & cs & d & c & iss & kj & _ & _ & _ & _ & _ & Hs & Hk & ->). exists iss. cbn [p_keys].
  split; [exact Hs|]. split; [intros e N; apply (import_keys_other _ _ _ _ _ _ _ Hk N)|].
  unfold import_keys, dmem, field in Hk. unfold known_keys.
  assert (A : forall ks kj', kj' = add_ckeys iss ks (p_keys s) ->
            match dget iss kj' with Some l => l | None => [] end
            = match dget iss (p_keys s) with Some l => l | None => [] end ++ ks).
  { intros ks kj' ->. unfold add_ckeys. rewrite dget_dset_same. reflexivity. }
  destruct (dget "jwks_uri" info) as [u|] eqn:Eu.
  - injection Hk as <-. destruct (truthy u) eqn:Tu.
    + exists (ks_url K u). split; [exact (GK_uri K info u Eu Tu)|apply A; reflexivity].
    + exists []. split; [exact (GK_no_uri K info u Eu Tu)|apply A; reflexivity].
  - destruct (dget "jwks" info) as [j|] eqn:Ej.
    + destruct (truthy j) eqn:Tj.
      * destruct (ks_jwks K j) as [ks|e] eqn:Ek; [|discriminate Hk]. injection Hk as <-. exists ks.
        split; [exact (GK_jwks K info j ks Eu Ej Tj Ek)|apply A; reflexivity].
      * injection Hk as <-. exists []. split; [exact (GK_no_jwks K info j Eu Ej Tj)|apply A; reflexivity].
    + injection Hk as <-. exists []. split; [exact (GK_none K info Eu Ej)|]. symmetry. apply app_nil_r.
Qed.
Print Assumptions C102_keys_of_issuer_partial.

Example C102_ex : exists s' info,
  collect_metadata (two "op" ["automatic"] None None) id_order 3 some_keys []
    (mkRp (fresh two_keys) [("op", [KPub 7]); ("bank", [KPub 8])] [] "op" None []) = (s', Ok info) /\
  p_keys s' = [("op", [KPub 7; KPub 4]); ("bank", [KPub 8])].
Proof. eexists. eexists. split; vm_compute; reflexivity. Qed.

(** ** C103 *)

(** what a client does between a request and the response to it *)
Inductive later (E : cenv) (O : iter_order) (fuel : nat) (K : key_sources) (prio : list string) (st : string)
  : rp -> rp -> Prop :=
| L_now s : later E O fuel K prio st s s
| L_info s s' s'' : later E O fuel K prio st s s' -> s'' = fst (do_provider_info E O fuel K prio s') ->
    later E O fuel K prio st s s''
| L_auth s s' s'' st' : later E O fuel K prio st s s' -> st' <> st -> s'' = fst (init_authorization st' s') ->
    later E O fuel K prio st s s''
| L_final s s' s'' st' : later E O fuel K prio st s s' -> s'' = fst (finalize_auth st' s') ->
    later E O fuel K prio st s s''
| L_set s s' f ks info iss store : later E O fuel K prio st s s' ->
    later E O fuel K prio st s (mkRp f ks info iss store (p_asked s')).

Lemma info_asked E O fuel K prio s : p_asked (fst (do_provider_info E O fuel K prio s)) = p_asked s.
Proof.
  unfold do_provider_info. unfold mbind at 1, StateM.get at 1.
  assert (C : forall s1, p_asked (fst ((do _ <- collect_metadata E O fuel K prio in do s <- StateM.get in ret (provider_issuer s)) s1)) = p_asked s1).
  { intros s1. assert (H := collect_asked E O fuel K prio s1). unfold mbind at 1.
    destruct (collect_metadata E O fuel K prio s1) as [s2 [i|e]]; exact H. }
  destruct (is_nil (p_info s)); [apply C|]. destruct (bare_issuer (p_info s)) as [i|]; [|reflexivity].
  unfold mbind at 1. unfold mbind at 1, modify at 1.
  match goal with |- context [collect_metadata E O fuel K prio ?x] =>
    assert (H := collect_asked E O fuel K prio x); destruct (collect_metadata E O fuel K prio x) as [s2 [info|e]] end;
    exact H.
Qed.

Lemma later_asked E O fuel K prio st s s' : later E O fuel K prio st s s' -> dget st (p_asked s') = dget st (p_asked s).
Proof.
  intros H. induction H as [s|s s' s'' _ IH ->|s s' s'' st' _ IH N ->|s s' s'' st' _ IH ->|s s' f ks info iss store _ IH].
  - reflexivity.
  - rewrite info_asked. exact IH.
  - cbn [init_authorization modify fst p_asked]. rewrite dget_dset_other by congruence. exact IH.
  - rewrite <- IH. unfold finalize_auth, mbind, StateM.get, lift. destruct (dindex st' (p_asked s')); [|reflexivity].
    destruct (py_eqb (VStr a) (provider_issuer s')); reflexivity.
  - exact IH.
Qed.

(** an authorization response is only accepted while the provider in use is the one the request was made for *)
Theorem C103_same_provider : forall E O fuel K prio st s0 s1 s2 s3,
  init_authorization st s0 = (s1, Ok tt) -> later E O fuel K prio st s1 s2 -> finalize_auth st s2 = (s3, Ok tt) ->
  provider_issuer s2 = VStr (p_issuer s0) /\ s3 = s2.
Proof.
  intros E O fuel K prio st s0 s1 s2 s3 H1 H2 H3. apply later_asked in H2. injection H1 as <-.
  cbn [p_asked] in H2. rewrite dget_dset_same in H2.
  unfold finalize_auth, mbind, StateM.get, lift, dindex in H3. rewrite H2 in H3.
  destruct (py_eqb (VStr (p_issuer s0)) (provider_issuer s2)) eqn:Eq; [|discriminate H3].
  injection H3 as <-. split; [|reflexivity].
  destruct (provider_issuer s2) as [| | |i| |]; cbn in Eq; try discriminate Eq. apply String.eqb_eq in Eq. subst i. reflexivity.
Qed.
Print Assumptions C103_same_provider.

(** and responses with a state that was not handed out are never accepted *)
Theorem C103_unknown_state : forall st s, dget st (p_asked s) = None -> snd (finalize_auth st s) = Err KeyError.
Proof. intros st s H. unfold finalize_auth, mbind, StateM.get, lift, dindex. rewrite H. reflexivity. Qed.
Print Assumptions C103_unknown_state.

(** op in use: accepted; after a switch to another provider: not *)
Example C103_ex :
  let K := some_keys in let E := two "op" ["automatic"] None None in
  let s0 := fst (do_provider_info E id_order 3 K [] start) in
  let s1 := fst (init_authorization "st" s0) in
  snd (finalize_auth "st" s1) = Ok tt /\
  snd (finalize_auth "st" (mkRp (p_fed s1) (p_keys s1) [("issuer", VStr "bank")] "bank" (p_store s1) (p_asked s1))) = Err ValueError.
Proof. split; vm_compute; reflexivity. Qed.

(** ** C104 *)

(** what the OP supports according to the stored chain that is used for the decision *)
Definition supports (prio : list string) (s : rp) (t : string) : Prop :=
  exists d c info v l, p_store s = Some d /\ pick_from_stored_trust_chains prio d (p_issuer s) = Ok c /\
    chain_metadata c "openid_provider" = Ok info /\ dget "client_registration_types_supported" info = Some v /\
    py_set v = Ok l /\ In (VStr t) l.

Lemma vmem_str x l : vmem (VStr x) l = true <-> In (VStr x) l.
Proof.
  unfold vmem. rewrite existsb_exists. split.
  - intros (v & I & H). destruct v as [| | |y| |]; cbn in H; try discriminate H. apply String.eqb_eq in H. subst y. exact I.
  - intros I. exists (VStr x). split; [exact I|]. cbn. apply String.eqb_refl.
Qed.

Lemma choose_inv prio ability service s s' r :
  choose_registration prio ability service s = (s', Ok r) ->
  exists possible, s' = s /\ possible <> [] /\ NoDup possible /\
    (forall t, In t possible <-> In t ability /\ supports prio s t) /\
    match r with
    | Unregistered_use => possible = ["automatic"]
    | Ask e => possible <> ["automatic"] /\ service = true /\ dget "federation_registration_endpoint" (p_info s) = Some e
    | Locally => possible <> ["automatic"] /\ service = false
    end.
Proof.
  unfold choose_registration. unfold mbind at 1, StateM.get at 1. unfold mbind at 1, lift at 1.
  destruct (p_store s) as [d|] eqn:Ed; [|discriminate].
  unfold mbind at 1, lift at 1. destruct (pick_from_stored_trust_chains prio d (p_issuer s)) as [c|e] eqn:Ec; [|discriminate].
  unfold mbind at 1, lift at 1. destruct (chain_metadata c "openid_provider") as [info|e] eqn:Em; [|discriminate].
  unfold mbind at 1, lift at 1, dindex at 1.
  destruct (dget "client_registration_types_supported" info) as [v|] eqn:Ev; [|discriminate].
  unfold mbind at 1, lift at 1. destruct (py_set v) as [l|e] eqn:El; [|discriminate].
  set (possible := filter (fun x => vmem (VStr x) l) (nodup string_dec ability)).
  assert (P : forall t, In t possible <-> In t ability /\ supports prio s t).
  { intros t. unfold possible. rewrite filter_In, nodup_In, vmem_str. split; intros [I1 I2]; (split; [exact I1|]).
    - exists d, c, info, v, l. auto 10.
    - destruct I2 as (d' & c' & info' & v' & l' & Ed' & Ec' & Em' & Ev' & El' & I').
      rewrite Ed in Ed'. injection Ed' as <-. rewrite Ec in Ec'. injection Ec' as <-. rewrite Em in Em'. injection Em' as <-.
      rewrite Ev in Ev'. injection Ev' as <-. rewrite El in El'. injection El' as <-. exact I'. }
  assert (N : NoDup possible) by (apply NoDup_filter, NoDup_nodup).
  clearbody possible. intros H. exists possible.
  assert (T : (possible = ["automatic"] /\ (s', Ok r) = (s, Ok Unregistered_use)) \/
    (possible <> [] /\ possible <> ["automatic"] /\
      (if service then do e <- lift (dindex "federation_registration_endpoint" (p_info s)) in ret (Ask e) else ret Locally) s = (s', Ok r))).
  { destruct possible as [|p ps]; [discriminate H|]. cbn [is_nil] in H.
    destruct ((length (p :: ps) =? 1)%nat && smem "automatic" (p :: ps)) eqn:B.
    - left. apply andb_true_iff in B. destruct B as [B1 B2]. destruct ps as [|q ps]; [|discriminate B1].
      apply smem_In in B2. destruct B2 as [->|[]]. split; [reflexivity|symmetry; exact H].
    - right. split; [discriminate|]. split; [|exact H]. intros E. rewrite E in B. discriminate B. }
  clear H. destruct T as [(-> & [= -> ->])|(Hne & Ha & H)].
  - split; [reflexivity|]. split; [discriminate|]. auto.
  - destruct service.
    + unfold mbind, lift, dindex in H.
      destruct (dget "federation_registration_endpoint" (p_info s)) as [e|] eqn:Ee; [|discriminate H].
      injection H as <- <-. auto 10.
    + injection H as <- <-. auto 10.
Qed.

(** the client asks for registration exactly when both sides support explicit registration and it has the service *)
Definition C104_full : Prop := forall prio ability service s s' e,
  choose_registration prio ability service s = (s', Ok (Ask e)) -> In "explicit" ability /\ supports prio s "explicit".

Definition decided (types : list string) : rp :=
  fst (collect_metadata (two "op" types None None) id_order 3 some_keys [] start).

(** automatic registration and a type of their own *)
Theorem C104_explicit_if_common_refuted : ~ C104_full.
Proof.
  intros H.
  assert (G : exists s', choose_registration [] ["automatic"; "own"] true (decided ["automatic"; "own"]) = (s', Ok (Ask (VStr "reg")))).
  { eexists. vm_compute. reflexivity. }
  destruct G as (s' & G). destruct (H _ _ _ _ _ _ G) as [[E|[E|[]]] _]; discriminate E.
Qed.
Print Assumptions C104_explicit_if_common_refuted.

(** Missing: clients with other types than automatic and explicit.  For all others the choice is: nothing in common
    raises; only automatic in common: no registration; explicit in common: the OP is asked if there is a registration
    service, at the endpoint in the metadata in use, and otherwise the client registers itself. *)
Theorem C104_explicit_if_common_partial : forall prio ability service s s' r,
  (forall t, In t ability -> t = "automatic" \/ t = "explicit") ->
  choose_registration prio ability service s = (s', Ok r) ->
  s' = s /\
  (exists t, In t ability /\ supports prio s t) /\
  match r with
  | Unregistered_use => In "automatic" ability /\ supports prio s "automatic" /\ ~ (In "explicit" ability /\ supports prio s "explicit")
  | Ask e => In "explicit" ability /\ supports prio s "explicit" /\ service = true /\
             dget "federation_registration_endpoint" (p_info s) = Some e
  | Locally => In "explicit" ability /\ supports prio s "explicit" /\ service = false
  end.
Proof.
  intros prio ability service s s' r Ha H. apply choose_inv in H. destruct H as (ps & -> & Hne & N & P & Hr).
  split; [reflexivity|]. split.
  { destruct ps as [|t ps]; [contradiction Hne; reflexivity|]. exists t. apply P. left. reflexivity. }
  assert (X : ps <> ["automatic"] -> In "explicit" ability /\ supports prio s "explicit").
  { intros NE. apply P. destruct ps as [|a [|b ps]]; [contradiction Hne; reflexivity| |].
    - destruct (Ha a (proj1 (proj1 (P a) (or_introl eq_refl)))) as [-> | ->]; [contradiction NE; reflexivity|left; reflexivity].
    - destruct (Ha a (proj1 (proj1 (P a) (or_introl eq_refl)))) as [-> | ->]; [|left; reflexivity].
      destruct (Ha b (proj1 (proj1 (P b) (or_intror (or_introl eq_refl))))) as [-> | ->]; [|right; left; reflexivity].
      inversion N as [|x l Hx _]. exfalso. apply Hx. left. reflexivity. }
  destruct r as [|e|].
  - subst ps. split; [apply (proj1 (P "automatic")); left; reflexivity|].
    split; [apply (proj1 (P "automatic")); left; reflexivity|]. intros Hx. apply P in Hx. destruct Hx as [Hx|[]]. discriminate Hx.
  - destruct Hr as (Hr & Hs & He). destruct (X Hr). auto.
  - destruct Hr as (Hr & Hs). destruct (X Hr). auto.
Qed.
Print Assumptions C104_explicit_if_common_partial.

Example C104_ex :
  snd (choose_registration [] ["automatic"; "explicit"] true (decided ["automatic"])) = Ok Unregistered_use /\
  snd (choose_registration [] ["automatic"; "explicit"] true (decided ["automatic"; "explicit"])) = Ok (Ask (VStr "reg")) /\
  snd (choose_registration [] ["explicit"] true (decided ["automatic"])) = Err ValueError.
Proof. split; [|split]; vm_compute; reflexivity. Qed.

(** ** C105 *)

(** the registration types the decision is based on are those in the metadata in use *)
Definition C105_full : Prop := forall E O fuel K prio s s' info d c,
  collect_metadata E O fuel K prio s = (s', Ok info) -> p_store s' = Some d ->
  pick_from_stored_trust_chains prio d (p_issuer s') = Ok c -> chain_metadata c "openid_provider" = Ok info.

(** tb is preferred: its metadata is used and allows explicit registration only, but the client goes by the chain to ta
    and does not register *)
Theorem C105_decided_on_metadata_in_use_refuted :
  ~ C105_full /\
  exists s' info, collect_metadata (two "op" ["automatic"; "explicit"] (Some (only "automatic")) (Some (only "explicit")))
      id_order 3 some_keys ["tb"; "ta"] start = (s', Ok info) /\
    dget "client_registration_types_supported" info = Some (VList [VStr "explicit"]) /\
    snd (choose_registration ["tb"; "ta"] ["automatic"; "explicit"] true s') = Ok Unregistered_use.
Proof.
  split.
  - intros H.
    assert (G : exists s' info d c,
      collect_metadata (two "op" ["automatic"; "explicit"] (Some (only "automatic")) (Some (only "explicit")))
        id_order 3 some_keys ["tb"; "ta"] start = (s', Ok info) /\ p_store s' = Some d /\
      pick_from_stored_trust_chains ["tb"; "ta"] d (p_issuer s') = Ok c /\
      dget "client_registration_types_supported" info = Some (VList [VStr "explicit"]) /\
      exists i, chain_metadata c "openid_provider" = Ok i /\
        dget "client_registration_types_supported" i = Some (VList [VStr "automatic"])).
    { do 4 eexists. split; [vm_compute; reflexivity|]. split; [vm_compute; reflexivity|].
      split; [vm_compute; reflexivity|]. split; [vm_compute; reflexivity|]. eexists. split; vm_compute; reflexivity. }
    destruct G as (s' & info & d & c & G1 & G2 & G3 & G4 & i & G5 & G6).
    rewrite (H _ _ _ _ _ _ _ _ _ _ G1 G2 G3) in G5. injection G5 as <-. rewrite G4 in G6. discriminate G6.
  - eexists. eexists. split; [vm_compute; reflexivity|]. split; vm_compute; reflexivity.
Qed.
Print Assumptions C105_decided_on_metadata_in_use_refuted.

(** Missing: more than one chain, or chains remembered from before.  What holds: with one chain found, about the issuer,
    and none remembered. *)
Theorem C105_decided_on_metadata_in_use_partial : forall E O fuel K prio s s' info d c cs f c0,
  collect_metadata E O fuel K prio s = (s', Ok info) ->
  get_verified_trust_chains E O fuel (p_issuer s) (p_fed s) = (f, Ok cs) -> cs = [c0] ->
  ChainsSpec.about c0 (p_issuer s) -> match p_store s with Some d0 => dget (p_issuer s) d0 = None | None => True end ->
  p_store s' = Some d -> pick_from_stored_trust_chains prio d (p_issuer s') = Ok c ->
  c = c0 /\ chain_metadata c "openid_provider" = Ok info.
Proof.
  intros E O fuel K prio s s' info d c cs f c0 H Hg -> (l & Hab) Hst Hd Hp. apply collect_inv in H.
  destruct H as (f' & cs' & d' & c' & iss & kj & Hg' & _ & Hs & Hpk & Hm & _ & _ & ->).
  rewrite Hg in Hg'. injection Hg' as <- <-. cbn [p_store p_issuer] in Hd, Hp. injection Hd as <-.
  injection Hpk as <-. unfold save_trust_chains in Hs.
  assert (Ec : chains2dict [c0] = [(ch_anchor c0, c0)]) by reflexivity.
  rewrite Ec in Hs. cbn [foldM bind snd fst] in Hs. rewrite Hab in Hs. cbn [bind] in Hs.
  match type of Hs with context [dget (p_issuer s) ?x] =>
    assert (Hs2 : dget (p_issuer s) x = None) by (destruct (p_store s); [exact Hst|reflexivity]); rewrite Hs2 in Hs end.
  injection Hs as <-. unfold pick_from_stored_trust_chains, dindex in Hp. rewrite dget_dset_same in Hp.
  cbn [bind dkeys map fst dget] in Hp. rewrite String.eqb_refl in Hp. injection Hp as <-. auto.
Qed.
Print Assumptions C105_decided_on_metadata_in_use_partial.

Definition one : cenv := ex_env
  [("op/wk", TJws 4 (mkStmt "op" "op" (Some 1000%Z) (Some [4]) (Some (op_md "op" ["automatic"; "explicit"])) None None (Some ["ta"])));
   ("ta/wk", TJws 1 (ec "ta" 1 1000 None))]
  [("ta/fetch op", TJws 1 (mkStmt "ta" "op" (Some 900%Z) (Some [4]) None (Some (only "explicit")) None None))] ["ta"].

Example C105_ex : exists s' info f c0 d,
  collect_metadata one id_order 3 some_keys ["tb"; "ta"] start = (s', Ok info) /\
  get_verified_trust_chains one id_order 3 "op" (p_fed start) = (f, Ok [c0]) /\ ChainsSpec.about c0 "op" /\
  p_store s' = Some d /\ pick_from_stored_trust_chains ["tb"; "ta"] d "op" = Ok c0.
Proof.
  do 5 eexists. split; [vm_compute; reflexivity|]. split; [vm_compute; reflexivity|].
  split; [eexists; vm_compute; reflexivity|]. split; vm_compute; reflexivity.
Qed.

(** ** C106 *)

(** an OP that knows the client tells it from others: a signed request object, or a pushed request *)
Definition authenticated (se : sending) : Prop :=
  (exists post, se_post se = Some post /\ dget "request_param" post = Some (VStr "request")) \/ se_pushed se = Some true.

(** a client that is not registered sends authenticated requests only *)
Definition C106_full : Prop := forall me lifetime endpoint endpoints ams args post pushed se,
  automatic_registration me lifetime endpoint endpoints ams false args post pushed = Ok se -> authenticated se.

(** the OP offers authentication at an endpoint the client is not configured for *)
Theorem C106_authenticated_refuted : ~ C106_full.
Proof.
  intros H. specialize (H "rp" (VInt 300) (VStr "az") ["authorization_endpoint"]
    [("pushed_authorization_request_endpoint", VList [VStr "private_key_jwt"])] [] [] (Some false) _ eq_refl).
  destruct H as [(post & E1 & E2)|E]; [|discriminate E]. injection E1 as <-. discriminate E2.
Qed.
Print Assumptions C106_authenticated_refuted.

(** Missing: nothing in common.  What holds: with a configured endpoint that the OP lists; and an OP that lists none
    gets no request from an unregistered client. *)
Theorem C106_authenticated_partial : forall me lifetime endpoint endpoints ams args post pushed se,
  automatic_registration me lifetime endpoint endpoints ams false args post pushed = Ok se ->
  ams <> [] /\ ((exists n, In n endpoints /\ dmem n ams = true) -> authenticated se).
Proof.
  intros me lifetime endpoint endpoints ams args post pushed se H. unfold automatic_registration in H.
  destruct ams as [|a ams]; [discriminate H|]. split; [discriminate|]. intros (n & I & D). cbn [is_nil] in H.
  destruct (find (fun n => dmem n (a :: ams)) endpoints) as [n'|] eqn:F.
  2: { exfalso. apply (find_none _ _ F) in I. cbn beta in I. rewrite D in I. discriminate I. }
  unfold use_endpoint in H. destruct (String.eqb n' "authorization_endpoint").
  - destruct (dindex "authorization_endpoint" (a :: ams)) as [l|e]; [|discriminate H]. cbn [bind] in H.
    destruct (py_in (VStr "request_object") l) as [[]|e]; [|discriminate H|discriminate H]. cbn [bind] in H. injection H as <-.
    left. cbn [se_post fst]. eexists. split; [reflexivity|].
    rewrite !dget_dset_other by discriminate. apply dget_dset_same.
  - destruct (String.eqb n' "pushed_authorization_endpoint"); [|discriminate H].
    destruct pushed as [b|]; [|discriminate H]. cbn [bind] in H. injection H as <-. right. reflexivity.
Qed.
Print Assumptions C106_authenticated_partial.

Definition op_methods : dict val :=
  [("authorization_endpoint", VList [VStr "request_object"]);
   ("pushed_authorization_request_endpoint", VList [VStr "request_object"; VStr "private_key_jwt"])].

Example C106_ex : exists se,
  automatic_registration "rp" (VInt 300) (VStr "az") ["authorization_endpoint"] op_methods false [] [] None = Ok se /\
  authenticated se /\ dget "client_id" (se_args se) = Some (VStr "rp").
Proof.
  eexists. split; [reflexivity|]. split; [left; eexists; split; vm_compute; reflexivity|vm_compute; reflexivity].
Qed.

(** ** C107 *)

(** what the caller passed is sent along: everything but the claims that are set for the request object *)
Definition set_here : list string := ["issuer"; "lifetime"; "with_jti"; "recv"; "request_param"].

Definition C107_full : Prop := forall me lifetime endpoint endpoints ams registered args post pushed se k v,
  automatic_registration me lifetime endpoint endpoints ams registered args post pushed = Ok se ->
  ~ In k set_here -> dget k post = Some v -> exists post', se_post se = Some post' /\ dget k post' = Some v.

(** with a pushed request they are gone *)
Theorem C107_arguments_kept_refuted : ~ C107_full.
Proof.
  intros H. destruct (H "rp" (VInt 300) (VStr "az") ["pushed_authorization_endpoint"]
    [("pushed_authorization_endpoint", VList [])] true [] [("service", VStr "x")] (Some false) _ "service" (VStr "x") eq_refl) as (p & E & _).
  - intros [E|[E|[E|[E|[E|[]]]]]]; discriminate E.
  - reflexivity.
  - discriminate E.
Qed.
Print Assumptions C107_arguments_kept_refuted.

(** Missing: pushed requests.  What holds: otherwise they are kept; and a client_id that was given stays. *)
Theorem C107_arguments_kept_partial : forall me lifetime endpoint endpoints ams registered args post pushed se,
  automatic_registration me lifetime endpoint endpoints ams registered args post pushed = Ok se ->
  (se_pushed se = Some true \/
   exists post', se_post se = Some post' /\ forall k, ~ In k set_here -> dget k post' = dget k post) /\
  (forall k, k <> "client_id" -> dget k (se_args se) = dget k args) /\
  (forall v, dget "client_id" args = Some v -> truthy v = true -> dget "client_id" (se_args se) = Some v) /\
  (truthy (field "client_id" args) = false -> dget "client_id" (se_args se) = Some (VStr me)).
Proof.
  intros me lifetime endpoint endpoints ams registered args post pushed se H. unfold automatic_registration in H.
  assert (A : forall x, Ok (mkSending (if truthy (field "client_id" args) then args else dset "client_id" (VStr me) args) (fst x) (snd x)) = Ok se ->
    ((snd x = Some true \/ exists post', fst x = Some post' /\ forall k, ~ In k set_here -> dget k post' = dget k post)) ->
    (se_pushed se = Some true \/
     exists post', se_post se = Some post' /\ forall k, ~ In k set_here -> dget k post' = dget k post) /\
    (forall k, k <> "client_id" -> dget k (se_args se) = dget k args) /\
    (forall v, dget "client_id" args = Some v -> truthy v = true -> dget "client_id" (se_args se) = Some v) /\
    (truthy (field "client_id" args) = false -> dget "client_id" (se_args se) = Some (VStr me))).
  { intros x [= <-] Hx. cbn [se_args se_post se_pushed]. split; [exact Hx|]. split; [|split].
    - intros k N. destruct (truthy (field "client_id" args)); [reflexivity|]. apply dget_dset_other. exact N.
    - intros v Hv Ht. unfold field. rewrite Hv, Ht. exact Hv.
    - intros Ht. rewrite Ht. apply dget_dset_same. }
  assert (S : forall o, Ok (o : option bool) = Ok o -> (o = Some true \/ exists post', Some post = Some post' /\ forall k, ~ In k set_here -> dget k post' = dget k post))
    by (intros o _; right; exists post; auto).
  destruct (is_nil ams).
  - destruct registered; [|discriminate H]. cbn [bind] in H. apply (A _ H). cbn [fst snd]. exact (S _ eq_refl).
  - destruct (find (fun n => dmem n ams) endpoints) as [n|].
    2: { cbn [bind] in H. apply (A _ H). cbn [fst snd]. exact (S _ eq_refl). }
    unfold use_endpoint in H. destruct (String.eqb n "authorization_endpoint").
    + destruct (dindex "authorization_endpoint" ams) as [l|e]; [|discriminate H]. cbn [bind] in H.
      destruct (py_in (VStr "request_object") l) as [[]|e]; [|discriminate H|discriminate H]. cbn [bind] in H.
      apply (A _ H). cbn [fst snd]. right. eexists. split; [reflexivity|]. intros k Hk.
      rewrite !dget_dset_other; [reflexivity|..]; intros ->; apply Hk; cbn; tauto.
    + destruct (String.eqb n "pushed_authorization_endpoint"); [|discriminate H].
      destruct pushed as [b|]; [|discriminate H]. cbn [bind] in H. apply (A _ H). left. reflexivity.
Qed.
Print Assumptions C107_arguments_kept_partial.

Example C107_ex : exists se post',
  automatic_registration "rp" (VInt 300) (VStr "az") ["authorization_endpoint"] op_methods false
    [("client_id", VStr "me")] [("service", VStr "x")] (Some true) = Ok se /\
  se_post se = Some post' /\ dget "service" post' = Some (VStr "x") /\ se_pushed se = Some false /\
  dget "client_id" (se_args se) = Some (VStr "me").
Proof. do 2 eexists. split; [reflexivity|]. split; [reflexivity|]. split; [|split]; vm_compute; reflexivity. Qed.

(** ** C109 *)

(** a client with the add-on for pushed requests can be configured to use them with an OP that lists [ams] *)
Definition can_push (ams : dict val) : Prop :=
  exists me lifetime endpoint endpoints args post se,
    automatic_registration me lifetime endpoint endpoints ams false args post (Some false) = Ok se /\ se_pushed se = Some true.

(** not with the OPs of this library, whatever the configuration: they list the endpoint by another name (entity/claims.py:21-29) *)
Theorem C109_pushed_with_own_op_refuted : ~ can_push op_methods.
Proof.
  intros (me & lifetime & endpoint & endpoints & args & post & se & H & P). unfold automatic_registration in H.
  change (is_nil op_methods) with false in H. cbv iota in H.
  destruct (find (fun n => dmem n op_methods) endpoints) as [n|] eqn:F.
  - apply find_some in F. destruct F as [_ F]. unfold use_endpoint in H.
    destruct (String.eqb n "authorization_endpoint").
    + cbn in H. injection H as <-. discriminate P.
    + destruct (String.eqb_spec n "pushed_authorization_endpoint") as [->|_]; [discriminate F|discriminate H].
  - cbn in H. injection H as <-. discriminate P.
Qed.
Print Assumptions C109_pushed_with_own_op_refuted.

(** Missing: the name the OPs use.  What holds: with an OP that lists pushed_authorization_endpoint, first in the
    configuration of the client. *)
Theorem C109_pushed_with_own_op_partial : forall me lifetime endpoint endpoints ams registered args post b,
  dmem "pushed_authorization_endpoint" ams = true ->
  exists se, automatic_registration me lifetime endpoint ("pushed_authorization_endpoint" :: endpoints) ams registered args post (Some b) = Ok se /\
    se_pushed se = Some true.
Proof.
  intros me lifetime endpoint endpoints ams registered args post b H. unfold automatic_registration.
  destruct ams as [|a ams]; [discriminate H|]. cbn [is_nil find]. rewrite H. eexists. split; reflexivity.
Qed.
Print Assumptions C109_pushed_with_own_op_partial.

Example C109_ex : can_push [("pushed_authorization_endpoint", VList [VStr "private_key_jwt"])].
Proof.
  exists "rp", (VInt 300), (VStr "az"), ["pushed_authorization_endpoint"], [], [], (mkSending [("client_id", VStr "rp")] None (Some true)).
  split; reflexivity.
Qed.
