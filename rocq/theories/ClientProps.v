(** Automatic and explicit registration: C54 and C77-C83. *)
From Verif Require Import PyFacts ClientFacts RegistrationProps CollectorProps FederationProps.

(** ** Vocabulary *)

(** the trust chain is about [id] *)
Definition about (c : tchain) (id : string) : Prop := exists pre p, ch_verified c = pre ++ [p] /\ s_sub p = id.

(** the token lists that are verified when [id] sends [provided] *)
Definition offered (E : cenv) (fuel : nat) (id : string) (provided : list token) (s : fstate) (ts : list token) : Prop :=
  (provided <> [] /\ ts = rev provided) \/
  (provided = [] /\ exists chains leaf ch, collected E fuel id s chains leaf /\ In ch chains /\ ts = ch ++ [leaf]).

(** [c] is an offered list of tokens that was verified, and policies were applied to its metadata; the keys are
    those of [s] and those that the offered lists vouch for *)
Definition backed (E : cenv) (O : iter_order) (fuel : nat) (id : string) (provided : list token) (s : fstate) (c : tchain) : Prop :=
  exists calls tc, Forall (offered E fuel id provided s) calls /\ offered E fuel id provided s (tc_chain tc) /\
    verified (e_lib E) (after_calls (e_lib E) (f_keys s) calls) (tc_chain tc) (tc_verified tc) /\ apply_to_chain O tc = Ok c.

(** the server's answer to a registration has the client_id *)
Definition keeps_id (R : reg_env) : Prop :=
  forall ci, dget "client_id" (rg_comb R (filter (fun e => smem (fst e) (rg_response R)) ci)) = dget "client_id" ci.

(** claims that are stored as they are *)
Definition plain_claim (R : reg_env) (k : string) : Prop :=
  passed_on R k /\ ~ In k checked /\
  ~ In k ["client_id"; "client_salt"; "client_id_issued_at"; "client_secret"; "client_secret_expires_at";
          "entity_id"; "automatic_registered"].

(** [ci] has the claims of [md], a dictionary *)
Definition stored_from (R : reg_env) (md ci : dict val) : Prop :=
  NoDup (dkeys md) -> forall k, plain_claim R k ->
    dget k ci = match dget k md with Some v => if rg_blank R v then None else Some v | None => None end.

(** ** Chains *)
Lemma chains_backed E O fuel id provided s s' cs c :
  chains_for E O fuel id provided s = (s', Ok cs) -> In c cs -> backed E O fuel id provided s c.
Proof.
  unfold chains_for. intros H I. destruct provided as [|t provided].
  - cbn [is_nil] in H.
    destruct (returned_chain _ _ _ _ _ _ _ _ H I) as (chains & leaf & pre & ch & post & tc & H1 & H2 & Hv & Ha).
    apply call_ok in Hv. destruct Hv as (Hv & _ & _ & _ & Ec).
    assert (OF : forall x, In x chains -> offered E fuel id [] s (x ++ [leaf])).
    { intros x Ix. right. split; [reflexivity|]. exists chains, leaf, x. auto. }
    exists (map (fun c => c ++ [leaf]) pre), tc. rewrite Ec. split; [|split; [|split; assumption]].
    + apply Forall_forall. intros x Ix. apply in_map_iff in Ix as (y & <- & Iy). apply OF. rewrite H2.
      apply in_or_app. left. exact Iy.
    + apply OF. rewrite H2. apply in_elt.
  - cbn [is_nil] in H. unfold mbind at 1, on_keys in H.
    destruct (verify_trust_chains E [rev (t :: provided)] [] (f_keys s)) as [kj [tcs|e]] eqn:EV; [|discriminate].
    unfold lift in H. injection H as _ H.
    destruct (proj1 (mapM_In _ _ _ _ _ H) c I) as (tc & Itc & Ha).
    apply (verify_chains_spec _ _ _ _ _ _ EV) in Itc. destruct Itc as (pre & ch & post & Ep & Hv).
    destruct pre as [|x pre]; [|destruct pre; discriminate]. injection Ep as <- <-. cbn [map] in Hv.
    apply call_ok in Hv. destruct Hv as (Hv & _ & _ & _ & Ec). rewrite app_nil_r in *.
    exists [], tc. rewrite Ec. split; [constructor|]. split; [left; split; [discriminate | reflexivity]|]. split; assumption.
Qed.

Lemma chains_store E O fuel id provided s s' r :
  chains_for E O fuel id provided s = (s', r) -> f_chains s' = f_chains s.
Proof.
  unfold chains_for. destruct (is_nil provided).
  - unfold get_verified_trust_chains, mbind at 1.
    assert (EC : f_chains (fst (collect_trust_chains E fuel id "" s)) = f_chains s).
    { unfold collect_trust_chains, mbind, on_col. destruct (collect E fuel "" id (f_col s)) as [c [[[tr t]|]|x]]; reflexivity. }
    destruct (collect_trust_chains E fuel id "" s) as [s1 [[chains leaf]|e]]; cbn [fst] in EC;
      [|intros H; injection H as <- _; exact EC].
    destruct chains as [|ch chains]; [intros H; injection H as <- _; exact EC|].
    destruct leaf as [leaf|]; [|intros H; injection H as <- _; exact EC].
    unfold mbind, on_keys. destruct (verify_trust_chains E (ch :: chains) [leaf] (f_keys s1)) as [k [tcs|e]];
      intros H; injection H as <- _; exact EC.
  - unfold mbind, on_keys. destruct (verify_trust_chains E [rev provided] [] (f_keys s)) as [k [tcs|e]];
      intros H; injection H as <- _; reflexivity.
Qed.

(** all configurations of [id] that can be got hold of are about [id], and in the cache a configuration goes with its
    signed form *)
Definition own_config (E : cenv) (s : cstate) (id : string) : Prop :=
  (forall c, obtainable E s id c -> s_sub c = id) /\
  (forall e t, dget id (st_cfg s) = Some e -> ce_jws e = Some t -> exists k, t = TJws k (ce_stmt e)).

(** what [id] provides is about itself; without it, its published configuration is *)
Definition own_word (E : cenv) (s : cstate) (id : string) (provided : list token) : Prop :=
  (provided = [] -> own_config E s id) /\
  (forall k p l, jws provided = (k, p) :: l -> s_sub p = id).

Lemma collected_leaf E fuel id s chains leaf :
  own_config E (f_col s) id -> collected E fuel id s chains leaf -> exists k c, leaf = TJws k c /\ s_sub c = id.
Proof.
  intros [O1 O2] H. unfold collected, collect_trust_chains, mbind, on_col in H.
  destruct (collect E fuel "" id (f_col s)) as [c0 [[[tr t]|]|x]] eqn:Ec; try discriminate. injection H as <- <-.
  destruct (t_collect E (f_col s) False False "" (fun _ => 0) (fun f => False_ind _ f) (fun f => False_ind _ f) fuel id
              (fun f => False_ind _ f) (fun f => False_ind _ f)) as [_ G].
  rewrite Ec in G. cbn [snd] in G. destruct G as (c & Hc & _).
  destruct Hc as [(e & He & <- & Hj)|Hc].
  - destruct (O2 e t He Hj) as [k ->]. exists k, (ce_stmt e). split; [reflexivity|]. apply O1. right. eauto.
  - destruct Hc as (n & L & Sv & k & keys & -> & Hk). exists k, c. split; [reflexivity|]. apply O1. left.
    exists (TJws k c), n. split; [exact L|]. split; [exact Sv|]. exists k, keys. auto.
Qed.

Lemma jws_rev ts : jws (rev ts) = rev (jws ts).
Proof.
  induction ts as [|[|k p] ts IH]; [reflexivity| |]; cbn [rev jws].
  - rewrite jws_app, IH. apply app_nil_r.
  - rewrite jws_app, IH. reflexivity.
Qed.

Lemma map_last {A B} (f g : A -> B) l : forall l' x, map f l = map g (l' ++ [x]) -> exists l0 y, l = l0 ++ [y] /\ f y = g x.
Proof.
  intros l' x H. rewrite map_app in H. cbn [map] in H.
  destruct (exists_last (l := l)) as (l0 & y & ->).
  - intros ->. destruct (map g l'); discriminate.
  - exists l0, y. split; [reflexivity|]. rewrite map_app in H. cbn [map] in H. apply app_inj_tail in H. exact (proj2 H).
Qed.

Lemma backed_about E O fuel id provided s c :
  own_word E (f_col s) id provided -> backed E O fuel id provided s c -> about c id.
Proof.
  intros [W1 W2] (calls & tc & _ & OF & V & Ap). apply apply_keeps in Ap. destruct Ap as (_ & _ & _ & _ & _ & ES).
  apply verified_iff in V. destruct V as ((k0 & p0 & ts & Et) & EV & _).
  assert (L : exists l k p, jws (tc_chain tc) = l ++ [(k, p)] /\ s_sub p = id).
  { destruct OF as [[NE Eo]|[-> (chains & leaf & ch & HC & I & ->)]].
    - rewrite Eo, jws_rev. rewrite Eo in Et. destruct (jws provided) as [|[k p] l] eqn:EJ.
      + exfalso. assert (X : jws (rev provided) = []) by (rewrite jws_rev, EJ; reflexivity). rewrite Et in X. discriminate.
      + exists (rev l), k, p. split; [reflexivity|]. exact (W2 _ _ _ eq_refl).
    - destruct (collected_leaf _ _ _ _ _ _ (W1 eq_refl) HC) as (k & c0 & -> & Sb).
      exists (jws ch), k, c0. rewrite jws_app. split; [reflexivity | exact Sb]. }
  destruct L as (l & k & p & EL & Sb). rewrite EV, EL, map_app in ES. cbn [map snd] in ES.
  destruct (map_last s_sub s_sub (ch_verified c) (map snd l) p ES) as (l0 & y & E0 & Ey).
  exists l0, y. split; [exact E0 | congruence].
Qed.

(** ** Registered clients *)
Lemma filter_nodup O R request req : filter_client_request O R request = Ok req -> NoDup (dkeys req).
Proof.
  unfold filter_client_request. intros H.
  match type of H with foldM ?f ?l _ = _ =>
    apply (foldM_inv _ _ f (fun d => NoDup (dkeys d)) l [] req); [|constructor | exact H] end.
  intros d [k v] d' _ N S. destruct (dmem k (rg_preferred R)).
  - destruct (match_claim O R k v) as [w|]; [|discriminate]. cbn [bind] in S. injection S as <-.
    destruct (truthy w); [apply NoDup_dset, N | exact N].
  - injection S as <-. apply NoDup_dset, N.
Qed.

Lemma step2_known O R request new_id set_secret reserved s s' args :
  keeps_id R -> step2_process_request O R request new_id set_secret reserved s = (s', Ok (Done args)) ->
  exists req id req' ci, dget "client_id" args = Some (VStr id) /\ dget id (r_cdb s') = Some ci /\
    accepted_request O R request req /\ identified R new_id reserved s req id req' /\
    client_info R req' (first_entry R id new_id set_secret) = Ok (Done ci) /\ NoDup (dkeys req').
Proof.
  intros KI H. destruct (step2_done _ _ _ _ _ _ _ _ _ H) as (req & id & req' & ci & kj & A & ID & C & K & -> & ->).
  exists req, id, req', ci. rewrite KI.
  assert (NR := identified_nodup _ _ _ _ _ _ _ ID (filter_nodup _ _ _ _ (proj2 A))).
  split; [|split; [apply dget_dset_same | repeat split; try assumption]].
  - rewrite (client_info_get _ _ _ _ "client_id" C) by (simpl; intuition discriminate).
    rewrite base_info_get by exact NR. cbn [smem ignored existsb]. rewrite first_entry_id.
    unfold identified in ID. destruct new_id.
    + destruct ID as [_ ->]. rewrite dget_ddel_same. reflexivity.
    + destruct ID as (D & _ & ->). rewrite D. reflexivity.
  - exact (proj1 A).
  - exact (proj2 A).
Qed.

Lemma step2_stored O R md request new_id set_secret reserved s s' args :
  (NoDup (dkeys md) -> forall k, k <> "client_id" -> dget k request = dget k md) -> NoDup (dkeys request) ->
  keeps_id R -> step2_process_request O R request new_id set_secret reserved s = (s', Ok (Done args)) ->
  exists id ci, dget "client_id" args = Some (VStr id) /\ dget id (r_cdb s') = Some ci /\
    (passed_on R "client_id" -> client_of R new_id reserved s request id) /\
    stored_from R md ci /\ dget "client_id" ci = Some (VStr id).
Proof.
  intros EQ N KI H. destruct (step2_known _ _ _ _ _ _ _ _ _ KI H) as (req & id & req' & ci & D1 & D2 & A & ID & C & NR).
  exists id, ci. split; [exact D1|]. split; [exact D2|]. split; [|split].
  - intros PC. exact (identified_client _ _ _ _ _ _ _ _ _ N PC A ID).
  - intros NM k (P & NC & NB). assert (Nid : k <> "client_id") by (intros ->; apply NB; left; reflexivity).
    rewrite (stored_claim R id new_id set_secret req' ci k NR C NC) by (intros I; apply NB; simpl in *; tauto).
    rewrite (identified_get _ _ _ _ _ _ _ _ ID) by exact Nid. rewrite <- (EQ NM k Nid).
    destruct (accepted_get _ _ _ _ A N) as [_ G]. specialize (G k). unfold passed_on in P. rewrite P in G.
    destruct (dget k request) as [v|]; [|exact G]. destruct (rg_blank R v); exact G.
  - rewrite (client_info_get _ _ _ _ "client_id" C) by (simpl; intuition discriminate).
    rewrite base_info_get by exact NR. cbn [smem ignored existsb]. rewrite first_entry_id.
    unfold identified in ID. destruct new_id.
    + destruct ID as [_ ->]. rewrite dget_ddel_same. reflexivity.
    + destruct ID as (D & _ & ->). rewrite D. reflexivity.
Qed.

Lemma request_nodup md : NoDup (dkeys (request_of md)).
Proof. apply NoDup_dupdate. constructor. Qed.

Lemma request_get k0 v md : NoDup (dkeys md) -> forall k, k <> k0 -> dget k (dset k0 v (request_of md)) = dget k md.
Proof.
  intros N k NE. rewrite dget_dset_other by exact NE. unfold request_of. rewrite dget_dupdate by exact N.
  destruct (dget k md); reflexivity.
Qed.

(** the identifier a client gets *)
Definition given_id (R : reg_env) (F : flavour) (new : bool) (id : string) (s : astate) : string :=
  if match F with PAR => true | _ => new end then rg_newid R (dkeys (r_cdb (a_reg s))) else id.

Lemma auto_registered E O fuel R F new id provided s s1 rid :
  keeps_id R -> passed_on R "client_id" ->
  auto_end E O fuel R F new id provided s s1 (Ok (Some rid)) ->
  rid = given_id R F new id s /\
  exists c rest md ci, (exists f1, chains_for E O fuel id provided (a_fed s) = (f1, Ok (c :: rest)) ) /\
    backed E O fuel id provided (a_fed s) c /\
    chain_metadata c (kind_of F) = Ok md /\
    dget rid (r_cdb (a_reg s1)) = Some ci /\ stored_from R md ci.
Proof.
  intros KI PC H. inversion H as [| |f1 c rest md k1 r2 o r EC EM EK E2 An]; subst.
  destruct o as [|args]; [discriminate|]. cbn [answer] in An.
  assert (B : backed E O fuel id provided (a_fed s) c) by (apply (chains_backed _ _ _ _ _ _ _ _ _ EC); left; reflexivity).
  destruct (step2_stored O R md _ _ _ _ _ _ _ (request_get "client_id" (VStr id) md) (NoDup_dset _ _ _ _ (request_nodup md)) KI E2)
    as (i & ci & D1 & D2 & CL & SF & _).
  rewrite D1 in An. injection An as ->. split.
  - specialize (CL PC). unfold client_of, given_id, makes_id in *. cbn [is_nil r_cdb] in CL. rewrite dget_dset_same in CL.
    destruct F; [destruct new | destruct new |]; congruence.
  - exists c, rest, md, ci. split; [exists f1; exact EC|]. split; [exact B|]. split; [exact EM|].
    split; [exact D2 | exact SF].
Qed.

Lemma stored_more R md ci k v : In k ["entity_id"; "automatic_registered"] -> stored_from R md ci -> stored_from R md (dset k v ci).
Proof.
  intros I S NM x P. rewrite dget_dset_other; [exact (S NM x P)|]. intros ->. destruct P as (_ & _ & N). apply N. simpl in *. tauto.
Qed.

(** what a successful authentication with registration comes to *)
Lemma auth_registered E O fuel R F new automatic id provided s s' rid :
  keeps_id R -> passed_on R "client_id" ->
  registers F id s ->
  client_authentication E O fuel R F new automatic id provided s = (s', Ok (Use rid)) ->
  automatic = true /\ rid = given_id R F new id (forget F id s) /\
  exists c md ci, backed E O fuel id provided (a_fed s) c /\ chain_metadata c (kind_of F) = Ok md /\
    dget rid (r_cdb (a_reg s')) = Some ci /\ dget id (r_cdb (a_reg s')) = Some ci /\ stored_from R md ci /\
    (rid <> id -> dget "entity_id" ci = Some (VStr id)) /\
    (F = OIDC -> dget "automatic_registered" ci = Some (VBool true)) /\
    (exists f1 rest, chains_for E O fuel id provided (a_fed s) = (f1, Ok (c :: rest))).
Proof.
  intros KI PC RG H. destruct (authentication_cases _ _ _ _ _ _ _ _ _ _ _ _ H) as [(NR & _)|[(_ & _ & _ & X)|(_ & -> & s1 & r & AE & X)]];
    [destruct (NR RG) | discriminate |].
  assert (EF : a_fed (forget F id s) = a_fed s) by (unfold forget; destruct (dget id (r_cdb (a_reg s))); reflexivity).
  destruct r as [[rid'|]|e]; [|destruct X; discriminate | destruct X; discriminate].
  destruct (auto_registered E O fuel R F new id provided (forget F id s) s1 rid' KI PC) as (Er & c & rest & md & ci & [f1 EC] & B & EM & D & SF).
  { exact AE. }
  rewrite EF in B, EC. destruct X as (ci0 & [[D0 [[= ->] ->]] | D0]); [|congruence].
  assert (ci0 = ci) by congruence. subst ci0. clear D0. split; [reflexivity|]. split; [exact Er|].
  set (ci1 := match F with OIDC => dset "automatic_registered" (VBool true) ci | _ => ci end).
  assert (S1 : stored_from R md ci1).
  { unfold ci1. destruct F; [apply stored_more; [simpl; tauto|] | |]; exact SF. }
  assert (A1 : F = OIDC -> dget "automatic_registered" ci1 = Some (VBool true)).
  { intros ->. apply dget_dset_same. }
  cbn [a_reg r_cdb]. destruct (String.eqb rid' id) eqn:EI.
  - apply String.eqb_eq in EI. subst id. exists c, md, ci1.
    assert (DD : dget rid' (match F with OIDC => dset rid' ci1 (r_cdb (a_reg s1)) | _ => r_cdb (a_reg s1) end) = Some ci1).
    { unfold ci1. destruct F; [apply dget_dset_same | exact D | exact D]. }
    split; [exact B|]. split; [exact EM|]. split; [exact DD|]. split; [exact DD|]. split; [exact S1|].
    split; [tauto|]. split; [exact A1 | exists f1, rest; exact EC].
  - apply String.eqb_neq in EI. exists c, md, (dset "entity_id" (VStr id) ci1).
    split; [exact B|]. split; [exact EM|]. split; [rewrite dget_dset_other by exact EI; apply dget_dset_same|].
    split; [apply dget_dset_same|]. split; [apply stored_more; [simpl; tauto | exact S1]|].
    split; [intros _; apply dget_dset_same|]. split; [|exists f1, rest; exact EC].
    intros FO. rewrite dget_dset_other by discriminate. exact (A1 FO).
Qed.

(** ** C54: automatic registration rests on the client's own trust chain *)

Definition vouched_client (E : cenv) (O : iter_order) (fuel : nat) (R : reg_env) (F : flavour) (id : string)
    (provided : list token) (s : fstate) (ci : dict val) : Prop :=
  exists c md, backed E O fuel id provided s c /\ about c id /\ chain_metadata c (kind_of F) = Ok md /\ stored_from R md ci.

(** full statement *)
Definition C54_full (F : flavour) : Prop := forall E O fuel R new automatic id provided s s' rid,
  keeps_id R -> passed_on R "client_id" ->
  registers F id s ->
  client_authentication E O fuel R F new automatic id provided s = (s', Ok (Use rid)) ->
  exists ci, dget rid (r_cdb (a_reg s')) = Some ci /\ vouched_client E O fuel R F id provided (a_fed s) ci.

(** evil, a legitimate client below ta *)
Definition evil_md : dict val := [("client_name", VStr "evil"); ("jwks", VDict [])].
Definition evil_ec : stmt := mkStmt "evil" "evil" (Some 1000%Z) (Some [3])
  (Some [("openid_relying_party", evil_md); ("oauth_client", evil_md)]) None None (Some ["ta"]).
Definition evil_chain : list token := [TJws 3 evil_ec; TJws 1 (est "ta" "evil" 900 [3])].

Definition ex_world : cenv := ex_env
  [("evil/wk", TJws 3 evil_ec); ("ta/wk", TJws 1 (ec "ta" 1 1000 None))]
  [("ta/fetch evil", TJws 1 (est "ta" "evil" 900 [3]))] ["ta"].

Definition ex_as : astate := mkA only_ta ex_start.

Lemma ex_keeps : keeps_id ex_reg.
Proof.
  intros ci. change (rg_comb ex_reg) with (fun d : dict val => d). cbn beta.
  rewrite (dget_filter_key (fun k => smem k (rg_response ex_reg))). reflexivity.
Qed.

(** the only chain that can come from [evil_chain] *)
Lemma evil_backed E id c : e_lib E = all_keys -> backed E id_order 9 id evil_chain only_ta c ->
  exists k p, ch_verified c = k ++ [p] /\ s_sub p = "evil".
Proof.
  intros EL (calls & tc & _ & OF & V & Ap). apply apply_keeps in Ap. destruct Ap as (_ & _ & _ & _ & _ & ES).
  apply verified_iff in V. destruct V as (_ & EV & _). destruct OF as [[_ Eo]|[X _]]; [|discriminate].
  rewrite Eo in EV. cbn in EV. rewrite EV in ES.
  exact (map_last s_sub s_sub (ch_verified c) [est "ta" "evil" 900 [3]] evil_ec ES).
Qed.

(** the client sends the chain of another entity *)
Theorem C54_own_chain_refuted : forall F, ~ C54_full F.
Proof.
  intros F H.
  assert (G : exists s' rid, client_authentication ex_world id_order 9 ex_reg F false true "victim" evil_chain ex_as = (s', Ok (Use rid))).
  { destruct F; eexists; eexists; vm_compute; reflexivity. }
  destruct G as (s' & rid & G).
  destruct (H ex_world id_order 9 ex_reg false true "victim" evil_chain ex_as s' rid ex_keeps eq_refl Logic.I G) as (ci & _ & c & md & B & (pre & p & E1 & E2) & _).
  destruct (evil_backed ex_world "victim" c eq_refl B) as (pre' & p' & E1' & E2').
  rewrite E1 in E1'. apply app_inj_tail in E1'. destruct E1' as [_ <-]. rewrite E2 in E2'. discriminate.
Qed.

(** Missing: a client that provides the chain of another entity is registered with that entity's metadata. *)
Theorem C54_own_chain_partial : forall E O fuel R F new automatic id provided s s' rid,
  keeps_id R -> passed_on R "client_id" ->
  registers F id s -> own_word E (f_col (a_fed s)) id provided ->
  client_authentication E O fuel R F new automatic id provided s = (s', Ok (Use rid)) ->
  exists ci, dget rid (r_cdb (a_reg s')) = Some ci /\ dget id (r_cdb (a_reg s')) = Some ci /\
    vouched_client E O fuel R F id provided (a_fed s) ci.
Proof.
  intros E O fuel R F new automatic id provided s s' rid KI PC RG OW H.
  destruct (auth_registered _ _ _ _ _ _ _ _ _ _ _ _ KI PC RG H) as (_ & _ & c & md & ci & B & EM & D1 & D2 & SF & _).
  exists ci. split; [exact D1|]. split; [exact D2|]. exists c, md. split; [exact B|].
  split; [exact (backed_about _ _ _ _ _ _ _ OW B)|]. split; assumption.
Qed.

(** whatever was sent, nobody gets in without a verified chain, or with automatic registration switched off *)
Theorem C54_some_chain : forall E O fuel R F new automatic id provided s s' rid,
  keeps_id R -> passed_on R "client_id" ->
  registers F id s ->
  client_authentication E O fuel R F new automatic id provided s = (s', Ok (Use rid)) ->
  automatic = true /\ rid = given_id R F new id (forget F id s) /\
  exists c md ci, backed E O fuel id provided (a_fed s) c /\ chain_metadata c (kind_of F) = Ok md /\
    dget rid (r_cdb (a_reg s')) = Some ci /\ stored_from R md ci.
Proof.
  intros E O fuel R F new automatic id provided s s' rid KI PC RG H.
  destruct (auth_registered _ _ _ _ _ _ _ _ _ _ _ _ KI PC RG H) as (A & B & c & md & ci & B' & EM & D1 & D2 & SF & _).
  split; [exact A|]. split; [exact B|]. exists c, md, ci. auto.
Qed.

Lemma evil_own : own_word ex_world (f_col only_ta) "evil" evil_chain.
Proof. split; [discriminate|]. intros k p l H. cbn in H. injection H as <- <- _. reflexivity. Qed.

Example C54_ex : own_word ex_world (f_col only_ta) "evil" evil_chain /\
  forall F, exists s' rid ci,
    client_authentication ex_world id_order 9 ex_reg F false true "evil" evil_chain ex_as = (s', Ok (Use rid)) /\
    dget rid (r_cdb (a_reg s')) = Some ci /\ dget "client_name" ci = Some (VStr "evil").
Proof.
  split; [exact evil_own|].
  intros F. destruct F; eexists; eexists; eexists; (split; [vm_compute; reflexivity|]); split; reflexivity.
Qed.

(** without a chain in the request *)
Example C54_ex_collected : exists s' ci,
  client_authentication ex_world id_order 9 ex_reg OIDC false true "evil" [] ex_as = (s', Ok (Use "evil")) /\
  dget "evil" (r_cdb (a_reg s')) = Some ci /\ dget "client_name" ci = Some (VStr "evil").
Proof. eexists; eexists; (split; [vm_compute; reflexivity|]); split; reflexivity. Qed.

(** ** C77: the trust chains that are kept for an entity are about that entity *)

Definition store_ok (f : fstate) : Prop := forall id cs c, dget id (f_chains f) = Some cs -> In c cs -> about c id.

(** full statement *)
Definition C77_full (F : flavour) : Prop := forall E O fuel R new automatic id provided s s' v,
  store_ok (a_fed s) -> client_authentication E O fuel R F new automatic id provided s = (s', v) -> store_ok (a_fed s').

Theorem C77_stored_chains_refuted : ~ C77_full OIDC.
Proof.
  intros H.
  assert (G : exists s' v c, client_authentication ex_world id_order 9 ex_reg OIDC false true "victim" evil_chain ex_as = (s', v) /\
     dget "victim" (f_chains (a_fed s')) = Some [c] /\ ch_verified c = [est "ta" "evil" 900 [3]; evil_ec]).
  { eexists; eexists; eexists. split; [vm_compute; reflexivity|]. split; reflexivity. }
  destruct G as (s' & v & c & G & D & EV).
  destruct (H ex_world id_order 9 ex_reg false true "victim" evil_chain ex_as s' v) with (id := "victim") (cs := [c]) (c := c)
    as (pre & p & E1 & E2).
  - intros i cs c0 X. discriminate X.
  - exact G.
  - exact D.
  - left. reflexivity.
  - rewrite EV in E1. change [est "ta" "evil" 900 [3]; evil_ec] with ([est "ta" "evil" 900 [3]] ++ [evil_ec]) in E1.
    apply app_inj_tail in E1. destruct E1 as [_ <-]. discriminate E2.
Qed.

Lemma auto_fed E O fuel R F new id provided s s1 r :
  auto_end E O fuel R F new id provided s s1 r ->
  f_chains (a_fed s1) = f_chains (a_fed s) \/
  (F = OIDC /\ exists f1 cs, chains_for E O fuel id provided (a_fed s) = (f1, Ok cs) /\
     f_chains (a_fed s1) = dset id cs (f_chains (a_fed s))).
Proof.
  intros H. destruct H as [f1 r0 e EC NE|f1 c rest e EC|f1 c rest md k1 r2 o r EC EM EK E2 An]; cbn [a_fed].
  - left. exact (chains_store _ _ _ _ _ _ _ _ EC).
  - assert (ES := chains_store _ _ _ _ _ _ _ _ EC). destruct F; cbn [stored_chains]; auto.
    right. split; [reflexivity|]. exists f1, (c :: rest). split; [exact EC|]. cbn [f_chains]. rewrite ES. reflexivity.
  - assert (ES := chains_store _ _ _ _ _ _ _ _ EC). destruct F; cbn [stored_chains]; auto.
    right. split; [reflexivity|]. exists f1, (c :: rest). split; [exact EC|]. cbn [f_chains]. rewrite ES. reflexivity.
Qed.

Lemma forget_fed F id s : a_fed (forget F id s) = a_fed s.
Proof. unfold forget. destruct (dget id (r_cdb (a_reg s))); reflexivity. Qed.

Lemma auth_fed E O fuel R F new automatic id provided s s' v :
  keeps_id R -> passed_on R "client_id" ->
  client_authentication E O fuel R F new automatic id provided s = (s', v) ->
  s' = s \/ exists s1 r, auto_end E O fuel R F new id provided (forget F id s) s1 r /\ a_fed s' = a_fed s1.
Proof.
  intros KI PC H. destruct (authentication_cases _ _ _ _ _ _ _ _ _ _ _ _ H) as [(_ & -> & _)|[(_ & _ & -> & _)|(_ & _ & s1 & r & AE & X)]]; auto.
  right. exists s1, r. split; [exact AE|]. destruct r as [[rid|]|e]; [|destruct X as [-> _]; reflexivity | destruct X as [-> _]; reflexivity].
  destruct X as (ci & [[_ [_ ->]]|D]); [reflexivity|]. exfalso.
  destruct (auto_registered E O fuel R F new id provided (forget F id s) s1 rid KI PC) as (_ & c & rest & md & ci0 & _ & _ & _ & D0 & _).
  - exact AE.
  - congruence.
Qed.

(** Missing: a provided chain is stored for the client that sends it, whoever it is about. *)
Theorem C77_stored_chains_partial : forall E O fuel R F new automatic id provided s s' v,
  keeps_id R -> passed_on R "client_id" ->
  own_word E (f_col (a_fed s)) id provided -> store_ok (a_fed s) ->
  client_authentication E O fuel R F new automatic id provided s = (s', v) -> store_ok (a_fed s').
Proof.
  intros E O fuel R F new automatic id provided s s' v KI PC OW SO H.
  destruct (auth_fed _ _ _ _ _ _ _ _ _ _ _ _ KI PC H) as [->|(s1 & r & AE & EF)]; [exact SO|].
  assert (AF := auto_fed _ _ _ _ _ _ _ _ _ _ _ AE). rewrite forget_fed in AF. unfold store_ok. rewrite EF.
  destruct AF as [->|(_ & f1 & cs & EC & ->)]; [exact SO|].
  intros i cs' c D I. destruct (string_dec i id) as [-> |NE].
  - rewrite dget_dset_same in D. injection D as <-. apply (backed_about E O fuel id provided (a_fed s) c OW).
    exact (chains_backed _ _ _ _ _ _ _ _ _ EC I).
  - rewrite dget_dset_other in D by exact NE. exact (SO i cs' c D I).
Qed.

(** the chains of other entities stay; the OAuth 2 endpoints store none *)
Theorem C77_others : forall E O fuel R F new automatic id provided s s' v e,
  keeps_id R -> passed_on R "client_id" ->
  client_authentication E O fuel R F new automatic id provided s = (s', v) -> e <> id \/ F <> OIDC ->
  dget e (f_chains (a_fed s')) = dget e (f_chains (a_fed s)).
Proof.
  intros E O fuel R F new automatic id provided s s' v e KI PC H N.
  destruct (auth_fed _ _ _ _ _ _ _ _ _ _ _ _ KI PC H) as [->|(s1 & r & AE & EF)]; [reflexivity|].
  assert (AF := auto_fed _ _ _ _ _ _ _ _ _ _ _ AE). rewrite forget_fed in AF. rewrite EF.
  destruct AF as [->|(FO & f1 & cs & EC & ->)]; [reflexivity|]. apply dget_dset_other. tauto.
Qed.

Example C77_ex : own_word ex_world (f_col only_ta) "evil" evil_chain /\ store_ok only_ta /\
  exists s' v c, client_authentication ex_world id_order 9 ex_reg OIDC false true "evil" evil_chain ex_as = (s', v) /\
     dget "evil" (f_chains (a_fed s')) = Some [c] /\ about c "evil".
Proof.
  split; [exact evil_own|]. split; [intros i cs c X; discriminate X|].
  eexists; eexists; eexists. split; [vm_compute; reflexivity|]. split; [reflexivity|].
  exists [est "ta" "evil" 900 [3]], evil_ec. split; reflexivity.
Qed.

(** ** C78: a client that is turned away leaves no keys *)

Definition turned_away (v : res verdict) : Prop := forall rid, v <> Ok (Use rid).

(** full statement *)
Definition C78_full (F : flavour) : Prop := forall E O fuel R new automatic id provided s s' v,
  keeps_id R -> passed_on R "client_id" ->
  client_authentication E O fuel R F new automatic id provided s = (s', v) -> turned_away v ->
  r_keys (a_reg s') = r_keys (a_reg s).

(** a server whose schema check refuses everything *)
Definition refusing (R : reg_env) : reg_env :=
  mkRegEnv (rg_keys R) (rg_parse R) (rg_split R) (rg_verify_url R) (rg_hashsplit R) (fun _ => false) (rg_blank R)
    (rg_preferred R) (rg_provider R) (rg_listed R) (rg_response R) (rg_comb R) (rg_signing R) (rg_newid R) (rg_salt R)
    (rg_secret R) (rg_secret_expires R) (rg_secret_in R) (rg_now R).

(** the keys in the metadata are imported before the registration is attempted *)
Theorem C78_keys_left_refuted : ~ C78_full OIDC.
Proof.
  intros H.
  assert (G : exists s', client_authentication ex_world id_order 9 (refusing ex_reg) OIDC false true "evil" evil_chain ex_as = (s', Ok Refused) /\
     ckeys_of (r_keys (a_reg s')) "evil" = [KPub 2]).
  { eexists. split; [vm_compute; reflexivity|]. reflexivity. }
  destruct G as (s' & G & K).
  assert (X := H ex_world id_order 9 (refusing ex_reg) false true "evil" evil_chain ex_as s' (Ok Refused) ex_keeps eq_refl G (fun rid (Y : Ok Refused = Ok (Use rid)) => ltac:(discriminate Y))).
  rewrite X in K. discriminate K.
Qed.

Lemma auto_failed E O fuel R F new id provided s s1 r :
  keeps_id R -> passed_on R "client_id" ->
  auto_end E O fuel R F new id provided s s1 r -> (forall rid, r <> Ok (Some rid)) ->
  (exists ks, forall e, ckeys_of (r_keys (a_reg s1)) e = ckeys_of (r_keys (a_reg s)) e ++ (if String.eqb e id then map KPub ks else [])) /\
  (r_cdb (a_reg s1) = r_cdb (a_reg s) \/
   exists ci, only_basics R (given_id R F new id s) ci /\ r_cdb (a_reg s1) = dset (given_id R F new id s) ci (r_cdb (a_reg s))).
Proof.
  intros KI PC AE NR.
  assert (N0 : exists ks : list key, forall e, ckeys_of (r_keys (a_reg s)) e = ckeys_of (r_keys (a_reg s)) e ++ (if String.eqb e id then map KPub ks else [])).
  { exists []. intros e. destruct (String.eqb e id); cbn; rewrite app_nil_r; reflexivity. }
  destruct AE as [f1 r0 e EC NE|f1 c rest e EC|f1 c rest md k1 r2 o r EC EM EK E2 An]; cbn [a_reg]; [auto | auto |].
  apply keys_by_ok in EK.
  assert (B : backed E O fuel id provided (a_fed s) c) by (apply (chains_backed _ _ _ _ _ _ _ _ _ EC); left; reflexivity).
  assert (Fl : o = Failed).
  { destruct o as [|args]; [reflexivity|]. exfalso.
    destruct (step2_known _ _ _ _ _ _ _ _ _ KI E2) as (req & i & req' & ci & D1 & _).
    cbn [answer] in An. rewrite D1 in An. exact (NR i An). }
  subst o. destruct (step2_end _ _ _ _ _ _ _ _ _ E2) as [_ RE].
  inversion RE as [r0 ND | req i req' r0 ND A I |]; subst; cbn [r_cdb r_keys]; [auto|].
  split; [exact EK|]. right.
  assert (CL := identified_client _ _ _ _ _ _ _ _ _ (NoDup_dset _ _ _ _ (request_nodup md)) PC A I).
  assert (Ei : i = given_id R F new id s).
  { unfold client_of, given_id, makes_id in *. cbn [is_nil r_cdb] in CL. rewrite dget_dset_same in CL.
    destruct F; [destruct new | destruct new |]; congruence. }
  subst i. eexists. split; [apply first_basics | reflexivity].
Qed.

(** Missing: public keys from the metadata of the verified chain may remain for that client. *)
Theorem C78_keys_left_partial : forall E O fuel R F new automatic id provided s s' v,
  keeps_id R -> passed_on R "client_id" ->
  client_authentication E O fuel R F new automatic id provided s = (s', v) -> turned_away v ->
  exists ks, forall e, ckeys_of (r_keys (a_reg s')) e = ckeys_of (r_keys (a_reg s)) e ++ (if String.eqb e id then map KPub ks else []).
Proof.
  intros E O fuel R F new automatic id provided s s' v KI PC H T.
  assert (N0 : exists ks : list key, forall e, ckeys_of (r_keys (a_reg s)) e = ckeys_of (r_keys (a_reg s)) e ++ (if String.eqb e id then map KPub ks else [])).
  { exists []. intros e. destruct (String.eqb e id); cbn; rewrite app_nil_r; reflexivity. }
  destruct (authentication_cases _ _ _ _ _ _ _ _ _ _ _ _ H) as [(_ & -> & _)|[(_ & _ & -> & _)|(_ & _ & s1 & r & AE & X)]]; [exact N0 | exact N0 |].
  assert (EK : r_keys (a_reg (forget F id s)) = r_keys (a_reg s)) by (unfold forget; destruct (dget id (r_cdb (a_reg s))); reflexivity).
  rewrite <- EK.
  assert (NR : forall rid, r <> Ok (Some rid)).
  { intros rid ->. destruct X as (ci & [[_ [-> _]]|D]); [exact (T rid eq_refl)|].
    destruct (auto_registered E O fuel R F new id provided (forget F id s) s1 rid KI PC AE) as (_ & c & rest & md & ci0 & _ & _ & _ & D0 & _).
    congruence. }
  destruct (auto_failed _ _ _ _ _ _ _ _ _ _ _ KI PC AE NR) as [K _].
  destruct r as [[rid|]|e]; [destruct (NR rid eq_refl)| |]; destruct X as [-> _]; exact K.
Qed.

Example C78_ex : 
  exists s' v, client_authentication ex_world id_order 9 (refusing ex_reg) OAuth false true "evil" evil_chain ex_as = (s', v) /\
    turned_away v /\ ckeys_of (r_keys (a_reg s')) "" = [KPub 5].
Proof.
   eexists. eexists. split; [vm_compute; reflexivity|].
  split; [intros rid; discriminate | reflexivity].
Qed.

(** ** C79: a client that is turned away is not known afterwards, and one that was known still is *)

(** full statement *)
Definition C79_full (F : flavour) : Prop := forall E O fuel R new automatic id provided s s' v,
  keeps_id R -> passed_on R "client_id" ->
  client_authentication E O fuel R F new automatic id provided s = (s', v) -> turned_away v ->
  forall e, dget e (r_cdb (a_reg s')) = dget e (r_cdb (a_reg s)).

(** metadata with a redirect URI that is refused *)
Definition bad_md : dict val := [("redirect_uris", VList [VStr "http://rp/cb"]); ("jwks", VDict [])].
Definition bad_ec : stmt := mkStmt "rp" "rp" (Some 1000%Z) (Some [3])
  (Some [("openid_relying_party", bad_md); ("oauth_client", bad_md)]) None None (Some ["ta"]).
Definition bad_chain : list token := [TJws 3 bad_ec; TJws 1 (est "ta" "rp" 900 [3])].

(** the entry made at the start of the registration stays *)
Theorem C79_turned_away_refuted : forall F, ~ C79_full F.
Proof.
  intros F H.
  assert (G : exists s' i ci, client_authentication ex_world id_order 9 ex_reg F false true "rp" bad_chain ex_as = (s', Ok Refused) /\
     dget i (r_cdb (a_reg s')) = Some ci /\ dget i (r_cdb ex_start) = None).
  { destruct F; eexists; [exists "rp" | exists "rp" | exists "client1"]; eexists; (split; [vm_compute; reflexivity|]); split; reflexivity. }
  destruct G as (s' & i & ci & G & D1 & D2).
  rewrite (H ex_world id_order 9 ex_reg false true "rp" bad_chain ex_as s' (Ok Refused) ex_keeps eq_refl G (fun rid (Y : Ok Refused = Ok (Use rid)) => ltac:(discriminate Y)) i) in D1.
  cbn [a_reg ex_as] in D1. congruence.
Qed.

(** so the client gets in with its second request *)
Theorem C79_second_try_refuted : ~ (forall E O fuel R new automatic id provided s s' s'' rid,
  client_authentication E O fuel R OAuth new automatic id provided s = (s', Ok Refused) ->
  client_authentication E O fuel R OAuth new automatic id provided s' <> (s'', Ok (Use rid))).
Proof.
  intros H.
  assert (G : exists s', client_authentication ex_world id_order 9 ex_reg OAuth false true "rp" bad_chain ex_as = (s', Ok Refused) /\
     client_authentication ex_world id_order 9 ex_reg OAuth false true "rp" bad_chain s' = (s', Ok (Use "rp"))).
  { eexists. split; [vm_compute; reflexivity|]. vm_compute. reflexivity. }
  destruct G as (s' & G1 & G2). exact (H _ _ _ _ _ _ _ _ _ _ _ _ G1 G2).
Qed.

(** an automatically registered client is gone if somebody sends a broken chain in its name *)
Theorem C79_removed_refuted : ~ (forall E O fuel R new automatic id provided s s' v,
  client_authentication E O fuel R OIDC new automatic id provided s = (s', v) -> turned_away v ->
  forall ci, dget id (r_cdb (a_reg s)) = Some ci -> exists ci', dget id (r_cdb (a_reg s')) = Some ci').
Proof.
  intros H.
  set (s := mkA only_ta (mkRState [("rp", [("client_id", VStr "rp"); ("automatic_registered", VBool true)])] [])).
  assert (G : exists s' e, client_authentication ex_world id_order 9 ex_reg OIDC false true "rp" [TJunk] s = (s', Err e) /\
     dget "rp" (r_cdb (a_reg s')) = None).
  { eexists; eexists. split; [vm_compute; reflexivity|]. reflexivity. }
  destruct G as (s' & e & G1 & G2).
  destruct (H _ _ _ _ _ _ _ _ _ _ _ G1 (fun rid (Y : Err e = Ok (Use rid)) => ltac:(discriminate Y)) _ eq_refl) as [ci' D].
  congruence.
Qed.

(** Missing: the entry of the client itself, which may be removed (if it was an automatic registration) or left
    with the basic claims only. *)
Theorem C79_turned_away_partial : forall E O fuel R F new automatic id provided s s' v,
  keeps_id R -> passed_on R "client_id" ->
  client_authentication E O fuel R F new automatic id provided s = (s', v) -> turned_away v ->
  s' = s \/
  (registers F id s /\
   forall e, dget e (r_cdb (a_reg s')) = dget e (r_cdb (a_reg s)) \/
        (e = id /\ dget e (r_cdb (a_reg s')) = None) \/
        (e = given_id R F new id (forget F id s) /\ exists ci, dget e (r_cdb (a_reg s')) = Some ci /\ only_basics R e ci)).
Proof.
  intros E O fuel R F new automatic id provided s s' v KI PC H T.
  destruct (authentication_cases _ _ _ _ _ _ _ _ _ _ _ _ H) as [(_ & -> & _)|[(_ & _ & -> & _)|(RG & _ & s1 & r & AE & X)]]; auto.
  right. split; [exact RG|].
  assert (NR : forall rid, r <> Ok (Some rid)).
  { intros rid ->. destruct X as (ci & [[_ [-> _]]|D]); [exact (T rid eq_refl)|].
    destruct (auto_registered E O fuel R F new id provided (forget F id s) s1 rid KI PC AE) as (_ & c & rest & md & ci0 & _ & _ & _ & D0 & _).
    congruence. }
  destruct (auto_failed _ _ _ _ _ _ _ _ _ _ _ KI PC AE NR) as [_ K].
  assert (S1 : s' = s1) by (destruct r as [[rid|]|e]; [destruct (NR rid eq_refl)| |]; exact (proj1 X)). subst s1.
  assert (FG : forall e, dget e (r_cdb (a_reg (forget F id s))) = dget e (r_cdb (a_reg s)) \/
                    (e = id /\ dget e (r_cdb (a_reg (forget F id s))) = None)).
  { intros e. unfold forget. destruct (dget id (r_cdb (a_reg s))) eqn:ED; [|left; reflexivity]. cbn [a_reg r_cdb].
    destruct (string_dec e id) as [-> |NE]; [right; split; [reflexivity | apply dget_ddel_same] | left; apply dget_ddel_other, NE]. }
  intros e. destruct K as [-> |(ci & OB & ->)]; [destruct (FG e); tauto|].
  destruct (string_dec e (given_id R F new id (forget F id s))) as [-> |NE].
  - right. right. split; [reflexivity|]. exists ci. split; [apply dget_dset_same | exact OB].
  - rewrite dget_dset_other by exact NE. destruct (FG e); tauto.
Qed.

Example C79_ex : 
  exists s' v, client_authentication ex_world id_order 9 ex_reg OAuth false true "rp" bad_chain ex_as = (s', v) /\
    turned_away v /\ dget "op1" (r_cdb (a_reg s')) = dget "op1" (r_cdb ex_start) /\ s' <> ex_as.
Proof.
   eexists. eexists. split; [vm_compute; reflexivity|].
  split; [intros rid; discriminate|]. split; [reflexivity|]. discriminate.
Qed.

(** ** C81 and C80: other clients, and clients that were registered explicitly *)

Lemma import_others K info id kj kj' e : import_client_keys K info id kj = (kj', Ok tt) -> e <> id -> ckeys_of kj' e = ckeys_of kj e.
Proof.
  intros H NE. apply String.eqb_neq in NE. unfold import_client_keys in H.
  destruct (truthy (field "signed_jwks_uri" info)); [injection H as <-; reflexivity|].
  destruct (truthy (field "jwks_uri" info)); [injection H as <-; rewrite ckeys_add, NE; apply app_nil_r|].
  destruct (truthy (field "jwks" info)); [|injection H as <-; reflexivity].
  destruct (ks_jwks K (field "jwks" info)); [|discriminate]. injection H as <-. rewrite ckeys_add, NE. apply app_nil_r.
Qed.

Lemma auto_others E O fuel R F new id provided s s1 r e :
  passed_on R "client_id" ->
  auto_end E O fuel R F new id provided s s1 r -> e <> id -> e <> given_id R F new id s ->
  dget e (r_cdb (a_reg s1)) = dget e (r_cdb (a_reg s)) /\ ckeys_of (r_keys (a_reg s1)) e = ckeys_of (r_keys (a_reg s)) e.
Proof.
  intros PC AE N1 N2.
  destruct AE as [f1 r0 x EC NE|f1 c rest x EC|f1 c rest md k1 r2 o r EC EM EK E2 An]; cbn [a_reg]; [auto | auto |].
  assert (B : backed E O fuel id provided (a_fed s) c) by (apply (chains_backed _ _ _ _ _ _ _ _ _ EC); left; reflexivity).
  apply keys_by_ok in EK. destruct EK as [ks EK]. specialize (EK e).
  apply String.eqb_neq in N1. rewrite N1, app_nil_r in EK.
  destruct (C76_only_this_client _ _ _ _ _ _ _ _ _ (given_id R F new id s) E2 (NoDup_dset _ _ _ _ (request_nodup md)) PC) with (e := e) as [G1 G2].
  - unfold client_of, given_id, makes_id. cbn [is_nil r_cdb]. rewrite dget_dset_same. destruct F, new; reflexivity.
  - exact N2.
  - rewrite G1, G2. split; [reflexivity | exact EK].
Qed.

Definition fresh_ids (R : reg_env) : Prop := forall ids, ~ In (rg_newid R ids) ids.

Lemma key_ddel {A} k k' (d : dict A) : k <> k' -> In k (dkeys d) -> In k (dkeys (ddel k' d)).
Proof.
  intros NE I. destruct (key_In_dget _ _ _ I) as [v D]. rewrite <- (dget_ddel_other _ _ _ _ NE) in D. exact (dget_In_key _ _ _ _ D).
Qed.

(** A request in the name of [id] changes neither the entry nor the keys of any other registered client. *)
Theorem C81_other_clients : forall E O fuel R F new automatic id provided s s' v e ci,
  keeps_id R -> passed_on R "client_id" -> fresh_ids R ->
  client_authentication E O fuel R F new automatic id provided s = (s', v) ->
  e <> id -> dget e (r_cdb (a_reg s)) = Some ci ->
  dget e (r_cdb (a_reg s')) = Some ci /\ ckeys_of (r_keys (a_reg s')) e = ckeys_of (r_keys (a_reg s)) e.
Proof.
  intros E O fuel R F new automatic id provided s s' v e ci KI PC FR H NE D.
  destruct (authentication_cases _ _ _ _ _ _ _ _ _ _ _ _ H) as [(_ & -> & _)|[(_ & _ & -> & _)|(RG & _ & s1 & r & AE & X)]]; auto.
  assert (DF : dget e (r_cdb (a_reg (forget F id s))) = Some ci /\ r_keys (a_reg (forget F id s)) = r_keys (a_reg s)).
  { unfold forget. destruct (dget id (r_cdb (a_reg s))); [|auto]. cbn [a_reg r_cdb r_keys]. rewrite dget_ddel_other by exact NE. auto. }
  destruct DF as [DF KF].
  assert (NG : e <> given_id R F new id (forget F id s)).
  { unfold given_id. destruct (match F with PAR => true | _ => new end); [|exact NE]. intros Eq.
    apply (FR (dkeys (r_cdb (a_reg (forget F id s))))). rewrite <- Eq. exact (dget_In_key _ _ _ _ DF). }
  destruct (auto_others _ _ _ _ _ _ _ _ _ _ _ e PC AE NE NG) as [G1 G2]. rewrite DF in G1. rewrite KF in G2.
  destruct r as [[rid|]|x]; [|destruct X as [-> _]; auto | destruct X as [-> _]; auto].
  destruct (auto_registered E O fuel R F new id provided (forget F id s) s1 rid KI PC AE) as (Er & c & rest & md & ci0 & _ & _ & _ & D0 & _).
  destruct X as (ci1 & [[_ [_ ->]]|D1]); [|congruence]. rewrite <- Er in NG. cbn [a_reg r_cdb r_keys]. split; [|exact G2].
  assert (DB : dget e (match F with OIDC => dset rid (match F with OIDC => dset "automatic_registered" (VBool true) ci1 | _ => ci1 end) (r_cdb (a_reg s1)) | _ => r_cdb (a_reg s1) end) = Some ci).
  { destruct F; [rewrite dget_dset_other by exact NG|..]; exact G1. }
  destruct (String.eqb rid id); [exact DB|]. rewrite !dget_dset_other by assumption. exact DB.
Qed.

Example C81_ex : fresh_ids (with_newid fresh_id ex_reg) /\ keeps_id (with_newid fresh_id ex_reg) /\
  
  exists s', client_authentication ex_world id_order 9 (with_newid fresh_id ex_reg) PAR true true "evil" evil_chain ex_as = (s', Ok (Use "op1x")) /\
    dget "op1" (r_cdb (a_reg s')) = Some [("client_id", VStr "op1")].
Proof.
  split; [exact fresh_not_in|]. split; [exact ex_keeps|]. 
  eexists. split; [vm_compute; reflexivity | reflexivity].
Qed.

(** the requests a server gets, at any of its endpoints *)
Record auth_request := mkAReq { aq_flavour : flavour; aq_id : string; aq_chain : list token }.

Fixpoint requests (E : cenv) (O : iter_order) (fuel : nat) (R : reg_env) (new automatic : bool) (l : list auth_request) (s : astate) : astate :=
  match l with
  | [] => s
  | q :: l => requests E O fuel R new automatic l
                (fst (client_authentication E O fuel R (aq_flavour q) new automatic (aq_id q) (aq_chain q) s))
  end.

(** A client that is not marked as registered automatically keeps its entry and its keys, and goes on to be let in, whatever
    requests arrive in its or anybody else's name. *)
Theorem C80_explicit_stays : forall E O fuel R new automatic l s id ci,
  keeps_id R -> passed_on R "client_id" -> fresh_ids R ->
  dget id (r_cdb (a_reg s)) = Some ci -> dmem "automatic_registered" ci = false ->
  let s' := requests E O fuel R new automatic l s in
  dget id (r_cdb (a_reg s')) = Some ci /\ ckeys_of (r_keys (a_reg s')) id = ckeys_of (r_keys (a_reg s)) id /\
  forall F provided, client_authentication E O fuel R F new automatic id provided s' = (s', Ok (Use id)).
Proof.
  intros E O fuel R new automatic l s id ci KI PC FR.
  assert (ST : forall F provided s, dget id (r_cdb (a_reg s)) = Some ci -> dmem "automatic_registered" ci = false ->
    client_authentication E O fuel R F new automatic id provided s = (s, Ok (Use id))).
  { intros F provided s0 D NF. destruct (client_authentication E O fuel R F new automatic id provided s0) as [s1 v] eqn:EA.
    destruct (authentication_cases _ _ _ _ _ _ _ _ _ _ _ _ EA) as [(_ & -> & ->)|[(RG & _)|(RG & _)]]; [reflexivity | |];
      unfold registers in RG; rewrite D in RG; destruct F; congruence || tauto. }
  revert s. induction l as [|q l IH]; intros s D NF; cbn [requests].
  - split; [exact D|]. split; [reflexivity|]. intros F provided. exact (ST F provided s D NF).
  - destruct (client_authentication E O fuel R (aq_flavour q) new automatic (aq_id q) (aq_chain q) s) as [s1 v] eqn:EA. cbn [fst].
    assert (G : dget id (r_cdb (a_reg s1)) = Some ci /\ ckeys_of (r_keys (a_reg s1)) id = ckeys_of (r_keys (a_reg s)) id).
    { destruct (string_dec id (aq_id q)) as [Eq|NE].
      - rewrite <- Eq in EA. rewrite (ST _ _ _ D NF) in EA. injection EA as <- _. auto.
      - exact (C81_other_clients _ _ _ _ _ _ _ _ _ _ _ _ _ _ KI PC FR EA NE D). }
    destruct G as [G1 G2]. destruct (IH s1 G1 NF) as (I1 & I2 & I3). split; [exact I1|]. split; [congruence | exact I3].
Qed.

(** op1 was registered explicitly; there are requests in its name with foreign and broken chains *)
Example C80_ex : dget "op1" (r_cdb (a_reg ex_as)) = Some [("client_id", VStr "op1")] /\
  dget "op1" (r_cdb (a_reg (requests ex_world id_order 9 (with_newid fresh_id ex_reg) true true
    [mkAReq OIDC "op1" evil_chain; mkAReq PAR "evil" evil_chain; mkAReq OIDC "op1" [TJunk]] ex_as)))
  = Some [("client_id", VStr "op1")].
Proof. split; [reflexivity | vm_compute; reflexivity]. Qed.

(** ** C82: explicit registration respects the federation's policies *)

(** the chain that is used *)
Definition chain_used (E : cenv) (O : iter_order) (fuel : nat) (id : string) (t : token) (s : fstate) (c : tchain) : Prop :=
  exists s1 chains leaf calls tc ch, collect_trust_chains_signed E fuel id t "" [] s = (s1, Ok (chains, leaf)) /\
    In ch chains /\ Forall (fun x => exists y, In y chains /\ x = y ++ [t]) calls /\ tc_chain tc = ch ++ [t] /\
    verified (e_lib E) (after_calls (e_lib E) (f_keys s) calls) (ch ++ [t]) (tc_verified tc) /\ apply_to_chain O tc = Ok c.

(** full statement: the claims registered are those of some type in the metadata that resulted from policies *)
Definition C82_full (explicit : cenv -> iter_order -> nat -> reg_env -> list string -> token -> M astate (outcome (dict val))) : Prop :=
  forall E O fuel R prio k p s s' args,
  keeps_id R -> explicit E O fuel R prio (TJws k p) s = (s', Ok (Done args)) ->
  exists id ci c ty md,
    (backed E O fuel (s_sub p) [] (a_fed s) c \/ chain_used E O fuel (s_sub p) (TJws k p) (a_fed s) c) /\
    dget "client_id" args = Some (VStr id) /\ dget id (r_cdb (a_reg s')) = Some ci /\
    chain_metadata c ty = Ok md /\ stored_from R md ci.

(** ta's policy sets the name of rp *)
Definition rp_ec (name : string) (k : key) : stmt := mkStmt "rp" "rp" (Some 1000%Z) (Some [k])
  (Some [("openid_relying_party", [("client_name", VStr name); ("jwks", VDict [])])]) None None (Some ["ta"]).
Definition ta_says : stmt := mkStmt "ta" "rp" (Some 900%Z) (Some [3]) None
  (Some [("openid_relying_party", [("client_name", [("value", VStr "good")])])]) None None.
Definition ruled : cenv := ex_env
  [("rp/wk", TJws 3 (rp_ec "bad" 3)); ("ta/wk", TJws 1 (ec "ta" 1 1000 None))]
  [("ta/fetch rp", TJws 1 ta_says)] ["ta"].

Definition ex_prio : list string := ["ta"].

(** what the request says is registered, not what the policies make of it *)
Theorem C82_policies_refuted : ~ C82_full explicit_oidc.
Proof.
  intros H.
  assert (G : exists s' args ci, explicit_oidc ruled id_order 9 ex_reg ex_prio (TJws 3 (rp_ec "bad" 3)) ex_as = (s', Ok (Done args)) /\
     dget "client_id" args = Some (VStr "rp") /\ dget "rp" (r_cdb (a_reg s')) = Some ci /\ dget "client_name" ci = Some (VStr "bad")).
  { eexists; eexists; eexists. split; [vm_compute; reflexivity|]. split; [reflexivity|]. split; reflexivity. }
  destruct G as (s' & args & ci & G & D1 & D2 & D3).
  destruct (H ruled id_order 9 ex_reg ex_prio 3 (rp_ec "bad" 3) ex_as s' args ex_keeps G) as (id & ci' & c & ty & md & CH & I1 & I2 & EM & SF).
  assert (id = "rp") by congruence. subst id. assert (ci' = ci) by congruence. subst ci'.
  assert (EC : apply_to_chain id_order (mkTC (tc_anchor (ch_tc c)) (tc_chain (ch_tc c)) (tc_exp (ch_tc c)) (tc_iss_path (ch_tc c)) [ta_says; rp_ec "bad" 3]) = Ok c).
  { assert (K : forall tc, apply_to_chain id_order tc = Ok c -> tc_verified tc = [ta_says; rp_ec "bad" 3] ->
      apply_to_chain id_order (mkTC (tc_anchor (ch_tc c)) (tc_chain (ch_tc c)) (tc_exp (ch_tc c)) (tc_iss_path (ch_tc c)) [ta_says; rp_ec "bad" 3]) = Ok c).
    { intros tc Ap EV. destruct (apply_keeps _ _ _ Ap) as (-> & -> & -> & -> & _). rewrite <- EV. destruct tc. exact Ap. }
    destruct CH as [(calls & tc & _ & OF & V & Ap)|(s1 & chains & leaf & calls & tc & ch & EC & IC & _ & ET & V & Ap)].
    - apply (K tc Ap). destruct OF as [[NE _]|[_ (chains & leaf & ch & HC & IC & Eo)]]; [destruct (NE eq_refl)|].
      apply verified_iff in V. destruct V as (_ & -> & _). rewrite Eo.
      vm_compute in HC. injection HC as <- <-. destruct IC as [<- |[]]. reflexivity.
    - apply (K tc Ap). apply verified_iff in V. destruct V as (_ & -> & _).
      vm_compute in EC. injection EC as _ <- _. destruct IC as [<- |[]]. reflexivity. }
  vm_compute in EC. destruct c as [tc0 md0]. injection EC as _ <-. unfold chain_metadata in EM. cbn [ch_md] in EM.
  assert (Ety : md = [("client_name", VStr "good"); ("jwks", VDict [])]).
  { unfold dindex in EM. cbn [dget] in EM. destruct (String.eqb ty "openid_relying_party"); [|discriminate].
    cbn in EM. injection EM as <-. reflexivity. }
  assert (N : NoDup (dkeys md)) by (rewrite Ety; repeat constructor; simpl; intuition discriminate).
  assert (P : plain_claim ex_reg "client_name") by (split; [reflexivity|]; split; simpl; intuition discriminate).
  specialize (SF N "client_name" P). rewrite D3, Ety in SF. discriminate SF.
Qed.

Lemma opened {A} E t (k : token * stmt -> M astate A) s :
  (do tp <- on_fed (on_col (open_self_signed E t)) in k tp) s =
  match verify_self_signed E (e_clock E (st_tick (f_col (a_fed s)))) t with
  | Ok tp => k tp s
  | Err e => (s, Err e)
  end.
Proof.
  destruct s as [[c kj ch] r]. unfold mbind, on_fed, on_col, open_self_signed. cbn [a_fed f_col f_keys f_chains a_reg].
  destruct (verify_self_signed E (e_clock E (st_tick c)) t); reflexivity.
Qed.

(** the steps of explicit registration with OAuth 2 *)
Lemma oauth_steps E O fuel R prio t s s' args :
  explicit_oauth E O fuel R prio t s = (s', Ok (Done args)) ->
  exists k p ty c md f1, t = TJws k p /\ self_signed t p /\ ty <> "federation_entity" /\ ty <> "trust_mark_issuer" /\
    (exists m, s_metadata p = Some m /\ In ty (dkeys m)) /\
    chain_used E O fuel (s_sub p) t (a_fed s) c /\ chain_metadata c ty = Ok md /\
    exists r2, step2_process_request O R (request_of md) true true [] (a_reg s) = (r2, Ok (Done args)) /\ s' = mkA f1 r2.
Proof.
  unfold explicit_oauth. rewrite opened.
  destruct (verify_self_signed E _ (Some t)) as [[t' p]|e] eqn:EV; [|discriminate].
  assert (SS : self_signed t p /\ t' = t /\ exists k, t = TJws k p).
  { apply verify_self_signed_ok in EV. destruct EV as [[= <-] SS]. split; [exact SS|]. split; [reflexivity|].
    destruct SS as (k & _ & -> & _). exists k. reflexivity. }
  destruct SS as (SS & -> & k & Et).
  unfold mbind at 1, lift at 1. cbn [snd]. unfold metadata_of.
  destruct (s_metadata p) as [m|] eqn:EM; [|discriminate].
  unfold mbind at 1, lift at 1, some_of.
  destruct (ios O (filter (fun t0 : string => negb (smem t0 ["federation_entity"; "trust_mark_issuer"])) (dkeys m))) as [|ty tys] eqn:EO; [discriminate|].
  assert (IT : In ty (filter (fun t0 : string => negb (smem t0 ["federation_entity"; "trust_mark_issuer"])) (dkeys m))).
  { apply (proj1 (ios_In O ty _)). rewrite EO. left. reflexivity. }
  apply filter_In in IT as [IT NT].
  unfold mbind at 1, on_fed at 1.
  destruct (collect_trust_chains_signed E fuel (s_sub p) t "" [] (a_fed s)) as [f1 [[chains leaf]|e]] eqn:EC; [|discriminate].
  unfold mbind at 1, on_fed at 1, on_keys at 1. cbn [a_fed a_reg fst].
  destruct (verify_trust_chains E chains [t] (f_keys f1)) as [kj [tcs|e]] eqn:EVC; [|discriminate].
  unfold mbind at 1, lift at 1. destruct (apply_policies O tcs) as [cs|e] eqn:EA; [|discriminate].
  unfold mbind at 1, lift at 1. destruct (pick_trust_chain prio cs) as [c|e] eqn:EP; [|discriminate].
  unfold mbind at 1, lift at 1. destruct (chain_metadata c ty) as [md|e] eqn:EMD; [|discriminate].
  unfold on_reg. cbn [a_reg a_fed].
  destruct (step2_process_request O R (request_of md) true true [] (a_reg s)) as [r2 o] eqn:E2. intros H. injection H as <- ->.
  exists k, p, ty, c, md, (mkFed (f_col f1) kj (f_chains f1)). split; [exact Et|]. split; [exact SS|].
  apply negb_true_iff in NT. apply smem_false in NT.
  split; [intros ->; apply NT; simpl; tauto|]. split; [intros ->; apply NT; simpl; tauto|].
  split; [exists m; auto|]. split; [|split; [exact EMD | exists r2; auto]].
  assert (IC : In c cs).
  { unfold pick_trust_chain in EP. destruct cs as [|c0 [|c1 cs]]; [discriminate | injection EP as <-; left; reflexivity|].
    destruct (pick_by_priority prio (c0 :: c1 :: cs)) as [x|] eqn:EPP; injection EP as <-; [|left; reflexivity].
    clear -EPP. induction prio as [|fid prio IH]; [discriminate|]. cbn [pick_by_priority] in EPP.
    destruct (find (fun c => String.eqb (ch_anchor c) fid) (c0 :: c1 :: cs)) as [y|] eqn:EF; [|exact (IH EPP)].
    injection EPP as <-. exact (proj1 (find_some _ _ EF)). }
  destruct (proj1 (mapM_In _ _ _ _ _ EA) c IC) as (tc & Itc & Ap).
  apply (verify_chains_spec _ _ _ _ _ _ EVC) in Itc. destruct Itc as (pre & ch & post & Ech & Hv).
  assert (FK : f_keys f1 = f_keys (a_fed s)).
  { unfold collect_trust_chains_signed in EC. rewrite opened_fed in EC.
    destruct (verify_self_signed E _ (Some t)) as [tp|]; [|discriminate].
    unfold mbind, on_col in EC. match type of EC with context [collect_tree ?a ?b ?c ?d ?e ?f] => destruct (collect_tree a b c d e f) as [c1 [tr|x]] end;
      [injection EC as <- _; reflexivity | discriminate]. }
  rewrite FK in Hv. apply call_ok in Hv. destruct Hv as (Hv & _ & _ & _ & Et').
  exists f1, chains, leaf, (map (fun c => c ++ [t]) pre), tc, ch. split; [exact EC|].
  split; [rewrite Ech; apply in_elt|]. split.
  - apply Forall_forall. intros x Ix. apply in_map_iff in Ix as (y & <- & Iy). exists y. split; [|reflexivity].
    rewrite Ech. apply in_or_app. left. exact Iy.
  - split; [exact Et'|]. split; [exact Hv | exact Ap].
Qed.

(** With OAuth 2 it is the metadata of the entity type asked for, after policies. *)
Theorem C82_policies_oauth : C82_full explicit_oauth.
Proof.
  intros E O fuel R prio k p s s' args KI H.
  destruct (oauth_steps _ _ _ _ _ _ _ _ _ H) as (k' & p' & ty & c & md & f1 & [= <- <-] & _ & _ & _ & _ & CU & EM & r2 & E2 & ->).
  assert (RQ : NoDup (dkeys md) -> forall x, x <> "client_id" -> dget x (request_of md) = dget x md).
  { intros N x _. unfold request_of. rewrite dget_dupdate by exact N. destruct (dget x md); reflexivity. }
  destruct (step2_stored O R md _ _ _ _ _ _ _ RQ (request_nodup md) KI E2) as (id & ci & D1 & D2 & _ & SF & _).
  exists id, ci, c, ty, md. split; [right; exact CU|]. split; [exact D1|]. split; [exact D2|]. split; [exact EM | exact SF].
Qed.

(** with OpenID Connect: the metadata of the request, whatever the policies; there is a verified chain for the subject *)
Theorem C82_policies_partial : forall E O fuel R prio k p s s' args,
  keeps_id R -> passed_on R "client_id" -> explicit_oidc E O fuel R prio (TJws k p) s = (s', Ok (Done args)) ->
  exists c m ty md ci, backed E O fuel (s_sub p) [] (a_fed s) c /\ s_metadata p = Some m /\ dget ty m = Some md /\
    dget "client_id" args = Some (VStr (s_sub p)) /\ dget (s_sub p) (r_cdb (a_reg s')) = Some ci /\ stored_from R md ci.
Proof.
  intros E O fuel R prio k p s s' args KI PC. unfold explicit_oidc. rewrite opened.
  destruct (verify_self_signed E _ (Some (TJws k p))) as [[t' p']|e] eqn:EV; [|discriminate].
  assert (p' = p).
  { apply verify_self_signed_ok in EV. destruct EV as [[= <-] (k' & ks & [= _ <-] & _)]. reflexivity. }
  subst p'. unfold mbind at 1, lift at 1. cbn [snd]. unfold metadata_of.
  destruct (s_metadata p) as [m|] eqn:EM; [|discriminate].
  unfold mbind at 1, lift at 1. destruct (opponent_type O (dkeys m)) as [ty|e] eqn:EO; [|discriminate].
  unfold mbind at 1, on_fed at 1.
  destruct (get_verified_trust_chains E O fuel (s_sub p) (a_fed s)) as [f1 [cs|e]] eqn:EG; [|discriminate].
  destruct cs as [|c cs]; [discriminate|]. cbn [is_nil].
  unfold mbind at 1, lift at 1. destruct (pick_trust_chain prio (c :: cs)) as [x|e]; [|discriminate].
  unfold mbind at 1, lift at 1. destruct (dindex ty m) as [md|e] eqn:ED; [|discriminate]. apply dindex_ok in ED.
  unfold on_reg. cbn [a_reg a_fed].
  destruct (step2_process_request O R (dset "client_id" (VStr (s_sub p)) (request_of md)) false true [] (a_reg s)) as [r2 o] eqn:E2.
  intros H. injection H as <- ->.
  destruct (step2_stored O R md _ _ _ _ _ _ _ (request_get "client_id" (VStr (s_sub p)) md) (NoDup_dset _ _ _ _ (request_nodup md)) KI E2)
    as (i & ci & D1 & D2 & CL & SF & _).
  specialize (CL PC). unfold client_of in CL. rewrite dget_dset_same in CL. injection CL as <-.
  exists c, m, ty, md, ci. split; [|repeat split; assumption].
  apply (chains_backed E O fuel (s_sub p) [] (a_fed s) f1 (c :: cs)); [exact EG | left; reflexivity].
Qed.

Example C82_ex : exists s' args ci,
  explicit_oauth ruled id_order 9 ex_reg ex_prio (TJws 3 (rp_ec "bad" 3)) ex_as = (s', Ok (Done args)) /\
  dget "client1" (r_cdb (a_reg s')) = Some ci /\ dget "client_name" ci = Some (VStr "good").
Proof. eexists; eexists; eexists. split; [vm_compute; reflexivity|]. split; reflexivity. Qed.

(** ** C83: only who holds a key of the entity can register it *)

(** full statement: the key the request was signed with can be traced to known keys over the statements collected *)
Definition C83_full (explicit : cenv -> iter_order -> nat -> reg_env -> list string -> token -> M astate (outcome (dict val))) : Prop :=
  forall E O fuel R prio k p s s' args,
  explicit E O fuel R prio (TJws k p) s = (s', Ok (Done args)) ->
  exists l, traceable (f_keys (a_fed s)) l (s_iss p) k /\
    forall x, In x l -> exists chains leaf ch,
      (collected E fuel (s_sub p) (a_fed s) chains leaf \/
       snd (collect_trust_chains_signed E fuel (s_sub p) (TJws k p) "" [] (a_fed s)) = Ok (chains, Some leaf)) /\
      In ch chains /\ In x (jws (ch ++ [leaf])).

(** anybody can sign a configuration of rp with a key of their own *)
Theorem C83_holder_refuted : ~ C83_full explicit_oidc.
Proof.
  intros H.
  assert (G : exists s' args, explicit_oidc ruled id_order 9 ex_reg ex_prio (TJws 6 (rp_ec "mine" 6)) ex_as = (s', Ok (Done args))).
  { eexists; eexists. vm_compute. reflexivity. }
  destruct G as (s' & args & G).
  destruct (H ruled id_order 9 ex_reg ex_prio 6 (rp_ec "mine" 6) ex_as s' args G) as (l & TR & L).
  assert (IN : forall x, In x l -> x = (1, ta_says) \/ x = (3, rp_ec "bad" 3) \/ x = (6, rp_ec "mine" 6)).
  { intros x Ix. destruct (L x Ix) as (chains & leaf & ch & [HC|HC] & IC & Ij).
    - vm_compute in HC. injection HC as <- <-. destruct IC as [<- |[]]. cbn in Ij. intuition.
    - vm_compute in HC. injection HC as <- <-. destruct IC as [<- |[]]. cbn in Ij. intuition. }
  assert (K : forall e k, traceable (f_keys (a_fed ex_as)) l e k -> k = 1 \/ k = 3).
  { induction 1 as [e k (ks & D & I)|k0 p jw k Ip _ IH EJ Ik].
    - cbn in D. destruct (String.eqb e "ta"); [|discriminate]. injection D as <-. simpl in I. intuition.
    - destruct (IN _ Ip) as [[= -> ->]|[[= -> ->]|[= -> ->]]]; injection EJ as <-; simpl in Ik; destruct Ik as [<- |[]];
        [right; reflexivity | right; reflexivity | destruct IH; discriminate]. }
  destruct (K _ _ TR) as [X|X]; discriminate X.
Qed.

(** Missing: with OpenID Connect the signature is checked only with the keys the request itself contains; nothing ties
    them to the trust chain that was found for the subject. *)
Theorem C83_holder_partial : forall E O fuel R prio t s s' args,
  explicit_oidc E O fuel R prio t s = (s', Ok (Done args)) ->
  exists p c, self_signed t p /\ backed E O fuel (s_sub p) [] (a_fed s) c.
Proof.
  intros E O fuel R prio t s s' args. unfold explicit_oidc. rewrite opened.
  destruct (verify_self_signed E _ (Some t)) as [[t' p]|e] eqn:EV; [|discriminate]. intros H.
  assert (SS : self_signed t p) by (apply verify_self_signed_ok in EV; destruct EV as [[= <-] SS]; exact SS).
  revert H. unfold mbind at 1, lift at 1. cbn [snd]. destruct (metadata_of p) as [m|]; [|discriminate].
  unfold mbind at 1, lift at 1. destruct (opponent_type O (dkeys m)) as [ty|e] eqn:EO; [|discriminate].
  unfold mbind at 1, on_fed at 1.
  destruct (get_verified_trust_chains E O fuel (s_sub p) (a_fed s)) as [f1 [cs|e]] eqn:EG; [|discriminate].
  destruct cs as [|c cs]; [discriminate|]. intros _. exists p, c. split; [exact SS|].
  apply (chains_backed E O fuel (s_sub p) [] (a_fed s) f1 (c :: cs)); [exact EG | left; reflexivity].
Qed.

Theorem C83_holder_oauth : C83_full explicit_oauth.
Proof.
  intros E O fuel R prio k p s s' args H.
  destruct (oauth_steps _ _ _ _ _ _ _ _ _ H) as (k' & p' & ty & c & md & f1 & [= <- <-] & _ & _ & _ & _ & CU & _).
  destruct CU as (s1 & chains & leaf & calls & tc & ch & EC & IC & FC & ET & V & Ap).
  assert (EL : leaf = Some (TJws k p)).
  { unfold collect_trust_chains_signed in EC. rewrite opened_fed in EC.
    destruct (verify_self_signed E _ (Some (TJws k p))) as [tp|]; [|discriminate].
    unfold mbind, on_col in EC. match type of EC with context [collect_tree ?a ?b ?c ?d ?e ?f] => destruct (collect_tree a b c d e f) as [c1 [tr|x]] end;
      [injection EC as _ _ <-; reflexivity | discriminate]. }
  subst leaf. set (all := flat_map (fun ch => jws (ch ++ [TJws k p])) chains).
  exists all. split.
  - apply verified_iff in V. destruct V as (_ & _ & PS & _). rewrite jws_app in PS. cbn [jws] in PS.
    assert (SUB : forall x, In x (flat_map jws calls) -> In x all).
    { intros x Ix. apply in_flat_map in Ix as (ts & It & Ix). rewrite Forall_forall in FC. destruct (FC ts It) as (y & Iy & ->).
      apply in_flat_map. exists y. auto. }
    assert (MONO : forall l e k0, traceable (f_keys (a_fed s)) l e k0 -> (forall x, In x l -> In x all) -> traceable (f_keys (a_fed s)) all e k0).
    { intros l e k0 T SB. induction T as [e k0 Hh|k1 p1 jw k2 Ip _ IH EJ Ik]; [apply tr_initial, Hh|].
      apply (tr_vouched _ _ k1 p1 jw k2); [apply SB, Ip | exact IH | exact EJ | exact Ik]. }
    assert (ALL : forall pre k0 p0 post, jws ch ++ [(k, p)] = pre ++ (k0, p0) :: post -> traceable (f_keys (a_fed s)) all (s_iss p0) k0).
    { intros pre. remember (length pre) as n eqn:En. revert pre En. induction n as [n IHn] using lt_wf_ind. intros pre En k0 p0 post Eq.
      destruct (PS pre k0 p0 post Eq) as [Hh|(k1 & p1 & jw & Ip & Es & EJ & Ik)].
      - apply history_traceable in Hh. exact (MONO _ _ _ Hh SUB).
      - apply in_split in Ip as (pre1 & pre2 & Epre). rewrite <- Es. apply (tr_vouched _ _ k1 p1 jw k0); [|..|exact EJ | exact Ik].
        + apply in_flat_map. exists ch. split; [exact IC|]. rewrite jws_app. cbn [jws]. rewrite Eq, Epre, <- app_assoc. apply in_elt.
        + apply (IHn (length pre1)) with (pre := pre1) (post := pre2 ++ (k0, p0) :: post); [|reflexivity|].
          * subst n. rewrite Epre, app_length. cbn. lia.
          * rewrite Eq, Epre, <- app_assoc. reflexivity. }
    exact (ALL (jws ch) k p [] eq_refl).
  - intros x Ix. apply in_flat_map in Ix as (y & Iy & Ix). exists chains, (TJws k p), y. split; [right; rewrite EC; reflexivity|]. auto.
Qed.

Example C83_ex : exists s' args,
  explicit_oauth ruled id_order 9 ex_reg ex_prio (TJws 3 (rp_ec "mine" 3)) ex_as = (s', Ok (Done args)) /\
  (forall s'' args', explicit_oauth ruled id_order 9 ex_reg ex_prio (TJws 6 (rp_ec "mine" 6)) ex_as <> (s'', Ok (Done args'))).
Proof.
  eexists; eexists. split; [vm_compute; reflexivity|]. intros s'' args' H. vm_compute in H. discriminate H.
Qed.

Print Assumptions C54_own_chain_refuted.
Print Assumptions C54_own_chain_partial.
Print Assumptions C54_some_chain.
Print Assumptions C77_stored_chains_refuted.
Print Assumptions C77_stored_chains_partial.
Print Assumptions C77_others.
Print Assumptions C78_keys_left_refuted.
Print Assumptions C78_keys_left_partial.
Print Assumptions C79_turned_away_refuted.
Print Assumptions C79_second_try_refuted.
Print Assumptions C79_removed_refuted.
Print Assumptions C79_turned_away_partial.
Print Assumptions C80_explicit_stays.
Print Assumptions C81_other_clients.
Print Assumptions C82_policies_refuted.
Print Assumptions C82_policies_partial.
Print Assumptions C82_policies_oauth.
Print Assumptions C83_holder_refuted.
Print Assumptions C83_holder_partial.
Print Assumptions C83_holder_oauth.
