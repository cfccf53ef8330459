(** Federations of entities that run this library: constraints (C121), and trust marks from the issuer to those who
    verify them (C139). *)
From Verif Require Import PyFacts ExampleKit CollectorProps FederationProps VerifierFacts PolicyProps.
From Verif Require Import LiveFacts LiveExample.
From Verif Require Import TrustMarkVerifierModel TrustMarkSpec TrustMarkFacts TrustMarkProps TrustMarkVerifierProps.
From Coq Require Import Lia.

(** ** C121 with constraints *)

(** As C121_found, for federations in which subordinates are registered with constraints. *)
Theorem C121_constraints : forall jwks_of F E O rank fuel m s s' r,
  library_run jwks_of F E -> hierarchy F rank -> checkable jwks_of F E (m_id m) -> In m F -> rank (m_id m) < fuel ->
  visited E (f_col s) -> right_keys F (f_keys s) ->
  get_verified_trust_chains E O fuel (m_id m) s = (s', r) ->
  match r with
  | Ok cs =>
      (forall rt, usable jwks_of F E (f_keys s) (m_id m) rt ->
         exists c, In c cs /\ runs_along c (m_id m) rt /\ adjusted O jwks_of F E (m_id m) rt (ch_md c)) /\
      (forall c, In c cs -> exists rt, usable jwks_of F E (f_keys s) (m_id m) rt /\
         runs_along c (m_id m) rt /\ adjusted O jwks_of F E (m_id m) rt (ch_md c))
  | Err x => exists rt, usable jwks_of F E (f_keys s) (m_id m) rt /\ policy_call_chain O (said jwks_of F E (m_id m) rt) = Err x
  end.
Proof.
  intros jwks_of F E O rank fuel m s s' r L HR CC Hm Hf V Hk H.
  destruct (library_chains jwks_of F E rank L HR O fuel m s Hm Hf V (right_jar _ _ _ L m _ Hm Hk) CC)
    as (s1 & tcs & G1 & _ & _ & _ & _ & G2 & G3).
  rewrite H in G1. injection G1 as <- ->. destruct (apply_policies O tcs) as [cs|x] eqn:Ea.
  - destruct (applied_of O tcs cs Ea) as [A1 A2]. split.
    + intros rt Hu. destruct (G3 rt Hu) as (tc & Ht & B1 & B2 & B3). destruct (A2 tc Ht) as (c & Hc & D1 & D2 & D3).
      exists c. split; [exact Hc|]. split.
      * apply (runs_chain jwks_of F E rank L HR m rt c Hm (proj1 Hu)); congruence.
      * rewrite B2 in D3. exact D3.
    + intros c Hc. destruct (A1 c Hc) as (tc & Ht & D1 & D2 & D3). destruct (G2 tc Ht) as (_ & rt & Hu & B1 & B2 & B3).
      exists rt. split; [exact Hu|]. split.
      * apply (runs_chain jwks_of F E rank L HR m rt c Hm (proj1 Hu)); congruence.
      * rewrite B2 in D3. exact D3.
  - destruct (applied_err O tcs x Ea) as (tc & Ht & Hp). destruct (G2 tc Ht) as (_ & rt & Hu & _ & B2 & _).
    exists rt. split; [exact Hu|]. rewrite <- B2. exact Hp.
Qed.
Print Assumptions C121_constraints.

(** ** C139: trust marks issued by an entity of the federation are accepted *)

(** what the verifier does if the trust chains of the issuer cannot be had *)
Lemma tm_verifier_err E O fuel V s k p anchor check ent iss s2 x :
  tm_schema p = true -> dget "delegation" p = None -> dget "iss" p = Some (VStr iss) ->
  unexpired (e_clock E (st_tick (f_col s))) p ->
  get_verified_trust_chains E O fuel iss s = (s2, Err x) ->
  tm_verifier E O fuel V (TMJws k p) anchor check ent s = (s2, Err x).
Proof.
  intros Hs Hd Hi Hu Hg.
  unfold tm_verifier, tm_verify. rewrite Hs. unfold mbind at 1. unfold lift at 1.
  unfold mbind at 1. unfold on_col at 1, now at 1. cbn beta iota. unfold mbind at 1. unfold lift at 1.
  assert (Ex : mark_expired (e_clock E (st_tick (f_col s))) p = Ok false).
  { unfold mark_expired, unexpired in *. destruct (dget "exp" p) as [v|]; [|reflexivity].
    destruct Hu as (e & -> & Hle). cbn [bind]. destruct (Z.ltb_spec e (e_clock E (st_tick (f_col s)))); [lia|reflexivity]. }
  rewrite Ex. unfold dmem. rewrite Hd. unfold mbind at 1. unfold ret at 1. rewrite Hi.
  assert (Es : mkFed (f_col s) (f_keys s) (f_chains s) = s) by (destruct s; reflexivity). rewrite Es.
  unfold mbind at 1. rewrite Hg. reflexivity.
Qed.

(** A mark that says what marks have to say, signed by its issuer, is accepted below every anchor that the issuer has a
    path to.  An exception is only raised if the policies along a path of the issuer raise it. *)
Theorem C139_accepted : forall jwks_of F E O rank fuel V m rt p check ent s s' r,
  library_run jwks_of F E -> hierarchy F rank -> checkable jwks_of F E (m_id m) -> In m F -> rank (m_id m) < fuel ->
  visited E (f_col s) -> right_keys F (f_keys s) ->
  usable jwks_of F E (f_keys s) (m_id m) rt ->
  tm_schema p = true -> dget "delegation" p = None -> dget "iss" p = Some (VStr (m_id m)) ->
  unexpired (e_clock E 0) p -> tm_picks V (TMJws (m_key m) p) (m_key m) = true ->
  tm_verifier E O fuel V (TMJws (m_key m) p) (end_of (m_id m) rt) check ent s = (s', r) ->
  match r with
  | Ok v => v = Some p
  | Err x => exists rt', usable jwks_of F E (f_keys s) (m_id m) rt' /\
               policy_call_chain O (said jwks_of F E (m_id m) rt') = Err x
  end.
Proof.
  intros jwks_of F E O rank fuel V m rt p check ent s s' r L HR CC Hm Hf Hv Hk Hu H1 H2 H3 H4 H5 H.
  destruct (library_chains jwks_of F E rank L HR O fuel m s Hm Hf Hv (right_jar _ _ _ L m _ Hm Hk) CC)
    as (s1 & tcs & G1 & _ & _ & _ & _ & G2 & G3).
  assert (H4' : unexpired (e_clock E (st_tick (f_col s))) p) by (rewrite (lf_clock _ _ _ L); exact H4).
  destruct (apply_policies O tcs) as [cs|x] eqn:Ea.
  - destruct (applied_of O tcs cs Ea) as [A1 A2]. destruct (G3 rt Hu) as (tc & Ht & B1 & B2 & B3).
    destruct (A2 tc Ht) as (c & Hc & D1 & _). destruct (G2 tc Ht) as (Hh & _).
    rewrite (C49_valid_marks_accepted E O fuel V s (m_key m) p (end_of (m_id m) rt) check ent (m_id m) s1 cs
               H1 H2 H3 H4' G1) in H.
    + injection H as <- <-. reflexivity.
    + apply in_map_iff. exists c. split; [congruence|exact Hc].
    + exact Hh.
    + exact H5.
  - rewrite (tm_verifier_err E O fuel V s (m_key m) p (end_of (m_id m) rt) check ent (m_id m) s1 x H1 H2 H3 H4' G1) in H.
    injection H as <- <-. destruct (applied_err O tcs x Ea) as (tc & Ht & Hp). destruct (G2 tc Ht) as (_ & rt' & Hu' & _ & B2 & _).
    exists rt'. split; [exact Hu'|]. rewrite <- B2. exact Hp.
Qed.
Print Assumptions C139_accepted.

(** *** From the issue of a mark to its verification with the issuer *)

(** the issuer's status endpoint at [u], asked by the client of this library *)
Definition status_at (I : issuer) (cfg : fconfig) (h : list event) (held : unpacker) (now : Z) (u : string)
    (ask : string -> string -> string -> res (dict val)) : Prop :=
  forall sub id, ask u sub id =
    match trust_mark_status held (run I (fresh cfg) h) now (by_ids id sub) with
    | Ok Active => Ok [("active", VBool true)]
    | Ok NotFound => Ok [("error", VStr "not_found")]
    | Err e => Err e
    end.

(** the policies along the paths of the issuer can be applied and leave its status endpoint alone *)
Definition endpoint_stays (O : iter_order) (jwks_of : val -> option (list key)) (F : list member) (E : cenv) (kj : keyjar)
    (id u : string) : Prop :=
  forall rt, usable jwks_of F E kj id rt -> exists md ves fe,
    policy_call_chain O (said jwks_of F E id rt) = Ok (ByType md, ves) /\
    dget "federation_entity" md = Some (Some fe) /\ dget "federation_trust_mark_status_endpoint" fe = Some (VStr u).

(** A mark issued by an entity of the federation, to whomever, is returned by verify_trust_mark as long as it has not
    expired. *)
Theorem C139_issued : forall jwks_of F E O rank fuel V ask m s I cfg h held u t id sub more mark check,
  library_run jwks_of F E -> hierarchy F rank -> checkable jwks_of F E (m_id m) -> In m F -> rank (m_id m) < fuel ->
  visited E (f_col s) -> right_keys F (f_keys s) -> dget (m_id m) (f_chains s) = None ->
  (exists rt, usable jwks_of F E (f_keys s) (m_id m) rt) -> endpoint_stays O jwks_of F E (f_keys s) (m_id m) u -> u <> "" ->
  i_id I = m_id m -> i_key I = m_key m -> own_files cfg -> orderly h -> no_own_exp h ->
  issued I (fresh cfg) h t id sub more mark -> unexpired (e_clock E 0) (claims_of mark) ->
  tm_schema (claims_of mark) = true -> dget "delegation" (claims_of mark) = None ->
  tm_picks V mark (m_key m) = true ->
  status_at I cfg h held (e_clock E 0) u ask ->
  exists s', verify_trust_mark E O fuel V ask mark check s = (s', Ok (Some (claims_of mark))).
Proof.
  intros jwks_of F E O rank fuel V ask m s I cfg h held u t id sub more mark check
    L HR CC Hm Hf Hv Hk Hno (rt0 & Hu0) Hst Hune Ei Ek Hown Hord Hnx Hiss Hune' Hsc Hdel Hp Hask.
  assert (Hid0 : exists p, mark = TMJws (i_key I) p /\ dget "iss" p = Some (VStr (i_id I)) /\
            dget "id" p = Some (VStr id) /\ dget "sub" p = Some (VStr sub)).
  { pose proof Hiss as Hi. apply issued_file in Hi. destruct Hi as (c & _ & Hc & -> & _).
    destruct (pack_schema _ _ _ _ _ _ Hc Hsc) as [E1 E2]. unfold pack in *. cbn [claims_of] in *.
    eexists. split; [reflexivity|].
    split; [rewrite dget_dset_other by discriminate; apply dget_dset_same|auto]. }
  destruct Hid0 as (p & -> & Eiss & Eid & Esub). cbn [claims_of] in *. rewrite Ei in Eiss. rewrite Ek in *.
  assert (Hidne : id <> "").
  { intros ->. unfold tm_schema in Hsc. assert (X : has_str "id" p = false) by (unfold has_str; rewrite Eid; reflexivity).
    rewrite X in Hsc. rewrite !Bool.andb_false_r in Hsc. discriminate Hsc. }
  destruct (library_chains jwks_of F E rank L HR O fuel m s Hm Hf Hv (right_jar _ _ _ L m _ Hm Hk) CC)
    as (s1 & tcs & G1 & G1' & G4 & G5 & G6 & G2 & G3).
  assert (Htot : exists cs, apply_policies O tcs = Ok cs).
  { apply applied_total. intros tc Ht. destruct (G2 tc Ht) as (_ & rt & Hu & _ & B2 & _).
    destruct (Hst rt Hu) as (md & ves & fe & Hpol & _). rewrite B2. eauto. }
  destruct Htot as (cs & Ea). destruct (applied_of O tcs cs Ea) as [A1 A2].
  destruct (G3 rt0 Hu0) as (tc0 & Ht0 & _). destruct (A2 tc0 Ht0) as (c0 & Hc0 & _).
  destruct cs as [|c cs]; [destruct Hc0|]. rewrite Ea in G1.
  (* the chains are stored *)
  set (s2 := mkFed (f_col s1) (f_keys s1) (dset (m_id m) (c :: cs) (f_chains s1))).
  assert (Hget : get_trust_chains E O fuel (m_id m) s = (s2, Ok (c :: cs))).
  { unfold get_trust_chains. unfold mbind at 1. unfold StateM.get at 1. rewrite Hno. unfold mbind at 1. rewrite G1.
    reflexivity. }
  destruct (A1 c (or_introl eq_refl)) as (tc & Ht & D1 & D2 & ves & D3).
  destruct (G2 tc Ht) as (_ & rt & Hu & B1 & B2 & B3).
  destruct (Hst rt Hu) as (md & ves' & fe & Hpol & Hfe & Hep). rewrite B2, Hpol in D3. injection D3 as Hmd _.
  (* the verifier is called in the new state *)
  assert (Hu2 : usable jwks_of F E (f_keys s2) (m_id m) rt) by (apply G6, Hu).
  destruct (library_chains jwks_of F E rank L HR O fuel m s2 Hm Hf G4 G5 CC)
    as (s3 & tcs' & I1 & _ & _ & _ & I6 & I2 & I3).
  assert (Htot' : exists cs', apply_policies O tcs' = Ok cs').
  { apply applied_total. intros tc' Ht'. destruct (I2 tc' Ht') as (_ & rt' & Hu' & _ & B2' & _). apply G6 in Hu'.
    destruct (Hst rt' Hu') as (? & ? & ? & Hpol' & _). rewrite B2'. eauto. }
  destruct Htot' as (cs' & Ea'). rewrite Ea' in I1. destruct (applied_of O tcs' cs' Ea') as [A1' A2'].
  destruct (I3 rt Hu2) as (tc' & Ht' & _ & _ & B3'). destruct (A2' tc' Ht') as (c' & Hc' & D1' & _).
  assert (Hver : tm_verifier E O fuel V (TMJws (m_key m) p) (ch_anchor c) false "" s2 = (s3, Ok (Some p))).
  { apply (C49_valid_marks_accepted E O fuel V s2 (m_key m) p (ch_anchor c) false "" (m_id m) s3 cs' Hsc Hdel Eiss).
    - rewrite (lf_clock _ _ _ L). exact Hune'.
    - exact I1.
    - apply in_map_iff. exists c'. split; [congruence|exact Hc'].
    - exact (proj1 (I2 tc' Ht')).
    - exact Hp. }
  exists s3. unfold verify_trust_mark. rewrite Eiss. unfold mbind at 1. rewrite Hget. unfold mbind at 1. rewrite Hver.
  destruct check; [|reflexivity]. rewrite Esub, Eid. unfold mbind at 1, lift at 1.
  assert (Hcm : TrustMarkVerifierModel.chain_metadata c "federation_entity" "federation_trust_mark_status_endpoint" = Ok (VStr u)).
  { unfold TrustMarkVerifierModel.chain_metadata. rewrite <- Hmd. unfold dindex. rewrite Hfe. cbn [bind]. rewrite Hep. reflexivity. }
  rewrite Hcm. unfold mbind at 1, lift at 1, status_of. destruct (String.eqb_spec u "") as [|_]; [contradiction|].
  rewrite Hask.
  assert (Hact : trust_mark_status held (run I (fresh cfg) h) (e_clock E 0) (by_ids id sub) = Ok Active).
  { apply (C44_active_partial I cfg h held (e_clock E 0) id sub Hown Hidne Hord Hnx).
    exists t, more, (TMJws (m_key m) p). auto. }
  rewrite Hact. reflexivity.
Qed.
Print Assumptions C139_issued.

Definition v_ask (u sub id : string) : res (dict val) :=
  match trust_mark_status no_keys (run ex_issuer (fresh ex_cfg) ex_hist) 1100 (by_ids id sub) with
  | Ok Active => Ok [("active", VBool true)]
  | Ok NotFound => Ok [("error", VStr "not_found")]
  | Err e => Err e
  end.

(** rp1 got the mark sirtfi again at 1090 *)
Definition v_mark : tmtoken := TMJws 5
  [("ref", VStr "https://refeds.org/sirtfi"); ("iat", VInt 1090); ("id", VStr "sirtfi"); ("sub", VStr "rp1");
   ("exp", VInt 1190); ("level", VInt 2); ("iss", VStr "tmi")].

Example C139_ex : library_run ex_jwks v_fed v_env /\ hierarchy v_fed v_rank /\ checkable ex_jwks v_fed v_env (m_id v_tmi) /\
  In v_tmi v_fed /\ v_rank (m_id v_tmi) < 2 /\ visited v_env (f_col v_start) /\ right_keys v_fed (f_keys v_start) /\
  dget (m_id v_tmi) (f_chains v_start) = None /\ usable ex_jwks v_fed v_env (f_keys v_start) (m_id v_tmi) ["ta"] /\
  endpoint_stays id_order ex_jwks v_fed v_env (f_keys v_start) (m_id v_tmi) "tmi/status" /\
  issued ex_issuer (fresh ex_cfg) ex_hist 1090 "sirtfi" "rp1" [("level", VInt 2)] v_mark /\
  unexpired (e_clock v_env 0) (claims_of v_mark) /\ tm_schema (claims_of v_mark) = true /\
  status_at ex_issuer ex_cfg ex_hist no_keys (e_clock v_env 0) "tmi/status" v_ask /\
  snd (verify_trust_mark v_env id_order 2 ex_tmenv v_ask v_mark true v_start) = Ok (Some (claims_of v_mark)).
Proof.
  split; [exact v_run|]. split; [exact v_hierarchy|]. split; [apply v_checkable; simpl; auto|]. split; [simpl; auto|].
  split; [vm_compute; lia|]. split; [exact v_visited|]. split; [exact v_keys|]. split; [reflexivity|].
  split; [apply v_usable; [simpl; auto|discriminate]|]. split.
  { intros rt (Hp & Hne & _). destruct (v_path v_tmi rt ltac:(simpl; auto) Hp) as [-> | ->]; [contradiction Hne; reflexivity|].
    eexists _, _, _. split; [vm_compute; reflexivity|]. split; reflexivity. }
  split.
  { exists [Issue 1000 "sirtfi" "rp1" []; Issue 1010 "basic" "rp1" []; Restart; Issue 1050 "sirtfi" "rp2" [];
            Issue 1060 "unknown" "rp3" []], []. split; reflexivity. }
  split; [exists 1190%Z; split; [reflexivity|vm_compute; discriminate]|]. split; [reflexivity|].
  split; [intros sub id; reflexivity|]. vm_compute. reflexivity.
Qed.

(** the constraints of ta about rp: no intermediates; with them rp has a trust chain *)
Example C121_constraints_ex : checkable ex_jwks v_fed v_env (m_id v_rp) /\
  usable ex_jwks v_fed v_env (f_keys v_start) (m_id v_rp) ["ta"] /\
  (exists c, map s_constraints (said ex_jwks v_fed v_env "rp" ["ta"]) = [Some c; None]) /\
  exists s' c, get_verified_trust_chains v_env id_order 2 "rp" v_start = (s', Ok [c]) /\ runs_along c "rp" ["ta"].
Proof.
  split; [apply v_checkable; simpl; auto|]. split; [apply v_usable; [simpl; auto|discriminate]|].
  split; [eexists; vm_compute; reflexivity|].
  eexists _, _. split; [vm_compute; reflexivity|]. split; reflexivity.
Qed.
