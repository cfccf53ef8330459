(** The clients of a server in a federation whose requests fail while time passes (C175). *)
From Verif Require Import PyFacts ExampleKit CollectorProps.
From Verif Require Import ClientFacts ClientProps RegistrationProps LiveExample.
From Verif Require Import LiveRegisterProps.
From Verif Require Export MotionLive.
From Coq Require Import Lia.

(** ** What happens at a server *)

(** the federation part is used, or a client asks for something without sending a trust chain *)
Inductive visit :=
| Fed (st : step)
| Knock (Fl : flavour) (new automatic : bool) (fuel : nat) (id : string).   (* client_authentication *)

Definition do_visit (E : cenv) (O : iter_order) (R : reg_env) (s : astate) (v : visit) : astate :=
  match v with
  | Fed st => mkA (do_step E O (a_fed s) st) (a_reg s)
  | Knock Fl new automatic fuel id => fst (client_authentication E O fuel R Fl new automatic id [] s)
  end.

Definition after_visits (E : cenv) (O : iter_order) (R : reg_env) (vs : list visit) (s : astate) : astate :=
  fold_left (do_visit E O R) vs s.

(** only members are asked about and only they come, and Python's recursion limit is not in the way *)
Definition by_members (F : list member) (rank : string -> nat) (vs : list visit) : Prop :=
  forall v, In v vs ->
  match v with
  | Fed (Look fuel id) | Fed (Ask fuel id) | Knock _ _ _ fuel id => (exists m, In m F /\ m_id m = id) /\ rank id < fuel
  | Fed Wait => True
  end.

(** What may be stored under [x]: a client with what the policies along a way from a member to somebody whose keys are in [kj] make of the
    metadata of the member, under the name of the member or with the name of the member in it; or what a failed registration leaves
    behind, which has nothing a client could have asked for (C57). *)
Definition client_right (jwks_of : val -> option (list key)) (F : list member) (E : cenv) (O : iter_order) (R : reg_env) (kj : keyjar)
    (x : string) (ci : dict val) : Prop :=
  only_basics R x ci \/
  exists m Fl rt md d,
    In m F /\ usable jwks_of F E kj (m_id m) rt /\ adjusted O jwks_of F E (m_id m) rt md /\ claims_for md (kind_of Fl) d /\
    stored_from R d ci /\ (x = m_id m \/ (dget "client_id" ci = Some (VStr x) /\ dget "entity_id" ci = Some (VStr (m_id m)))).

Lemma chain_claims c t d : ClientModel.chain_metadata c t = Ok d -> claims_for (ch_md c) t d.
Proof.
  unfold claims_for, ClientModel.chain_metadata, dindex. destruct (ch_md c) as [m|m].
  - destruct (dget t m) as [[o|]|]; cbn [bind]; try discriminate. intros [= ->]. reflexivity.
  - destruct (dget t m) as [v|]; cbn [bind]; [|discriminate]. destruct v; try discriminate. intros [= ->]. reflexivity.
Qed.

(** where a registration is put *)
Lemma step2_entry O R request new_id set_secret reserved s s' args :
  keeps_id R -> step2_process_request O R request new_id set_secret reserved s = (s', Ok (Done args)) ->
  exists id ci ci1, dget "client_id" args = Some (VStr id) /\ r_cdb s' = dset id ci (dset id ci1 (r_cdb s)).
Proof.
  intros KI H. destruct (step2_done _ _ _ _ _ _ _ _ _ H) as (req & id & req' & ci & kj & A & ID & C & K & -> & ->).
  exists id, ci. eexists. rewrite KI. split; [|reflexivity].
  assert (NR := identified_nodup _ _ _ _ _ _ _ ID (filter_nodup _ _ _ _ (proj2 A))).
  rewrite (client_info_get _ _ _ _ "client_id" C) by (simpl; intuition discriminate).
  rewrite base_info_get by exact NR. cbn [smem ignored existsb]. rewrite first_entry_id.
  unfold identified in ID. destruct new_id.
  + destruct ID as [_ ->]. rewrite dget_ddel_same. reflexivity.
  + destruct ID as (D & _ & ->). rewrite D. reflexivity.
Qed.

(** what client_authentication does to the federation part *)
Lemma authentication_fed E O fuel R Fl new automatic id provided s s' v : keeps_id R ->
  client_authentication E O fuel R Fl new automatic id provided s = (s', v) ->
  a_fed s' = a_fed s \/
  exists f1 r, chains_for E O fuel id provided (a_fed s) = (f1, r) /\
    (a_fed s' = f1 \/ exists cs, r = Ok cs /\ a_fed s' = stored_chains Fl id cs f1).
Proof.
  intros KI Eq.
  destruct (authentication_cases _ _ _ _ _ _ _ _ _ _ _ _ Eq) as [(_ & -> & _)|[(_ & _ & -> & _)|(_ & _ & s1 & r & AE & X)]]; [left; reflexivity..|].
  right. assert (EF : a_fed (forget Fl id s) = a_fed s) by (unfold forget; destruct (dget id (r_cdb (a_reg s))); reflexivity).
  inversion AE as [f1 r0 e EC _ E1 E2|f1 c rest e EC E1 E2|f1 c rest md k1 r2 o r0 EC EM EK E2 An E3 E4]; subst; rewrite EF in EC;
    [exists f1, r0|exists f1, (Ok (c :: rest))..]; (split; [exact EC|]).
  - destruct X as [-> _]. left. reflexivity.
  - destruct X as [-> _]. right. exists (c :: rest). auto.
  - right. exists (c :: rest). split; [reflexivity|]. destruct r as [[rid|]|e]; [|destruct X as [-> _]; reflexivity..].
    destruct X as (ci & [[_ [_ ->]]|D]); [reflexivity|]. exfalso. destruct o as [|args]; cbn [ClientFacts.answer] in An; [discriminate An|].
    destruct (step2_entry _ _ _ _ _ _ _ _ _ KI E2) as (rid' & ci' & ci1 & D1 & Edb). rewrite D1 in An. injection An as ->.
    cbn [a_reg] in D. rewrite Edb, dget_dset_same in D. discriminate D.
Qed.

(** ** One visit *)
Section Server.
Context (jwks_of : val -> option (list key)) (F : list member) (E : cenv) (rank : string -> nat).
Context (L : library_shaky jwks_of F E) (HR : hierarchy F rank) (HU : all_checkable jwks_of F E).
Context (O : iter_order) (R : reg_env) (KI : keeps_id R) (PC : passed_on R "client_id").
Context (n0 : nat) (kj0 : keyjar) (db0 : dict (dict val)).

Definition holds (s : astate) : Prop :=
  living jwks_of F E n0 kj0 (a_fed s) /\ stored_right jwks_of F E O kj0 (a_fed s) /\
  forall x ci, dget x (r_cdb (a_reg s)) = Some ci -> dget x db0 = Some ci \/ client_right jwks_of F E O R kj0 x ci.

(** the databases: every entry is an old one, or right *)
Definition grown (db db' : dict (dict val)) : Prop :=
  forall x ci, dget x db' = Some ci -> dget x db = Some ci \/ client_right jwks_of F E O R kj0 x ci.

Lemma grown_refl db : grown db db.
Proof. intros x ci H. left. exact H. Qed.

Lemma grown_del db x0 : grown db (ddel x0 db).
Proof.
  intros x ci H. left. destruct (String.eqb_spec x x0) as [->|N]; [rewrite dget_ddel_same in H; discriminate H|].
  rewrite dget_ddel_other in H by exact N. exact H.
Qed.

Lemma grown_set db db' x0 ci0 : grown db db' -> client_right jwks_of F E O R kj0 x0 ci0 -> grown db (dset x0 ci0 db').
Proof.
  intros G C x ci H. destruct (String.eqb_spec x x0) as [->|N].
  - rewrite dget_dset_same in H. injection H as <-. right. exact C.
  - rewrite dget_dset_other in H by exact N. exact (G x ci H).
Qed.

Lemma fed_looked fuel m f f1 r : In m F -> rank (m_id m) < fuel ->
  living jwks_of F E n0 kj0 f -> stored_right jwks_of F E O kj0 f ->
  chains_for E O fuel (m_id m) [] f = (f1, r) ->
  living jwks_of F E n0 kj0 f1 /\ stored_right jwks_of F E O kj0 f1 /\
  forall cs, r = Ok cs -> as_it_should jwks_of F E O kj0 m (Ok cs).
Proof.
  intros Hm Hf V S H. unfold chains_for in H. cbn [is_nil] in H.
  destruct (looked jwks_of F E rank L HR HU n0 kj0 O fuel m f f1 r Hm Hf V H) as (V1 & Hc & _).
  split; [exact V1|]. split; [intros x cs Hx D; rewrite Hc in D; exact (S x cs Hx D)|].
  intros cs ->. destruct (looked_should jwks_of F E rank L HR HU n0 kj0 O fuel m f f1 (Ok cs) Hm Hf V H) as [A|[(_ & x & _ & A)|[_ A]]];
    [exact A|discriminate A|discriminate A].
Qed.

Lemma stored_chains_right Fl m cs f : In m F -> living jwks_of F E n0 kj0 f -> stored_right jwks_of F E O kj0 f ->
  as_it_should jwks_of F E O kj0 m (Ok cs) ->
  living jwks_of F E n0 kj0 (stored_chains Fl (m_id m) cs f) /\ stored_right jwks_of F E O kj0 (stored_chains Fl (m_id m) cs f).
Proof.
  intros Hm V S A. unfold stored_chains. destruct Fl; [|split; assumption..]. split; [exact V|].
  intros x cs' Hx D. cbn [f_chains] in D. destruct (String.eqb_spec (m_id x) (m_id m)) as [En|N].
  - rewrite En, dget_dset_same in D. injection D as <-.
    replace x with m; [exact A|]. apply (lf_ids _ _ _ (ls_run _ _ _ L)); auto.
  - rewrite dget_dset_other in D by exact N. exact (S x cs' Hx D).
Qed.

(** whatever trust chains are used, if they lead from the member up *)
Lemma knock_grown Fl new automatic fuel m provided s s' v : In m F ->
  (forall f1 c rest, chains_for E O fuel (m_id m) provided (a_fed s) = (f1, Ok (c :: rest)) ->
     exists rt, usable jwks_of F E kj0 (m_id m) rt /\ adjusted O jwks_of F E (m_id m) rt (ch_md c)) ->
  grown db0 (r_cdb (a_reg s)) -> client_authentication E O fuel R Fl new automatic (m_id m) provided s = (s', v) -> grown db0 (r_cdb (a_reg s')).
Proof.
  intros Hm HC G Eq.
  destruct (authentication_cases _ _ _ _ _ _ _ _ _ _ _ _ Eq) as [(_ & -> & _)|[(_ & _ & -> & _)|(_ & _ & s1 & r & AE & X)]]; [exact G..|].
  set (f0 := forget Fl (m_id m) s) in *.
  assert (EF : a_fed f0 = a_fed s) by (unfold f0, forget; destruct (dget (m_id m) (r_cdb (a_reg s))); reflexivity).
  assert (G0 : grown db0 (r_cdb (a_reg f0))).
  { unfold f0, forget. destruct (dget (m_id m) (r_cdb (a_reg s))); [|exact G]. cbn [a_reg r_cdb].
    intros x ci D. destruct (grown_del (r_cdb (a_reg s)) (m_id m) x ci D) as [D'|D']; [exact (G x ci D')|right; exact D']. }
  inversion AE as [f1 r0 e EC _ E1 E2|f1 c rest e EC E1 E2|f1 c rest md k1 r2 o r0 EC EM EK E2 An E3 E4]; subst; rewrite EF in EC.
  - destruct X as [-> _]. exact G0.
  - destruct X as [-> _]. exact G0.
  - destruct o as [|args].
    + (* nothing, or what a failed registration leaves *)
      cbn [ClientFacts.answer] in An. rewrite An in X. destruct X as [-> _]. cbn [a_reg].
      destruct (C57_entry_left_partial _ _ _ _ _ _ _ _ E2 (NoDup_dset _ _ _ _ (request_nodup md)) PC) as [_ [->|(id & ci & _ & B & ->)]].
      * exact G0.
      * apply grown_set; [exact G0|left; exact B].
    + (* registered *)
      destruct (HC _ _ _ EC) as (rt & U & Ad).
      assert (Hd := chain_claims c _ md EM).
      destruct (step2_stored O R md _ _ _ _ _ _ _ (request_get "client_id" (VStr (m_id m)) md) (NoDup_dset _ _ _ _ (request_nodup md)) KI E2)
        as (rid & ci & D1 & D2 & _ & SF & Dc).
      destruct (step2_entry _ _ _ _ _ _ _ _ _ KI E2) as (rid' & ci' & ci1 & D1' & Edb).
      assert (rid' = rid) by congruence. subst rid'. rewrite Edb, dget_dset_same in D2. injection D2 as ->. cbn [r_cdb] in Edb.
      unfold ClientFacts.answer in An. rewrite D1 in An. rewrite An in X. cbn [a_reg a_fed] in X.
      destruct X as (ci0 & [[D0 [_ ->]]|D0]); [|exfalso; rewrite Edb, dget_dset_same in D0; discriminate D0].
      rewrite Edb, dget_dset_same in D0. injection D0 as ->.
      cbn [a_reg r_cdb]. rewrite Edb.
      set (ci2 := match Fl with OIDC => dset "automatic_registered" (VBool true) ci0 | _ => ci0 end).
      assert (S2 : stored_from R md ci2).
      { unfold ci2. destruct Fl; [apply stored_more; [simpl; tauto|]| |]; exact SF. }
      assert (Dc2 : dget "client_id" ci2 = Some (VStr rid)).
      { unfold ci2. destruct Fl; [rewrite dget_dset_other by discriminate| |]; exact Dc. }
      assert (C2 : forall x ci', stored_from R md ci' ->
                (x = m_id m \/ (dget "client_id" ci' = Some (VStr x) /\ dget "entity_id" ci' = Some (VStr (m_id m)))) ->
                client_right jwks_of F E O R kj0 x ci').
      { intros x ci' Sx Nx. right. exists m, Fl, rt, (ch_md c), md. auto 10. }
      (* entries that are overwritten do not matter *)
      assert (Over : forall ci' db, client_right jwks_of F E O R kj0 rid ci' ->
                (forall x c', dget x db = Some c' -> x <> rid -> dget x (r_cdb (a_reg f0)) = Some c') -> grown db0 (dset rid ci' db)).
      { intros ci' db C' Hdb x c' D. destruct (string_dec x rid) as [->|N].
        - rewrite dget_dset_same in D. injection D as <-. right. exact C'.
        - rewrite dget_dset_other in D by exact N. exact (G0 x c' (Hdb x c' D N)). }
      assert (Plain : forall x c', dget x (match Fl with OIDC => dset rid ci2 (dset rid ci0 (dset rid ci1 (r_cdb (a_reg f0))))
                                      | _ => dset rid ci0 (dset rid ci1 (r_cdb (a_reg f0))) end) = Some c' ->
                x <> rid -> dget x (r_cdb (a_reg f0)) = Some c').
      { intros x c' D N. destruct Fl; rewrite ?dget_dset_other in D by exact N; exact D. }
      destruct (String.eqb_spec rid (m_id m)) as [Er|Er].
      * assert (C3 := C2 rid ci2 S2 (or_introl Er)). unfold ci2 in *. destruct Fl.
        -- apply Over; [exact C3|]. intros x c' D N. rewrite !dget_dset_other in D by exact N. exact D.
        -- apply Over; [exact C3|]. intros x c' D N. rewrite !dget_dset_other in D by exact N. exact D.
        -- apply Over; [exact C3|]. intros x c' D N. rewrite !dget_dset_other in D by exact N. exact D.
      * set (ci3 := dset "entity_id" (VStr (m_id m)) ci2).
        assert (S3 : stored_from R md ci3) by (apply stored_more; [simpl; tauto|exact S2]).
        apply grown_set; [|apply C2; [exact S3|left; reflexivity]].
        apply Over; [|exact Plain]. apply C2; [exact S3|]. right. unfold ci3. rewrite dget_dset_other by discriminate. split; [exact Dc2|].
        apply dget_dset_same.
Qed.

Lemma knock Fl new automatic fuel m s : In m F -> rank (m_id m) < fuel -> holds s ->
  holds (do_visit E O R s (Knock Fl new automatic fuel (m_id m))).
Proof.
  intros Hm Hf (V & S & G). cbn [do_visit].
  destruct (client_authentication E O fuel R Fl new automatic (m_id m) [] s) as [s' v] eqn:Eq. cbn [fst].
  assert (G' : grown db0 (r_cdb (a_reg s'))).
  { refine (knock_grown Fl new automatic fuel m [] s s' v Hm _ G Eq). intros f1 c rest EC.
    destruct (fed_looked fuel m _ _ _ Hm Hf V S EC) as (_ & _ & A). destruct (A _ eq_refl) as (_ & A2 & _).
    destruct (A2 c (or_introl eq_refl)) as (rt & U & _ & Ad). eauto. }
  assert (EF : a_fed (forget Fl (m_id m) s) = a_fed s) by (unfold forget; destruct (dget (m_id m) (r_cdb (a_reg s))); reflexivity).
  cut (living jwks_of F E n0 kj0 (a_fed s') /\ stored_right jwks_of F E O kj0 (a_fed s')); [intros [V' S']; split; [exact V'|]; split; [exact S'|exact G']|].
  destruct (authentication_fed _ _ _ _ _ _ _ _ _ _ _ _ KI Eq) as [->|(f1 & r & EC & [->|(cs & -> & ->)])]; [split; assumption| |].
  - destruct (fed_looked fuel m _ _ _ Hm Hf V S EC) as (V1 & S1 & _). split; assumption.
  - destruct (fed_looked fuel m _ _ _ Hm Hf V S EC) as (V1 & S1 & A). exact (stored_chains_right Fl m _ _ Hm V1 S1 (A _ eq_refl)).
Qed.

Lemma visited_right v s : match v with
    | Fed (Look fuel id) | Fed (Ask fuel id) | Knock _ _ _ fuel id => (exists m, In m F /\ m_id m = id) /\ rank id < fuel
    | Fed Wait => True
    end -> holds s -> holds (do_visit E O R s v).
Proof.
  destruct v as [st|Fl new automatic fuel id].
  - intros Hst (V & S & G). cbn [do_visit].
    assert (A : about_members F rank [st]) by (intros st' [<-|[]]; destruct st; exact Hst).
    split; [|split; [|exact G]]; cbn [a_fed].
    + exact (living_steps jwks_of F E rank L HR HU n0 kj0 O [st] _ V A).
    + exact (stored_steps jwks_of F E rank L HR HU n0 kj0 O [st] _ V S A).
  - intros [(m & Hm & <-) Hf] H. exact (knock Fl new automatic fuel m s Hm Hf H).
Qed.

Lemma visits_right vs : forall s, by_members F rank vs -> holds s -> holds (after_visits E O R vs s).
Proof.
  unfold after_visits. induction vs as [|v vs IH]; intros s A H; [exact H|]. cbn [fold_left]. apply IH.
  - intros v' Hv. apply A. right. exact Hv.
  - exact (visited_right v s (A v (or_introl eq_refl)) H).
Qed.
End Server.

(** ** C175: whatever fails and however time passes, no client is stored with anything but its own metadata *)

Theorem C175_only_right_clients : forall jwks_of F E O R rank s0 vs,
  library_shaky jwks_of F E -> hierarchy F rank -> all_checkable jwks_of F E -> keeps_id R -> passed_on R "client_id" ->
  newborn (a_fed s0) -> right_keys F (f_keys (a_fed s0)) -> by_members F rank vs ->
  forall x ci, dget x (r_cdb (a_reg (after_visits E O R vs s0))) = Some ci ->
  dget x (r_cdb (a_reg s0)) = Some ci \/ client_right jwks_of F E O R (f_keys (a_fed s0)) x ci.
Proof.
  intros jwks_of F E O R rank s0 vs L HR HU KI PC HB Hk HA.
  destruct (visits_right jwks_of F E rank L HR HU O R KI PC (st_tick (f_col (a_fed s0))) (f_keys (a_fed s0)) (r_cdb (a_reg s0)) vs s0 HA) as (_ & _ & G); [|exact G].
  split; [exact (living_start jwks_of F E _ HB Hk)|]. split; [|intros x ci D; left; exact D].
  intros x cs Hx D. rewrite (proj2 (proj2 HB)) in D. discriminate D.
Qed.
Print Assumptions C175_only_right_clients.

(** A member that is let in because it was registered just now is stored with what the policies along one of its ways up make of
    its metadata. *)
Theorem C175_let_in : forall jwks_of F E O R rank s0 vs Fl new automatic fuel m s' rid,
  library_shaky jwks_of F E -> hierarchy F rank -> all_checkable jwks_of F E -> keeps_id R -> passed_on R "client_id" ->
  newborn (a_fed s0) -> right_keys F (f_keys (a_fed s0)) -> by_members F rank vs -> In m F -> rank (m_id m) < fuel ->
  registers Fl (m_id m) (after_visits E O R vs s0) ->
  client_authentication E O fuel R Fl new automatic (m_id m) [] (after_visits E O R vs s0) = (s', Ok (Use rid)) ->
  exists rt md d ci, usable jwks_of F E (f_keys (a_fed s0)) (m_id m) rt /\ adjusted O jwks_of F E (m_id m) rt md /\
    claims_for md (kind_of Fl) d /\ dget rid (r_cdb (a_reg s')) = Some ci /\ dget (m_id m) (r_cdb (a_reg s')) = Some ci /\
    stored_from R d ci.
Proof.
  intros jwks_of F E O R rank s0 vs Fl new automatic fuel m s' rid L HR HU KI PC HB Hk HA Hm Hf RG H.
  destruct (visits_right jwks_of F E rank L HR HU O R KI PC (st_tick (f_col (a_fed s0))) (f_keys (a_fed s0)) (r_cdb (a_reg s0)) vs s0 HA) as (V & S & _).
  { split; [exact (living_start jwks_of F E _ HB Hk)|]. split; [|intros x ci D; left; exact D].
    intros x cs Hx D. rewrite (proj2 (proj2 HB)) in D. discriminate D. }
  destruct (auth_registered _ _ _ _ _ _ _ _ _ _ _ _ KI PC RG H) as (_ & _ & c & md & ci & _ & EM & D1 & D2 & SF & _ & _ & f1 & rest & EC).
  destruct (fed_looked jwks_of F E rank L HR HU O _ _ fuel m _ _ _ Hm Hf V S EC) as (_ & _ & A).
  destruct (A _ eq_refl) as (_ & A2 & _). destruct (A2 c (or_introl eq_refl)) as (rt & U & _ & Ad).
  exists rt, (ch_md c), md, ci. split; [exact U|]. split; [exact Ad|]. split; [exact (chain_claims c _ md EM)|]. auto.
Qed.
Print Assumptions C175_let_in.

(** The federation of C142 with failures and time passing: no connection for the second request, status 500 for the fourth. *)
Definition cr_clock (n : nat) : Z := if Nat.ltb n 6 then 1100%Z else 41100%Z.
Definition cr_net (n : nat) (q : request) : response :=
  if Nat.eqb n 1 then RNoConnection else if Nat.eqb n 3 then RStatus else library_net ex_jwks v_fed cr_clock n q.
Definition cr_env : cenv := mkEnv 300 ["ta"] cr_net cr_clock all_keys wk_url tenant_url.

Lemma cr_shaky : library_shaky ex_jwks v_fed cr_env.
Proof.
  constructor.
  - exact v_run.
  - intros n q. cbn [e_net cr_env]. unfold cr_net, failed. destruct (Nat.eqb n 1); [auto|]. destruct (Nat.eqb n 3); [auto|]. left. reflexivity.
  - intros n. cbn [e_clock cr_env]. unfold cr_clock. destruct (Nat.ltb (S n) 6), (Nat.ltb n 6); lia.
  - intros id m m' n I1 I2 H1 H2 _. exfalso. cbn [e_wk e_tenant cr_env] in H1, H2. unfold wk_url in H1. unfold tenant_url in H2.
    apply (f_equal String.length) in H1, H2.
    assert (Hap : forall a b, String.length (a ++ b) = String.length a + String.length b).
    { intros a b. induction a as [|c a IH]; cbn; [reflexivity|]. rewrite IH. reflexivity. }
    rewrite Hap in H1, H2. live_members; cbn in H1, H2; lia.
Qed.

Lemma cr_checkable : all_checkable ex_jwks v_fed cr_env.
Proof. intros m Hm. exact (v_checkable m Hm). Qed.

Definition cr_visits : list visit :=
  [Knock OIDC false true 2 "rp"; Knock OIDC false true 2 "rp"; Fed Wait; Knock OIDC false true 2 "rp"; Knock PAR true true 2 "tmi"].

Example C175_ex : library_shaky ex_jwks v_fed cr_env /\ all_checkable ex_jwks v_fed cr_env /\ by_members v_fed v_rank cr_visits /\
  keeps_id ex_reg /\ passed_on ex_reg "client_id" /\
  (* nobody gets in at first *)
  snd (client_authentication cr_env id_order 2 ex_reg OIDC false true "rp" [] v_server) = Err ConnectionError /\
  r_cdb (a_reg (after_visits cr_env id_order ex_reg (firstn 3 cr_visits) v_server)) = r_cdb (a_reg v_server) /\
  (* rp does at the third attempt, and tmi, which is no client, never *)
  (exists s', client_authentication cr_env id_order 2 ex_reg OIDC false true "rp" [] (after_visits cr_env id_order ex_reg (firstn 3 cr_visits) v_server)
     = (s', Ok (Use "rp"))) /\
  exists ci, r_cdb (a_reg (after_visits cr_env id_order ex_reg cr_visits v_server)) = r_cdb (a_reg v_server) ++ [("rp", ci)] /\
    dget "contacts" ci = Some (VList [VStr "ta"]).
Proof.
  split; [exact cr_shaky|]. split; [exact cr_checkable|]. split.
  { intros v [<-|[<-|[<-|[<-|[<-|[]]]]]]; cbn; try exact I; (split; [|vm_compute; lia]).
    1-3: exists v_rp; split; [right; right; left; reflexivity|reflexivity].
    exists v_tmi. split; [right; left; reflexivity|reflexivity]. }
  split; [exact ex_keeps_id|]. split; [reflexivity|]. split; [vm_compute; reflexivity|]. split; [vm_compute; reflexivity|].
  split; [eexists; vm_compute; reflexivity|]. eexists. split; vm_compute; reflexivity.
Qed.
