(** The keys a server holds for clients in a federation whose requests fail while time passes (C198). *)
From Verif Require Import PyFacts ExampleKit.
From Verif Require Import RegistrationFacts RegistrationProps ClientFacts ClientProps LiveExample LiveRegisterProps AttackServerFacts AttackServerProps.
From Verif Require Import ClientsRightProps.
From Coq Require Import Lia.

(** [k] may be held under [x]: it is in what the policies along a way from a member to somebody whose keys are in [kj] make of the metadata
    of the member, and [x] is the name of the member or an identifier that was made for a client. *)
Definition client_key_right (jwks_of : val -> option (list key)) (F : list member) (E : cenv) (O : iter_order) (R : reg_env) (kj : keyjar)
    (x : string) (k : key) : Prop :=
  exists m Fl rt md d,
    In m F /\ usable jwks_of F E kj (m_id m) rt /\ adjusted O jwks_of F E (m_id m) rt md /\ claims_for md (kind_of Fl) d /\
    key_in (rg_keys R) d k /\ (x = m_id m \/ exists taken, x = rg_newid R taken).

(** where the keys come from *)
Definition keys_from (K : key_sources) (d : dict val) (x : string) (ks ks' : ckeyjar) : Prop :=
  forall e k, In k (ckeys_of ks' e) -> In k (ckeys_of ks e) \/ (e = x /\ exists p, k = KPub p /\ key_in K d p).

Lemma keys_from_refl K d x ks : keys_from K d x ks ks.
Proof. intros e k H. left. exact H. Qed.

Lemma added_from K d x ks l : (forall p, In p l -> key_in K d p) -> keys_from K d x ks (add_ckeys x (map KPub l) ks).
Proof.
  intros H e k Hk. rewrite ckeys_add in Hk. apply in_app_or in Hk. destruct Hk as [Hk|Hk]; [left; exact Hk|].
  destruct (String.eqb_spec e x) as [->|N]; [|destruct Hk]. right. split; [reflexivity|].
  apply in_map_iff in Hk. destruct Hk as (p & <- & Hp). exists p. auto.
Qed.

Lemma import_from K d x ks : keys_from K d x ks (fst (import_client_keys K d x ks)).
Proof.
  unfold import_client_keys. destruct (truthy _); [apply keys_from_refl|].
  destruct (truthy (field "jwks_uri" d)) eqn:E1.
  - apply added_from. intros p Hp. unfold field in Hp, E1. destruct (dget "jwks_uri" d) as [v|] eqn:Ed; [|discriminate E1].
    exists v. left. split; [exact (dget_In _ _ _ _ Ed)|exact Hp].
  - destruct (truthy (field "jwks" d)) eqn:E2; [|apply keys_from_refl].
    destruct (ks_jwks K (field "jwks" d)) as [l|e] eqn:Ej; [|apply keys_from_refl].
    apply added_from. intros p Hp. unfold field in Ej, E2. destruct (dget "jwks" d) as [v|] eqn:Ed; [|discriminate E2].
    exists v. right. split; [exact (dget_In _ _ _ _ Ed)|eauto].
Qed.

Lemma get_keys_from K d x ks : (forall l, ks_jwks K VNull = Ok l -> l = []) -> keys_from K d x ks (fst (get_keys K d x ks)).
Proof.
  intros HN. unfold get_keys. destruct (truthy _); [apply keys_from_refl|].
  destruct (truthy (field "jwks_uri" d)) eqn:E1.
  - apply added_from. intros p Hp. unfold field in Hp, E1. destruct (dget "jwks_uri" d) as [v|] eqn:Ed; [|discriminate E1].
    exists v. left. split; [exact (dget_In _ _ _ _ Ed)|exact Hp].
  - destruct (ks_jwks K (field "jwks" d)) as [l|e] eqn:Ej; [|apply keys_from_refl].
    apply added_from. intros p Hp. unfold field in Ej. destruct (dget "jwks" d) as [v|] eqn:Ed.
    + exists v. right. split; [exact (dget_In _ _ _ _ Ed)|eauto].
    + rewrite (HN _ Ej) in Hp. destruct Hp.
Qed.

(** ** One visit *)
Section Server.
Context (jwks_of : val -> option (list key)) (F : list member) (E : cenv) (rank : string -> nat).
Context (L : library_shaky jwks_of F E) (HR : hierarchy F rank) (HU : all_checkable jwks_of F E).
Context (O : iter_order) (R : reg_env) (KI : keeps_id R) (PC : passed_on R "client_id").
Context (HN : no_keys_in_nothing R) (CP : claims_passed_on R).
Context (n0 : nat) (kj0 : keyjar) (db0 : dict (dict val)) (ck0 : ckeyjar).

Definition ckey_ok (x : string) (k : ckey) : Prop :=
  match k with
  | KPub p => client_key_right jwks_of F E O R kj0 x p
  | KSecret s => s = rg_secret R x
  end.

Definition keys_hold (ks : ckeyjar) : Prop := forall x k, In k (ckeys_of ks x) -> In k (ckeys_of ck0 x) \/ ckey_ok x k.

Lemma hold_from d x ks ks' : keys_hold ks -> keys_from (rg_keys R) d x ks ks' ->
  (forall p, key_in (rg_keys R) d p -> client_key_right jwks_of F E O R kj0 x p) -> keys_hold ks'.
Proof.
  intros H1 H2 H3 e k Hk. destruct (H2 e k Hk) as [Hk'|(-> & p & -> & Hp)]; [exact (H1 e k Hk')|]. right. exact (H3 p Hp).
Qed.

Lemma hold_secret b x ks : keys_hold ks -> keys_hold (with_secret R b x ks).
Proof.
  intros H. unfold with_secret. destruct (_ && _); [|exact H]. intros e k Hk. rewrite ckeys_add in Hk. apply in_app_or in Hk.
  destruct Hk as [Hk|Hk]; [exact (H e k Hk)|]. destruct (String.eqb_spec e x) as [->|N]; [|destruct Hk].
  destruct Hk as [<-|[]]. right. reflexivity.
Qed.

(** what is registered has no other keys than the metadata *)
Lemma accepted_key id md req new_id reserved s rid req' p :
  accepted_request O R (dset "client_id" (VStr id) (request_of md)) req -> identified R new_id reserved s req rid req' ->
  NoDup (dkeys req') -> key_in (rg_keys R) req' p -> key_in (rg_keys R) md p.
Proof.
  intros A ID ND (v & Hv).
  assert (G : forall x, In x ["jwks"; "jwks_uri"; "redirect_uris"] -> In (x, v) req' -> In (x, v) md).
  { intros x Hx Hin. apply request_in. assert (Ne : x <> "client_id") by (intros ->; simpl in Hx; intuition discriminate).
    apply (In_dget_nodup _ _ _ _ ND) in Hin. rewrite (identified_get _ _ _ _ _ _ _ _ ID Ne) in Hin.
    destruct (accepted_get _ _ _ _ A (NoDup_dset _ _ _ _ (request_nodup md))) as [_ G']. specialize (G' x).
    assert (P := CP x Hx). unfold passed_on in P. rewrite P in G'. rewrite dget_dset_other in G' by exact Ne.
    destruct (dget x (request_of md)) as [w|]; [|congruence]. destruct (rg_blank R w); congruence. }
  exists v. destruct Hv as [[H1 H2]|[H1 H2]]; [left|right]; (split; [apply G; [simpl; tauto|exact H1]|exact H2]).
Qed.

Lemma knock_keys_with Fl new automatic fuel m provided s s' v : In m F ->
  (forall f1 c rest, chains_for E O fuel (m_id m) provided (a_fed s) = (f1, Ok (c :: rest)) ->
     exists rt, usable jwks_of F E kj0 (m_id m) rt /\ adjusted O jwks_of F E (m_id m) rt (ch_md c)) ->
  keys_hold (r_keys (a_reg s)) -> client_authentication E O fuel R Fl new automatic (m_id m) provided s = (s', v) ->
  keys_hold (r_keys (a_reg s')).
Proof.
  intros Hm HC K Eq.
  destruct (authentication_cases _ _ _ _ _ _ _ _ _ _ _ _ Eq) as [(_ & -> & _)|[(_ & _ & -> & _)|(_ & _ & s1 & r & AE & X)]]; [exact K..|].
  set (f0 := forget Fl (m_id m) s) in *.
  assert (EF : a_fed f0 = a_fed s) by (unfold f0, forget; destruct (dget (m_id m) (r_cdb (a_reg s))); reflexivity).
  assert (EK0 : r_keys (a_reg f0) = r_keys (a_reg s)) by (unfold f0, forget; destruct (dget (m_id m) (r_cdb (a_reg s))); reflexivity).
  inversion AE as [f1 r0 e EC _ E1 E2|f1 c rest e EC E1 E2|f1 c rest md k1 r2 o r0 EC EM EK E2 An E3 E4]; subst; rewrite EF in EC.
  - destruct X as [-> _]. cbn [a_reg]. rewrite EK0. exact K.
  - destruct X as [-> _]. cbn [a_reg]. rewrite EK0. exact K.
  - destruct (HC _ _ _ EC) as (rt & U & Ad).
    assert (Hd := chain_claims c _ md EM).
    assert (Right : forall x p, (x = m_id m \/ exists taken, x = rg_newid R taken) -> key_in (rg_keys R) md p ->
              client_key_right jwks_of F E O R kj0 x p).
    { intros x p Hx Hp. exists m, Fl, rt, (ch_md c), md. auto 10. }
    assert (K1 : keys_hold k1).
    { assert (Kf : keys_from (rg_keys R) md (m_id m) (r_keys (a_reg f0)) k1).
      { replace k1 with (fst (keys_by R Fl md (m_id m) (r_keys (a_reg f0)))) by (rewrite EK; reflexivity).
        destruct Fl; cbn [keys_by]; [apply get_keys_from; exact HN|apply import_from..]. }
      rewrite EK0 in Kf. apply (hold_from _ _ _ _ K Kf). intros p Hp. apply Right; auto. }
    assert (K2 : keys_hold (r_keys r2)).
    { destruct (step2_end _ _ _ _ _ _ _ _ _ E2) as [_ RE].
      inversion RE as [x0 ND|req id req' x0 ND Ac ID|req id req' ci kj Ac ID CI IK]; subst; cbn [r_keys] in *; [exact K1..|].
      apply hold_secret. replace kj with (fst (import_client_keys (rg_keys R) req' id k1)) by (rewrite IK; reflexivity).
      apply (hold_from _ _ _ _ K1 (import_from _ _ _ _)). intros p Hp.
      assert (ND : NoDup (dkeys req')).
      { eapply identified_nodup; [exact ID|]. exact (proj1 (accepted_get _ _ _ _ Ac (NoDup_dset _ _ _ _ (request_nodup md)))). }
      apply Right; [|exact (accepted_key _ _ _ _ _ _ _ _ _ Ac ID ND Hp)].
      unfold identified in ID. destruct (makes_id Fl new); [right; eexists; exact (proj1 ID)|]. left.
      destruct ID as (D & _ & _).
      destruct (accepted_get _ _ _ _ Ac (NoDup_dset _ _ _ _ (request_nodup md))) as [_ G']. specialize (G' "client_id").
      assert (P := PC). unfold passed_on in P. rewrite P, dget_dset_same in G'. destruct (rg_blank R (VStr (m_id m))); congruence. }
    destruct r as [[rid|]|e].
    + destruct X as (ci0 & [[D0 [_ ->]]|D0]); [exact K2|].
      exfalso. destruct o as [|args]; cbn [ClientFacts.answer] in An; [discriminate An|].
      destruct (step2_entry _ _ _ _ _ _ _ _ _ KI E2) as (rid' & ci' & ci1 & D1' & Edb). rewrite D1' in An. injection An as ->.
      cbn [a_reg] in D0. rewrite Edb, dget_dset_same in D0. discriminate D0.
    + destruct X as [-> _]. exact K2.
    + destruct X as [-> _]. exact K2.
Qed.

Lemma knock_keys Fl new automatic fuel m s : In m F -> rank (m_id m) < fuel ->
  ClientsRightProps.holds jwks_of F E O R n0 kj0 db0 s -> keys_hold (r_keys (a_reg s)) ->
  keys_hold (r_keys (a_reg (do_visit E O R s (Knock Fl new automatic fuel (m_id m))))).
Proof.
  intros Hm Hf (V & S & _) K. cbn [do_visit].
  destruct (client_authentication E O fuel R Fl new automatic (m_id m) [] s) as [s' v] eqn:Eq. cbn [fst].
  refine (knock_keys_with Fl new automatic fuel m [] s s' v Hm _ K Eq). intros f1 c rest EC.
  destruct (fed_looked jwks_of F E rank L HR HU O _ _ fuel m _ _ _ Hm Hf V S EC) as (_ & _ & A). specialize (A _ eq_refl).
  destruct A as (_ & A2 & _). destruct (A2 c (or_introl eq_refl)) as (rt & U & _ & Ad). exists rt. auto.
Qed.

Lemma visits_keys vs : forall s, by_members F rank vs -> ClientsRightProps.holds jwks_of F E O R n0 kj0 db0 s ->
  keys_hold (r_keys (a_reg s)) -> keys_hold (r_keys (a_reg (after_visits E O R vs s))).
Proof.
  unfold after_visits. induction vs as [|v vs IH]; intros s A H K; [exact K|]. cbn [fold_left]. apply IH.
  - intros v' Hv. apply A. right. exact Hv.
  - exact (visited_right jwks_of F E rank L HR HU O R KI PC n0 kj0 db0 v s (A v (or_introl eq_refl)) H).
  - assert (Av := A v (or_introl eq_refl)). destruct v as [st|Fl new automatic fuel id]; [exact K|].
    destruct Av as [(m & Hm & <-) Hf]. exact (knock_keys Fl new automatic fuel m s Hm Hf H K).
Qed.
End Server.

(** ** C198: whatever fails and however time passes, no client is given keys that are not its own *)

Theorem C198_only_right_keys : forall jwks_of F E O R rank s0 vs,
  library_shaky jwks_of F E -> hierarchy F rank -> all_checkable jwks_of F E -> keeps_id R -> passed_on R "client_id" ->
  no_keys_in_nothing R -> claims_passed_on R ->
  newborn (a_fed s0) -> right_keys F (f_keys (a_fed s0)) -> by_members F rank vs ->
  forall x k, In k (ckeys_of (r_keys (a_reg (after_visits E O R vs s0))) x) ->
  In k (ckeys_of (r_keys (a_reg s0)) x) \/
  match k with
  | KPub p => client_key_right jwks_of F E O R (f_keys (a_fed s0)) x p
  | KSecret s => s = rg_secret R x
  end.
Proof.
  intros jwks_of F E O R rank s0 vs L HR HU KI PC HN CP HB Hk HA.
  refine (visits_keys jwks_of F E rank L HR HU O R KI PC HN CP (st_tick (f_col (a_fed s0))) (f_keys (a_fed s0)) (r_cdb (a_reg s0))
    (r_keys (a_reg s0)) vs s0 HA _ _).
  - split; [exact (living_start jwks_of F E _ HB Hk)|]. split; [|intros x ci D; left; exact D].
    intros x cs Hx D. rewrite (proj2 (proj2 HB)) in D. discriminate D.
  - intros x k H. left. exact H.
Qed.
Print Assumptions C198_only_right_keys.

(** Under the name of a member there are no keys but those in its own metadata, if no client was given its name. *)
Theorem C198_own_keys : forall jwks_of F E O R rank s0 vs m p,
  library_shaky jwks_of F E -> hierarchy F rank -> all_checkable jwks_of F E -> keeps_id R -> passed_on R "client_id" ->
  no_keys_in_nothing R -> claims_passed_on R ->
  newborn (a_fed s0) -> right_keys F (f_keys (a_fed s0)) -> by_members F rank vs ->
  In m F -> (forall taken, rg_newid R taken <> m_id m) -> ckeys_of (r_keys (a_reg s0)) (m_id m) = [] ->
  In (KPub p) (ckeys_of (r_keys (a_reg (after_visits E O R vs s0))) (m_id m)) ->
  exists Fl rt md d, usable jwks_of F E (f_keys (a_fed s0)) (m_id m) rt /\ adjusted O jwks_of F E (m_id m) rt md /\
    claims_for md (kind_of Fl) d /\ key_in (rg_keys R) d p.
Proof.
  intros jwks_of F E O R rank s0 vs m p L HR HU KI PC HN CP HB Hk HA Hm Hid H0 H.
  destruct (C198_only_right_keys jwks_of F E O R rank s0 vs L HR HU KI PC HN CP HB Hk HA _ _ H) as [H'|(m' & Fl & rt & md & d & _ & U & Ad & C & Ki & Hx)].
  - rewrite H0 in H'. destruct H'.
  - destruct Hx as [Hx|[t Hx]]; [|destruct (Hid t); symmetry; exact Hx]. rewrite <- Hx in U, Ad. exists Fl, rt, md, d. auto.
Qed.
Print Assumptions C198_own_keys.

(** ** The keys of a client that is let in are there *)

(** the keys that metadata come with *)
Definition comes_with (K : key_sources) (d : dict val) (ks : list key) : Prop :=
  exists v, dget "signed_jwks_uri" d = None /\ dget "jwks_uri" d = None /\ dget "jwks" d = Some v /\ truthy v = true /\ ks_jwks K v = Ok ks.

Lemma import_has K d x kj ks : comes_with K d ks ->
  exists kj', import_client_keys K d x kj = (kj', Ok tt) /\ forall p, In p ks -> In (KPub p) (ckeys_of kj' x).
Proof.
  intros (v & H1 & H2 & H3 & Hv & H4). unfold import_client_keys, field. rewrite H1, H2, H3, Hv, H4. cbn [truthy].
  eexists. split; [reflexivity|]. intros p Hp. rewrite ckeys_add, String.eqb_refl. apply in_or_app. right. exact (in_map KPub _ _ Hp).
Qed.

Lemma get_keys_has K d x kj ks : comes_with K d ks ->
  exists kj', get_keys K d x kj = (kj', Ok tt) /\ forall p, In p ks -> In (KPub p) (ckeys_of kj' x).
Proof.
  intros (v & H1 & H2 & H3 & Hv & H4). unfold get_keys, field. rewrite H1, H2, H3, H4. cbn [truthy].
  eexists. split; [reflexivity|]. intros p Hp. rewrite ckeys_add, String.eqb_refl. apply in_or_app. right. exact (in_map KPub _ _ Hp).
Qed.

Lemma add_more x l kj e k : In k (ckeys_of kj e) -> In k (ckeys_of (add_ckeys x l kj) e).
Proof. intros H. rewrite ckeys_add. apply in_or_app. left. exact H. Qed.

Lemma import_more K d x kj e k : In k (ckeys_of kj e) -> In k (ckeys_of (fst (import_client_keys K d x kj)) e).
Proof.
  intros H. unfold import_client_keys. destruct (truthy _); [exact H|]. destruct (truthy _); [apply add_more; exact H|].
  destruct (truthy _); [|exact H]. destruct (ks_jwks K _); [apply add_more|]; exact H.
Qed.

Lemma secret_more R b x kj e k : In k (ckeys_of kj e) -> In k (ckeys_of (with_secret R b x kj) e).
Proof. intros H. unfold with_secret. destruct (_ && _); [apply add_more|]; exact H. Qed.

Lemma dget_request md x : NoDup (dkeys md) -> dget x (request_of md) = dget x md.
Proof. intros N. unfold request_of. rewrite dget_dupdate by exact N. destruct (dget x md); reflexivity. Qed.

(** A member that is let in because it was registered just now can be recognised by the keys its metadata come with, under its name and
    under the identifier it was given. *)
Theorem C198_has_keys : forall jwks_of F E O R rank s0 vs Fl new automatic fuel m s' rid,
  library_shaky jwks_of F E -> hierarchy F rank -> all_checkable jwks_of F E -> keeps_id R -> passed_on R "client_id" -> claims_passed_on R ->
  newborn (a_fed s0) -> right_keys F (f_keys (a_fed s0)) -> by_members F rank vs -> In m F -> rank (m_id m) < fuel ->
  registers Fl (m_id m) (after_visits E O R vs s0) ->
  client_authentication E O fuel R Fl new automatic (m_id m) [] (after_visits E O R vs s0) = (s', Ok (Use rid)) ->
  exists rt md d, usable jwks_of F E (f_keys (a_fed s0)) (m_id m) rt /\ adjusted O jwks_of F E (m_id m) rt md /\
    claims_for md (kind_of Fl) d /\
    forall ks p, NoDup (dkeys d) -> (forall v, dget "jwks" d = Some v -> rg_blank R v = false) -> comes_with (rg_keys R) d ks -> In p ks ->
    In (KPub p) (ckeys_of (r_keys (a_reg s')) (m_id m)) /\ In (KPub p) (ckeys_of (r_keys (a_reg s')) rid).
Proof.
  intros jwks_of F E O R rank s0 vs Fl new automatic fuel m s' rid L HR HU KI PC CP HB Hk HA Hm Hf RG H.
  destruct (visits_right jwks_of F E rank L HR HU O R KI PC (st_tick (f_col (a_fed s0))) (f_keys (a_fed s0)) (r_cdb (a_reg s0)) vs s0 HA) as (V & S & _).
  { split; [exact (living_start jwks_of F E _ HB Hk)|]. split; [|intros x ci D; left; exact D].
    intros x cs Hx D. rewrite (proj2 (proj2 HB)) in D. discriminate D. }
  set (s := after_visits E O R vs s0) in *.
  destruct (authentication_cases _ _ _ _ _ _ _ _ _ _ _ _ H) as [(NR & _)|[(_ & _ & _ & X)|(_ & -> & s1 & r & AE & X)]];
    [destruct (NR RG) | discriminate X |].
  assert (EF : a_fed (forget Fl (m_id m) s) = a_fed s) by (unfold forget; destruct (dget (m_id m) (r_cdb (a_reg s))); reflexivity).
  destruct r as [[rid'|]|e]; [|destruct X as [_ X]; discriminate X | destruct X as [_ X]; discriminate X].
  inversion AE as [f1 r0 e EC _ E1 E2|f1 c rest e EC E1 E2|f1 c rest md k1 r2 o r0 EC EM EK E2 An E3 E4]; subst; rewrite EF in EC.
  destruct (fed_looked jwks_of F E rank L HR HU O _ _ fuel m _ _ _ Hm Hf V S EC) as (_ & _ & A). specialize (A _ eq_refl).
  destruct A as (_ & A2 & _). destruct (A2 c (or_introl eq_refl)) as (rt & U & _ & Ad).
  exists rt, (ch_md c), md. split; [exact U|]. split; [exact Ad|]. split; [exact (chain_claims c _ md EM)|].
  intros ks p ND HBk CW Hp.
  destruct o as [|args]; cbn [ClientFacts.answer] in An; [discriminate An|].
  destruct (step2_done _ _ _ _ _ _ _ _ _ E2) as (req & id & req' & ci & kj & Ac & ID & CI & IK & Es & Ea).
  destruct (step2_entry _ _ _ _ _ _ _ _ _ KI E2) as (id' & ci' & ci1 & D1 & Edb). rewrite D1 in An. injection An as ->.
  assert (Hrid : id' = id).
  { assert (D2 := D1). rewrite Ea, KI in D2.
    assert (NR := identified_nodup _ _ _ _ _ _ _ ID (filter_nodup _ _ _ _ (proj2 Ac))).
    rewrite (client_info_get _ _ _ _ "client_id" CI) in D2 by (simpl; intuition discriminate).
    rewrite base_info_get in D2 by exact NR. cbn [smem ignored existsb] in D2. rewrite first_entry_id in D2.
    unfold identified in ID. destruct (makes_id Fl new).
    - destruct ID as [_ ->]. rewrite dget_ddel_same in D2; injection D2 as D2; symmetry; exact D2.
    - destruct ID as (D & _ & ->). rewrite D in D2; injection D2 as D2; symmetry; exact D2. }
  subst id'. destruct X as (ci0 & [[_ [[= ->] ->]]|D0]); [|exfalso; cbn [a_reg] in D0; rewrite Edb, dget_dset_same in D0; discriminate D0].
  cbn [a_reg r_keys]. rewrite Es. cbn [r_keys].
  assert (CW' : comes_with (rg_keys R) req' ks).
  { destruct CW as (v & H1 & H2 & H3 & Hv & H4). exists v.
    assert (G : forall x, In x ["signed_jwks_uri"; "jwks_uri"; "jwks"] -> (x <> "signed_jwks_uri" -> passed_on R x) ->
                (forall w, dget x md = Some w -> rg_blank R w = false) -> (x = "signed_jwks_uri" -> dget x md = None) ->
                dget x req' = dget x md).
    { intros x Hx Px Hb Hs. assert (Ne : x <> "client_id") by (intros ->; simpl in Hx; intuition discriminate).
      rewrite (identified_get _ _ _ _ _ _ _ _ ID Ne).
      destruct (accepted_get _ _ _ _ Ac (NoDup_dset _ _ _ _ (request_nodup md))) as [_ G']. specialize (G' x).
      rewrite dget_dset_other in G' by exact Ne. rewrite (dget_request _ _ ND) in G'.
      destruct (dget x md) as [w|] eqn:Ew; [|exact G']. rewrite (Hb w eq_refl) in G'.
      destruct (string_dec x "signed_jwks_uri") as [Ex|Ex]; [specialize (Hs Ex); discriminate Hs|].
      specialize (Px Ex). unfold passed_on in Px. rewrite Px in G'. exact G'. }
    assert (G1 : dget "signed_jwks_uri" req' = None).
    { rewrite <- H1. apply G; [simpl; tauto|intros Z; destruct (Z eq_refl)|intros w Hw; rewrite H1 in Hw; discriminate Hw|intros _; exact H1]. }
    assert (G2 : dget "jwks_uri" req' = None).
    { rewrite <- H2. apply G; [simpl; tauto|intros _; apply CP; simpl; tauto|intros w Hw; rewrite H2 in Hw; discriminate Hw|intros Z; discriminate Z]. }
    assert (G3 : dget "jwks" req' = Some v).
    { rewrite <- H3. apply G; [simpl; tauto|intros _; apply CP; simpl; tauto|exact HBk|intros Z; discriminate Z]. }
    auto. }
  destruct (import_has (rg_keys R) req' id k1 ks CW') as (kj' & IK' & Hkj). cbn [r_keys] in IK. rewrite IK in IK'. injection IK' as <-.
  split; [|apply secret_more; exact (Hkj p Hp)].
  apply secret_more. replace kj with (fst (import_client_keys (rg_keys R) req' id k1)) by (rewrite IK; reflexivity).
  apply import_more.
  destruct Fl; cbn [keys_by] in EK;
    [destruct (get_keys_has (rg_keys R) md (m_id m) (r_keys (a_reg (forget OIDC (m_id m) s))) ks CW) as (kk & EK' & Hkk)
    |destruct (import_has (rg_keys R) md (m_id m) (r_keys (a_reg (forget OAuth (m_id m) s))) ks CW) as (kk & EK' & Hkk)
    |destruct (import_has (rg_keys R) md (m_id m) (r_keys (a_reg (forget PAR (m_id m) s))) ks CW) as (kk & EK' & Hkk)];
    rewrite EK in EK'; injection EK' as <-; exact (Hkk p Hp).
Qed.
Print Assumptions C198_has_keys.

(** The federation of C175, with a server that reads the keys of its clients. *)
Lemma web_keeps_id : keeps_id web_reg.
Proof.
  intros ci. cbn [web_reg rg_comb rg_response].
  exact (dget_filter_key (fun k => smem k ["client_id"; "redirect_uris"]) "client_id" ci).
Qed.

Example C198_ex : library_shaky ex_jwks v_fed cr_env /\ all_checkable ex_jwks v_fed cr_env /\ by_members v_fed v_rank cr_visits /\
  keeps_id web_reg /\ passed_on web_reg "client_id" /\ no_keys_in_nothing web_reg /\ claims_passed_on web_reg /\
  (forall taken, rg_newid web_reg taken <> "rp") /\
  (* no keys as long as the requests fail, then those in the metadata of rp *)
  ckeys_of (r_keys (a_reg (after_visits cr_env id_order web_reg (firstn 3 cr_visits) v_server))) "rp" = [] /\
  (exists s', client_authentication cr_env id_order 2 web_reg OIDC false true "rp" [] (after_visits cr_env id_order web_reg (firstn 3 cr_visits) v_server)
     = (s', Ok (Use "rp")) /\ ckeys_of (r_keys (a_reg s')) "rp" = [KPub 4; KPub 4]) /\
  (* under an identifier that was made for it, too *)
  exists s', client_authentication cr_env id_order 2 web_reg OIDC true true "rp" [] (after_visits cr_env id_order web_reg (firstn 3 cr_visits) v_server)
     = (s', Ok (Use "client1")) /\ ckeys_of (r_keys (a_reg s')) "client1" = [KPub 4].
Proof.
  split; [exact cr_shaky|]. split; [exact cr_checkable|]. split; [exact (proj1 (proj2 (proj2 C175_ex)))|].
  split; [exact web_keeps_id|]. split; [reflexivity|]. split; [exact web_nothing|]. split; [exact web_passes|].
  split; [intros t H; discriminate H|]. split; [vm_compute; reflexivity|].
  split; eexists; split; vm_compute; reflexivity.
Qed.
