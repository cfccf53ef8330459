(** A relying party in a federation whose requests fail while time passes (C178). *)
From Verif Require Import PyFacts ExampleKit CollectorProps FederationProps.
From Verif Require Import ClientFacts ClientProps ChainsSpec ChainsProps.
From Verif Require Import RpSpec RpFacts RpProps RpUseProps LiveExample LiveResolveProps LiveRegisterProps LiveLoginProps ClientsRightProps.
From Verif Require Export MotionLive.
From Coq Require Import Lia.

(** ** What a relying party does *)
Inductive turn :=
| Along (st : step)                              (* the federation part is used for something else *)
| Discover (fuel : nat) (prio : list string)     (* do_provider_info *)
| Begin (state : string).                        (* init_authorization *)

Definition do_turn (E : cenv) (O : iter_order) (K : key_sources) (s : rp) (t : turn) : rp :=
  match t with
  | Along st => mkRp (do_step E O (p_fed s) st) (p_keys s) (p_info s) (p_issuer s) (p_store s) (p_asked s)
  | Discover fuel prio => fst (do_provider_info E O fuel K prio s)
  | Begin state => fst (init_authorization state s)
  end.

Definition after_turns (E : cenv) (O : iter_order) (K : key_sources) (ts : list turn) (s : rp) : rp := fold_left (do_turn E O K) ts s.

(** only members are asked about, and Python's recursion limit is not in the way; [op] is the provider in use *)
Definition turns_about (F : list member) (rank : string -> nat) (op : string) (ts : list turn) : Prop :=
  forall t, In t ts ->
  match t with
  | Along (Look fuel id) | Along (RevokeSpec.Ask fuel id) => (exists m, In m F /\ m_id m = id) /\ rank id < fuel
  | Along Wait | Begin _ => True
  | Discover fuel _ => rank op < fuel
  end.

(** [d] is what the policies along a way from [id] up to somebody whose keys are in [kj] make of what [id] says as an OP *)
Definition provider_right (jwks_of : val -> option (list key)) (F : list member) (E : cenv) (O : iter_order) (kj : keyjar) (id : string)
    (d : dict val) : Prop :=
  exists rt md, usable jwks_of F E kj id rt /\ adjusted O jwks_of F E id rt md /\ claims_for md "openid_provider" d.

(** whatever of these is used, the issuer in it is [id] (C162: so it is for an OP that runs this library, unless a policy says otherwise) *)
Definition calls_itself (jwks_of : val -> option (list key)) (F : list member) (E : cenv) (O : iter_order) (kj : keyjar) (id : string) : Prop :=
  forall d, provider_right jwks_of F E O kj id d -> dget "issuer" d = Some (VStr id).

(** [c] runs along such a way and has the metadata that the policies leave *)
Definition chain_right (jwks_of : val -> option (list key)) (F : list member) (E : cenv) (O : iter_order) (kj : keyjar) (id : string)
    (c : tchain) : Prop :=
  exists rt, usable jwks_of F E kj id rt /\ runs_along c id rt /\ adjusted O jwks_of F E id rt (ch_md c).

Lemma import_given_any K d iss kj kj' r : import_keys K d iss kj = (kj', r) ->
  forall e x, In x (ckeys_of kj' e) -> In x (ckeys_of kj e) \/ (e = iss /\ exists k, x = KPub k /\ key_given K d k).
Proof.
  intros Ei e x Hx. destruct (string_dec e iss) as [->|N].
  2:{ left. unfold ckeys_of in *. rewrite <- (import_keys_other _ _ _ e _ _ _ Ei N). exact Hx. }
  unfold import_keys, dmem, field in Ei. destruct (dget "jwks_uri" d) as [v|] eqn:D1; [|destruct (dget "jwks" d) as [v|] eqn:D2].
  - injection Ei as <- _. rewrite ckeys_add, String.eqb_refl in Hx. apply in_app_or in Hx. destruct Hx as [Hx|Hx]; [left; exact Hx|right].
    split; [reflexivity|]. destruct (truthy v) eqn:Tv; [|destruct Hx]. apply in_map_iff in Hx. destruct Hx as (k & <- & Hk).
    exists k. split; [reflexivity|]. left. exists v. auto.
  - destruct (truthy v) eqn:Tv.
    + destruct (ks_jwks K v) as [ks|y] eqn:Hk; injection Ei as <- _; rewrite ckeys_add, String.eqb_refl in Hx; apply in_app_or in Hx;
        destruct Hx as [Hx|Hx]; try (left; exact Hx); [|destruct Hx]. right. split; [reflexivity|].
      apply in_map_iff in Hx. destruct Hx as (k & <- & Ik). exists k. split; [reflexivity|]. right. split; [exact D1|]. exists v, ks. auto.
    + injection Ei as <- _. rewrite ckeys_add, String.eqb_refl in Hx. apply in_app_or in Hx. destruct Hx as [Hx|[]]. left. exact Hx.
  - injection Ei as <- _. left. exact Hx.
Qed.

(** picked from the store, it is in the store *)
Lemma stored_entry prio d id c : pick_from_stored_trust_chains prio d id = Ok c -> exists a, entry d id a = Some c.
Proof.
  unfold pick_from_stored_trust_chains, dindex, entry. destruct (dget id d) as [m|]; [|discriminate]. cbn [bind].
  assert (X : forall a, match dget a m with Some v => Ok v | None => Err KeyError end = Ok c -> exists a, dget a m = Some c).
  { intros a. destruct (dget a m) as [v|] eqn:Ea; [|discriminate]. intros [= <-]. eauto. }
  destruct (dkeys m) as [|ta [|tb tas]]; [discriminate|apply X|]. destruct (stored_loop prio (ta :: tb :: tas)); apply X.
Qed.

Section Party.
Context (jwks_of : val -> option (list key)) (F : list member) (E : cenv) (rank : string -> nat).
Context (L : library_shaky jwks_of F E) (HR : hierarchy F rank) (HU : all_checkable jwks_of F E).
Context (O : iter_order) (K : key_sources) (m : member) (Hm : In m F).
Context (n0 : nat) (kj0 : keyjar) (CI : calls_itself jwks_of F E O kj0 (m_id m)).
Context (k0 : ckeyjar) (st0 : option chain_store).
Notation N0 := (library_net jwks_of F (e_clock E) 0).
Notation E0 := (freeze N0 E).
Let L0 := ls_run jwks_of F E L.

Definition old_entry (e a : string) (c : tchain) : Prop := exists d0, st0 = Some d0 /\ entry d0 e a = Some c.

Definition keys_fine (kj : ckeyjar) : Prop := forall e x, In x (ckeys_of kj e) ->
  In x (ckeys_of k0 e) \/ (e = m_id m /\ exists d k, provider_right jwks_of F E O kj0 (m_id m) d /\ x = KPub k /\ key_given K d k).

Definition store_fine (st : option chain_store) : Prop := forall d e a c, st = Some d -> entry d e a = Some c ->
  old_entry e a c \/ (e = m_id m /\ a = ch_anchor c /\ chain_right jwks_of F E O kj0 (m_id m) c).

Definition info_fine (s : rp) : Prop :=
  only_knows s (m_id m) \/ (p_issuer s = m_id m /\ provider_right jwks_of F E O kj0 (m_id m) (p_info s)).

Definition sound_rp (s : rp) : Prop :=
  living jwks_of F E n0 kj0 (p_fed s) /\ info_fine s /\ keys_fine (p_keys s) /\ store_fine (p_store s).

(** the chains that are found are right, and about the OP *)
Lemma looked_paths fuel s s' cs : rank (m_id m) < fuel -> living jwks_of F E n0 kj0 s ->
  get_verified_trust_chains E O fuel (m_id m) s = (s', Ok cs) ->
  forall c, In c cs -> about c (m_id m) /\ chain_right jwks_of F E O kj0 (m_id m) c.
Proof.
  intros Hf V H c Hc. split.
  - destruct (looked jwks_of F E rank L HR HU n0 kj0 O fuel m s s' (Ok cs) Hm Hf V H) as (_ & _ & [[_ X]|[(_ & x & _ & X)|(s1 & r0 & G & X)]]);
      [discriminate X..|]. destruct r0 as [cs0|x]; [|discriminate X]. cbn in X. injection X as X.
    apply (in_map cck) in Hc. rewrite X in Hc. apply in_map_iff in Hc. destruct Hc as (c0 & Ec & Hc).
    assert (J := right_jar jwks_of F E0 L0 m _ Hm (proj1 (proj2 V))).
    assert (VS : visited E0 (f_col (fresh_start (f_keys s)))) by constructor.
    destruct (chain_path jwks_of F E0 rank L0 HR O fuel m (fresh_start (f_keys s)) s1 cs0 c0 Hm Hf VS J (HU m Hm) G Hc) as (rt & _ & _ & _ & Hi).
    exists rt. rewrite <- Hi. unfold cck, tck in Ec. congruence.
  - destruct (looked_should jwks_of F E rank L HR HU n0 kj0 O fuel m s s' (Ok cs) Hm Hf V H) as [(_ & A & _)|[(_ & x & _ & X)|[_ X]]];
      [exact (A c Hc)|discriminate X..].
Qed.

Lemma save_fine st cs d : store_fine st -> (forall c, In c cs -> about c (m_id m) /\ chain_right jwks_of F E O kj0 (m_id m) c) ->
  save_trust_chains st cs = Ok d -> store_fine (Some d).
Proof.
  intros S A H d' e a c [= <-] D. assert (OE : one_entity cs) by (exists (m_id m); intros x Hx; exact (proj1 (A x Hx))).
  destruct (save_entry cs st d OE H) as [_ G].
  destruct (G e a) as [G1 G2]. clear G.
  destruct (string_dec e (m_id m)) as [->|N].
  - destruct (dget a (chains2dict cs)) as [c'|] eqn:Ec.
    + apply C38_shortest_per_anchor in Ec. assert (B := best_in _ _ _ Ec). rewrite (G1 c' Ec (proj1 (A c' (proj1 B)))) in D. injection D as <-.
      right. split; [reflexivity|]. split; [symmetry; exact (proj2 B)|]. exact (proj2 (A c' (proj1 B))).
    + rewrite G2 in D.
      * destruct st as [d0|]; [|discriminate D]. exact (S d0 _ _ _ eq_refl D).
      * intros c' Hc Ha _. assert (X : dget a (chains2dict cs) <> None).
        { assert (Y : In a (dkeys (chains2dict cs))) by (apply (C38_no_other_anchor cs a); exists c'; auto).
          apply key_In_dget in Y. destruct Y as [y Y]. congruence. }
        contradiction.
  - rewrite G2 in D.
    + destruct st as [d0|]; [|discriminate D]. exact (S d0 _ _ _ eq_refl D).
    + intros c' Hc _ B. apply N. exact (about_unique _ _ _ B (proj1 (A c' Hc))).
Qed.

(** asking for the metadata of the OP *)
Lemma collected fuel prio s s' r : rank (m_id m) < fuel -> p_issuer s = m_id m -> sound_rp s ->
  collect_metadata E O fuel K prio s = (s', r) ->
  sound_rp s' /\ p_issuer s' = m_id m /\ forall d, r = Ok d -> p_info s' = d /\ provider_right jwks_of F E O kj0 (m_id m) d.
Proof.
  intros Hf Hi (V & I & Hk & S) H. unfold collect_metadata in H. unfold mbind at 1, StateM.get at 1 in H. unfold mbind at 1, rp_fed in H.
  rewrite Hi in H. destruct (get_verified_trust_chains E O fuel (m_id m) (p_fed s)) as [f r1] eqn:G.
  destruct (looked jwks_of F E rank L HR HU n0 kj0 O fuel m _ _ _ Hm Hf V G) as (V1 & _ & _).
  assert (Same : forall kj st, keys_fine kj -> store_fine st -> sound_rp (mkRp f kj (p_info s) (m_id m) st (p_asked s))).
  { intros kj st K1 S1. split; [exact V1|]. split; [|split; assumption]. destruct I as [[[I1 I2]|I1]|[I1 I2]].
    - left. left. auto.
    - left. right. exact I1.
    - right. auto. }
  assert (Stop : forall kj st x, keys_fine kj -> store_fine st -> (mkRp f kj (p_info s) (m_id m) st (p_asked s), Err x) = (s', r) ->
     sound_rp s' /\ p_issuer s' = m_id m /\ forall d, r = Ok d -> p_info s' = d /\ provider_right jwks_of F E O kj0 (m_id m) d).
  { intros kj st x K1 S1 [= <- <-]. split; [apply Same; assumption|]. split; [reflexivity|discriminate]. }
  destruct r1 as [cs|x]; [|exact (Stop _ _ _ Hk S H)].
  assert (A := looked_paths fuel _ _ _ Hf V G).
  destruct (is_nil cs) eqn:En; [exact (Stop _ _ _ Hk S H)|].
  unfold mbind at 1, lift at 1 in H. destruct (save_trust_chains (p_store s) cs) as [d|x] eqn:Es; [|exact (Stop _ _ _ Hk S H)].
  assert (S1 := save_fine _ _ _ S A Es).
  unfold mbind, modify, lift in H. cbn [p_fed p_keys p_info p_issuer p_store p_asked] in H.
  destruct (pick_trust_chain prio cs) as [c|x] eqn:Ep; [|exact (Stop _ _ _ Hk S1 H)].
  destruct (chain_metadata c "openid_provider") as [info|x] eqn:Em; [|exact (Stop _ _ _ Hk S1 H)].
  destruct (A c (pick_In _ _ _ Ep)) as [_ (rt & U & _ & Ad)].
  assert (PR : provider_right jwks_of F E O kj0 (m_id m) info) by (exists rt, (ch_md c); split; [exact U|]; split; [exact Ad|exact (chain_claims _ _ _ Em)]).
  unfold dindex in H. rewrite (CI info PR) in H. cbn [bind p_issuer p_info p_fed p_keys p_store p_asked] in H.
  destruct (import_keys K info (m_id m) (p_keys s)) as [kj r2] eqn:Ek.
  assert (K1 : keys_fine kj).
  { intros e x Hx. destruct (import_given_any _ _ _ _ _ _ Ek e x Hx) as [X|(-> & k & -> & X)]; [exact (Hk e x X)|right]. split; [reflexivity|].
    exists info, k. auto. }
  assert (Z : sound_rp (mkRp f kj info (m_id m) (Some d) (p_asked s))).
  { split; [exact V1|]. split; [right; auto|]. split; assumption. }
  destruct r2 as [[]|x]; unfold ret in H; injection H as <- <-; (split; [exact Z|]); (split; [reflexivity|]).
  - intros d' [= <-]. auto.
  - discriminate.
Qed.

Lemma info_issuer s : info_fine s -> provider_issuer s = VStr (m_id m).
Proof.
  unfold provider_issuer. intros [[[-> ->]| ->]|[_ I]]; [reflexivity..|]. rewrite (CI _ I). reflexivity.
Qed.

Lemma discovered fuel prio s s' r : rank (m_id m) < fuel -> sound_rp s -> do_provider_info E O fuel K prio s = (s', r) ->
  sound_rp s' /\ forall v, r = Ok v -> v = VStr (m_id m) /\ provider_right jwks_of F E O kj0 (m_id m) (p_info s').
Proof.
  intros Hf Hs H. unfold do_provider_info in H. unfold mbind at 1, StateM.get at 1 in H.
  assert (Go : forall s1, sound_rp s1 -> p_issuer s1 = m_id m ->
    (do _ <- collect_metadata E O fuel K prio in do s <- StateM.get in ret (provider_issuer s)) s1 = (s', r) ->
    sound_rp s' /\ forall v, r = Ok v -> v = VStr (m_id m) /\ provider_right jwks_of F E O kj0 (m_id m) (p_info s')).
  { intros s1 H1 H2 G. unfold mbind, StateM.get, ret in G. destruct (collect_metadata E O fuel K prio s1) as [s2 r2] eqn:Ec.
    destruct (collected fuel prio s1 s2 r2 Hf H2 H1 Ec) as (C1 & _ & C3).
    destruct r2 as [d|x]; injection G as <- <-; (split; [exact C1|]); [|discriminate].
    destruct (C3 d eq_refl) as [-> C4]. intros v [= <-]. split; [exact (info_issuer s2 (proj1 (proj2 C1)))|exact C4]. }
  destruct (p_info s) as [|[k v] l] eqn:Ei.
  - cbn [is_nil] in H. apply (Go s Hs); [|exact H]. destruct Hs as (_ & [[[_ I]|I]|[I _]] & _); [exact I|congruence|exact I].
  - cbn [is_nil] in H. destruct (bare_issuer ((k, v) :: l)) as [i|] eqn:Eb.
    + assert (i = m_id m).
      { unfold bare_issuer in Eb. destruct v as [| | |y| |]; try discriminate Eb. destruct l; [|discriminate Eb].
        destruct (String.eqb_spec k "issuer") as [->|]; [|discriminate Eb]. injection Eb as ->.
        destruct Hs as (_ & [[[I _]|I]|[_ I]] & _); [congruence|congruence|]. apply CI in I. rewrite Ei in I. cbn in I. congruence. }
      subst i. unfold mbind at 1 in H. unfold mbind at 1, modify in H.
      set (s1 := mkRp (p_fed s) (p_keys s) (p_info s) (m_id m) (p_store s) (p_asked s)) in *.
      assert (H1 : sound_rp s1).
      { destruct Hs as (V & I & K1 & S). split; [exact V|]. split; [|split; assumption]. destruct I as [[[I _]|I]|[_ I]]; unfold s1.
        - congruence.
        - left. right. exact I.
        - right. split; [reflexivity|exact I]. }
      exact (Go s1 H1 eq_refl H).
    + unfold mbind, ret in H. injection H as <- <-. split; [exact Hs|]. intros w [= <-]. rewrite (info_issuer s (proj1 (proj2 Hs))).
      split; [reflexivity|].
      destruct Hs as (_ & [[[I _]|I]|[_ I]] & _); [congruence| |exact I]. rewrite I in Ei. rewrite <- Ei in Eb. discriminate Eb.
Qed.

Lemma turned t s : match t with
    | Along (Look fuel id) | Along (RevokeSpec.Ask fuel id) => (exists x, In x F /\ m_id x = id) /\ rank id < fuel
    | Along Wait | Begin _ => True
    | Discover fuel _ => rank (m_id m) < fuel
    end -> sound_rp s -> sound_rp (do_turn E O K s t).
Proof.
  intros A H. destruct t as [st|fuel prio|state]; cbn [do_turn].
  - destruct H as (V & I & Hk & S). split; [|split; [exact I|split; assumption]].
    cbn [p_fed]. apply (living_step jwks_of F E rank L HR HU); [exact V|exact A].
  - destruct (do_provider_info E O fuel K prio s) as [s' r] eqn:Ed. exact (proj1 (discovered fuel prio s s' r A H Ed)).
  - destruct H as (V & I & Hk & S). split; [exact V|]. split; [exact I|]. split; assumption.
Qed.

Lemma turns_sound ts : forall s, sound_rp s -> turns_about F rank (m_id m) ts -> sound_rp (after_turns E O K ts s).
Proof.
  unfold after_turns. induction ts as [|t ts IH]; intros s H A; [exact H|]. cbn [fold_left]. apply IH.
  - exact (turned t s (A t (or_introl eq_refl)) H).
  - intros t' Hin. apply A. right. exact Hin.
Qed.
End Party.

Lemma sound_start jwks_of F E O K m s0 : newborn (p_fed s0) -> right_keys F (f_keys (p_fed s0)) -> only_knows s0 (m_id m) ->
  sound_rp jwks_of F E O K m (st_tick (f_col (p_fed s0))) (f_keys (p_fed s0)) (p_keys s0) (p_store s0) s0.
Proof.
  intros HB Hk Ho. split; [exact (living_start jwks_of F E _ HB Hk)|]. split; [left; exact Ho|]. split.
  - intros e x Hx. left. exact Hx.
  - intros d e a c D1 D2. left. exists d. auto.
Qed.

(** ** C178: whatever fails and however time passes, a relying party believes nothing wrong about its OP *)

(** While requests fail and time passes, a relying party that knows no more of its OP than the identifier has either learnt nothing
    about it, or what the policies along one of the OP's ways up to an anchor it holds keys of make of what the OP says; the keys it
    did not have before are filed for the OP and given there; so are the trust chains. *)
Theorem C178_only_right_metadata : forall jwks_of F E O K rank ts s0 m,
  library_shaky jwks_of F E -> hierarchy F rank -> all_checkable jwks_of F E -> In m F ->
  newborn (p_fed s0) -> right_keys F (f_keys (p_fed s0)) -> only_knows s0 (m_id m) ->
  calls_itself jwks_of F E O (f_keys (p_fed s0)) (m_id m) -> turns_about F rank (m_id m) ts ->
  let s := after_turns E O K ts s0 in
  let right := provider_right jwks_of F E O (f_keys (p_fed s0)) (m_id m) in
  (only_knows s (m_id m) \/ (p_issuer s = m_id m /\ right (p_info s))) /\
  (forall e x, In x (ckeys_of (p_keys s) e) ->
     In x (ckeys_of (p_keys s0) e) \/ (e = m_id m /\ exists d k, right d /\ x = KPub k /\ key_given K d k)) /\
  (forall d e a c, p_store s = Some d -> entry d e a = Some c ->
     (exists d0, p_store s0 = Some d0 /\ entry d0 e a = Some c) \/
     (e = m_id m /\ a = ch_anchor c /\ chain_right jwks_of F E O (f_keys (p_fed s0)) (m_id m) c)).
Proof.
  intros jwks_of F E O K rank ts s0 m L HR HU Hm HB Hk Ho CI HA.
  exact (proj2 (turns_sound jwks_of F E rank L HR HU O K m Hm _ _ CI _ _ ts s0 (sound_start jwks_of F E O K m s0 HB Hk Ho) HA)).
Qed.
Print Assumptions C178_only_right_metadata.

(** When it says it has found out about its OP, it has, and this is the OP. *)
Theorem C178_known : forall jwks_of F E O K rank ts s0 m fuel prio s' v,
  library_shaky jwks_of F E -> hierarchy F rank -> all_checkable jwks_of F E -> In m F ->
  newborn (p_fed s0) -> right_keys F (f_keys (p_fed s0)) -> only_knows s0 (m_id m) ->
  calls_itself jwks_of F E O (f_keys (p_fed s0)) (m_id m) -> turns_about F rank (m_id m) ts -> rank (m_id m) < fuel ->
  do_provider_info E O fuel K prio (after_turns E O K ts s0) = (s', Ok v) ->
  v = VStr (m_id m) /\ provider_right jwks_of F E O (f_keys (p_fed s0)) (m_id m) (p_info s').
Proof.
  intros jwks_of F E O K rank ts s0 m fuel prio s' v L HR HU Hm HB Hk Ho CI HA Hf H.
  assert (S := turns_sound jwks_of F E rank L HR HU O K m Hm _ _ CI _ _ ts s0 (sound_start jwks_of F E O K m s0 HB Hk Ho) HA).
  exact (proj2 (discovered jwks_of F E rank L HR HU O K m Hm _ _ CI _ _ fuel prio _ _ _ Hf S H) v eq_refl).
Qed.
Print Assumptions C178_known.

(** An authorization response is accepted only for a request that was made to this OP. *)
Theorem C178_login : forall jwks_of F E O K rank ts s0 m state s',
  library_shaky jwks_of F E -> hierarchy F rank -> all_checkable jwks_of F E -> In m F ->
  newborn (p_fed s0) -> right_keys F (f_keys (p_fed s0)) -> only_knows s0 (m_id m) ->
  calls_itself jwks_of F E O (f_keys (p_fed s0)) (m_id m) -> turns_about F rank (m_id m) ts ->
  finalize_auth state (after_turns E O K ts s0) = (s', Ok tt) ->
  dget state (p_asked (after_turns E O K ts s0)) = Some (m_id m).
Proof.
  intros jwks_of F E O K rank ts s0 m state s' L HR HU Hm HB Hk Ho CI HA H.
  assert (S := turns_sound jwks_of F E rank L HR HU O K m Hm _ _ CI _ _ ts s0 (sound_start jwks_of F E O K m s0 HB Hk Ho) HA).
  unfold finalize_auth, mbind, StateM.get, lift, dindex in H.
  destruct (dget state (p_asked (after_turns E O K ts s0))) as [i|]; [|discriminate H].
  rewrite (info_issuer _ _ _ _ _ _ CI _ (proj1 (proj2 S))) in H. cbn [py_eqb] in H.
  destruct (String.eqb_spec i (m_id m)) as [Ei|]; [rewrite Ei; reflexivity|discriminate H].
Qed.
Print Assumptions C178_login.

(** The relying party registers in a way that both it and the OP support, according to what is right; if it asks the OP, then at the
    endpoint that is right. *)
Theorem C178_choice : forall jwks_of F E O K rank ts s0 m prio ability service s' r,
  library_shaky jwks_of F E -> hierarchy F rank -> all_checkable jwks_of F E -> In m F ->
  newborn (p_fed s0) -> right_keys F (f_keys (p_fed s0)) -> only_knows s0 (m_id m) -> p_store s0 = None ->
  calls_itself jwks_of F E O (f_keys (p_fed s0)) (m_id m) -> turns_about F rank (m_id m) ts ->
  choose_registration prio ability service (after_turns E O K ts s0) = (s', Ok r) ->
  exists d v l t, provider_right jwks_of F E O (f_keys (p_fed s0)) (m_id m) d /\
    dget "client_registration_types_supported" d = Some v /\ py_set v = Ok l /\ In t ability /\ In (VStr t) l /\
    match r with
    | Unregistered_use => t = "automatic"
    | RpModel.Ask e => provider_right jwks_of F E O (f_keys (p_fed s0)) (m_id m) (p_info s') /\ dget "federation_registration_endpoint" (p_info s') = Some e
    | Locally => service = false
    end.
Proof.
  intros jwks_of F E O K rank ts s0 m prio ability service s' r L HR HU Hm HB Hk Ho HN CI HA H.
  assert (S := turns_sound jwks_of F E rank L HR HU O K m Hm _ _ CI _ _ ts s0 (sound_start jwks_of F E O K m s0 HB Hk Ho) HA).
  set (s := after_turns E O K ts s0) in *. destruct S as (_ & I & _ & S).
  destruct (choose_inv _ _ _ _ _ _ H) as (ps & -> & Hne & _ & P & R).
  assert (T : forall t, In t ps -> exists d v l, provider_right jwks_of F E O (f_keys (p_fed s0)) (m_id m) d /\
      dget "client_registration_types_supported" d = Some v /\ py_set v = Ok l /\ In t ability /\ In (VStr t) l).
  { intros t Ht. apply P in Ht. destruct Ht as [Ha (d & c & info & v & l & D1 & D2 & D3 & D4 & D5 & D6)].
    destruct (stored_entry _ _ _ _ D2) as [a De].
    destruct (S d _ a c D1 De) as [(d0 & X & _)|(_ & _ & rt & U & _ & Ad)]; [congruence|].
    exists info, v, l. split; [|auto]. exists rt, (ch_md c). split; [exact U|]. split; [exact Ad|exact (chain_claims _ _ _ D3)]. }
  destruct r as [|e|].
  - destruct (T "automatic") as (d & v & l & T1); [rewrite R; left; reflexivity|]. exists d, v, l, "automatic". tauto.
  - destruct ps as [|t ps]; [contradiction|]. destruct (T t (or_introl eq_refl)) as (d & v & l & T1). exists d, v, l, t.
    assert (provider_right jwks_of F E O (f_keys (p_fed s0)) (m_id m) (p_info s)); [|tauto].
    destruct I as [[[I _]|I]|[_ I]]; [| |exact I]; destruct R as (_ & _ & R); rewrite I in R; discriminate R.
  - destruct ps as [|t ps]; [contradiction|]. destruct (T t (or_introl eq_refl)) as (d & v & l & T1). exists d, v, l, t. tauto.
Qed.
Print Assumptions C178_choice.

(** An OP that runs this library and whose issuer is left alone by the policies calls itself by its identifier. *)
Lemma op_calls_itself jwks_of F E O rank kj ops ass cmd m : library_shaky jwks_of F E -> hierarchy F rank ->
  well_formed (freeze (library_net jwks_of F (e_clock E) 0) E) -> In m F -> has_op ops ass cmd m -> In "issuer" ops -> In "issuer" ass ->
  (forall rt, usable jwks_of F E kj (m_id m) rt -> issuer_left_alone jwks_of F E (m_id m) rt) ->
  calls_itself jwks_of F E O kj (m_id m).
Proof.
  intros L HR WF Hm Hop I1 I2 HI d (rt & md & U & Ad & Cl).
  exact (issuer_kept jwks_of F _ rank (ls_run _ _ _ L) HR O ops ass cmd m rt md d WF Hm Hop I1 I2 (proj1 U) (proj1 (proj2 U)) (HI rt U) Ad Cl).
Qed.

(** The federation of C162 with failures and time passing: no connection for the second request, status 500 for the fourth. *)
Definition pr_net (n : nat) (q : request) : response :=
  if Nat.eqb n 1 then RNoConnection else if Nat.eqb n 3 then RStatus else library_net ex_jwks w_fed cr_clock n q.
Definition pr_env : cenv := mkEnv 300 ["ta"] pr_net cr_clock all_keys wk_url tenant_url.

Lemma pr_shaky : library_shaky ex_jwks w_fed pr_env.
Proof.
  constructor.
  - exact w_run.
  - intros n q. cbn [e_net pr_env]. unfold pr_net, failed. destruct (Nat.eqb n 1); [auto|]. destruct (Nat.eqb n 3); [auto|]. left. reflexivity.
  - intros n. cbn [e_clock pr_env]. unfold cr_clock. destruct (Nat.ltb (S n) 6), (Nat.ltb n 6); lia.
  - intros id m m' n I1 I2 H1 H2 _. exfalso. cbn [e_wk e_tenant pr_env] in H1, H2. unfold wk_url in H1. unfold tenant_url in H2.
    apply (f_equal String.length) in H1, H2.
    assert (Hap : forall a b, String.length (a ++ b) = String.length a + String.length b).
    { intros a b. induction a as [|c a IH]; cbn; [reflexivity|]. rewrite IH. reflexivity. }
    rewrite Hap in H1, H2. w_members; cbn in H1, H2; lia.
Qed.

Definition pr_turns : list turn :=
  [Discover 2 ["ta"]; Begin "s1"; Discover 2 []; Along Wait; Discover 2 []; Along (Look 2 "op"); Begin "s2"; Discover 2 ["ta"]].

Example C178_ex : let K := mkSources (fun _ => []) (fun _ => Ok [4]) in
  library_shaky ex_jwks w_fed pr_env /\ hierarchy w_fed v_rank /\ all_checkable ex_jwks w_fed pr_env /\ newborn (p_fed w_start) /\
  right_keys w_fed (f_keys (p_fed w_start)) /\ only_knows w_start "op" /\ p_store w_start = None /\
  calls_itself ex_jwks w_fed pr_env id_order (f_keys (p_fed w_start)) "op" /\ turns_about w_fed v_rank "op" pr_turns /\
  (* at first nothing is learnt *)
  snd (do_provider_info pr_env id_order 2 K ["ta"] w_start) = Err ConnectionError /\
  p_info (after_turns pr_env id_order K (firstn 4 pr_turns) w_start) = [("issuer", VStr "op")] /\
  (* then everything *)
  p_info (after_turns pr_env id_order K pr_turns w_start) = w_claims /\
  p_keys (after_turns pr_env id_order K pr_turns w_start) = [("op", [KPub 4])] /\
  snd (finalize_auth "s2" (after_turns pr_env id_order K pr_turns w_start)) = Ok tt /\
  snd (choose_registration ["ta"] ["automatic"; "explicit"] true (after_turns pr_env id_order K pr_turns w_start)) = Ok (RpModel.Ask (VStr "op/registration")).
Proof.
  intros K. split; [exact pr_shaky|]. split; [exact w_hierarchy|]. split.
  { intros m Hm rt Hp. w_members.
    - inversion Hp as [m0 Hm0 Hs Em Er|m0 a r Hm0 Ha Hr Em Er]; [eexists; vm_compute; reflexivity|].
      exfalso. w_members; [destruct Ha|discriminate Em].
    - rewrite (w_path rt Hp). eexists. vm_compute. reflexivity. }
  split; [repeat split|]. split.
  { intros m ks Hm H. w_members; cbn in H; [injection H as <-; left; reflexivity|discriminate H]. }
  split; [right; reflexivity|]. split; [reflexivity|]. split.
  { intros d (rt & md & (Hp & _) & [ves Ha] & Hd). rewrite (w_path rt Hp) in Ha. vm_compute in Ha. injection Ha as <- <-.
    cbn in Hd. injection Hd as <-. reflexivity. }
  split.
  { intros t Ht. cbn [pr_turns In] in Ht. repeat (destruct Ht as [<-|Ht]; [try exact I; try (vm_compute; lia)|]); [|destruct Ht].
    split; [|vm_compute; lia]. exists w_op. split; [right; left; reflexivity|reflexivity]. }
  split; [vm_compute; reflexivity|]. split; [vm_compute; reflexivity|]. split; [vm_compute; reflexivity|]. split; [vm_compute; reflexivity|].
  split; vm_compute; reflexivity.
Qed.
