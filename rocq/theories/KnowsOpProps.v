(** Relying parties get to know their OP as soon as requests do not fail any more (C182). *)
From Verif Require Import PyFacts ExampleKit CollectorProps FederationProps.
From Verif Require Import ClientFacts ClientProps ChainsSpec ChainsProps.
From Verif Require Import LiveAnswerProps RpSpec RpFacts RpProps RpUseProps LiveExample LiveResolveProps LiveRegisterProps LiveLoginProps ClientsRightProps GetInProps.
From Verif Require Export RpRightProps.
From Coq Require Import Lia.

(** The OP can be got to know by somebody with the keys [kj]: there is a way up, and whatever the policies make of what it says can be
    used. *)
Definition knowable (jwks_of : val -> option (list key)) (F : list member) (E : cenv) (O : iter_order) (K : key_sources) (kj : keyjar)
    (id : string) : Prop :=
  (exists rt, usable jwks_of F E kj id rt) /\
  forall rt, usable jwks_of F E kj id rt -> exists md d,
    adjusted O jwks_of F E id rt md /\ claims_for md "openid_provider" d /\ readable_keys K d.

(** with trust chains of the OP there is nothing else in the way *)
Lemma collect_with E O fuel K prio s id f1 cs : get_verified_trust_chains E O fuel id (p_fed s) = (f1, Ok cs) -> cs <> [] -> p_issuer s = id ->
  (forall c, In c cs -> about c id /\ exists d, claims_for (ch_md c) "openid_provider" d /\ dget "issuer" d = Some (VStr id) /\ readable_keys K d) ->
  exists s' d, collect_metadata E O fuel K prio s = (s', Ok d) /\ p_info s' = d /\ p_fed s' = f1 /\
    forall k, key_given K d k -> In (KPub k) (ckeys_of (p_keys s') id).
Proof.
  intros G Hne Hi HC. destruct (save_total id (p_store s) cs) as [d0 Hsave]; [intros c Hc; exact (proj1 (HC c Hc))|].
  destruct (pick_some prio cs Hne) as [c Hpick]. destruct (HC c (pick_In _ _ _ Hpick)) as (_ & d & Hd & Hiss & Hr).
  destruct (import_given K d id (p_keys s) Hr) as (kj & K1 & K2 & _).
  eexists (mkRp f1 kj d id (Some d0) (p_asked s)), d. split; [|split; [reflexivity|split; [reflexivity|exact K2]]].
  unfold collect_metadata. unfold mbind at 1, StateM.get at 1. unfold mbind at 1, rp_fed. rewrite Hi, G.
  destruct cs as [|c0 cs0]; [contradiction|]. cbn [is_nil].
  unfold mbind at 1, lift at 1. rewrite Hsave. unfold mbind at 1, modify at 1. cbn [p_fed p_keys p_info p_issuer p_store p_asked].
  unfold mbind at 1, lift at 1. rewrite Hpick. unfold mbind at 1, lift at 1. rewrite (claims_chain c _ d Hd).
  unfold mbind at 1, lift at 1. unfold dindex. rewrite Hiss. cbn [bind].
  unfold mbind at 1, modify at 1. cbn [p_fed p_keys p_info p_issuer p_store p_asked].
  unfold mbind at 1. cbn [p_fed p_keys p_info p_issuer p_store p_asked]. rewrite K1. reflexivity.
Qed.

(** and without, nothing is learnt *)
Lemma collect_without E O fuel K prio s f1 x : get_verified_trust_chains E O fuel (p_issuer s) (p_fed s) = (f1, Err x) ->
  collect_metadata E O fuel K prio s = (mkRp f1 (p_keys s) (p_info s) (p_issuer s) (p_store s) (p_asked s), Err x).
Proof. intros G. unfold collect_metadata. unfold mbind at 1, StateM.get at 1. unfold mbind at 1, rp_fed. rewrite G. reflexivity. Qed.

Section Party.
Context (jwks_of : val -> option (list key)) (F : list member) (E : cenv) (rank : string -> nat).
Context (L : library_shaky jwks_of F E) (HF : forwards E) (HR : hierarchy F rank) (HU : all_checkable jwks_of F E).
Context (O : iter_order) (K : key_sources) (m : member) (Hm : In m F).
Context (n0 : nat) (kj0 : keyjar) (CI : calls_itself jwks_of F E O kj0 (m_id m)) (KN : knowable jwks_of F E O K kj0 (m_id m)).
Context (k0 : ckeyjar) (st0 : option chain_store).
Notation sound := (sound_rp jwks_of F E O K m n0 kj0 k0 st0).

(** who knows the OP has its keys *)
Definition keyed (s : rp) : Prop :=
  only_knows s (m_id m) \/ forall k, key_given K (p_info s) k -> In (KPub k) (ckeys_of (p_keys s) (m_id m)).

Lemma collects fuel prio s s' r : rank (m_id m) < fuel -> p_issuer s = m_id m -> sound s -> collect_metadata E O fuel K prio s = (s', r) ->
  (r = Ok (p_info s') /\ forall k, key_given K (p_info s') k -> In (KPub k) (ckeys_of (p_keys s') (m_id m))) \/
  ((exists x, r = Err x /\
     ((net_error x /\ outage jwks_of F E (st_tick (f_col (p_fed s))) (st_tick (f_col (p_fed s')))) \/
      (e_clock E n0 + 86400 - e_delta E <= e_clock E (st_tick (f_col (p_fed s'))))%Z)) /\
   p_info s' = p_info s /\ p_keys s' = p_keys s /\ p_store s' = p_store s /\ p_issuer s' = p_issuer s /\ p_asked s' = p_asked s).
Proof.
  intros Hf Hi Hs H. destruct (get_verified_trust_chains E O fuel (m_id m) (p_fed s)) as [f1 r1] eqn:G.
  assert (V := proj1 Hs). destruct KN as [[rt0 Hu0] HK].
  destruct (looked_should jwks_of F E rank L HR HU _ _ O fuel m _ f1 r1 Hm Hf V G) as [A|[(OU & x & NE & ->)|[AG ->]]].
  - destruct r1 as [cs|x].
    + left. assert (LP := looked_paths jwks_of F E rank L HR HU O m Hm n0 kj0 fuel _ _ _ Hf V G).
      destruct (collect_with E O fuel K prio s (m_id m) f1 cs G) as (s2 & d & X1 & X2 & _ & X3).
      * intros ->. destruct A as (A1 & _). destruct (A1 rt0 Hu0) as (c & [] & _).
      * exact Hi.
      * intros c Hc. destruct (LP c Hc) as (B1 & rt & U & _ & Ad). split; [exact B1|]. destruct (HK rt U) as (md & d & Ad' & CF & RK).
        assert (md = ch_md c) by exact (adjusted_fun O jwks_of F E (m_id m) rt md (ch_md c) Ad' Ad). subst md.
        exists d. split; [exact CF|]. split; [|exact RK]. apply CI. exists rt, (ch_md c). auto.
      * rewrite X1 in H. injection H as <- <-. rewrite X2. auto.
    + exfalso. destruct A as (rt & U & PE). destruct (HK rt U) as (md & d & [w Ad] & _). congruence.
  - right. rewrite <- Hi in G. rewrite (collect_without _ _ _ _ _ _ _ _ G) in H. injection H as <- <-. cbn [p_fed p_info p_keys p_store p_issuer p_asked].
    split; [|auto]. exists x. split; [reflexivity|]. left. auto.
  - right. rewrite <- Hi in G. rewrite (collect_without _ _ _ _ _ _ _ _ G) in H. injection H as <- <-. cbn [p_fed p_info p_keys p_store p_issuer p_asked].
    split; [|auto]. exists TypeError. split; [reflexivity|]. right. exact (aged_day jwks_of F E L _ _ HF AG).
Qed.

Lemma discovers fuel prio s s' r : rank (m_id m) < fuel -> sound s -> keyed s -> do_provider_info E O fuel K prio s = (s', r) ->
  keyed s' /\
  ((r = Ok (VStr (m_id m)) /\ p_issuer s' = m_id m /\ forall k, key_given K (p_info s') k -> In (KPub k) (ckeys_of (p_keys s') (m_id m))) \/
   exists x, r = Err x /\ only_knows s' (m_id m) /\
     ((net_error x /\ outage jwks_of F E (st_tick (f_col (p_fed s))) (st_tick (f_col (p_fed s')))) \/
      (e_clock E n0 + 86400 - e_delta E <= e_clock E (st_tick (f_col (p_fed s'))))%Z)).
Proof.
  intros Hf Hs Hk H. destruct (discovered jwks_of F E rank L HR HU O K m Hm n0 kj0 CI k0 st0 fuel prio s s' r Hf Hs H) as [Hs' Hr].
  assert (Known : forall v, r = Ok v -> p_issuer s' = m_id m -> (forall k, key_given K (p_info s') k -> In (KPub k) (ckeys_of (p_keys s') (m_id m))) ->
    keyed s' /\ ((r = Ok (VStr (m_id m)) /\ p_issuer s' = m_id m /\ forall k, key_given K (p_info s') k -> In (KPub k) (ckeys_of (p_keys s') (m_id m))) \/
     exists x, r = Err x /\ only_knows s' (m_id m) /\
     ((net_error x /\ outage jwks_of F E (st_tick (f_col (p_fed s))) (st_tick (f_col (p_fed s')))) \/
      (e_clock E n0 + 86400 - e_delta E <= e_clock E (st_tick (f_col (p_fed s'))))%Z))).
  { intros v -> Y X. split; [right; exact X|]. left. destruct (Hr v eq_refl) as [-> _]. auto. }
  unfold do_provider_info in H. unfold mbind at 1, StateM.get at 1 in H.
  assert (Go : forall s1, sound s1 -> p_issuer s1 = m_id m -> only_knows s1 (m_id m) -> p_fed s1 = p_fed s ->
    (do _ <- collect_metadata E O fuel K prio in do s <- StateM.get in ret (provider_issuer s)) s1 = (s', r) ->
    keyed s' /\
    ((r = Ok (VStr (m_id m)) /\ p_issuer s' = m_id m /\ forall k, key_given K (p_info s') k -> In (KPub k) (ckeys_of (p_keys s') (m_id m))) \/
     exists x, r = Err x /\ only_knows s' (m_id m) /\
     ((net_error x /\ outage jwks_of F E (st_tick (f_col (p_fed s))) (st_tick (f_col (p_fed s')))) \/
      (e_clock E n0 + 86400 - e_delta E <= e_clock E (st_tick (f_col (p_fed s'))))%Z))).
  { intros s1 H1 H2 H3 H4 G. unfold mbind, StateM.get, ret in G. destruct (collect_metadata E O fuel K prio s1) as [s2 r2] eqn:Ec.
    destruct (collects fuel prio s1 s2 r2 Hf H2 H1 Ec) as [[-> C2]|((x & -> & C1) & C2 & _ & _ & C3 & _)].
    - injection G as <- <-. apply (Known _ eq_refl); [|exact C2].
      exact (proj1 (proj2 (collected jwks_of F E rank L HR HU O K m Hm n0 kj0 CI k0 st0 fuel prio s1 s2 _ Hf H2 H1 Ec))).
    - injection G as <- <-.
      assert (OK : only_knows s2 (m_id m)) by (unfold only_knows in *; rewrite C2, C3; exact H3).
      split; [left; exact OK|]. right. exists x. split; [reflexivity|]. split; [exact OK|]. rewrite <- H4. exact C1. }
  destruct (p_info s) as [|[k v] l] eqn:Ei.
  - cbn [is_nil] in H.
    assert (I : p_issuer s = m_id m) by (destruct Hs as (_ & [[[_ I]|I]|[I _]] & _); [exact I|congruence|exact I]).
    apply (Go s Hs I); [left; auto|reflexivity|exact H].
  - cbn [is_nil] in H. destruct (bare_issuer ((k, v) :: l)) as [i|] eqn:Eb.
    + assert (X : (k, v) :: l = [("issuer", VStr i)]).
      { unfold bare_issuer in Eb. destruct v as [| | |y| |]; try discriminate Eb. destruct l; [|discriminate Eb].
        destruct (String.eqb_spec k "issuer") as [->|]; [|discriminate Eb]. injection Eb as ->. reflexivity. }
      assert (i = m_id m).
      { destruct Hs as (_ & [[[I _]|I]|[_ I]] & _); [congruence|congruence|]. apply CI in I. rewrite Ei, X in I. cbn in I. congruence. }
      subst i. unfold mbind at 1 in H. unfold mbind at 1, modify in H.
      set (s1 := mkRp (p_fed s) (p_keys s) (p_info s) (m_id m) (p_store s) (p_asked s)) in *.
      assert (H1 : sound s1).
      { destruct Hs as (V & I & K1 & S). split; [exact V|]. split; [|split; assumption]. destruct I as [[[I _]|I]|[_ I]]; unfold s1.
        - congruence.
        - left. right. exact I.
        - right. split; [reflexivity|exact I]. }
      apply (Go s1 H1 eq_refl); [right; unfold s1; cbn [p_info]; rewrite Ei; exact X|reflexivity|exact H].
    + unfold mbind, ret in H. injection H as <- <-. assert (NK : ~ only_knows s (m_id m)).
      { intros [[I _]|I]; rewrite Ei in I; [discriminate I|]. rewrite I in Eb. discriminate Eb. }
      apply (Known _ eq_refl).
      * destruct Hs as (_ & [I|[I _]] & _); [contradiction|exact I].
      * destruct Hk as [Hk|Hk]; [contradiction|exact Hk].
Qed.

Lemma keyed_turns ts : forall s, sound s -> keyed s -> turns_about F rank (m_id m) ts -> keyed (after_turns E O K ts s).
Proof.
  unfold after_turns. induction ts as [|t ts IH]; intros s Hs Hk A; [exact Hk|]. cbn [fold_left]. apply IH.
  - exact (turned jwks_of F E rank L HR HU O K m Hm n0 kj0 CI k0 st0 t s (A t (or_introl eq_refl)) Hs).
  - assert (At := A t (or_introl eq_refl)). destruct t as [st|fuel prio|state]; cbn [do_turn]; [exact Hk| |exact Hk].
    destruct (do_provider_info E O fuel K prio s) as [s' r] eqn:Ed. exact (proj1 (discovers fuel prio s s' r At Hs Hk Ed)).
  - intros t' Hin. apply A. right. exact Hin.
Qed.
End Party.

(** C182: whatever failed before, a relying party gets to know an OP of which it knew no more than the identifier, has its keys and accepts its
    answers, unless one of the requests it makes now fails; then it is told so and still knows no more than that. *)
Theorem C182_gets_to_know : forall jwks_of F E O K rank ts s0 m fuel prio s' r,
  library_shaky jwks_of F E -> forwards E -> hierarchy F rank -> all_checkable jwks_of F E -> In m F ->
  newborn (p_fed s0) -> right_keys F (f_keys (p_fed s0)) -> only_knows s0 (m_id m) ->
  calls_itself jwks_of F E O (f_keys (p_fed s0)) (m_id m) -> knowable jwks_of F E O K (f_keys (p_fed s0)) (m_id m) ->
  turns_about F rank (m_id m) ts -> rank (m_id m) < fuel ->
  let s := after_turns E O K ts s0 in
  do_provider_info E O fuel K prio s = (s', r) ->
  (* less than a day after the beginning *)
  (e_clock E (st_tick (f_col (p_fed s'))) < e_clock E (st_tick (f_col (p_fed s0))) + 86400 - e_delta E)%Z ->
  (r = Ok (VStr (m_id m)) /\ provider_right jwks_of F E O (f_keys (p_fed s0)) (m_id m) (p_info s') /\
   (forall k, key_given K (p_info s') k -> In (KPub k) (ckeys_of (p_keys s') (m_id m))) /\
   (forall st, snd ((do _ <- init_authorization st in finalize_auth st) s') = Ok tt)) \/
  (only_knows s' (m_id m) /\ (exists x, net_error x /\ r = Err x) /\
   outage jwks_of F E (st_tick (f_col (p_fed s))) (st_tick (f_col (p_fed s')))).
Proof.
  intros jwks_of F E O K rank ts s0 m fuel prio s' r L HF HR HU Hm HB Hk Ho CI KN HA Hf s H HT.
  assert (S0 := sound_start jwks_of F E O K m s0 HB Hk Ho).
  assert (S := turns_sound jwks_of F E rank L HR HU O K m Hm _ _ CI _ _ ts s0 S0 HA). fold s in S.
  assert (KD := keyed_turns jwks_of F E rank L HF HR HU O K m Hm _ _ CI KN _ _ ts s0 S0 (or_introl Ho) HA). fold s in KD.
  destruct (discovers jwks_of F E rank L HF HR HU O K m Hm _ _ CI KN _ _ fuel prio s s' r Hf S KD H) as [_ [(-> & PI & X)|(x & -> & X & [[Y Z]|Y])]].
  - left. split; [reflexivity|].
    destruct (discovered jwks_of F E rank L HR HU O K m Hm _ _ CI _ _ fuel prio s s' _ Hf S H) as [_ R].
    destruct (R _ eq_refl) as [_ PR]. split; [exact PR|]. split; [exact X|].
    intros st. unfold mbind, init_authorization, modify, finalize_auth, StateM.get, lift, dindex, mbind, provider_issuer.
    cbn [p_asked p_info p_issuer]. rewrite dget_dset_same, (CI _ PR). cbn [py_eqb].
    rewrite PI, String.eqb_refl. reflexivity.
  - right. eauto.
  - exfalso. lia.
Qed.
Print Assumptions C182_gets_to_know.

(** The federation of C178: nothing is learnt twice, then everything *)
Lemma pr_knowable : knowable ex_jwks w_fed pr_env id_order (mkSources (fun _ => []) (fun _ => Ok [4])) (f_keys (p_fed w_start)) "op".
Proof.
  split; [exists ["ta"]; exact w_usable|]. intros rt (Hp & _). rewrite (w_path rt Hp). eexists _, w_claims.
  split; [eexists; vm_compute; reflexivity|]. split; [vm_compute; reflexivity|]. right. intros v _ _. eexists. reflexivity.
Qed.

Example C182_ex : let K := mkSources (fun _ => []) (fun _ => Ok [4]) in
  let s n := after_turns pr_env id_order K (firstn n pr_turns) w_start in
  library_shaky ex_jwks w_fed pr_env /\ forwards pr_env /\ only_knows w_start "op" /\
  knowable ex_jwks w_fed pr_env id_order K (f_keys (p_fed w_start)) "op" /\
  snd (do_provider_info pr_env id_order 2 K ["ta"] (s 0)) = Err ConnectionError /\
  snd (do_provider_info pr_env id_order 2 K ["ta"] (s 2)) = Err FailedConfigurationRetrieval /\
  snd (do_provider_info pr_env id_order 2 K ["ta"] (s 4)) = Ok (VStr "op") /\
  ckeys_of (p_keys (fst (do_provider_info pr_env id_order 2 K ["ta"] (s 4)))) "op" = [KPub 4] /\
  (e_clock pr_env (st_tick (f_col (p_fed (fst (do_provider_info pr_env id_order 2%nat K ["ta"] (s 4%nat))))))
     < e_clock pr_env (st_tick (f_col (p_fed w_start))) + 86400 - e_delta pr_env)%Z.
Proof.
  intros K s. split; [exact pr_shaky|]. split; [exact cr_forwards|]. split; [right; reflexivity|]. split; [exact pr_knowable|].
  repeat (split; [vm_compute; reflexivity|]). vm_compute. reflexivity.
Qed.
