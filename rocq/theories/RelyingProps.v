(** A relying party that finds out about its OP, registers with it and is sent forged responses, all while requests fail and time passes,
    and the OP it registers with (C187). *)
From Verif Require Import PyFacts ExampleKit CollectorProps FederationProps.
From Verif Require Import ClientFacts ClientProps ChainsSpec ChainsProps RegistrationFacts RegistrationProps RegistrationGrantProps.
From Verif Require Import RpSpec RpFacts RpProps RpUseProps LiveExample LiveResolveProps LiveRegisterProps LiveAnswerProps LiveLoginProps.
From Verif Require Import AnswersRightProps GetInProps TakenProps ExplicitProps.
From Verif Require Import ListProps.
From Verif Require Export KnowsOpProps.
From Coq Require Import Lia.

(** ** What a relying party does *)
Inductive move :=
| Turn (t : turn)                                (* C178 *)
| Reply (fuel : nat) (a : RpModel.answer).       (* a registration response, real or not *)

Definition do_move (E : cenv) (O : iter_order) (K : key_sources) (me : string) (s : rp) (v : move) : rp :=
  match v with
  | Turn t => do_turn E O K s t
  | Reply fuel a => fst (rp_fed (parse_oidc E O fuel me a) s)
  end.

Definition after_moves (E : cenv) (O : iter_order) (K : key_sources) (me : string) (vs : list move) (s : rp) : rp :=
  fold_left (do_move E O K me) vs s.

Definition moves_about (F : list member) (rank : string -> nat) (good : key -> Prop) (made : RpModel.answer -> Prop) (me op : string)
    (vs : list move) : Prop :=
  forall v, In v vs ->
  match v with
  | Turn t => turns_about F rank op [t]
  | Reply fuel a => may_arrive F rank good made me fuel a
  end.

(** ** Finding out *)

(** only the trust chains of the OP are collected *)
Lemma collect_fed E O fuel K prio s : p_fed (fst (collect_metadata E O fuel K prio s)) = fst (get_verified_trust_chains E O fuel (p_issuer s) (p_fed s)).
Proof.
  unfold collect_metadata. unfold mbind at 1, StateM.get at 1. unfold mbind at 1, rp_fed.
  destruct (get_verified_trust_chains E O fuel (p_issuer s) (p_fed s)) as [f [cs|x]]; [|reflexivity]. destruct (is_nil cs); [reflexivity|].
  unfold mbind, lift, modify. cbn [p_fed p_keys p_info p_issuer p_store p_asked].
  destruct (save_trust_chains (p_store s) cs); [|reflexivity]. destruct (pick_trust_chain prio cs); [|reflexivity].
  destruct (chain_metadata _ "openid_provider") as [info|]; [|reflexivity].
  destruct (let* v := dindex "issuer" info in match v with VStr i => Ok i | _ => Err TypeError end); [|reflexivity].
  cbn [p_fed p_keys p_info p_issuer p_store p_asked]. destruct (import_keys _ _ _ _) as [? [?|?]]; reflexivity.
Qed.

(** what is learnt is filed *)
Lemma collect_files E O fuel K prio s s' r : collect_metadata E O fuel K prio s = (s', r) ->
  p_issuer s' = p_issuer s /\
  (p_info s' = p_info s \/ exists f cs d, get_verified_trust_chains E O fuel (p_issuer s) (p_fed s) = (f, Ok cs) /\ cs <> [] /\
     save_trust_chains (p_store s) cs = Ok d /\ p_store s' = Some d).
Proof.
  unfold collect_metadata. unfold mbind at 1, StateM.get at 1. unfold mbind at 1, rp_fed.
  destruct (get_verified_trust_chains E O fuel (p_issuer s) (p_fed s)) as [f [cs|x]]; [|intros [= <- _]; auto].
  destruct (is_nil cs) eqn:En; [intros [= <- _]; auto|].
  unfold mbind, lift, modify. cbn [p_fed p_keys p_info p_issuer p_store p_asked].
  destruct (save_trust_chains (p_store s) cs) as [d|x] eqn:Es; [|intros [= <- _]; auto]. destruct (pick_trust_chain prio cs); [|intros [= <- _]; auto].
  destruct (chain_metadata _ "openid_provider") as [info|]; [|intros [= <- _]; auto].
  destruct (let* v := dindex "issuer" info in match v with VStr i => Ok i | _ => Err TypeError end); [|intros [= <- _]; auto].
  cbn [p_fed p_keys p_info p_issuer p_store p_asked].
  assert (N : cs <> []) by (intros ->; discriminate En).
  destruct (import_keys _ _ _ _) as [? [?|?]]; unfold ret; intros H; injection H as <- _; cbn [p_issuer p_store]; (split; [reflexivity|]); right;
    exists f, cs, d; auto.
Qed.

(** any entry will do *)
Lemma picked_some prio d id a c : entry d id a = Some c -> exists c', pick_from_stored_trust_chains prio d id = Ok c'.
Proof.
  unfold entry, pick_from_stored_trust_chains. unfold dindex at 1. destruct (dget id d) as [m|]; [|discriminate]. cbn [bind]. intros D.
  assert (X : forall b, In b (dkeys m) -> exists c', dindex b m = Ok c').
  { intros b Hb. apply key_In_dget in Hb. destruct Hb as [y Hy]. unfold dindex. rewrite Hy. eauto. }
  assert (Y : In a (dkeys m)) by (apply dget_In in D; apply (in_map fst) in D; exact D).
  destruct (dkeys m) as [|ta [|tb tas]]; [destruct Y|apply X; left; reflexivity|]. destruct prio as [|p prio]; cbn [stored_loop]; apply X; left; reflexivity.
Qed.

Section Whole.
Context (jwks_of : val -> option (list key)) (F : list member) (E : cenv) (rank : string -> nat).
Context (L : library_shaky jwks_of F E) (HF : forwards E) (HR : hierarchy F rank) (HU : all_checkable jwks_of F E).
Context (O : iter_order) (K : key_sources) (mo : member) (Hmo : In mo F) (me : member) (Hme : In me F).
Context (n0 : nat) (kj0 : keyjar) (CI : calls_itself jwks_of F E O kj0 (m_id mo)) (KN : knowable jwks_of F E O K kj0 (m_id mo)).
Context (k0 : ckeyjar).
Context (good : key -> Prop) (made : RpModel.answer -> Prop) (SM : signatures_mean jwks_of F E good made (m_id me) kj0).

Notation sound := (sound_rp jwks_of F E O K mo n0 kj0 k0 None).

Definition filed (s : rp) : Prop :=
  only_knows s (m_id mo) \/ exists d a c, p_store s = Some d /\ entry d (m_id mo) a = Some c.

Definition whole (s : rp) : Prop := sound s /\ keyed K mo s /\ filed s /\ alive jwks_of F E good n0 kj0 (p_fed s).

Lemma saved_some fuel s f cs d : rank (m_id mo) < fuel -> living jwks_of F E n0 kj0 (p_fed s) ->
  get_verified_trust_chains E O fuel (m_id mo) (p_fed s) = (f, Ok cs) -> cs <> [] -> save_trust_chains (p_store s) cs = Ok d ->
  exists a c, entry d (m_id mo) a = Some c.
Proof.
  intros Hf V G N Hs. assert (A := looked_paths jwks_of F E rank L HR HU O mo Hmo n0 kj0 fuel _ _ _ Hf V G).
  assert (OE : one_entity cs) by (exists (m_id mo); intros x Hx; exact (proj1 (A x Hx))).
  destruct (save_entry cs _ d OE Hs) as [_ X]. destruct cs as [|c cs]; [contradiction|].
  assert (Y : In (ch_anchor c) (dkeys (chains2dict (c :: cs)))) by (apply (C38_no_other_anchor (c :: cs)); exists c; split; [left; reflexivity|reflexivity]).
  apply key_In_dget in Y. destruct Y as [y Y]. apply C38_shortest_per_anchor in Y. exists (ch_anchor c), y.
  apply (proj1 (X (m_id mo) (ch_anchor c)) y Y). exact (proj1 (A y (proj1 (best_in _ _ _ Y)))).
Qed.

Lemma whole_discover fuel prio s s' r : rank (m_id mo) < fuel -> whole s -> do_provider_info E O fuel K prio s = (s', r) -> whole s'.
Proof.
  intros Hf (Hs & Hk & Hfl & Ha) H.
  destruct (discovered jwks_of F E rank L HR HU O K mo Hmo n0 kj0 CI k0 None fuel prio s s' r Hf Hs H) as [Hs' _].
  destruct (discovers jwks_of F E rank L HF HR HU O K mo Hmo n0 kj0 CI KN k0 None fuel prio s s' r Hf Hs Hk H) as [Hk' _].
  split; [exact Hs'|]. split; [exact Hk'|].
  unfold do_provider_info in H. unfold mbind at 1, StateM.get at 1 in H.
  assert (Go : forall s1, p_issuer s1 = m_id mo -> only_knows s1 (m_id mo) -> p_fed s1 = p_fed s ->
    (do _ <- collect_metadata E O fuel K prio in do s <- StateM.get in ret (provider_issuer s)) s1 = (s', r) ->
    filed s' /\ alive jwks_of F E good n0 kj0 (p_fed s')).
  { intros s1 H1 H2 H3 G. unfold mbind, StateM.get, ret in G. assert (CF := collect_fed E O fuel K prio s1).
    destruct (collect_metadata E O fuel K prio s1) as [s2 r2] eqn:Ec. cbn [fst] in CF. rewrite H1, H3 in CF.
    assert (s2 = s') by (destruct r2; congruence). subst s2. split.
    - destruct (collect_files _ _ _ _ _ _ _ _ Ec) as (I1 & [I2|(f & cs & d & X1 & X2 & X3 & X4)]).
      + left. unfold only_knows in *. rewrite I1, I2. exact H2.
      + right. rewrite H1 in X1. rewrite H3 in X1. assert (Z : living jwks_of F E n0 kj0 (p_fed s1)) by (rewrite H3; exact (proj1 Hs)).
        rewrite <- H3 in X1. destruct (saved_some fuel s1 f cs d Hf Z X1 X2 X3) as (a & c & D). exists d, a, c. auto.
    - rewrite CF. destruct (get_verified_trust_chains E O fuel (m_id mo) (p_fed s)) as [f q] eqn:G1.
      exact (alive_looked jwks_of F E rank L HR good made me n0 kj0 SM O fuel mo (p_fed s) f q Hmo Hf Ha G1). }
  destruct (p_info s) as [|[k v] l] eqn:Ei.
  - cbn [is_nil] in H.
    assert (I : p_issuer s = m_id mo) by (destruct Hs as (_ & [[[_ I]|I]|[I _]] & _); [exact I|congruence|exact I]).
    apply (Go s I); [left; auto|reflexivity|exact H].
  - cbn [is_nil] in H. destruct (bare_issuer ((k, v) :: l)) as [i|] eqn:Eb.
    + assert (X : (k, v) :: l = [("issuer", VStr i)]).
      { unfold bare_issuer in Eb. destruct v as [| | |y| |]; try discriminate Eb. destruct l; [|discriminate Eb].
        destruct (String.eqb_spec k "issuer") as [->|]; [|discriminate Eb]. injection Eb as ->. reflexivity. }
      assert (i = m_id mo).
      { destruct Hs as (_ & [[[I _]|I]|[_ I]] & _); [congruence|congruence|]. apply CI in I. rewrite Ei, X in I. cbn in I. congruence. }
      subst i. unfold mbind at 1 in H. unfold mbind at 1, modify in H.
      apply (Go (mkRp (p_fed s) (p_keys s) (p_info s) (m_id mo) (p_store s) (p_asked s)) eq_refl);
        [right; cbn [p_info]; rewrite Ei; exact X|reflexivity|exact H].
    + unfold mbind, ret in H. injection H as <- _. split; [exact Hfl|exact Ha].
Qed.

Lemma alive_living s : alive jwks_of F E good n0 kj0 s -> living jwks_of F E n0 kj0 s.
Proof. intros [A (S1 & S2 & _)]. split; [exact A|]. split; assumption. Qed.

Lemma whole_fed f s : alive jwks_of F E good n0 kj0 f -> whole s -> whole (mkRp f (p_keys s) (p_info s) (p_issuer s) (p_store s) (p_asked s)).
Proof.
  intros A ((_ & I & Hk & S) & K1 & Fl & _). split; [|split; [exact K1|split; [exact Fl|exact A]]].
  split; [exact (alive_living f A)|]. split; [exact I|]. split; assumption.
Qed.

Lemma whole_move v s : match v with
    | Turn t => turns_about F rank (m_id mo) [t]
    | Reply fuel a => may_arrive F rank good made (m_id me) fuel a
    end -> whole s -> whole (do_move E O K (m_id me) s v).
Proof.
  destruct v as [t|fuel a]; intros A H; cbn [do_move].
  - specialize (A t (or_introl eq_refl)). destruct t as [st|fuel prio|state]; cbn [do_turn].
    + apply whole_fed; [|exact H]. apply (alive_step jwks_of F E rank L HR good made me n0 kj0 SM O (p_fed s) st); [exact (proj2 (proj2 (proj2 H)))|exact A].
    + destruct (do_provider_info E O fuel K prio s) as [s' r] eqn:Ed. exact (whole_discover fuel prio s s' r A H Ed).
    + exact H.
  - unfold rp_fed. destruct (parse_oidc E O fuel (m_id me) a (p_fed s)) as [f r] eqn:Ep. cbn [fst]. apply whole_fed; [|exact H].
    exact (proj1 (AnswersRightProps.arrived jwks_of F E rank L HR good made me Hme n0 kj0 SM O fuel a (p_fed s) f r A (proj2 (proj2 (proj2 H))) Ep)).
Qed.

Lemma whole_moves vs : forall s, whole s -> moves_about F rank good made (m_id me) (m_id mo) vs -> whole (after_moves E O K (m_id me) vs s).
Proof.
  unfold after_moves. induction vs as [|v vs IH]; intros s H A; [exact H|]. cbn [fold_left].
  apply IH; [|intros v' Hv; apply A; right; exact Hv]. apply whole_move; [|exact H]. exact (A v (or_introl eq_refl)).
Qed.
End Whole.

Lemma whole_start jwks_of F E O K mo me good made s0 : newborn (p_fed s0) -> right_keys F (f_keys (p_fed s0)) -> only_knows s0 (m_id mo) ->
  p_store s0 = None -> signatures_mean jwks_of F E good made (m_id me) (f_keys (p_fed s0)) ->
  whole jwks_of F E O K mo (st_tick (f_col (p_fed s0))) (f_keys (p_fed s0)) (p_keys s0) good s0.
Proof.
  intros HB Hk Ho Hn SM. split; [|split; [left; exact Ho|split; [left; exact Ho|]]].
  - assert (S := sound_start jwks_of F E O K mo s0 HB Hk Ho). rewrite Hn in S. exact S.
  - exact (alive_start jwks_of F E good made me _ _ SM (p_fed s0) HB eq_refl eq_refl Hk).
Qed.

(** what a relying party [me] has to begin with: no more than the identifier of its OP [mo] and the keys of those it trusts *)
Record begins (jwks_of : val -> option (list key)) (F : list member) (E : cenv) (O : iter_order) (K : key_sources) (rank : string -> nat)
    (mo me : member) (good : key -> Prop) (made : RpModel.answer -> Prop) (s0 : rp) : Prop := mkBegins {
  bg_shaky : library_shaky jwks_of F E;
  bg_clock : forwards E;
  bg_rank : hierarchy F rank;
  bg_check : all_checkable jwks_of F E;
  bg_op : In mo F;
  bg_me : In me F;
  bg_new : newborn (p_fed s0);
  bg_keys : right_keys F (f_keys (p_fed s0));
  bg_knows : only_knows s0 (m_id mo);
  bg_store : p_store s0 = None;
  bg_itself : calls_itself jwks_of F E O (f_keys (p_fed s0)) (m_id mo);
  bg_knowable : knowable jwks_of F E O K (f_keys (p_fed s0)) (m_id mo);
  bg_signed : signatures_mean jwks_of F E good made (m_id me) (f_keys (p_fed s0))
}.

Lemma begun jwks_of F E O K rank mo me good made s0 vs : begins jwks_of F E O K rank mo me good made s0 ->
  moves_about F rank good made (m_id me) (m_id mo) vs ->
  whole jwks_of F E O K mo (st_tick (f_col (p_fed s0))) (f_keys (p_fed s0)) (p_keys s0) good (after_moves E O K (m_id me) vs s0).
Proof.
  intros [] A. apply (whole_moves jwks_of F E rank bg_shaky0 bg_clock0 bg_rank0 bg_check0 O K mo bg_op0 me bg_me0 _ _ bg_itself0 bg_knowable0 _ good made);
    [assumption|apply (whole_start jwks_of F E O K mo me good made); assumption|exact A].
Qed.

(** ** C187 *)

(** Whatever fails and whatever responses are forged, what the relying party believes about its OP is right, and it takes only responses
    that were made for it. *)
Theorem C187_right : forall jwks_of F E O K rank mo me good made s0 vs,
  begins jwks_of F E O K rank mo me good made s0 -> moves_about F rank good made (m_id me) (m_id mo) vs ->
  let s := after_moves E O K (m_id me) vs s0 in
  let right := provider_right jwks_of F E O (f_keys (p_fed s0)) (m_id mo) in
  (only_knows s (m_id mo) \/ (p_issuer s = m_id mo /\ right (p_info s))) /\
  (forall e x, In x (ckeys_of (p_keys s) e) ->
     In x (ckeys_of (p_keys s0) e) \/ (e = m_id mo /\ exists d k, right d /\ x = KPub k /\ key_given K d k)) /\
  (forall fuel a s' md, may_arrive F rank good made (m_id me) fuel a -> parse_oidc E O fuel (m_id me) a (p_fed s) = (s', Ok md) ->
     made a /\ lib_valid (e_lib E) (e_clock E (st_tick (f_col (p_fed s)))) (an_claims a) = true /\
     answer_right jwks_of F E me (f_keys (p_fed s0)) O a md) /\
  (forall state s', finalize_auth state s = (s', Ok tt) -> dget state (p_asked s) = Some (m_id mo)).
Proof.
  intros jwks_of F E O K rank mo me good made s0 vs B A s right. destruct (begun _ _ _ _ _ _ _ _ _ _ _ _ B A) as ((V & I & Hk & S) & _ & _ & Al).
  fold s in V, I, Hk, S, Al. split; [exact I|]. split; [exact Hk|]. split.
  - intros fuel a s' md MA H.
    exact (proj2 (AnswersRightProps.arrived jwks_of F E rank (bg_shaky _ _ _ _ _ _ _ _ _ _ _ B) (bg_rank _ _ _ _ _ _ _ _ _ _ _ B) good made me
      (bg_me _ _ _ _ _ _ _ _ _ _ _ B) _ _ (bg_signed _ _ _ _ _ _ _ _ _ _ _ B) O fuel a _ s' _ MA Al H) md eq_refl).
  - intros state s' H. unfold finalize_auth, mbind, StateM.get, lift, dindex in H. destruct (dget state (p_asked s)) as [i|]; [|discriminate H].
    rewrite (info_issuer _ _ _ _ _ _ (bg_itself _ _ _ _ _ _ _ _ _ _ _ B) _ I) in H. cbn [py_eqb] in H.
    destruct (String.eqb_spec i (m_id mo)) as [Ei|]; [rewrite Ei; reflexivity|discriminate H].
Qed.
Print Assumptions C187_right.

(** It gets to know its OP as soon as no request fails, and then knows how to register, if there is a way that both support. *)
Theorem C187_chooses : forall jwks_of F E O K rank mo me good made s0 vs fuel prio s' r prio' ability service,
  begins jwks_of F E O K rank mo me good made s0 -> moves_about F rank good made (m_id me) (m_id mo) vs -> rank (m_id mo) < fuel ->
  (forall d, provider_right jwks_of F E O (f_keys (p_fed s0)) (m_id mo) d ->
     (exists v l t, dget "client_registration_types_supported" d = Some v /\ py_set v = Ok l /\ In t ability /\ In (VStr t) l) /\
     dget "federation_registration_endpoint" d <> None) ->
  let s := after_moves E O K (m_id me) vs s0 in
  do_provider_info E O fuel K prio s = (s', r) ->
  (e_clock E (st_tick (f_col (p_fed s'))) < e_clock E (st_tick (f_col (p_fed s0))) + 86400 - e_delta E)%Z ->
  (r = Ok (VStr (m_id mo)) /\ provider_right jwks_of F E O (f_keys (p_fed s0)) (m_id mo) (p_info s') /\
   (forall k, key_given K (p_info s') k -> In (KPub k) (ckeys_of (p_keys s') (m_id mo))) /\
   exists e, choose_registration prio' ability service s' = (s', Ok e)) \/
  (only_knows s' (m_id mo) /\ (exists x, net_error x /\ r = Err x) /\
   outage jwks_of F E (st_tick (f_col (p_fed s))) (st_tick (f_col (p_fed s')))).
Proof.
  intros jwks_of F E O K rank mo me good made s0 vs fuel prio s' r prio' ability service B A Hf HS s H HT.
  assert (W := begun _ _ _ _ _ _ _ _ _ _ _ _ B A). fold s in W.
  assert (W' : whole jwks_of F E O K mo (st_tick (f_col (p_fed s0))) (f_keys (p_fed s0)) (p_keys s0) good s').
  { destruct B. exact (whole_discover jwks_of F E rank bg_shaky0 bg_clock0 bg_rank0 bg_check0 O K mo bg_op0 me _ _ bg_itself0 bg_knowable0 _ good made
      bg_signed0 fuel prio s s' r Hf W H). }
  destruct W as (Sd & KD & _ & _). destruct B.
  destruct (discovers jwks_of F E rank bg_shaky0 bg_clock0 bg_rank0 bg_check0 O K mo bg_op0 _ _ bg_itself0 bg_knowable0 _ None fuel prio s s' r Hf Sd KD H)
    as [_ [(-> & PI & X)|(x & -> & X & [[Y Z]|Y])]]; [|right; eauto|exfalso; lia].
  left. split; [reflexivity|].
  destruct (discovered jwks_of F E rank bg_shaky0 bg_rank0 bg_check0 O K mo bg_op0 _ _ bg_itself0 _ None fuel prio s s' _ Hf Sd H) as [_ R].
  destruct (R _ eq_refl) as [_ PR]. split; [exact PR|]. split; [exact X|].
  destruct W' as ((_ & _ & _ & S) & _ & Fl & _).
  assert (Fd : exists d a c, p_store s' = Some d /\ entry d (m_id mo) a = Some c).
  { destruct Fl as [[[Fl _]|Fl]|Fl]; [| |exact Fl]; exfalso; destruct (HS _ PR) as [(v & l & t & D & _) _]; rewrite Fl in D; discriminate D. }
  destruct Fd as (d & a & c & Es & En). destruct (picked_some prio' d _ a c En) as [c' Ep]. destruct (stored_entry _ _ _ _ Ep) as [a' En'].
  destruct (S d _ a' c' Es En') as [(d0 & X0 & _)|(_ & _ & rt & U & _ & Ad)]; [discriminate X0|].
  destruct (proj2 bg_knowable0 rt U) as (md & info & Ad' & CF & _).
  assert (md = ch_md c') by exact (adjusted_fun O jwks_of F E (m_id mo) rt md (ch_md c') Ad' Ad). subst md.
  destruct (HS info (ex_intro _ rt (ex_intro _ (ch_md c') (conj U (conj Ad CF))))) as [(v & l & t & D1 & D2 & D3 & D4) _].
  destruct (HS _ PR) as [_ D5].
  unfold choose_registration. unfold mbind at 1, StateM.get at 1. unfold mbind at 1, lift at 1. rewrite Es.
  unfold mbind at 1, lift at 1. rewrite PI, Ep. unfold mbind at 1, lift at 1. rewrite (claims_chain c' _ info CF).
  unfold mbind at 1, lift at 1, dindex at 1. rewrite D1. unfold mbind at 1, lift at 1. rewrite D2. cbv zeta.
  assert (P : In t (filter (fun x => vmem (VStr x) l) (nodup string_dec ability))).
  { apply filter_In. split; [apply nodup_In; exact D3|]. apply In_vmem_str. exact D4. }
  destruct (filter (fun x => vmem (VStr x) l) (nodup string_dec ability)) as [|y ys]; [destruct P|]. cbn [is_nil].
  match goal with |- context [if ?b then _ else _] => destruct b end; [eexists; reflexivity|]. destruct service; [|eexists; reflexivity].
  unfold mbind at 1, lift at 1, dindex at 1. destruct (dget "federation_registration_endpoint" (p_info s')) as [e|]; [|contradiction].
  eexists. reflexivity.
Qed.
Print Assumptions C187_chooses.

(** A relying party [me] and the OP [mo], each with requests of its own that fail or not, and clocks of their own: if [me] asks to be
    registered and no request of the OP fails meanwhile, the OP answers and has it registered; and if no request of [me] fails
    meanwhile, the answer is taken before it expires, whatever [me] has done until then and whatever else it was sent. *)
Theorem C187_registered : forall jwks_of F rank mo me Eo Oo R P so0 cs fo prio d zt t so' v Er Or K good made sr0 fr ta ro rt,
  (* the OP *)
  library_shaky jwks_of F Eo -> forwards Eo -> all_checkable jwks_of F Eo -> keeps_id R -> passed_on R "client_id" ->
  newborn (a_fed so0) -> right_keys F (f_keys (a_fed so0)) -> calls_about F rank cs -> rank (m_id me) < fo -> is_member P mo ->
  asks_until jwks_of F Eo me zt t ->
  only_client (s_metadata (config jwks_of F Eo (m_id me))) d -> good_client R false (m_id me) d ->
  (exists q, usable jwks_of F Eo (f_keys (a_fed so0)) (m_id me) q) ->
  (forall q, usable jwks_of F Eo (f_keys (a_fed so0)) (m_id me) q -> end_of (m_id me) q = ta /\ exists md, adjusted Oo jwks_of F Eo (m_id me) q md) ->
  (* the relying party *)
  begins jwks_of F Er Or K rank mo me good made sr0 -> rank (m_id mo) < fr -> rank (m_id me) < fr ->
  In ta (e_anchors Er) -> (forall x, In x F -> m_id x = ta -> superiors_of x = []) ->
  upto F ta (m_id mo) ro -> ro <> [] -> VerifierSpec.known (f_keys (p_fed sr0)) (end_of (m_id mo) ro) ->
  checkable_above jwks_of F Er ta (m_id mo) -> checkable_upto jwks_of F Er ta (m_id me) ->
  usable_upto jwks_of F Er (f_keys (p_fed sr0)) ta (m_id me) rt ->
  (forall q, usable_upto jwks_of F Er (f_keys (p_fed sr0)) ta (m_id me) q -> q = rt) ->
  (* what happens at the OP *)
  let so := ExplicitProps.after_calls Eo Oo R cs so0 in
  (e_clock Eo (st_tick (f_col (a_fed so))) < zt)%Z ->
  answer_oidc Eo Oo fo R P prio t so = (so', v) ->
  (e_clock Eo (st_tick (f_col (a_fed so'))) < e_clock Eo (st_tick (f_col (a_fed so0))) + 86400 - e_delta Eo)%Z ->
  (outage jwks_of F Eo (st_tick (f_col (a_fed so))) (st_tick (f_col (a_fed so'))) /\ (exists x, net_error x /\ v = Err x) /\ a_reg so' = a_reg so) \/
  exists a, v = Ok (Some a) /\ dmem (m_id me) (r_cdb (a_reg so')) = true /\
    (* and at the relying party *)
    forall vs md s' r, moves_about F rank good made (m_id me) (m_id mo) vs ->
      left_over Or jwks_of F Er (m_id me) rt a md -> md <> [] ->
      let s := after_moves Er Or K (m_id me) vs sr0 in
      (e_clock Er (st_tick (f_col (p_fed s))) < op_now P + op_lifetime P)%Z ->
      parse_oidc Er Or fr (m_id me) a (p_fed s) = (s', r) ->
      r = Ok md \/
      (outage jwks_of F Er (st_tick (f_col (p_fed s))) (st_tick (f_col s')) /\ exists e, net_error e /\ r = Err e) \/
      (e_clock Er (st_tick (f_col (p_fed sr0))) + 86400 - e_delta Er <= e_clock Er (st_tick (f_col s')))%Z.
Proof.
  intros jwks_of F rank mo me Eo Oo R P so0 cs fo prio d zt t so' v Er Or K good made sr0 fr ta ro rt
    L1 C1 U1 KI PC HB Hk HA Hf PM AU OC GC EX HG B F1 F2 TA Top R1 R2 R3 CA CU W1 W2 so HZ H HT.
  destruct (C186_answered jwks_of F Eo Oo R rank so0 cs fo P prio mo me d zt t so' v L1 C1 (bg_rank _ _ _ _ _ _ _ _ _ _ _ B) U1 KI PC HB Hk HA
    (bg_me _ _ _ _ _ _ _ _ _ _ _ B) Hf PM AU OC GC EX (fun q h => proj2 (HG q h)) HZ H HT) as [(a & q & ci & md0 & -> & U & MB & _ & D & _)|X]; [|left; exact X].
  right. exists a. split; [reflexivity|]. split; [unfold dmem; rewrite D; reflexivity|].
  rewrite (proj1 (HG q U)) in MB. intros vs md s' r AB LO NE s NX HP.
  destruct (begun _ _ _ _ _ _ _ _ _ _ _ _ B AB) as (_ & _ & _ & Al). destruct B.
  exact (takes jwks_of F Er Or rank good me _ _ _ fr a mo ta _ ro rt md s' r bg_shaky0 bg_clock0 bg_rank0 bg_me0 Al bg_op0 F1 F2 MB TA Top R1 R2 R3 CA CU W1 W2 LO NE NX HP).
Qed.
Print Assumptions C187_registered.

(** ** A federation for C187: the relying party rp and the OP op below ta. The same requests fail for both. *)
Definition ry_ta : member := mkMember
  (mkFserver "ta" (VInt 1) [("federation_entity", VDict [("federation_fetch_endpoint", VStr "ta/fetch")])] None
     [("openid_relying_party", [("metadata_policy", VDict [("contacts", VDict [("add", VList [VStr "ta"])])])])])
  None SrcNone
  [("op", [("jwks", VInt 4)]); ("rp", [("jwks", VInt 3); ("entity_types", VList [VStr "openid_relying_party"])])]
  1 "ta/wk" "ta/fetch".

Definition ry_fed : list member := [ry_ta; w_op; v_rp].

Definition ry_net (n : nat) (q : request) : response :=
  if Nat.eqb n 1 then RNoConnection else if Nat.eqb n 3 then RStatus else library_net ex_jwks ry_fed cr_clock n q.
Definition ry_env : cenv := mkEnv 300 ["ta"] ry_net cr_clock all_keys wk_url tenant_url.

Ltac ry_members := repeat match goal with H : In _ ry_fed |- _ => destruct H as [<-|[<-|[<-|[]]]] end.

Lemma ry_shaky : library_shaky ex_jwks ry_fed ry_env.
Proof.
  constructor.
  - constructor.
    + reflexivity.
    + reflexivity.
    + reflexivity.
    + intros n p z Hz Hn. cbn. unfold within_skew. rewrite Hz. apply Z.ltb_lt. lia.
    + reflexivity.
    + intros m m' Hm Hm' H. ry_members; try reflexivity; discriminate H.
    + intros m m' Hm Hm' H. ry_members; try reflexivity; discriminate H.
    + intros m m' Hm Hm' H N. ry_members; try reflexivity; try discriminate H; cbn in N; contradiction N; reflexivity.
    + intros m Hm. ry_members; left; reflexivity.
    + intros m Hm. ry_members; (apply mkSound;
        [split; [discriminate|reflexivity]
        |eexists; split; [reflexivity|left; reflexivity]
        |split; intros x e H; apply dget_In in H; simpl in H;
          repeat destruct H as [H|H]; try contradiction; injection H as <- <-; apply nodupb_sound; reflexivity
        |intros x p k H Hk; apply dget_In in H; simpl in H;
          repeat destruct H as [H|H]; try contradiction; injection H as <- <-; simpl in Hk; intuition auto
        |eexists; reflexivity
        |intros p Hp; vm_compute in Hp; injection Hp as <-; vm_compute; discriminate
        |intros a Ha; simpl in Ha; repeat destruct Ha as [<-|Ha]; try destruct Ha; reflexivity
        |intros sub e v H Hv; apply dget_In in H; simpl in H; repeat destruct H as [H|H]; try contradiction;
          injection H as <- <-; vm_compute in Hv; discriminate Hv]).
    + intros m a Hm Ha. ry_members; simpl in Ha; repeat destruct Ha as [<-|Ha]; try destruct Ha;
        (exists ry_ta; split; [left; reflexivity|]; split; [reflexivity|]; constructor;
          [apply locationb_sound; reflexivity
          |eexists; split; reflexivity
          |eexists _, _, _; split; [split; [reflexivity|discriminate]|]; split; [|split; [reflexivity|split; [reflexivity|left; reflexivity]]];
           split; [intros k Hk; simpl in Hk; repeat destruct Hk as [<-|Hk]; try destruct Hk; reflexivity|];
           split; [intros v Hv; discriminate Hv|];
           split; [intros v Hv; first [discriminate Hv|injection Hv as <-; exists ["openid_relying_party"]; reflexivity]|];
           intros p k v Hp; discriminate Hp
          |intros p Hp; vm_compute in Hp; injection Hp as <-; vm_compute; discriminate]).
  - intros n q. cbn [e_net ry_env]. unfold ry_net, failed. destruct (Nat.eqb n 1); [auto|]. destruct (Nat.eqb n 3); [auto|]. left. reflexivity.
  - intros n. cbn [e_clock ry_env]. unfold cr_clock. destruct (Nat.ltb (S n) 6), (Nat.ltb n 6); lia.
  - intros id m m' n I1 I2 H1 H2 _. exfalso. cbn [e_wk e_tenant ry_env] in H1, H2. unfold wk_url in H1. unfold tenant_url in H2.
    apply (f_equal String.length) in H1, H2.
    assert (Hap : forall a b, String.length (a ++ b) = String.length a + String.length b).
    { intros a b. induction a as [|c a IH]; cbn; [reflexivity|]. rewrite IH. reflexivity. }
    rewrite Hap in H1, H2. ry_members; cbn in H1, H2; lia.
Qed.

Lemma ry_hierarchy : hierarchy ry_fed v_rank.
Proof. intros m a Hm Ha. ry_members; simpl in Ha; repeat destruct Ha as [<-|Ha]; try destruct Ha; vm_compute; lia. Qed.

Lemma ry_path m rt : In m ry_fed -> path ry_fed (m_id m) rt -> (m_id m = "ta" /\ rt = []) \/ (m_id m <> "ta" /\ rt = ["ta"]).
Proof.
  intros Hm H. inversion H as [m0 Hm0 Hs Em Er|m0 a r Hm0 Ha Hr Em Er]; subst.
  - ry_members; try discriminate Em; try discriminate Hs; left; split; reflexivity.
  - assert (a = "ta") as -> by (ry_members; simpl in Ha; repeat destruct Ha as [<-|Ha]; try destruct Ha; reflexivity).
    right. split; [ry_members; try discriminate Em; try destruct Ha; discriminate|].
    f_equal. inversion Hr as [m1 Hm1 Hs1 E1 E2|m1 a1 r1 Hm1 Ha1 Hr1 E1 E2]; [reflexivity|].
    exfalso. ry_members; try discriminate E1; destruct Ha1.
Qed.

Lemma ry_up m : In m ry_fed -> m_id m <> "ta" -> path ry_fed (m_id m) ["ta"].
Proof.
  intros Hm Hn. apply path_up; [exact Hm| |].
  - ry_members; [contradiction Hn; reflexivity|left; reflexivity|left; reflexivity].
  - apply (path_end _ ry_ta); [left; reflexivity|reflexivity].
Qed.

Lemma ry_checkable : all_checkable ex_jwks ry_fed ry_env.
Proof.
  intros m Hm rt Hp. destruct (ry_path m rt Hm Hp) as [[E ->]|[E ->]]; ry_members; try discriminate E; try (contradiction E; reflexivity);
    eexists; vm_compute; reflexivity.
Qed.

Lemma ry_usable m : In m ry_fed -> m_id m <> "ta" -> usable ex_jwks ry_fed ry_env [("ta", [1])] (m_id m) ["ta"].
Proof.
  intros Hm Hn. split; [exact (ry_up m Hm Hn)|]. split; [discriminate|]. split; [exists [1]; reflexivity|].
  ry_members; [contradiction Hn; reflexivity|vm_compute; reflexivity|vm_compute; reflexivity].
Qed.

Lemma ry_only m rt : In m ry_fed -> usable ex_jwks ry_fed ry_env [("ta", [1])] (m_id m) rt -> rt = ["ta"].
Proof. intros Hm (Hp & Hn & _). destruct (ry_path m rt Hm Hp) as [[_ ->]|[_ ->]]; [contradiction Hn; reflexivity|reflexivity]. Qed.

Lemma ry_keys : right_keys ry_fed [("ta", [1])].
Proof. intros m ks Hm H. ry_members; cbn in H; [injection H as <-; left; reflexivity|discriminate H|discriminate H]. Qed.

Lemma ry_upto m rt : In m ry_fed -> upto ry_fed "ta" (m_id m) rt -> rt = [] \/ rt = ["ta"].
Proof.
  intros Hm H. inversion H as [m0 Hm0 Hs Em Er|m0 a r Hm0 Hn Ha Hr Em Er]; subst; [left; reflexivity|right].
  assert (a = "ta") as -> by (ry_members; simpl in Ha; repeat destruct Ha as [<-|Ha]; try destruct Ha; reflexivity).
  f_equal. inversion Hr as [m1 Hm1 Hs1 E1 E2|m1 a1 r1 Hm1 Hn1 Ha1 Hr1 E1 E2]; [reflexivity|]. contradiction.
Qed.

Lemma ry_upto_ta m : In m ry_fed -> m_id m <> "ta" -> upto ry_fed "ta" (m_id m) ["ta"].
Proof.
  intros Hm Hn. apply upto_up; [exact Hm|exact Hn| |].
  - ry_members; [contradiction Hn; reflexivity|left; reflexivity|left; reflexivity].
  - apply (upto_end _ _ ry_ta); [left; reflexivity|left; reflexivity].
Qed.

Definition ry_K : key_sources := mkSources (fun _ => []) (fun _ => Ok [4]).

Definition ry_claims : dict val :=
  [("client_registration_types_supported", VList [VStr "automatic"; VStr "explicit"]); ("jwks", VInt 4); ("issuer", VStr "op");
   ("federation_registration_endpoint", VStr "op/registration")].

Lemma ry_knowable : knowable ex_jwks ry_fed ry_env id_order ry_K [("ta", [1])] "op".
Proof.
  assert (Ho : In w_op ry_fed) by (simpl; auto).
  split; [exists ["ta"]; exact (ry_usable w_op Ho ltac:(discriminate))|]. intros rt U. rewrite (ry_only w_op rt Ho U). eexists _, ry_claims.
  split; [eexists; vm_compute; reflexivity|]. split; [vm_compute; reflexivity|]. right. intros v _ _. eexists. reflexivity.
Qed.

Lemma ry_provider d : provider_right ex_jwks ry_fed ry_env id_order [("ta", [1])] "op" d -> d = ry_claims.
Proof.
  intros (rt & md & U & [ves Ha] & Hd). assert (Ho : In w_op ry_fed) by (simpl; auto). rewrite (ry_only w_op rt Ho U) in Ha.
  vm_compute in Ha. injection Ha as <- <-. cbn in Hd. injection Hd as <-. reflexivity.
Qed.

(** rp asks op, which has been asked before *)
Definition ry_op : op := mkOp "op" 4 [4] ["ta"] 1100%Z 60000%Z.
Definition ry_token : token := asking_token ex_jwks ry_fed ry_env "rp".
Definition ry_calls : list call := [Enlist 2 ry_op [] ry_token; Enlist 2 ry_op [] ry_token].
Definition ry_served : astate := ExplicitProps.after_calls ry_env id_order ex_reg ry_calls v_server.
Definition ry_answer : RpModel.answer :=
  match snd (answer_oidc ry_env id_order 2 ex_reg ry_op [] ry_token ry_served) with
  | Ok (Some a) => a
  | _ => mkAnswer 0 (mkStmt "" "" None None None None None None) None
  end.

(** rp is sent a forged answer meanwhile *)
Definition ry_forged : RpModel.answer :=
  mkAnswer 9 (mkStmt "op" "rp" (Some 90000%Z) (Some [9]) (Some [("openid_relying_party", [("client_id", VStr "evil")])]) None None None) (Some "ta").
Definition ry_good (x : key) : Prop := In x [1; 3; 4].
Definition ry_made (a : RpModel.answer) : Prop := a = ry_answer.
Definition ry_moves : list move :=
  [Turn (Discover 2 ["ta"]); Reply 2 ry_forged; Turn (Discover 2 ["ta"]); Turn (Begin "s1"); Reply 2 ry_forged; Turn (Along (Look 2 "rp")); Turn (Begin "s2")].
Definition ry_after (n : nat) : rp := after_moves ry_env id_order ry_K "rp" (firstn n ry_moves) w_start.

Lemma ry_mean : signatures_mean ex_jwks ry_fed ry_env ry_good ry_made "rp" [("ta", [1])].
Proof.
  split; [|split].
  - intros x (m & Hm & [(ks & Hk & Hx)|(a & Ha & ks & Hk & Hx)]).
    + ry_members; vm_compute in Hk; injection Hk as <-; destruct Hx as [<-|[]]; unfold ry_good; cbn; auto.
    + ry_members; simpl in Ha; repeat destruct Ha as [<-|Ha]; try destruct Ha; vm_compute in Hk; injection Hk as <-; destruct Hx as [<-|[]]; unfold ry_good; cbn; auto.
  - intros e x (l & Hl & Hx). cbn in Hl. destruct (String.eqb e "ta"); [|discriminate Hl]. injection Hl as <-. destruct Hx as [<-|[]]. left. reflexivity.
  - intros a ->. split; [vm_compute; reflexivity|]. intros ks x Hk Hx. vm_compute in Hk. injection Hk as <-. destruct Hx as [<-|[]]. unfold ry_good. cbn. auto.
Qed.

Lemma ry_begins : begins ex_jwks ry_fed ry_env id_order ry_K v_rank w_op v_rp ry_good ry_made w_start.
Proof.
  constructor; [exact ry_shaky|exact cr_forwards|exact ry_hierarchy|exact ry_checkable|simpl; auto|simpl; auto|repeat split|exact ry_keys
    |right; reflexivity|reflexivity| |exact ry_knowable|exact ry_mean].
  intros d Hd. rewrite (ry_provider d Hd). reflexivity.
Qed.

Lemma ry_about n : moves_about ry_fed v_rank ry_good ry_made "rp" "op" (firstn n ry_moves).
Proof.
  assert (MA : may_arrive ry_fed v_rank ry_good ry_made "rp" 2 ry_forged).
  { split; [exists w_op; split; [right; left; reflexivity|split; [reflexivity|vm_compute; lia]]|]. split; [vm_compute; lia|].
    intros G. cbn in G. destruct G as [G|[G|[G|[]]]]; discriminate G. }
  assert (All : moves_about ry_fed v_rank ry_good ry_made "rp" "op" ry_moves).
  { intros v Hv. cbn [ry_moves In] in Hv. repeat (destruct Hv as [<-|Hv];
      [first [exact MA|intros t [<-|[]]; first [exact I|vm_compute; lia|split; [exists v_rp; simpl; auto|vm_compute; lia]]]|]). destruct Hv. }
  intros v Hv. apply All. rewrite <- (firstn_skipn n ry_moves). apply in_or_app. left. exact Hv.
Qed.

Definition ry_left : metadata :=
  match policy_call id_order (removelast (said ex_jwks ry_fed ry_env "rp" ["ta"])) (an_claims ry_answer) with
  | Ok (m, _) => match dget "openid_relying_party" m with Some (Some md) => md | _ => [] end
  | Err _ => []
  end.

Example C187_ex : begins ex_jwks ry_fed ry_env id_order ry_K v_rank w_op v_rp ry_good ry_made w_start /\
  moves_about ry_fed v_rank ry_good ry_made "rp" "op" ry_moves /\
  (* finding out about the OP fails *)
  snd (do_provider_info ry_env id_order 2 ry_K ["ta"] (ry_after 0)) = Err ConnectionError /\
  (exists x, snd (parse_oidc ry_env id_order 2 "rp" ry_forged (p_fed (ry_after 1))) = Err x) /\
  p_info (ry_after 2) = [("issuer", VStr "op")] /\
  (* then rp knows it *)
  snd (do_provider_info ry_env id_order 2 ry_K ["ta"] (ry_after 2)) = Ok (VStr "op") /\
  p_info (ry_after 3) = ry_claims /\ p_keys (ry_after 3) = [("op", [KPub 4])] /\
  (forall d, provider_right ex_jwks ry_fed ry_env id_order (f_keys (p_fed w_start)) "op" d ->
     (exists v l t, dget "client_registration_types_supported" d = Some v /\ py_set v = Ok l /\ In t ["explicit"] /\ In (VStr t) l) /\
     dget "federation_registration_endpoint" d <> None) /\
  snd (choose_registration [] ["explicit"] true (ry_after 3)) = Ok (RpModel.Ask (VStr "op/registration")) /\
  (* the forged answer is not taken, and the real one is *)
  (exists x, snd (parse_oidc ry_env id_order 2 "rp" ry_forged (p_fed (ry_after 7))) = Err x) /\
  snd (parse_oidc ry_env id_order 2 "rp" ry_answer (p_fed (ry_after 7))) = Ok ry_left /\
  dget "client_id" ry_left = Some (VStr "rp") /\ snd (finalize_auth "s2" (ry_after 7)) = Ok tt.
Proof.
  split; [exact ry_begins|]. split; [exact (ry_about 7)|]. split; [vm_compute; reflexivity|]. split; [eexists; vm_compute; reflexivity|].
  do 4 (split; [vm_compute; reflexivity|]). split.
  { intros d Hd. rewrite (ry_provider d Hd). split; [|discriminate]. eexists _, _, "explicit". split; [reflexivity|]. split; [vm_compute; reflexivity|].
    split; [left; reflexivity|]. vm_compute. auto. }
  split; [vm_compute; reflexivity|]. split; [eexists; vm_compute; reflexivity|]. split; [vm_compute; reflexivity|]. split; vm_compute; reflexivity.
Qed.

(** the rest of the hypotheses of [C187_registered] *)
Example C187_ex_registered :
  (calls_about ry_fed v_rank ry_calls /\ is_member ry_op w_op /\ asks_until ex_jwks ry_fed ry_env v_rp 87500 ry_token /\
   only_client (s_metadata (config ex_jwks ry_fed ry_env "rp")) v_published /\ good_client ex_reg false "rp" v_published /\
   (exists q, usable ex_jwks ry_fed ry_env (f_keys (a_fed v_server)) "rp" q) /\
   (forall q, usable ex_jwks ry_fed ry_env (f_keys (a_fed v_server)) "rp" q ->
      end_of "rp" q = "ta" /\ exists md, adjusted id_order ex_jwks ry_fed ry_env "rp" q md)) /\
  ((forall x, In x ry_fed -> m_id x = "ta" -> superiors_of x = []) /\ upto ry_fed "ta" "op" ["ta"] /\
   checkable_above ex_jwks ry_fed ry_env "ta" "op" /\ checkable_upto ex_jwks ry_fed ry_env "ta" "rp" /\
   usable_upto ex_jwks ry_fed ry_env (f_keys (p_fed w_start)) "ta" "rp" ["ta"] /\
   (forall q, usable_upto ex_jwks ry_fed ry_env (f_keys (p_fed w_start)) "ta" "rp" q -> q = ["ta"])) /\
  (* what happens at the OP *)
  snd (answer_oidc ry_env id_order 2 ex_reg ry_op [] ry_token v_server) = Err ConnectionError /\
  snd (answer_oidc ry_env id_order 2 ex_reg ry_op [] ry_token ry_served) = Ok (Some ry_answer) /\
  (e_clock ry_env (st_tick (f_col (a_fed ry_served))) < 87500)%Z /\
  (e_clock ry_env (st_tick (f_col (a_fed (fst (answer_oidc ry_env id_order 2%nat ex_reg ry_op [] ry_token ry_served))))) < e_clock ry_env 0 + 86400 - e_delta ry_env)%Z /\
  (* and at the relying party *)
  left_over id_order ex_jwks ry_fed ry_env "rp" ["ta"] ry_answer ry_left /\ ry_left <> [] /\
  (e_clock ry_env (st_tick (f_col (p_fed (ry_after 7%nat)))) < op_now ry_op + op_lifetime ry_op)%Z.
Proof.
  assert (Hr : In v_rp ry_fed) by (simpl; auto). assert (Ho : In w_op ry_fed) by (simpl; auto). split.
  { split.
    { assert (N : names_member ry_fed v_rank 2 ry_token).
      { intros k p Et. vm_compute in Et. injection Et as _ <-. split; [exists v_rp; auto|vm_compute; lia]. }
      intros c [<-|[<-|[]]]; exact N. }
    split; [split; [reflexivity|split; [reflexivity|left; reflexivity]]|]. split.
    { eexists. split; [vm_compute; reflexivity|]. repeat (split; [reflexivity|]).
      split; [eexists; split; [reflexivity|left; reflexivity]|]. reflexivity. }
    split.
    { eexists. split; [vm_compute; reflexivity|]. split; [apply nodupb_sound; reflexivity|]. split; [reflexivity|].
      intros t [<-|[]]. left. reflexivity. }
    split; [exact v_published_good|]. split; [exists ["ta"]; exact (ry_usable v_rp Hr ltac:(discriminate))|].
    intros q U. rewrite (ry_only v_rp q Hr U). split; [reflexivity|]. eexists. eexists. vm_compute. reflexivity. }
  split.
  { split; [intros x Hx E; ry_members; try discriminate E; reflexivity|]. split; [exact (ry_upto_ta w_op Ho ltac:(discriminate))|]. split.
    { intros q Hp Hn. destruct (ry_upto w_op q Ho Hp) as [-> | ->]; [contradiction Hn; reflexivity|eexists; vm_compute; reflexivity]. }
    split. { intros q Hp. destruct (ry_upto v_rp q Hr Hp) as [-> | ->]; eexists; vm_compute; reflexivity. }
    split.
    { destruct (ry_usable v_rp Hr ltac:(discriminate)) as (_ & U2 & U3 & U4).
      split; [exact (ry_upto_ta v_rp Hr ltac:(discriminate))|]. split; [exact U2|]. split; [exact U3|exact U4]. }
    intros q (Hp & Hn & _). destruct (ry_upto v_rp q Hr Hp) as [-> | ->]; [contradiction Hn; reflexivity|reflexivity]. }
  do 4 (split; [vm_compute; reflexivity|]). split; [eexists _, _; split; vm_compute; reflexivity|].
  split; [vm_compute; discriminate|vm_compute; reflexivity].
Qed.
