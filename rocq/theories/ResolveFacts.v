(** Lemmas about the resolve endpoint and the lookup of endpoints (C84-C90). *)
From Verif Require Import PyFacts CollectorProps CollectorRepeat CollectorRepeatProps TreeProps VerifierFacts FetchFacts.
From Verif Require Export ResolveModel FederationSpec FederationProps.
From Coq Require Import Lia.

(** ** Vocabulary *)

(** what is known about entity type [t] in [m] *)
Definition type_entry (m : tc_metadata) (t : string) (v : val) : Prop :=
  match m with
  | ByType d => exists o, dget t d = Some o /\ v = type_val o
  | Flat d => dget t d = Some v
  end.

(** the metadata a request with type [o] asks for *)
Definition asked_for (m : tc_metadata) (o : option string) (v : val) : Prop :=
  match o with
  | None => v = md_val m
  | Some t => exists w, type_entry m t w /\ v = VDict [(t, w)]
  end.

(** [c], the [length pre]-th of the chains collected from [sub] upwards to [anchor], verified and adjusted *)
Definition chain_to (E : cenv) (O : iter_order) (fuel : nat) (anchor sub : string) (s : fstate)
    (pre : list (list token)) (ch : list token) (leaf : token) (c : tchain) : Prop :=
  exists chains post tc,
    snd (collect_trust_chains E fuel sub anchor s) = Ok (chains, Some leaf) /\ chains = pre ++ ch :: post /\
    snd (verifier_call (e_lib E) (after_calls (e_lib E) (f_keys s) (map (fun c => c ++ [leaf]) pre)) (ch ++ [leaf]))
    = Ok (Some tc) /\ apply_to_chain O tc = Ok c /\ ch_anchor c = anchor.

(** all statements collected while a list of requests is answered *)
Definition gathered (E : cenv) (fuel : nat) (q : rreq) (s : fstate) : list token :=
  match rq_anchor q, rq_sub q with
  | Some anchor, Some sub =>
      match snd (collect_trust_chains E fuel sub anchor s) with
      | Ok (chains, Some leaf) => flat_map (fun c => c ++ [leaf]) chains
      | _ => []
      end
  | _, _ => []
  end.

Section Requests.
Context (E : cenv) (O : iter_order) (fuel : nat) (me : string) (jwks : val) (wta : bool).

Fixpoint answer_all (qs : list rreq) (s : fstate) : fstate :=
  match qs with
  | [] => s
  | q :: qs' => answer_all qs' (fst (resolve E O fuel me jwks wta q s))
  end.

Fixpoint heard (qs : list rreq) (s : fstate) : list token :=
  match qs with
  | [] => []
  | q :: qs' => gathered E fuel q s ++ heard qs' (fst (resolve E O fuel me jwks wta q s))
  end.
End Requests.

(** ** Taking a response apart *)

Lemma md_index_ok m t v : md_index m t = Ok v <-> type_entry m t v.
Proof.
  unfold md_index, type_entry. destruct m as [d|d].
  - split.
    + intros H. apply bind_ok in H. destruct H as (o & H & [= <-]). apply dindex_ok in H. eauto.
    + intros (o & H & ->). apply dindex_ok in H. rewrite H. reflexivity.
  - apply dindex_ok.
Qed.

Definition metadata_asked (m : tc_metadata) (o : option string) : res val :=
  match o with
  | Some t => let* v := md_index m t in Ok (VDict [(t, v)])
  | None => Ok (md_val m)
  end.

Lemma metadata_asked_ok m o v : metadata_asked m o = Ok v <-> asked_for m o v.
Proof.
  destruct o as [t|]; simpl.
  - split.
    + intros H. apply bind_ok in H. destruct H as (w & H & [= <-]). apply md_index_ok in H. eauto.
    + intros (w & H & ->). apply md_index_ok in H. rewrite H. reflexivity.
  - split; [intros [= <-]|intros ->]; reflexivity.
Qed.

Lemma verify_chains_keys E extra chains : forall kj,
  exists pre, incl pre chains /\
    fst (verify_trust_chains E chains extra kj) = after_calls (e_lib E) kj (map (fun c => c ++ extra) pre).
Proof.
  unfold verify_trust_chains.
  cut (forall acc kj, exists pre, incl pre chains /\
         fst (mfold (fun acc c => do tc <- run_verifier E (c ++ extra) in
                       ret (match tc with Some t => acc ++ [t] | None => acc end)) chains acc kj)
         = after_calls (e_lib E) kj (map (fun c => c ++ extra) pre)); [intros H kj; apply H|].
  induction chains as [|c chains IH]; intros acc kj; simpl.
  { exists []. split; [intros x []|reflexivity]. }
  unfold mbind, run_verifier.
  destruct (verifier_call (e_lib E) kj (c ++ extra)) as [kj1 [o|x]] eqn:Ev.
  - unfold ret. cbn beta iota. destruct (IH (match o with Some t => acc ++ [t] | None => acc end) kj1) as (pre & Hi & Hf).
    exists (c :: pre). split.
    + intros x Hx. destruct Hx as [<-|Hx]; [left; reflexivity|right; apply Hi, Hx].
    + etransitivity; [exact Hf|]. cbn [map]. unfold after_calls. cbn [fold_left]. rewrite Ev. reflexivity.
  - exists [c]. split; [intros y [<-|[]]; left; reflexivity|]. cbn [map]. unfold after_calls. cbn [fold_left fst].
    rewrite Ev. reflexivity.
Qed.

Lemma resolve_inv E O fuel me jwks wta q s s' resp :
  resolve E O fuel me jwks wta q s = (s', Ok resp) ->
  exists anchor sub s1 pre ch leaf c md,
    rq_anchor q = Some anchor /\ rq_sub q = Some sub /\
    s1 = fst (collect_trust_chains E fuel sub anchor s) /\
    chain_to E O fuel anchor sub s pre ch leaf c /\ asked_for (ch_md c) (rq_type q) md /\
    get_chain E (tc_iss_path (ch_tc c)) anchor wta (f_col s1) = (f_col s', Ok (rr_chain resp)) /\
    create_entity_statement (e_clock E (st_tick (f_col s'))) me sub jwks [("metadata", md)] = Ok (rr_claims resp).
Proof.
  unfold resolve. destruct (rq_anchor q) as [anchor|]; [|discriminate].
  destruct (rq_sub q) as [sub|]; [|discriminate].
  unfold mbind at 1 2, lift at 1 2, given. cbn beta iota.
  unfold mbind at 1. assert (Hk := collect_keys E fuel sub anchor s).
  destruct (collect_trust_chains E fuel sub anchor s) as [s1 [[chains leaf]|x]] eqn:Ec; [|discriminate].
  cbn [fst snd] in *. unfold mbind at 1, on_keys. rewrite Hk.
  destruct (verify_trust_chains E chains _ (f_keys s)) as [kj [tcs|x]] eqn:Ev; [|discriminate].
  unfold mbind at 1, lift at 1. destruct (apply_policies O tcs) as [cs|x] eqn:Ea; [|discriminate].
  destruct (find _ cs) as [c|] eqn:Ef; [|discriminate].
  apply find_some in Ef. destruct Ef as [Hin Eanc]. apply String.eqb_eq in Eanc.
  change (match rq_type q with
          | Some t => let* v := md_index (ch_md c) t in Ok (VDict [(t, v)])
          | None => Ok (md_val (ch_md c))
          end) with (metadata_asked (ch_md c) (rq_type q)).
  unfold mbind at 1, lift at 1. destruct (metadata_asked (ch_md c) (rq_type q)) as [md|x] eqn:Em; [|discriminate].
  apply metadata_asked_ok in Em.
  unfold mbind at 1, on_col at 1. cbn [f_col f_keys f_chains].
  destruct (get_chain E (tc_iss_path (ch_tc c)) anchor wta (f_col s1)) as [c1 [vs|x]] eqn:Eg; [|discriminate].
  unfold mbind, on_col, now, lift, ret. cbn [f_col f_keys f_chains].
  destruct (create_entity_statement (e_clock E (st_tick c1)) me sub jwks [("metadata", md)]) as [cl|x] eqn:Ecr;
    [|discriminate].
  intros [= <- <-]. cbn [f_col rr_chain rr_claims].
  destruct (proj1 (mapM_In _ _ _ _ _ Ea) c Hin) as (tc & Htc & Hap).
  apply (verify_chains_spec E _ chains _ _ _ Ev) in Htc. destruct Htc as (pre & ch & post & Echs & Hv).
  assert (Hl : exists t, leaf = Some t).
  { destruct leaf as [t|]; [eauto|]. exfalso. unfold collect_trust_chains, mbind in Ec.
    destruct (on_col (collect E fuel anchor sub) s) as [s2 [[[tr t]|]|x]]; try discriminate.
    injection Ec as _ <-. destruct pre; discriminate. }
  destruct Hl as [t ->].
  exists anchor, sub, s1, pre, ch, t, c, md.
  split; [reflexivity|]. split; [reflexivity|]. split; [rewrite Ec; reflexivity|].
  split; [|auto]. exists chains, post, tc. rewrite Ec. cbn [snd]. auto.
Qed.

(** the effect of a request on the key jar *)
Lemma resolve_keys E O fuel me jwks wta q s :
  exists calls, f_keys (fst (resolve E O fuel me jwks wta q s)) = after_calls (e_lib E) (f_keys s) calls /\
    (forall kp, In kp (flat_map jws calls) -> In kp (jws (gathered E fuel q s))).
Proof.
  unfold resolve, gathered.
  destruct (rq_anchor q) as [anchor|]; [|exists []; split; [reflexivity|intros kp []]].
  destruct (rq_sub q) as [sub|]; [|exists []; split; [reflexivity|intros kp []]].
  unfold mbind at 1 2, lift at 1 2, given. cbn beta iota.
  unfold mbind at 1. assert (Hk := collect_keys E fuel sub anchor s).
  destruct (collect_trust_chains E fuel sub anchor s) as [s1 [[chains leaf]|x]] eqn:Ec; cbn [fst snd] in *.
  2:{ exists []. split; [exact Hk|intros kp []]. }
  assert (Hl : leaf = None -> chains = []).
  { intros ->. unfold collect_trust_chains, mbind in Ec.
    destruct (on_col (collect E fuel anchor sub) s) as [s2 [[[tr t]|]|x]]; try discriminate.
    injection Ec as _ <-. reflexivity. }
  unfold mbind at 1, on_keys. rewrite Hk.
  destruct (verify_chains_keys E (match leaf with Some t => [t] | None => [] end) chains (f_keys s)) as (pre & Hi & Hf).
  assert (Hgot : forall kp, In kp (flat_map jws (map (fun c => c ++ match leaf with Some t => [t] | None => [] end) pre)) ->
            In kp (jws match leaf with Some leaf => flat_map (fun c => c ++ [leaf]) chains | None => [] end)).
  { intros kp H. apply in_flat_map in H. destruct H as (ts & Hts & Hkp). apply in_map_iff in Hts.
    destruct Hts as (c & <- & Hc). destruct leaf as [t|].
    - assert (Hjf : forall l, jws (flat_map (fun c => c ++ [t]) l) = flat_map (fun c => jws (c ++ [t])) l).
      { induction l as [|c0 l IH]; cbn [flat_map]; [reflexivity|]. rewrite jws_app, IH. reflexivity. }
      rewrite Hjf. apply in_flat_map. exists c. split; [apply Hi, Hc|exact Hkp].
    - rewrite (Hl eq_refl) in Hi. destruct (Hi c Hc). }
  exists (map (fun c => c ++ match leaf with Some t => [t] | None => [] end) pre). split; [|exact Hgot].
  rewrite <- Hf. clear Hf Hgot Hi.
  destruct (verify_trust_chains E chains _ (f_keys s)) as [kj [tcs|x]]; [|reflexivity].
  unfold mbind at 1, lift at 1. destruct (apply_policies O tcs) as [cs|x]; [|reflexivity].
  destruct (find _ cs) as [c|]; [|reflexivity].
  unfold mbind at 1, lift at 1.
  destruct (match rq_type q with Some t => _ | None => _ end) as [md|x]; [|reflexivity].
  unfold mbind at 1, on_col at 1. cbn [f_col f_keys f_chains].
  destruct (get_chain E (tc_iss_path (ch_tc c)) anchor wta (f_col s1)) as [c1 [vs|x]]; [|reflexivity].
  unfold mbind, on_col, now, lift, ret. cbn [f_col f_keys f_chains].
  destruct (create_entity_statement _ me sub jwks [("metadata", md)]) as [cl|x]; reflexivity.
Qed.

Lemma answered_keys E O fuel me jwks wta qs : forall s e k,
  holds (f_keys (answer_all E O fuel me jwks wta qs s)) e k ->
  traceable (f_keys s) (jws (heard E O fuel me jwks wta qs s)) e k.
Proof.
  induction qs as [|q qs IH]; intros s e k H.
  - apply tr_initial. exact H.
  - cbn [answer_all heard] in *. apply IH in H. rewrite jws_app.
    destruct (resolve_keys E O fuel me jwks wta q s) as (calls & Hk & Hsub). rewrite Hk in H.
    eapply traceable_trans; [|apply incl_appr, incl_refl|exact H].
    intros e' k' Hh. apply history_traceable in Hh.
    eapply traceable_mono; [|exact Hh]. intros kp Hkp. apply in_or_app. left. apply Hsub, Hkp.
Qed.

(** ** Honest federations *)

(** no statement is about the entity the collection stops at *)
Lemma grown_path_subjects E s stop_at : honest E s -> forall tr entity c,
  obtainable E s entity c -> grown E s stop_at entity c tr ->
  forall p, path tr p ->
  entity <> stop_at /\ forall k q, In (ESTok (TJws k q)) p -> s_sub q <> stop_at.
Proof.
  intros Hh tr. induction tr as [bs IH] using tree_ind'. intros entity c Hc G p Hp.
  destruct (h_config E s Hh entity c Hc) as (Ei & _).
  inversion G as [? ? Htop|? ? hints ? Eh Hs Hnd Hmem Hb]; subst.
  { inversion Hp; subst; match goal with H : In _ [] |- _ => destruct H | _ => idtac end. }
  split; [exact Hs|].
  assert (Hsome : forall a v t, In (a, Some (v, t)) bs ->
     exists c', (forall k q, v = ESTok (TJws k q) -> s_sub q <> stop_at) /\
                obtainable E s a c' /\ grown E s stop_at a c' t).
  { intros a v t Hin. assert (Hg := Hb a _ Hin). apply grown_branch_some in Hg.
    destruct Hg as (c' & Hsaid & Ho & Hg). exists c'. split; [|auto].
    intros k q ->. destruct (h_statement E s Hh a _ _ Hsaid) as (k' & q' & [= <- <-] & _ & Es). congruence. }
  inversion Hp as [bs' a Hin|bs' a v Hin|bs' a v t p' Hin Hne Hp']; subst.
  - intros k q [].
  - intros k q [Hx|[]]. destruct (Hsome a v _ Hin) as (c' & H1 & _). apply (H1 k q). exact Hx.
  - intros k q Hx. destruct (Hsome a v _ Hin) as (c' & H1 & Ho & Hg). apply in_app_or in Hx.
    destruct Hx as [Hx|[Hx|[]]]; [|apply (H1 k q); exact Hx].
    exact (proj2 (IH a _ t Hin a c' Ho Hg p' Hp') k q Hx).
Qed.

(** the leaf's configuration and the tree for any [stop_at] *)
Lemma collected_to E fuel id stop_at s chains leaf :
  clean id -> clean_federation E (f_col s) -> honest E (f_col s) ->
  snd (collect_trust_chains E fuel id stop_at s) = Ok (chains, Some leaf) ->
  exists k c tr, leaf = TJws k c /\ obtainable E (f_col s) id c /\ s_iss c = id /\ s_sub c = id /\
    grown E (f_col s) stop_at id c tr /\ chains = map (map tok_of) (tree2chains tr) /\
    snd (collect E fuel stop_at id (f_col s)) = Ok (Some (tr, leaf)).
Proof.
  intros Hid Hcl Hh H. unfold collect_trust_chains, mbind, on_col in H.
  destruct (collect E fuel stop_at id (f_col s)) as [c0 [[[tr t]|]|x]] eqn:Ec; try discriminate.
  injection H as <- <-.
  destruct (C33_branches_partial _ _ _ _ _ _ _ _ Hid Hcl Ec) as (c & Hc & G).
  assert (Hpay : exists k, t = TJws k c).
  { destruct Hc as [(e & He & <- & Hj)|(n & _ & _ & k & keys & -> & _)]; [|eauto].
    apply (h_cached E _ Hh id e t He Hj). }
  destruct Hpay as [k ->].
  assert (Ho : obtainable E (f_col s) id c).
  { destruct Hc as [(e & He & Ece & _)|Hc]; [right; eauto|left; eauto]. }
  destruct (h_config E _ Hh id c Ho) as (H1 & H2 & _).
  exists k, c, tr. split; [reflexivity|]. split; [exact Ho|]. split; [exact H1|]. split; [exact H2|].
  split; [exact G|]. split; reflexivity.
Qed.

(** a chain in an honest federation: the statements climb from the subject to the anchor *)
Lemma chain_to_honest E O fuel anchor sub s pre ch leaf c :
  clean sub -> clean_federation E (f_col s) -> honest E (f_col s) ->
  chain_to E O fuel anchor sub s pre ch leaf c ->
  exists kc conf l tr p,
    leaf = TJws kc conf /\ obtainable E (f_col s) sub conf /\ s_iss conf = sub /\ s_sub conf = sub /\
    snd (collect E fuel anchor sub (f_col s)) = Ok (Some (tr, leaf)) /\
    grown E (f_col s) anchor sub conf tr /\ path tr p /\
    ch = map tok_of p /\ map tok_of p = map (fun kp => TJws (fst kp) (snd kp)) l /\
    l <> [] /\ climbs E (f_col s) sub (map snd l) /\
    (exists k q l', l = (k, q) :: l' /\ s_iss q = anchor) /\
    tc_chain (ch_tc c) = ch ++ [leaf] /\
    map s_iss (ch_verified c) = map s_iss (map snd l ++ [conf]) /\
    map s_sub (ch_verified c) = map s_sub (map snd l ++ [conf]) /\
    tc_iss_path (ch_tc c) = sub :: rev (map s_iss (map snd l)).
Proof.
  intros Hid Hcl Hh (chains & post & tc & Hcol & Ech & Hv & Ha & Eanc).
  destruct (collected_to _ _ _ _ _ _ _ Hid Hcl Hh Hcol) as (kc & conf & tr & -> & Ho & Hi & Hs & G & Echs & Hcol').
  assert (Hch : In ch (map (map tok_of) (tree2chains tr))) by (rewrite <- Echs, Ech; apply in_elt).
  apply in_map_iff in Hch. destruct Hch as (p & Ep & Hp). apply C31_chains_are_paths in Hp.
  destruct (grown_climbs E (f_col s) anchor Hh tr sub conf Ho G p Hp) as (l & El & Hl).
  apply apply_keeps in Ha. destruct Ha as (A1 & A2 & A3 & A4 & A5 & A6).
  apply call_ok in Hv. destruct Hv as (Hv & _ & (s0 & l0 & Ev & Ea) & Epath & Echain).
  apply verified_iff in Hv. destruct Hv as (_ & Eves & _).
  rewrite <- Ep, El, jws_app, jws_map in Eves. cbn [jws] in Eves. rewrite map_app in Eves. cbn [map snd] in Eves.
  destruct (grown_path_subjects E (f_col s) anchor Hh tr sub conf Ho G p Hp) as [Hne _].
  assert (Hfirst : exists k q l', l = (k, q) :: l' /\ s_iss q = anchor).
  { unfold ch_anchor in Eanc. rewrite A1, Ea in Eanc. rewrite Ev in Eves. destruct l as [|[k q] l'].
    - cbn [map app] in Eves. injection Eves as -> ->. congruence.
    - cbn [map app snd] in Eves. injection Eves as -> _. exists k, q, l'. auto. }
  exists kc, conf, l, tr, p. split; [reflexivity|]. split; [exact Ho|]. split; [exact Hi|]. split; [exact Hs|].
  split; [exact Hcol'|]. split; [exact G|]. split; [exact Hp|]. split; [auto|]. split; [exact El|].
  split; [destruct Hfirst as (? & ? & ? & -> & _); discriminate|]. split; [exact Hl|]. split; [exact Hfirst|].
  split; [rewrite A2; exact Echain|]. rewrite A3, Epath, A5, A6, Eves.
  split; [reflexivity|]. split; [reflexivity|].
  rewrite map_app, rev_app_distr. cbn [map rev app]. rewrite Hi. reflexivity.
Qed.

(** ** Chains in the caches *)

Lemma chain_statements_cons E a b rest :
  get_chain_statements E (a :: b :: rest)
  = (do v <- es_getitem E (cache_key b a) in
     do vs <- get_chain_statements E (b :: rest) in ret (v :: vs)).
Proof. reflexivity. Qed.

Lemma path_in_cache E s0 s1 stop_at : honest E s0 -> forall tr entity c,
  obtainable E s0 entity c -> grown E s0 stop_at entity c tr -> cached E s1 entity tr ->
  forall p, path tr p ->
  forall l, map tok_of p = map (fun kp => TJws (fst kp) (snd kp)) l ->
  get_chain_statements E (entity :: rev (map s_iss (map snd l))) s1
  = (s1, Ok (map (fun kp => Some (ESTok (TJws (fst kp) (snd kp)))) (rev l))) /\
  (forall k q l', l = (k, q) :: l' -> exists cc, dget (s_iss q) (st_cfg s1) = Some cc).
Proof.
  intros Hh tr. induction tr as [bs IH] using tree_ind'. intros entity c Hc G K p Hp.
  inversion K as [? ? Hcl K1 K2 _]; subst.
  inversion G as [? ? Htop|? ? hints ? Eh Hs Hnd Hmem Hb]; subst.
  { inversion Hp; subst; match goal with H : In _ [] |- _ => destruct H | _ => idtac end. }
  assert (Hsome : forall a v t, In (a, Some (v, t)) bs ->
     exists k q c', v = ESTok (TJws k q) /\ s_iss q = a /\
                    obtainable E s0 a c' /\ grown E s0 stop_at a c' t).
  { intros a v t Hin. assert (Hg := Hb a _ Hin). apply grown_branch_some in Hg.
    destruct Hg as (c' & Hsaid & Ho & Hg). destruct (h_statement E s0 Hh a entity v Hsaid) as (k & q & -> & H1 & H2).
    exists k, q, c'. auto. }
  assert (Get : forall a v t, In (a, Some (v, t)) bs -> es_getitem E (cache_key a entity) s1 = (s1, Ok (Some v))).
  { intros a v t Hin. destruct (K1 a v t Hin) as [[P _] _].
    unfold es_getitem, cache_getitem. rewrite P. destruct s1; reflexivity. }
  inversion Hp as [bs' a Hin|bs' a v Hin|bs' a v t p' Hin Hne Hp']; subst; intros l El.
  - destruct l; [|discriminate]. split; [reflexivity|intros; discriminate].
  - destruct (Hsome a v _ Hin) as (k & q & c' & -> & Ei & _).
    destruct l as [|[k1 q1] [|x l]]; try discriminate. cbn [map tok_of fst snd] in El. injection El as <- <-.
    cbn [map snd rev app]. rewrite Ei. cbn [get_chain_statements]. unfold mbind. rewrite (Get _ _ _ Hin).
    split; [reflexivity|]. intros k1 q1 l' [= <- <- <-]. rewrite Ei. apply (K1 _ _ _ Hin).
  - destruct (Hsome a v _ Hin) as (k & q & c' & -> & Ei & Ho & Hg).
    rewrite map_app in El. cbn [map tok_of] in El.
    destruct l as [|x l _] using rev_ind; [destruct (map tok_of p'); discriminate|].
    rewrite map_app in El. cbn [map] in El. apply app_inj_tail in El. destruct El as [El Ex].
    destruct x as [k1 q1]. cbn [fst snd] in Ex. injection Ex as <- <-.
    destruct (IH a _ t Hin a c' Ho Hg (K2 _ _ _ Hin) p' Hp' l El) as [I1 I2]. split.
    + rewrite !map_app, !rev_app_distr. cbn [map rev app snd fst]. rewrite Ei.
      rewrite chain_statements_cons. unfold mbind at 1. rewrite (Get _ _ _ Hin).
      unfold mbind. rewrite I1. reflexivity.
    + intros k1 q1 l' E1. destruct l as [|y l].
      * cbn [app] in E1. injection E1 as <- <- <-. rewrite Ei. apply (K1 _ _ _ Hin).
      * cbn [app] in E1. injection E1 as -> _. apply (I2 k1 q1 l). reflexivity.
Qed.

Lemma get_chain_config_ok E s id e t p :
  static E -> serves_fresh E -> consistent E s ->
  dget id (st_cfg s) = Some e -> pverified E id = Ok (t, p) ->
  get_chain_config E id s = (s, Ok t).
Proof.
  intros HS HF C He Hv. unfold get_chain_config, mbind. rewrite (cfg_getitem_eq E HS HF id s C), He.
  destruct (proj1 C id e He) as (t' & Hv' & ->). rewrite Hv in Hv'. injection Hv' as <- _. reflexivity.
Qed.

(** in a federation of fresh documents that do not change, the chain a resolver has verified is in its caches *)
Lemma chain_from_caches E O fuel anchor sub s pre ch leaf c wta :
  static E -> serves_fresh E -> clean_federation E (f_col s) ->
  honest E (f_col s) -> clean sub -> visited E (f_col s) ->
  chain_to E O fuel anchor sub s pre ch leaf c ->
  let s1 := fst (collect_trust_chains E fuel sub anchor s) in
  exists ta tap, pverified E anchor = Ok (ta, tap) /\
  get_chain E (tc_iss_path (ch_tc c)) anchor wta (f_col s1)
  = (f_col s1, Ok (map (fun t => Some (ESTok t)) (rev (tc_chain (ch_tc c)) ++ if wta then [ta] else []))).
Proof.
  intros HS HF HC Hh Hid V Hto s1.
  destruct (chain_to_honest _ _ _ _ _ _ _ _ _ _ Hid HC Hh Hto)
    as (kc & conf & l & tr & p & -> & Ho & Hi & Hs & Hcol & G & Hp & Ech & El & Hne & Hcli & (k & q & l' & El' & Eanc) &
        Echain & _ & _ & Epath).
  assert (HC' := hints_clean E _ HS HC).
  destruct (collect_eq E HS HF HC' anchor fuel sub Hid (f_col s)) as (c1 & E1 & C1 & _ & P1).
  { apply (visited_consistent E HS HF HC' _ V). }
  rewrite E1 in Hcol. cbn [snd] in Hcol. destruct (P1 _ Hcol) as [K (cf & Hv & Ht & Hg)].
  assert (Es1 : f_col s1 = c1).
  { unfold s1, collect_trust_chains, mbind, on_col. rewrite E1.
    destruct (pcollect E fuel anchor sub) as [[[? ?]|]|x]; reflexivity. }
  rewrite Es1. destruct (path_in_cache E (f_col s) c1 anchor Hh tr sub conf Ho G K p Hp l El) as [R1 R2].
  destruct (R2 k q l' El') as (cc & Hcc). rewrite Eanc in Hcc.
  destruct (proj1 C1 anchor cc Hcc) as (ta & Hta & _). exists ta, (ce_stmt cc). split; [exact Hta|].
  rewrite Epath. unfold get_chain.
  unfold mbind at 1. rewrite (get_chain_config_ok E c1 sub _ _ _ HS HF C1 Hg Hv).
  unfold mbind at 1. rewrite R1.
  assert (Em : map (fun kp => Some (ESTok (TJws (fst kp) (snd kp)))) (rev l)
               = map (fun t => Some (ESTok t)) (rev ch)).
  { rewrite Ech, El, <- map_rev, map_map. reflexivity. }
  rewrite Em, Echain, rev_app_distr. cbn [rev app map]. rewrite map_app. destruct wta.
  - unfold mbind. rewrite (get_chain_config_ok E c1 anchor cc _ _ HS HF C1 Hcc Hta). reflexivity.
  - cbn [map]. rewrite app_nil_r. reflexivity.
Qed.
