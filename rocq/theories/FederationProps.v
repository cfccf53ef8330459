(** Collection, verification and policies together (C61-C63). *)
From Verif Require Import PyFacts FederationSpec CollectorProps CollectorRepeat TreeProps VerifierFacts.
From Coq Require Import Lia.

(** ** opening a self-signed document *)

Lemma opened_fed {A} E t (k : token * stmt -> M fstate A) s :
  (do tp <- on_col (open_self_signed E t) in k tp) s =
  match verify_self_signed E (e_clock E (st_tick (f_col s))) t with
  | Ok tp => k tp s
  | Err e => (s, Err e)
  end.
Proof.
  destruct s as [c kj ch]. unfold mbind, on_col, open_self_signed. cbn [f_col f_keys f_chains].
  destruct (verify_self_signed E (e_clock E (st_tick c)) t); reflexivity.
Qed.

(** ** the steps of get_verified_trust_chains *)

Lemma after_calls_snoc L kj calls ts :
  after_calls L kj (calls ++ [ts]) = fst (verifier_call L (after_calls L kj calls) ts).
Proof. unfold after_calls. rewrite fold_left_app. reflexivity. Qed.

Lemma verify_chains_spec E extra chains : forall kj kj' tcs,
  verify_trust_chains E chains extra kj = (kj', Ok tcs) ->
  (forall tc, In tc tcs <->
     exists pre ch post, chains = pre ++ ch :: post /\
       snd (verifier_call (e_lib E) (after_calls (e_lib E) kj (map (fun c => c ++ extra) pre)) (ch ++ extra))
       = Ok (Some tc)).
Proof.
  unfold verify_trust_chains.
  assert (G : forall post pre kj0 acc kj' tcs,
    chains = pre ++ post ->
    mfold (fun acc c => do tc <- run_verifier E (c ++ extra) in
             ret (match tc with Some t => acc ++ [t] | None => acc end)) post acc
      (after_calls (e_lib E) kj0 (map (fun c => c ++ extra) pre)) = (kj', Ok tcs) ->
    forall tc, In tc tcs <-> In tc acc \/
      exists p1 ch p2, post = p1 ++ ch :: p2 /\
       snd (verifier_call (e_lib E) (after_calls (e_lib E) kj0 (map (fun c => c ++ extra) (pre ++ p1)))
              (ch ++ extra)) = Ok (Some tc)).
  { induction post as [|c post IH]; intros pre kj0 acc kj' tcs Ec H tc; simpl in H.
    - injection H as _ <-. split; [auto|]. intros [H|(p1 & ch & p2 & E0 & _)]; [exact H|].
      destruct p1; discriminate.
    - unfold mbind, run_verifier in H.
      destruct (verifier_call (e_lib E) (after_calls (e_lib E) kj0 (map (fun c => c ++ extra) pre)) (c ++ extra))
        as [kj1 [o|x]] eqn:Ev; [|discriminate].
      unfold ret in H. cbn beta iota in H.
      assert (Ek : kj1 = after_calls (e_lib E) kj0 (map (fun c => c ++ extra) (pre ++ [c]))).
      { rewrite map_app. cbn [map]. rewrite after_calls_snoc, Ev. reflexivity. }
      rewrite Ek in H.
      assert (Ec' : chains = (pre ++ [c]) ++ post) by (rewrite <- app_assoc; exact Ec).
      rewrite (IH _ _ _ _ _ Ec' H tc). clear IH H. split.
      + intros [Hin|(p1 & ch & p2 & -> & Hv)].
        * destruct o as [t|]; [|left; exact Hin]. apply in_app_or in Hin.
          destruct Hin as [Hin|[<-|[]]]; [left; exact Hin|right].
          exists [], c, post. split; [reflexivity|]. rewrite app_nil_r, Ev. reflexivity.
        * right. exists (c :: p1), ch, p2. split; [reflexivity|]. rewrite <- app_assoc in Hv. exact Hv.
      + intros [Hin|(p1 & ch & p2 & E0 & Hv)].
        * left. destruct o as [t|]; [apply in_or_app; left; exact Hin|exact Hin].
        * destruct p1 as [|c1 p1]; injection E0 as -> ->.
          -- left. rewrite app_nil_r, Ev in Hv. injection Hv as ->. apply in_or_app. right. left. reflexivity.
          -- right. exists p1, ch, p2. split; [reflexivity|]. rewrite <- app_assoc. exact Hv. }
  intros kj kj' tcs H tc. rewrite (G chains [] kj [] kj' tcs eq_refl H tc). cbn [app]. split.
  - intros [[]|H']; exact H'.
  - intros H'. right. exact H'.
Qed.

Lemma mapM_In A B (f : A -> res B) l : forall l', mapM f l = Ok l' ->
  (forall y, In y l' -> exists x, In x l /\ f x = Ok y) /\
  (forall x, In x l -> exists y, In y l' /\ f x = Ok y).
Proof.
  induction l as [|x l IH]; intros l' H; simpl in H.
  - injection H as <-. split; intros z [].
  - destruct (f x) as [y|e] eqn:Ef; [|discriminate]. simpl in H.
    destruct (mapM f l) as [l1|e]; [|discriminate]. injection H as <-.
    destruct (IH l1 eq_refl) as [I1 I2]. split.
    + intros w Hw. destruct Hw as [<-|Hw].
      * exists x. split; [left; reflexivity|exact Ef].
      * destruct (I1 w Hw) as (x' & H1 & H2). exists x'. split; [right; exact H1|exact H2].
    + intros w Hw. destruct Hw as [<-|Hw].
      * exists y. split; [left; reflexivity|exact Ef].
      * destruct (I2 w Hw) as (y' & H1 & H2). exists y'. split; [right; exact H1|exact H2].
Qed.

(** what the application of policies keeps *)
Lemma apply_keeps O tc c : apply_to_chain O tc = Ok c ->
  tc_anchor (ch_tc c) = tc_anchor tc /\ tc_chain (ch_tc c) = tc_chain tc /\
  tc_iss_path (ch_tc c) = tc_iss_path tc /\ tc_exp (ch_tc c) = tc_exp tc /\
  map s_iss (ch_verified c) = map s_iss (tc_verified tc) /\
  map s_sub (ch_verified c) = map s_sub (tc_verified tc).
Proof.
  unfold apply_to_chain. intros H. apply bind_ok in H. destruct H as ([md ves] & Hp & [= <-]).
  cbn [ch_tc tc_anchor tc_chain tc_iss_path tc_exp]. unfold ch_verified. cbn [ch_tc tc_verified snd fst] in *.
  assert (G : map s_iss ves = map s_iss (tc_verified tc) /\ map s_sub ves = map s_sub (tc_verified tc)).
  { unfold policy_call_chain in Hp. destruct (rev (tc_verified tc)) as [|leaf rfront] eqn:Er; [discriminate|].
    assert (Ev : tc_verified tc = rev rfront ++ [leaf])
      by (rewrite <- (rev_involutive (tc_verified tc)), Er; reflexivity).
    destruct (is_nil rfront).
    - apply bind_ok in Hp. destruct Hp as (m & _ & Hp). apply bind_ok in Hp.
      destruct Hp as (md' & _ & [= _ <-]). split; reflexivity.
    - apply bind_ok in Hp. destruct Hp as ([ms leaf'] & Hp & [= _ <-]). cbn [snd].
      unfold policy_call in Hp. destruct (s_metadata leaf) as [m|]; [|discriminate].
      assert (I : s_iss leaf' = s_iss leaf /\ s_sub leaf' = s_sub leaf).
      { change (s_iss (snd (ms, leaf')) = s_iss leaf /\ s_sub (snd (ms, leaf')) = s_sub leaf).
        revert Hp. apply (foldM_inv _ _ _ (fun acc => s_iss (snd acc) = s_iss leaf /\
                                                        s_sub (snd acc) = s_sub leaf)); [|split; reflexivity].
        intros acc t acc' _ [I1 I2] Ha. apply bind_ok in Ha. destruct Ha as (r & Hr & [= <-]). cbn [snd].
        unfold policy_type in Hr. apply bind_ok in Hr. destruct Hr as (comb & _ & Hr).
        destruct (s_metadata (snd acc)) as [m'|] eqn:Em; [|injection Hr as <-; auto].
        destruct (dget t m') as [md'|]; [|injection Hr as <-; auto].
        apply bind_ok in Hr. destruct Hr as (r' & _ & [= <-]). cbn [snd].
        destruct (snd r'); [|auto]. unfold set_type_metadata. rewrite Em. cbn. auto. }
      rewrite Ev, !map_app. cbn [map]. destruct I as [-> ->]. split; reflexivity. }
  split; [reflexivity|]. split; [reflexivity|]. split; [reflexivity|]. split; [reflexivity|]. exact G.
Qed.

(** the outcome of the collection inside get_verified_trust_chains *)
Definition collected (E : cenv) (fuel : nat) (id : string) (s : fstate)
    (chains : list (list token)) (leaf : token) : Prop :=
  snd (collect_trust_chains E fuel id "" s) = Ok (chains, Some leaf).

Lemma collect_keys E fuel id stop s :
  f_keys (fst (collect_trust_chains E fuel id stop s)) = f_keys s.
Proof.
  unfold collect_trust_chains, mbind, on_col. destruct (collect E fuel stop id (f_col s)) as [c r].
  destruct r as [[[tr t]|]|x]; reflexivity.
Qed.

Lemma get_verified_inv E O fuel id s s' cs :
  get_verified_trust_chains E O fuel id s = (s', Ok cs) ->
  cs = [] \/
  exists chains leaf kj' tcs, collected E fuel id s chains leaf /\
    verify_trust_chains E chains [leaf] (f_keys s) = (kj', Ok tcs) /\ apply_policies O tcs = Ok cs.
Proof.
  unfold get_verified_trust_chains, mbind at 1, collected. assert (Hk := collect_keys E fuel id "" s).
  destruct (collect_trust_chains E fuel id "" s) as [s1 [[chains [leaf|]]|x]]; cbn [fst snd] in *.
  - destruct chains as [|ch chains]; [intros [= _ <-]; left; reflexivity|].
    unfold mbind, on_keys. rewrite Hk. intros H. right. exists (ch :: chains), leaf.
    destruct (verify_trust_chains E (ch :: chains) [leaf] (f_keys s)) as [kj' [tcs|x]]; [|discriminate].
    exists kj', tcs. injection H as _ H. split; [reflexivity|]. split; [reflexivity|exact H].
  - destruct chains; intros [= _ <-]; left; reflexivity.
  - discriminate.
Qed.

Lemma returned_chain E O fuel id s s' cs c :
  get_verified_trust_chains E O fuel id s = (s', Ok cs) -> In c cs ->
  exists chains leaf pre ch post tc,
    collected E fuel id s chains leaf /\ chains = pre ++ ch :: post /\
    snd (verifier_call (e_lib E) (after_calls (e_lib E) (f_keys s) (map (fun c => c ++ [leaf]) pre)) (ch ++ [leaf]))
    = Ok (Some tc) /\ apply_to_chain O tc = Ok c.
Proof.
  intros H Hin. destruct (get_verified_inv _ _ _ _ _ _ _ H) as [->|(chains & leaf & kj' & tcs & H1 & H2 & H3)];
    [destruct Hin|].
  destruct (proj1 (mapM_In _ _ _ _ _ H3) c Hin) as (tc & Htc & Ha).
  apply (verify_chains_spec E [leaf] chains _ _ _ H2) in Htc. destruct Htc as (pre & ch & post & Ec & Hv).
  exists chains, leaf, pre, ch, post, tc. auto.
Qed.

(** ** C61 *)

Definition C61_full : Prop := forall E O fuel id s s' cs c,
  get_verified_trust_chains E O fuel id s = (s', Ok cs) -> In c cs -> known (f_keys s) (ch_anchor c).

(** rp below im; im names the trust anchor ta and also tb, which has no fetch endpoint *)
Definition ec_without (id : string) (k : key) : stmt :=
  mkStmt id id (Some 1000%Z) (Some [k]) (Some [("federation_entity", [])]) None None None.

Definition two_tops : cenv := ex_env
  [("rp/wk", TJws 3 (ec "rp" 3 1000 (Some ["im"]))); ("im/wk", TJws 2 (ec "im" 2 1000 (Some ["ta"; "tb"])));
   ("ta/wk", TJws 1 (ec "ta" 1 1000 None)); ("tb/wk", TJws 7 (ec_without "tb" 7))]
  [("im/fetch rp", TJws 2 (est "im" "rp" 900 [3])); ("ta/fetch im", TJws 1 (est "ta" "im" 800 [2]))]
  ["ta"].

Definition only_ta : fstate := mkFed (mkState [] [] 0) [("ta", [1])] [].

(** the chain that stops at im verifies because the first one made im's key known *)
Theorem C61_anchors_configured_refuted : ~ C61_full.
Proof.
  intros H.
  assert (G : exists s' c1 c2, get_verified_trust_chains two_tops id_order 9 "rp" only_ta = (s', Ok [c1; c2]) /\
                               ch_anchor c2 = "im").
  { eexists. eexists. eexists. split; [vm_compute; reflexivity|reflexivity]. }
  destruct G as (s' & c1 & c2 & G & Ea).
  destruct (H two_tops id_order 9 "rp" only_ta s' _ c2 G (or_intror (or_introl eq_refl))) as [l El].
  rewrite Ea in El. discriminate.
Qed.

(** Missing: that the anchor itself was known.  What holds in general: the first chain that was
    collected ends at an entity whose keys were known; the key at the end of any other one can be
    traced to known keys over the statements of the chains before it. *)
Theorem C61_anchors_configured_partial : forall E O fuel id s s' cs c,
  get_verified_trust_chains E O fuel id s = (s', Ok cs) -> In c cs ->
  exists chains leaf pre ch post k p ts,
    collected E fuel id s chains leaf /\ chains = pre ++ ch :: post /\
    ch ++ [leaf] = TJws k p :: ts /\ tc_chain (ch_tc c) = ch ++ [leaf] /\ ch_anchor c = s_iss p /\
    (pre = [] -> known (f_keys s) (ch_anchor c)) /\
    traceable (f_keys s) (flat_map (fun c => jws (c ++ [leaf])) pre) (ch_anchor c) k.
Proof.
  intros E O fuel id s s' cs c H Hin.
  destruct (returned_chain _ _ _ _ _ _ _ _ H Hin) as (chains & leaf & pre & ch & post & tc & H1 & H2 & Hv & Ha).
  apply apply_keeps in Ha. destruct Ha as (A1 & A2 & A3 & A4 & A5 & A6).
  apply call_ok in Hv. destruct Hv as (Hv & _ & (s0 & l0 & Ev & Ea) & _ & Ech).
  assert (Hv' := Hv). apply verified_iff in Hv'. destruct Hv' as ((k & p & ts & Et) & Eves & Hps & _).
  exists chains, leaf, pre, ch, post, k, p, ts.
  assert (Ep : s0 = p).
  { rewrite Eves in Ev. rewrite Et in Ev. cbn [jws map snd] in Ev. injection Ev as <- _. reflexivity. }
  subst s0.
  assert (Eanc : ch_anchor c = s_iss p) by (unfold ch_anchor; rewrite A1; exact Ea).
  rewrite Et in Hps. cbn [jws] in Hps.
  destruct (Hps [] k p (jws ts) eq_refl) as [Hh|(k2 & p2 & jw2 & [] & _)].
  split; [exact H1|]. split; [exact H2|]. split; [exact Et|]. split; [rewrite A2; exact Ech|].
  split; [exact Eanc|]. rewrite Eanc. split.
  - intros ->. cbn [map] in Hh. destruct Hh as (ks & Ek & _). exists ks. exact Ek.
  - apply history_traceable in Hh. rewrite flat_map_concat_map, map_map, <- flat_map_concat_map in Hh.
    exact Hh.
Qed.

(** *** honest federations *)

Lemma grown_climbs E s stop_at : honest E s -> forall tr entity c,
  obtainable E s entity c -> grown E s stop_at entity c tr ->
  forall p, path tr p ->
  exists l, map tok_of p = map (fun kp => TJws (fst kp) (snd kp)) l /\ climbs E s entity (map snd l).
Proof.
  intros Hh tr. induction tr as [bs IH] using tree_ind'. intros entity c Hc G p Hp.
  inversion G as [? ? Htop|? ? hints ? Eh Hs Hnd Hmem Hb]; subst.
  { inversion Hp; subst; match goal with H : In _ [] |- _ => destruct H | _ => idtac end. }
  assert (Hsome : forall a v t, In (a, Some (v, t)) bs ->
     exists k q c', v = ESTok (TJws k q) /\ s_iss q = a /\ s_sub q = entity /\ In a hints /\
                    obtainable E s a c' /\ grown E s stop_at a c' t).
  { intros a v t Hin. assert (Hg := Hb a _ Hin). apply grown_branch_some in Hg.
    destruct Hg as (c' & Hsaid & Ho & Hg). destruct (h_statement E s Hh a entity v Hsaid) as (k & q & -> & H1 & H2).
    exists k, q, c'. split; [reflexivity|]. split; [exact H1|]. split; [exact H2|].
    split; [|split; assumption]. apply Hmem. apply (in_map fst) in Hin. exact Hin. }
  inversion Hp as [bs' a Hin|bs' a v Hin|bs' a v t p' Hin Hne Hp']; subst.
  - exists []. split; [reflexivity|constructor].
  - destruct (Hsome a v _ Hin) as (k & q & c' & -> & Ei & Es & Hh' & _). exists [(k, q)].
    split; [reflexivity|]. cbn [map snd]. apply (climbs_snoc E s entity c hints q []); auto.
    + rewrite Ei. exact Hh'.
    + constructor.
  - destruct (Hsome a v _ Hin) as (k & q & c' & -> & Ei & Es & Hh' & Ho & Hg).
    destruct (IH a _ t Hin a c' Ho Hg p' Hp') as (l & El & Hl). exists (l ++ [(k, q)]). split.
    + rewrite !map_app, El. reflexivity.
    + rewrite map_app. cbn [map snd]. apply (climbs_snoc E s entity c hints q (map snd l)); auto.
      * rewrite Ei. exact Hh'.
      * rewrite Ei. exact Hl.
Qed.

Lemma jws_map l : jws (map (fun kp => TJws (fst kp) (snd kp)) l) = l.
Proof. induction l as [|[k p] l IH]; simpl; [reflexivity|]. rewrite IH. reflexivity. Qed.

Lemma jws_app t1 t2 : jws (t1 ++ t2) = jws t1 ++ jws t2.
Proof. induction t1 as [|[|k p] t1 IH]; simpl; [reflexivity|exact IH|]. rewrite IH. reflexivity. Qed.

(** the leaf's configuration and the tree of an honest federation *)
Lemma collected_honest E fuel id s chains leaf :
  clean id -> clean_federation E (f_col s) -> honest E (f_col s) ->
  collected E fuel id s chains leaf ->
  exists k c tr, leaf = TJws k c /\ obtainable E (f_col s) id c /\ s_iss c = id /\ s_sub c = id /\
    grown E (f_col s) "" id c tr /\ chains = map (map tok_of) (tree2chains tr) /\
    snd (collect E fuel "" id (f_col s)) = Ok (Some (tr, leaf)).
Proof.
  intros Hid Hcl Hh H. unfold collected, collect_trust_chains, mbind, on_col in H.
  destruct (collect E fuel "" id (f_col s)) as [c0 [[[tr t]|]|x]] eqn:Ec; try discriminate.
  injection H as <- <-.
  destruct (C33_branches_partial _ _ _ _ _ _ _ _ Hid Hcl Ec) as (c & Hc & G).
  assert (Hpay : exists k, t = TJws k c).
  { destruct Hc as [(e & He & <- & Hj)|(n & _ & _ & k & keys & -> & _)]; [|eauto].
    apply (h_cached E _ Hh id e t He Hj). }
  destruct Hpay as [k ->].
  assert (Ho : obtainable E (f_col s) id c).
  { destruct Hc as [(e & He & Ece & _)|Hc]; [right; eauto|left; eauto]. }
  destruct (h_config E _ Hh id c Ho) as (H1 & H2 & _).
  exists k, c, tr. split; [reflexivity|]. split; [exact Ho|]. split; [exact H1|]. split; [exact H2|].
  split; [exact G|]. split; reflexivity.
Qed.

Lemma returned_honest E O fuel id s s' cs c :
  clean id -> clean_federation E (f_col s) -> honest E (f_col s) ->
  get_verified_trust_chains E O fuel id s = (s', Ok cs) -> In c cs ->
  exists conf l, obtainable E (f_col s) id conf /\ s_iss conf = id /\ s_sub conf = id /\
    climbs E (f_col s) id l /\
    map s_iss (ch_verified c) = map s_iss (l ++ [conf]) /\ map s_sub (ch_verified c) = map s_sub (l ++ [conf]) /\
    tc_iss_path (ch_tc c) = id :: rev (map s_iss l) /\
    (exists q, hd_error (l ++ [conf]) = Some q /\ ch_anchor c = s_iss q).
Proof.
  intros Hid Hcl Hh H Hin.
  destruct (returned_chain _ _ _ _ _ _ _ _ H Hin) as (chains & leaf & pre & ch & post & tc & H1 & H2 & Hv & Ha).
  apply apply_keeps in Ha. destruct Ha as (A1 & A2 & A3 & A4 & A5 & A6).
  destruct (collected_honest _ _ _ _ _ _ Hid Hcl Hh H1) as (k & conf & tr & -> & Ho & Hi & Hs & G & Ech & _).
  assert (Hch : In ch (map (map tok_of) (tree2chains tr)))
    by (rewrite <- Ech, H2; apply in_elt).
  apply in_map_iff in Hch. destruct Hch as (p & <- & Hp). apply C31_chains_are_paths in Hp.
  destruct (grown_climbs E (f_col s) "" Hh tr id conf Ho G p Hp) as (l & El & Hl).
  apply call_ok in Hv. destruct Hv as (Hv & _ & (s0 & l0 & Ev & Ea) & Epath & _).
  apply verified_iff in Hv. destruct Hv as (_ & Eves & _).
  rewrite El, jws_app, jws_map in Eves. cbn [jws] in Eves. rewrite map_app in Eves. cbn [map snd] in Eves.
  exists conf, (map snd l). split; [exact Ho|]. split; [exact Hi|]. split; [exact Hs|]. split; [exact Hl|].
  rewrite A3, Epath, A5, A6, Eves. split; [reflexivity|]. split; [reflexivity|].
  split; [rewrite map_app, rev_app_distr; cbn [map rev app]; rewrite Hi; reflexivity|].
  exists s0. rewrite <- Eves, Ev. split; [reflexivity|]. unfold ch_anchor. rewrite A1. exact Ea.
Qed.

Lemma grown_path_top E s : honest E s -> forall tr entity c,
  obtainable E s entity c -> grown E s "" entity c tr -> complete E entity tr ->
  forall p, path tr p ->
  (p = [] /\ In entity (e_anchors E)) \/
  exists k q p', p = ESTok (TJws k q) :: p' /\ (In (s_iss q) (e_anchors E) \/ top E s (s_iss q)).
Proof.
  intros Hh tr. induction tr as [bs IH] using tree_ind'. intros entity c Hc G Hcomp p Hp.
  assert (Hb := grown_branches _ _ _ _ _ _ G). inversion Hcomp as [? ? C1 C2]; subst.
  inversion Hp as [bs' a Hin|bs' a v Hin|bs' a v t p' Hin Hne Hp']; subst.
  - left. split; [reflexivity|apply (C1 a Hin)].
  - right. assert (Hg := Hb a _ Hin). apply grown_branch_some in Hg. destruct Hg as (c' & Hsaid & Ho & Hg).
    destruct (h_statement E s Hh a entity v Hsaid) as (k & q & -> & <- & _). exists k, q, [].
    split; [reflexivity|right]. exists c'. split; [exact Ho|].
    inversion Hg as [? ? Htop|? ? hints ? Eh Hs Hnd Hmem _]; subst.
    + destruct Htop as [Htop|Htop]; [left; exact Htop|]. exfalso.
      destruct (h_config E s Hh _ _ Ho) as (H1 & _ & H3). congruence.
    + right. destruct hints as [|h hints]; [exact Eh|]. exfalso.
      apply (proj2 (Hmem h)). left. reflexivity.
  - right. assert (Hg := Hb a _ Hin). apply grown_branch_some in Hg. destruct Hg as (c' & Hsaid & Ho & Hg).
    destruct (h_statement E s Hh a entity v Hsaid) as (k & q & -> & Ei & _).
    destruct (IH a _ t Hin a c' Ho Hg (C2 _ _ _ Hin) p' Hp') as [[-> Ha]|(k' & q' & p1 & -> & Ht)].
    + exists k, q, []. split; [reflexivity|]. left. rewrite Ei. exact Ha.
    + exists k', q', (p1 ++ [ESTok (TJws k q)]). split; [reflexivity|exact Ht].
Qed.

Lemma known_after_inv L calls : forall kj e, known (after_calls L kj calls) e ->
  known kj e \/ exists ts k p, In ts calls /\ In (k, p) (jws ts) /\ s_sub p = e.
Proof.
  induction calls as [|ts calls IH] using rev_ind; intros kj e H; [left; exact H|].
  rewrite after_calls_snoc, call_fst in H.
  destruct (verify_effect L (after_calls L kj calls) ts) as (pre & post & Ej & _ & _ & _ & Hd & _).
  destruct (in_dec string_dec e (map (fun kp => s_sub (snd kp)) pre)) as [Hin|Hnin].
  - right. apply in_map_iff in Hin. destruct Hin as ([k p] & Es & Hin). exists ts, k, p.
    split; [apply in_or_app; right; left; reflexivity|]. split; [|exact Es].
    rewrite Ej. apply in_or_app. left. exact Hin.
  - destruct H as [l El]. rewrite Hd in El.
    + destruct (IH kj e (ex_intro _ l El)) as [Hk|(ts' & k & p & H1 & H2 & H3)]; [left; exact Hk|].
      right. exists ts', k, p. split; [apply in_or_app; left; exact H1|]. split; assumption.
    + intros k p Hin Es. apply Hnin. apply in_map_iff. exists (k, p). split; [exact Es|exact Hin].
Qed.

Lemma climbs_subjects E s e l : climbs E s e l -> forall p, In p l ->
  exists c h hints, obtainable E s (s_sub p) c /\ s_hints c = Some (h :: hints).
Proof.
  induction 1 as [e|e c hints p l Ho Eh Hin Hs _ IH]; intros q Hq; [destruct Hq|].
  apply in_app_or in Hq. destruct Hq as [Hq|[<-|[]]]; [apply IH, Hq|].
  destruct hints as [|h hints]; [destruct Hin|]. exists c, h, hints. rewrite Hs. split; assumption.
Qed.

(** In an honest federation where every branch leads to a statement, only chains that end at an entity
    known beforehand, or at a trust anchor, are returned. *)
Theorem C61_honest_federation : forall E O fuel id s s' cs c tr leaf,
  clean id -> clean_federation E (f_col s) -> honest E (f_col s) ->
  snd (collect E fuel "" id (f_col s)) = Ok (Some (tr, leaf)) -> complete E id tr ->
  get_verified_trust_chains E O fuel id s = (s', Ok cs) -> In c cs ->
  known (f_keys s) (ch_anchor c) \/ In (ch_anchor c) (e_anchors E).
Proof.
  intros E O fuel id s s' cs c tr leaf Hid Hcl Hh Hcol Hcomp H Hin.
  destruct (returned_chain _ _ _ _ _ _ _ _ H Hin) as (chains & leaf' & pre & ch & post & tc & H1 & H2 & Hv & Ha).
  apply apply_keeps in Ha. destruct Ha as (A1 & _).
  destruct (collected_honest _ _ _ _ _ _ Hid Hcl Hh H1) as (k & conf & tr' & -> & Ho & Hi & Hs & G & Ech & Hcol').
  rewrite Hcol in Hcol'. injection Hcol' as <- ->.
  assert (Hch : In ch (map (map tok_of) (tree2chains tr))) by (rewrite <- Ech, H2; apply in_elt).
  apply in_map_iff in Hch. destruct Hch as (p & <- & Hp). apply C31_chains_are_paths in Hp.
  apply call_ok in Hv. destruct Hv as (Hv & _ & (s0 & l0 & Ev & Ea) & _ & _).
  apply verified_iff in Hv. destruct Hv as (_ & Eves & Hps & _).
  destruct (grown_path_top E (f_col s) Hh tr id conf Ho G Hcomp p Hp)
    as [[-> Hanc]|(k0 & q & p' & -> & [Hanc|Htop])].
  - right. cbn [map app jws] in Eves. rewrite Eves in Ev. cbn [map snd] in Ev. injection Ev as <- _.
    unfold ch_anchor. rewrite A1, Ea, Hi. exact Hanc.
  - right. cbn [map app jws tok_of] in Eves. rewrite Eves in Ev. cbn [map snd] in Ev. injection Ev as <- _.
    unfold ch_anchor. rewrite A1, Ea. exact Hanc.
  - left. cbn [map app jws tok_of] in Eves, Hps. rewrite Eves in Ev. cbn [map snd] in Ev. injection Ev as <- _.
    destruct (Hps [] k0 q _ eq_refl) as [Hk|(k2 & p2 & jw2 & [] & _)].
    destruct Hk as (ks & Ek & _). unfold ch_anchor. rewrite A1, Ea.
    destruct (known_after_inv _ _ _ _ (ex_intro _ ks Ek)) as [Hk|(ts & k1 & q1 & Hts & Hq1 & Esub)]; [exact Hk|].
    exfalso. destruct Htop as (ct & Hot & Hht).
    assert (Hhas : exists c h hints, obtainable E (f_col s) (s_sub q1) c /\ s_hints c = Some (h :: hints)).
    { apply in_map_iff in Hts. destruct Hts as (ch1 & <- & Hch1).
      assert (Hch1' : In ch1 (map (map tok_of) (tree2chains tr)))
        by (rewrite <- Ech, H2; apply in_or_app; left; exact Hch1).
      apply in_map_iff in Hch1'. destruct Hch1' as (p1 & <- & Hp1). apply C31_chains_are_paths in Hp1.
      destruct (grown_climbs E (f_col s) "" Hh tr id conf Ho G p1 Hp1) as (l & El & Hl).
      rewrite El, jws_app, jws_map in Hq1. apply in_app_or in Hq1. destruct Hq1 as [Hq1|Hq1].
      - apply (climbs_subjects _ _ _ _ Hl q1). apply (in_map snd) in Hq1. exact Hq1.
      - cbn [jws] in Hq1. destruct Hq1 as [[= <- <-]|[]].
        inversion G as [? ? Htop2|? ? hints ? Eh Hst Hnd Hmem _]; subst.
        + inversion Hp; subst; match goal with X : In _ [] |- _ => destruct X | _ => idtac end.
        + destruct hints as [|h hints].
          * exfalso. inversion Hp; subst;
              match goal with X : In (?a, _) bs |- _ => apply (in_map fst), Hmem in X; destruct X end.
          * exists conf, h, hints. rewrite Hs. split; [exact Ho|exact Eh]. }
    destruct Hhas as (c1 & h & hints & Ho1 & Eh1). rewrite Esub in Ho1.
    rewrite (h_one E _ Hh _ _ _ Ho1 Hot) in Eh1. destruct Hht as [Hht|Hht]; congruence.
Qed.

(** rp below im below ta *)
Definition plain : cenv := ex_env
  [("rp/wk", TJws 3 (ec "rp" 3 1000 (Some ["im"]))); ("im/wk", TJws 2 (ec "im" 2 1000 (Some ["ta"])));
   ("ta/wk", TJws 1 (ec "ta" 1 1000 None))]
  [("im/fetch rp", TJws 2 (est "im" "rp" 900 [3])); ("ta/fetch im", TJws 1 (est "ta" "im" 800 [2]))]
  ["ta"].

Lemma length_append x y : String.length (x ++ y)%string = String.length x + String.length y.
Proof. induction x as [|a x IH]; simpl; [reflexivity|]. rewrite IH. reflexivity. Qed.

Lemma append_inj a : forall b r, (a ++ r)%string = (b ++ r)%string -> a = b.
Proof.
  induction a as [|x a IH]; intros [|y b] r H; simpl in H; [reflexivity| | |].
  - exfalso. apply (f_equal String.length) in H. simpl in H. rewrite length_append in H. lia.
  - exfalso. apply (f_equal String.length) in H. simpl in H. rewrite length_append in H. lia.
  - injection H as -> H. f_equal. exact (IH b r H).
Qed.

Lemma plain_obtainable id c : obtainable plain empty_state id c ->
  c = ec "rp" 3 1000 (Some ["im"]) /\ id = "rp" \/ c = ec "im" 2 1000 (Some ["ta"]) /\ id = "im" \/
  c = ec "ta" 1 1000 None /\ id = "ta".
Proof.
  intros [(t & n & _ & Hs & k & keys & Et & Ek & Hin)|(e & H & _)]; [|discriminate].
  subst t. unfold serves_config, plain, ex_env, static_net in Hs. simpl e_net in Hs. simpl e_wk in Hs.
  simpl e_tenant in Hs.
  destruct Hs as [Hs|Hs].
  - destruct (String.eqb_spec (wk_url id) "rp/wk") as [N|_].
    { injection Hs as <- <-. left. split; [reflexivity|]. apply (append_inj id "rp" "/wk"), N. }
    destruct (String.eqb_spec (wk_url id) "im/wk") as [N|_].
    { injection Hs as <- <-. right; left. split; [reflexivity|]. apply (append_inj id "im" "/wk"), N. }
    destruct (String.eqb_spec (wk_url id) "ta/wk") as [N|_]; [|discriminate].
    injection Hs as <- <-. right; right. split; [reflexivity|]. apply (append_inj id "ta" "/wk"), N.
  - exfalso. assert (HL : 10 <= String.length (tenant_url id))
      by (unfold tenant_url; rewrite length_append; simpl; lia).
    destruct (String.eqb_spec (tenant_url id) "rp/wk") as [N|_]; [rewrite N in HL; simpl in HL; lia|].
    destruct (String.eqb_spec (tenant_url id) "im/wk") as [N|_]; [rewrite N in HL; simpl in HL; lia|].
    destruct (String.eqb_spec (tenant_url id) "ta/wk") as [N|_]; [rewrite N in HL; simpl in HL; lia|].
    discriminate.
Qed.

Lemma plain_clean : clean_federation plain empty_state.
Proof.
  intros id c hints a Ho Eh Hin. apply plain_obtainable in Ho.
  destruct Ho as [[-> ->]|[[-> ->]|[-> ->]]]; simpl in Eh; try discriminate;
    injection Eh as <-; destruct Hin as [<-|[]]; reflexivity.
Qed.

Lemma plain_honest : honest plain empty_state.
Proof.
  constructor.
  - intros id c Ho. apply plain_obtainable in Ho.
    destruct Ho as [[-> ->]|[[-> ->]|[-> ->]]]; (split; [reflexivity|]; split; [reflexivity|discriminate]).
  - intros a e v [(n & ep & c & t & _ & Ho & He & Hn & ->)|H]; [|discriminate].
    apply plain_obtainable in Ho. destruct He as (m & fe & Em & Ef & Ee).
    destruct Ho as [[-> ->]|[[-> ->]|[-> ->]]]; injection Em as <-; injection Ef as <-; injection Ee as <-;
      unfold plain, ex_env, static_net in Hn; cbn [e_net] in Hn; simpl in Hn.
    + discriminate.
    + destruct e as [|a1 [|a2 [|a3 e]]]; simpl in Hn; try discriminate.
      * destruct (Ascii.eqb a1 "r"); discriminate.
      * destruct (Ascii.eqb_spec a1 "r") as [->|]; [|discriminate].
        destruct (Ascii.eqb_spec a2 "p") as [->|]; [|discriminate].
        injection Hn as <-. exists 2, (est "im" "rp" 900 [3]). split; [reflexivity|]. split; reflexivity.
      * destruct (Ascii.eqb a1 "r"); [|discriminate]. destruct (Ascii.eqb a2 "p"); discriminate.
    + destruct e as [|a1 [|a2 [|a3 e]]]; simpl in Hn; try discriminate.
      * destruct (Ascii.eqb a1 "i"); discriminate.
      * destruct (Ascii.eqb_spec a1 "i") as [->|]; [|discriminate].
        destruct (Ascii.eqb_spec a2 "m") as [->|]; [|discriminate].
        injection Hn as <-. exists 1, (est "ta" "im" 800 [2]). split; [reflexivity|]. split; reflexivity.
      * destruct (Ascii.eqb a1 "i"); [|discriminate]. destruct (Ascii.eqb a2 "m"); discriminate.
  - intros id c c' H H'. apply plain_obtainable in H. apply plain_obtainable in H'.
    destruct H as [[-> ->]|[[-> ->]|[-> ->]]]; destruct H' as [[-> H]|[[-> H]|[-> H]]];
      try discriminate; reflexivity.
  - intros id e t H. discriminate.
Qed.

Lemma plain_complete : complete plain "rp" fed_tree.
Proof.
  repeat (constructor; [intros a Ha; simpl in Ha; intuition discriminate|];
          intros a v t Hin; simpl in Hin; destruct Hin as [[= <- <- <-]|[]]).
  constructor; [intros a []|intros a v t []].
Qed.

Example C61_ex : clean "rp" /\ clean_federation plain (f_col only_ta) /\ honest plain (f_col only_ta) /\
  snd (collect plain 9 "" "rp" (f_col only_ta))
  = Ok (Some (fed_tree, TJws 3 (ec "rp" 3 1000 (Some ["im"])))) /\ complete plain "rp" fed_tree /\
  exists s' c, get_verified_trust_chains plain id_order 9 "rp" only_ta = (s', Ok [c]) /\
               ch_anchor c = "ta" /\ tc_iss_path (ch_tc c) = ["rp"; "im"; "ta"].
Proof.
  split; [reflexivity|]. split; [exact plain_clean|]. split; [exact plain_honest|].
  split; [vm_compute; reflexivity|]. split; [exact plain_complete|].
  eexists. eexists. split; [vm_compute; reflexivity|]. split; reflexivity.
Qed.

(** ** C62 *)

Definition C62_full : Prop := forall E O fuel id s chains leaf ch tc,
  collected E fuel id s chains leaf -> In ch chains ->
  snd (verifier_call (e_lib E) (f_keys s) (ch ++ [leaf])) = Ok (Some tc) ->
  exists cs c, snd (get_verified_trust_chains E O fuel id s) = Ok cs /\ In c cs /\
               tc_chain (ch_tc c) = ch ++ [leaf].

(** rp below ta and tb; the statement of tb is not signed with tb's key *)
Definition one_bad : cenv := ex_env
  [("rp/wk", TJws 3 (ec "rp" 3 1000 (Some ["ta"; "tb"]))); ("ta/wk", TJws 1 (ec "ta" 1 1000 None));
   ("tb/wk", TJws 7 (ec "tb" 7 1000 None))]
  [("ta/fetch rp", TJws 1 (est "ta" "rp" 900 [3])); ("tb/fetch rp", TJws 8 (est "tb" "rp" 900 [3]))]
  ["ta"; "tb"].

Definition both : fstate := mkFed (mkState [] [] 0) [("ta", [1]); ("tb", [7])] [].

(** BadSignature is raised and the good chain is lost *)
Theorem C62_bad_chain_harmless_refuted : ~ C62_full.
Proof.
  intros H.
  destruct (H one_bad id_order 9 "rp" both
              [[TJws 1 (est "ta" "rp" 900 [3])]; [TJws 8 (est "tb" "rp" 900 [3])]]
              (TJws 3 (ec "rp" 3 1000 (Some ["ta"; "tb"]))) [TJws 1 (est "ta" "rp" 900 [3])]
              (mkTC "ta" [TJws 1 (est "ta" "rp" 900 [3]); TJws 3 (ec "rp" 3 1000 (Some ["ta"; "tb"]))] 900
                 ["rp"; "ta"] [est "ta" "rp" 900 [3]; ec "rp" 3 1000 (Some ["ta"; "tb"])])) as (cs & c & G & _).
  - vm_compute. reflexivity.
  - left. reflexivity.
  - vm_compute. reflexivity.
  - assert (X : snd (get_verified_trust_chains one_bad id_order 9 "rp" both) = Err BadSignature)
      by (vm_compute; reflexivity).
    rewrite G in X. discriminate.
Qed.

Lemma call_mono L kj kj' ts tc :
  (forall e k, holds kj e k -> holds kj' e k) ->
  snd (verifier_call L kj ts) = Ok (Some tc) -> snd (verifier_call L kj' ts) = Ok (Some tc).
Proof.
  intros Hm H. assert (Hc := call_ok _ _ _ _ H). cbn in Hc. destruct Hc as (Hv & He & _).
  assert (Hv' : verified L kj' ts (tc_verified tc)).
  { apply verified_iff in Hv. apply verified_iff.
    destruct Hv as (H1 & H2 & H3 & H4). split; [exact H1|]. split; [exact H2|]. split; [|exact H4].
    intros pre k p post E0. destruct (H3 pre k p post E0) as [Hk|Hk]; [left; apply Hm, Hk|right; exact Hk]. }
  unfold verifier_call in *. destruct Hv as [Hv _]. destruct Hv' as [Hv' _].
  destruct (verify_trust_chain L kj ts) as [k1 r1]. destruct (verify_trust_chain L kj' ts) as [k2 r2].
  cbn [snd] in Hv, Hv'. subst r1 r2. destruct (tc_verified tc); exact H.
Qed.

(** Missing: exceptions.  What holds: when the call returns, every collected chain that verifies on its
    own is among the results, whatever became of the others. *)
Theorem C62_bad_chain_harmless_partial : forall E O fuel id s s' cs chains leaf ch tc,
  get_verified_trust_chains E O fuel id s = (s', Ok cs) ->
  collected E fuel id s chains leaf -> In ch chains ->
  snd (verifier_call (e_lib E) (f_keys s) (ch ++ [leaf])) = Ok (Some tc) ->
  exists c, In c cs /\ tc_chain (ch_tc c) = ch ++ [leaf] /\ ch_anchor c = tc_anchor tc /\
            tc_exp (ch_tc c) = tc_exp tc.
Proof.
  intros E O fuel id s s' cs chains leaf ch tc H Hcol Hin Hv.
  unfold get_verified_trust_chains, mbind at 1 in H. unfold collected in Hcol.
  assert (Hk := collect_keys E fuel id "" s).
  destruct (collect_trust_chains E fuel id "" s) as [s1 r]. cbn [fst snd] in Hk, Hcol. subst r.
  destruct chains as [|c0 chains]; [destruct Hin|].
  unfold mbind, on_keys in H. rewrite Hk in H.
  destruct (verify_trust_chains E (c0 :: chains) [leaf] (f_keys s)) as [kj' [tcs|x]] eqn:Ev; [|discriminate].
  injection H as _ Hpol.
  assert (Htc : In tc tcs).
  { apply (verify_chains_spec E [leaf] _ _ _ _ Ev). apply in_split in Hin.
    destruct Hin as (pre & post & E0). exists pre, ch, post. split; [exact E0|].
    revert Hv. apply call_mono. intros e k. apply holds_after. }
  destruct (proj2 (mapM_In _ _ _ _ _ Hpol) tc Htc) as (c & Hc & Ha). exists c. split; [exact Hc|].
  apply apply_keeps in Ha. destruct Ha as (A1 & A2 & _ & A4 & _).
  apply call_ok in Hv. destruct Hv as (_ & _ & _ & _ & Ech).
  split; [rewrite A2; exact Ech|]. split; [exact A1|exact A4].
Qed.

(** the chain that is not trusted is left out, the other one returned *)
Example C62_ex : exists s' c,
  get_verified_trust_chains one_bad id_order 9 "rp" only_ta = (s', Ok [c]) /\ ch_anchor c = "ta" /\
  collected one_bad 9 "rp" only_ta
    [[TJws 1 (est "ta" "rp" 900 [3])]; [TJws 8 (est "tb" "rp" 900 [3])]]
    (TJws 3 (ec "rp" 3 1000 (Some ["ta"; "tb"]))).
Proof. eexists. eexists. split; [vm_compute; reflexivity|]. split; vm_compute; reflexivity. Qed.

(** ** C63 *)

Definition C63_full : Prop := forall E O fuel id s s' cs c,
  get_verified_trust_chains E O fuel id s = (s', Ok cs) -> In c cs ->
  exists l q, ch_verified c = l ++ [q] /\ s_sub q = id.

(** ev, a subordinate of ta, answers with the configuration of vi *)
Definition replay : cenv := ex_env
  [("vi/wk", TJws 3 (ec "vi" 3 1000 (Some ["ta"]))); ("ev/wk", TJws 3 (ec "vi" 3 1000 (Some ["ta"])));
   ("ta/wk", TJws 1 (ec "ta" 1 1000 None))]
  [("ta/fetch vi", TJws 1 (est "ta" "vi" 900 [3])); ("ta/fetch ev", TJws 1 (est "ta" "ev" 900 [6]))]
  ["ta"].

Definition after_vi : fstate := fst (get_verified_trust_chains replay id_order 9 "vi" only_ta).

Theorem C63_about_the_entity_refuted : ~ C63_full.
Proof.
  intros H.
  assert (G : exists s' c, get_verified_trust_chains replay id_order 9 "ev" after_vi = (s', Ok [c]) /\
                           map s_sub (ch_verified c) = ["ev"; "vi"]).
  { eexists. eexists. split; [vm_compute; reflexivity|reflexivity]. }
  destruct G as (s' & c & G & Es).
  destruct (H _ _ _ _ _ _ _ _ G (or_introl eq_refl)) as (l & q & E & Hq). rewrite E, map_app in Es.
  cbn [map] in Es. rewrite Hq in Es. change ["ev"; "vi"] with (["ev"] ++ ["vi"]) in Es.
  apply app_inj_tail in Es. destruct Es as [_ Es]. discriminate.
Qed.

(** Missing: entities that answer with the configuration of another one and authorities that answer with
    a statement about another entity.  What holds in an honest federation: the chain ends with a
    statement of the entity about itself, the others lead from there along authority hints to the
    anchor, and the issuer path is the path taken. *)
Theorem C63_about_the_entity_partial : forall E O fuel id s s' cs c,
  clean id -> clean_federation E (f_col s) -> honest E (f_col s) ->
  get_verified_trust_chains E O fuel id s = (s', Ok cs) -> In c cs ->
  exists conf l, obtainable E (f_col s) id conf /\ s_iss conf = id /\ s_sub conf = id /\
    climbs E (f_col s) id l /\
    map s_iss (ch_verified c) = map s_iss (l ++ [conf]) /\ map s_sub (ch_verified c) = map s_sub (l ++ [conf]) /\
    tc_iss_path (ch_tc c) = id :: rev (map s_iss l) /\
    (exists q, hd_error (l ++ [conf]) = Some q /\ ch_anchor c = s_iss q).
Proof. exact returned_honest. Qed.

Example C63_ex : clean "rp" /\ clean_federation plain (f_col only_ta) /\ honest plain (f_col only_ta) /\
  climbs plain (f_col only_ta) "rp" [est "ta" "im" 800 [2]; est "im" "rp" 900 [3]].
Proof.
  split; [reflexivity|]. split; [exact plain_clean|]. split; [exact plain_honest|].
  apply (climbs_snoc _ _ "rp" (ec "rp" 3 1000 (Some ["im"])) ["im"] _ [est "ta" "im" 800 [2]]);
    [|reflexivity|left; reflexivity|reflexivity|].
  { left. exists (TJws 3 (ec "rp" 3 1000 (Some ["im"]))), 0. split; [apply Nat.le_refl|].
    split; [left; reflexivity|]. exists 3, [3]. split; [reflexivity|]. split; [reflexivity|left; reflexivity]. }
  apply (climbs_snoc _ _ "im" (ec "im" 2 1000 (Some ["ta"])) ["ta"] _ []);
    [|reflexivity|left; reflexivity|reflexivity|constructor].
  left. exists (TJws 2 (ec "im" 2 1000 (Some ["ta"]))), 0. split; [apply Nat.le_refl|].
  split; [left; reflexivity|]. exists 2, [2]. split; [reflexivity|]. split; [reflexivity|left; reflexivity].
Qed.

Print Assumptions C61_anchors_configured_refuted.
Print Assumptions C61_anchors_configured_partial.
Print Assumptions C61_honest_federation.
Print Assumptions C62_bad_chain_harmless_refuted.
Print Assumptions C62_bad_chain_harmless_partial.
Print Assumptions C63_about_the_entity_refuted.
Print Assumptions C63_about_the_entity_partial.
