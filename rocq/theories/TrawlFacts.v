(** Facts about the search for entities. *)
From Coq Require Import Lia.
From Verif Require Import PyFacts VerifierFacts CollectorFacts FederationProps TrustMarkVerifierProps.
From Verif Require Export TrawlSpec.

Lemma bind_ok_m S A B (m : M S A) (f : A -> M S B) s s' b :
  mbind m f s = (s', Ok b) -> exists s1 a, m s = (s1, Ok a) /\ f a s1 = (s', Ok b).
Proof. unfold mbind. destruct (m s) as [s1 [a|e]]; [|discriminate]. intros H. exists s1, a. auto. Qed.

Lemma lift_ok S A (r : res A) (s s' : S) a : lift r s = (s', Ok a) -> s' = s /\ r = Ok a.
Proof. unfold lift. intros [= <- ->]. auto. Qed.

Lemma mfold_app_ok S A (f : A -> M S (list string)) l acc s s' r :
  mfold (fun acc x => do ids <- f x in ret (acc ++ ids)) l acc s = (s', Ok r) ->
  forall i, In i r -> In i acc \/ exists x s1 s2 ids, In x l /\ f x s1 = (s2, Ok ids) /\ In i ids.
Proof.
  revert acc s. induction l as [|x l IH]; intros acc s H i Hi; cbn [mfold] in H.
  - injection H as _ <-. auto.
  - apply bind_ok_m in H. destruct H as (s1 & acc' & H1 & H).
    apply bind_ok_m in H1. destruct H1 as (s2 & ids & H1 & H2). injection H2 as <- <-.
    destruct (IH _ _ H i Hi) as [Ha|(x' & t1 & t2 & ids' & Hx & Hf & Hin)].
    + apply in_app_or in Ha. destruct Ha as [Ha|Ha]; [auto|]. right. exists x, s, s2, ids. split; [left; reflexivity|auto].
    + right. exists x', t1, t2, ids'. split; [right; exact Hx|auto].
Qed.

Section Sound.
Context (E : cenv) (O : iter_order) (fuel : nat) (prio : list string) (L : lenv).

(** what is known at [s] stays what can be learned from [s0] *)
Definition follows (s0 s : cstate) : Prop :=
  st_tick s0 <= st_tick s /\ forall id e, dget id (st_cfg s) = Some e -> presents E L s0 id (ce_stmt e).

Lemma follows_refl s : follows s s.
Proof. split; [lia|]. intros id e H. left. right. exists e. auto. Qed.

Lemma presents_follows s0 s id p : follows s0 s -> presents E L s id p -> presents E L s0 id p.
Proof.
  intros [H1 H2] [[(t & n & Hn & Hc)|(e & He & <-)]|(n & a & k & Hn & H)].
  - left. left. exists t, n. split; [lia|exact Hc].
  - apply H2. exact He.
  - right. exists n, a, k. split; [lia|exact H].
Qed.

Lemma follows_trans s0 s1 s2 : follows s0 s1 -> follows s1 s2 -> follows s0 s2.
Proof.
  intros H [H1 H2]. split; [destruct H; lia|]. intros id e He. apply (presents_follows s0 s1 _ _ H), H2, He.
Qed.

Lemma inv_follows s s' : inv E s False s' -> follows s s'.
Proof. intros (H1 & H2 & _). split; [exact H1|]. intros id e He. left. apply H2. exact He. Qed.

Lemma tick_follows s n : follows s (mkState (st_cfg s) (st_es s) (n + st_tick s)).
Proof. split; [cbn; lia|]. intros id e H. left. right. exists e. auto. Qed.

(** entries may go *)
Lemma cfg_getitem_follows id s s' r : cfg_getitem E id s = (s', r) ->
  follows s s' /\ forall e, r = Ok (Some e) -> presents E L s id (ce_stmt e).
Proof.
  intros H. destruct (cfg_getitem_inv E s id s (s', r) (inv_start E s False) H) as [H1 H2].
  split; [apply inv_follows, H1|]. intros e He. left. apply H2. exact He.
Qed.

Lemma get_entity_configuration_follows id s s' r : get_entity_configuration E id s = (s', r) -> follows s s'.
Proof.
  intros H. unfold get_entity_configuration, get_document in H.
  destruct (e_net E (st_tick s) (QDoc (e_wk E id))) as [o| | |]; try (injection H as <- _; apply (tick_follows s 1)).
  destruct (String.eqb _ _); [injection H as <- _; apply (tick_follows s 1)|].
  cbn [st_cfg st_es st_tick] in H. injection H as <- _. apply (tick_follows s 2).
Qed.

Lemma get_verified_trust_chains_follows id s s' r :
  get_verified_trust_chains E O fuel id s = (s', r) -> follows (f_col s) (f_col s').
Proof.
  unfold get_verified_trust_chains, mbind at 1, collect_trust_chains, mbind at 1, on_col.
  destruct (collect E fuel "" id (f_col s)) as [c r1] eqn:Ec. apply collect_inv, inv_follows in Ec.
  destruct r1 as [[[tr t]|]|x]; [|intros [= <- _]; exact Ec|intros [= <- _]; exact Ec].
  unfold ret. destruct (map (map tok_of) (tree2chains tr)) as [|ch chs]; [intros [= <- _]; exact Ec|].
  unfold mbind, on_keys. cbn [f_col f_keys f_chains].
  destruct (verify_trust_chains E (ch :: chs) [t] (f_keys s)) as [kj [tcs|x]]; intros [= <- _]; exact Ec.
Qed.

Lemma get_verified_endpoint_follows id name s s' r :
  get_verified_endpoint E O fuel prio id name s = (s', r) -> follows (f_col s) (f_col s').
Proof.
  unfold get_verified_endpoint. destruct (smem id (e_anchors E)).
  - unfold mbind at 1, get_verified_trust_anchor_statement, mbind, on_col.
    destruct (get_entity_configuration E id (f_col s)) as [c1 r1] eqn:Ec.
    apply get_entity_configuration_follows in Ec.
    destruct r1 as [[[|k p]|]|x]; try (intros [= <- _]; exact Ec). cbn [f_keys f_col].
    destruct (is_nil _); [intros [= <- _]; exact Ec|]. destruct (kmem _ _); intros [= <- _]; exact Ec.
  - unfold mbind at 1. destruct (get_verified_trust_chains E O fuel id s) as [s1 r1] eqn:Ec.
    apply get_verified_trust_chains_follows in Ec. destruct r1 as [cs|x]; [|intros [= <- _]; exact Ec].
    unfold mbind, lift. destruct (pick_trust_chain prio cs); intros [= <- _]; exact Ec.
Qed.

Lemma do_list_follows id q s s' r : do_list E O fuel prio L id q s = (s', r) -> follows (f_col s) (f_col s').
Proof.
  unfold do_list, mbind. destruct (get_verified_endpoint E O fuel prio id "federation_list_endpoint" s) as [s1 r1] eqn:Ee.
  apply get_verified_endpoint_follows in Ee. destruct r1 as [[[]|]|]; try (intros [= <- _]; exact Ee).
  intros [= <- _]. cbn [f_col]. apply (follows_trans _ _ _ Ee). apply (tick_follows _ 1).
Qed.

Lemma do_list_ok id q s s' l : do_list E O fuel prio L id q s = (s', Ok l) ->
  forall x, In x l -> lists E O fuel prio L id q x \/ stray E O fuel prio L id q x.
Proof.
  unfold do_list. intros H x Hx. apply bind_ok_m in H. destruct H as (s1 & ep & Hep & H).
  destruct ep as [[| | |u| |]|]; try discriminate H. injection H as _ H.
  assert (LE : list_endpoint E O fuel prio id u) by (exists s, s1; exact Hep).
  unfold names_in in H. destruct (l_net L (st_tick (f_col s1)) u q) eqn:En; try discriminate H; injection H as <-.
  - left. exists u, (st_tick (f_col s1)), ids. auto.
  - right. exists u, (st_tick (f_col s1)). split; [exact LE|]. left. auto.
  - right. exists u, (st_tick (f_col s1)). split; [exact LE|]. right. split; [exact En|]. destruct Hx as [<-|[]]. reflexivity.
Qed.

Lemma request_statement_follows a q s s' r :
  request_statement E L a q s = (s', r) ->
  st_cfg (f_col s') = st_cfg (f_col s) /\ st_tick (f_col s') = S (st_tick (f_col s)) /\
  f_keys s' = f_keys s /\
  forall t p, r = Ok (Some (t, p)) -> exists k ks, t = TJws k p /\ e_net E (st_tick (f_col s)) q = RText (Some t) /\
    dget (s_iss p) (f_keys s) = Some ks /\ In k ks /\ l_accepts L a p = Ok tt.
Proof.
  unfold request_statement. destruct (e_net E (st_tick (f_col s)) q) as [[[|k p]|]| | |] eqn:En;
    try (intros [= <- <-]; do 3 (split; [reflexivity|]); intros t0 p0 [=]; fail).
  destruct (is_nil _); [intros [= <- <-]; do 3 (split; [reflexivity|]); intros t0 p0 [=]|].
  destruct (kmem k _) eqn:Ek; [|intros [= <- <-]; do 3 (split; [reflexivity|]); intros t0 p0 [=]].
  destruct (l_accepts L a p) as [[]|] eqn:Ea; intros [= <- <-]; do 3 (split; [reflexivity|]); intros t0 p0 [=].
  subst. apply kmem_In in Ek. unfold verify_keys in Ek. apply filter_In in Ek. destruct Ek as [Ek _].
  unfold keys_of in Ek. destruct (dget (s_iss p0) (f_keys s)) as [ks|] eqn:Ed; [|destruct Ek].
  exists k, ks. auto 10.
Qed.

Lemma request_configuration_follows id s s' r : request_configuration E L id s = (s', r) ->
  follows (f_col s) (f_col s') /\ f_keys s' = f_keys s /\
  forall p, r = Ok (Some p) -> presents E L (f_col s) id p.
Proof.
  unfold request_configuration, mbind at 1.
  destruct (request_statement E L id (QDoc (e_wk E id)) s) as [s1 r1] eqn:E1.
  destruct (request_statement_follows _ _ _ _ _ E1) as (Hc & Ht & Hk & Hr).
  assert (F : follows (f_col s) (f_col s1)).
  { split; [lia|]. intros id' e He. rewrite Hc in He. left. right. exists e. auto. }
  destruct r1 as [[[t p]|]|e]; [|intros [= <- <-]; split; [exact F|]; split; [exact Hk|]; intros p [=] ..].
  unfold mbind, on_col, cfg_set, modify, ret. intros [= <- <-]. cbn [f_col f_keys].
  destruct (Hr t p eq_refl) as (k & ks & -> & En & _ & _ & Ha).
  split; [|split; [exact Hk|]].
  - split; [cbn; lia|]. intros id' e He. cbn [st_cfg] in He. unfold cache_set in He. rewrite dget_dset in He.
    destruct (String.eqb_spec id' (s_iss p)) as [->|N].
    + injection He as <-. right. exists (st_tick (f_col s)), id, k. cbn [ce_stmt]. auto.
    + destruct F as [_ F]. apply F. exact He.
  - intros p' [= <-]. right. exists (st_tick (f_col s)), id, k. auto.
Qed.

Lemma configuration_of_follows id m s s' r :
  (forall s1 s2 r2, m s1 = (s2, r2) ->
     follows (f_col s1) (f_col s2) /\ forall p, r2 = Ok (Some p) -> presents E L (f_col s1) id p) ->
  configuration_of E id m s = (s', r) ->
  follows (f_col s) (f_col s') /\ forall p, r = Ok p -> presents E L (f_col s) id p.
Proof.
  intros Hm. unfold configuration_of, mbind at 1, StateM.get.
  destruct (cache_contains id (st_cfg (f_col s))); unfold mbind.
  - unfold on_col. destruct (cfg_getitem E id (f_col s)) as [c1 r1] eqn:E1.
    destruct (cfg_getitem_follows _ _ _ _ E1) as [F G].
    destruct r1 as [[e|]|x]; intros [= <- <-]; (split; [exact F|]); intros p; [|intros [=] ..].
    intros [= <-]. apply G. reflexivity.
  - destruct (m s) as [s1 r1] eqn:E1. destruct (Hm _ _ _ E1) as [F G].
    destruct r1 as [[p|]|x]; intros [= <- <-]; (split; [exact F|]); intros p0; [|intros [=] ..].
    intros [= <-]. apply G. reflexivity.
Qed.

Lemma request_about_follows i x s s' r : request_about E L i x s = (s', r) -> follows (f_col s) (f_col s').
Proof.
  unfold request_about, mbind at 1.
  destruct (configuration_of E i (request_configuration E L i) s) as [s1 r1] eqn:E1.
  assert (F : follows (f_col s) (f_col s1)).
  { apply (configuration_of_follows i (request_configuration E L i) s s1 r1); [|exact E1].
    intros t1 t2 r2 H. destruct (request_configuration_follows _ _ _ _ H) as (H1 & _ & H2). auto. }
  destruct r1 as [c|e]; [|intros [= <- _]; exact F].
  unfold mbind at 1, lift at 1. destruct (federation_metadata c) as [fe|e]; [|intros [= <- _]; exact F].
  unfold mbind at 1, lift at 1.
  match goal with |- context [match ?b with Ok a => _ | Err e => _ end] => destruct b as [ep|e] end; [|intros [= <- _]; exact F].
  unfold mbind. destruct (request_statement E L i (QFetch ep i x) s1) as [s2 r2] eqn:E2.
  destruct (request_statement_follows _ _ _ _ _ E2) as (Hc & Ht & _ & _).
  assert (F2 : follows (f_col s1) (f_col s2)).
  { split; [lia|]. intros id' e He. rewrite Hc in He. left. right. exists e. auto. }
  destruct r2 as [o|e]; intros [= <- _]; exact (follows_trans _ _ _ F F2).
Qed.

Lemma introduce_follows sup sub s s' r : introduce E L sup sub s = (s', r) ->
  follows (f_col s) (f_col s') /\ forall p, r = Ok (Some p) -> presents E L (f_col s) sub p.
Proof.
  unfold introduce, mbind at 1. destruct (request_about E L sup sub s) as [s1 r1] eqn:E1.
  apply request_about_follows in E1. destruct r1 as [[p|]|e]; [|intros [= <- <-]; split; [exact E1|]; intros p [=] ..].
  destruct (s_jwks p) as [ks|]; [|intros [= <- <-]; split; [exact E1|]; intros p' [=]].
  unfold mbind, modify. intros H. destruct (request_configuration_follows _ _ _ _ H) as (F & _ & G).
  cbn [f_col] in F, G. split; [exact (follows_trans _ _ _ E1 F)|]. intros p' Hp.
  apply (presents_follows _ _ _ _ E1), G, Hp.
Qed.

Definition down (y x : string) : Prop :=
  lists E O fuel prio L y LIntermediate x \/ stray E O fuel prio L y LIntermediate x.

Lemma mfold_follows A (f : list string -> A -> M fstate (list string)) l acc s s' r :
  (forall acc x s1 s2 r2, f acc x s1 = (s2, r2) -> follows (f_col s1) (f_col s2)) ->
  mfold f l acc s = (s', r) -> follows (f_col s) (f_col s').
Proof.
  intros Hf. revert acc s. induction l as [|x l IH]; intros acc s H; cbn [mfold] in H.
  - injection H as <- _. apply follows_refl.
  - unfold mbind in H. destruct (f acc x s) as [s1 [a|e]] eqn:E1; [|injection H as <- _; apply (Hf _ _ _ _ _ E1)].
    exact (follows_trans _ _ _ (Hf _ _ _ _ _ E1) (IH _ _ H)).
Qed.

Lemma trawl_follows n type : forall sup sub s s' r,
  trawl E O fuel prio L n sup sub type s = (s', r) -> follows (f_col s) (f_col s').
Proof.
  induction n as [|n IH]; intros sup sub s s' r H; cbn [trawl] in H; [injection H as <- _; apply follows_refl|].
  unfold mbind at 1 in H. destruct (configuration_of E sub (introduce E L sup sub) s) as [s1 r1] eqn:E1.
  destruct (configuration_of_follows _ _ _ _ _ (introduce_follows sup sub) E1) as [F1 _].
  destruct r1 as [c|e]; [|injection H as <- _; exact F1].
  unfold mbind at 1, lift at 1 in H. destruct (s_metadata c) as [m|]; [|injection H as <- _; exact F1].
  unfold mbind at 1, lift at 1 in H. destruct (dindex "federation_entity" m) as [fe|e]; [|injection H as <- _; exact F1].
  destruct (negb _); [injection H as <- _; exact F1|].
  unfold mbind at 1 in H. destruct (do_list E O fuel prio L sub (LType type) s1) as [s2 r2] eqn:E2.
  apply do_list_follows in E2. assert (F2 := follows_trans _ _ _ F1 E2).
  destruct r2 as [added|e]; [|injection H as <- _; exact F2].
  unfold mbind at 1 in H. destruct (do_list E O fuel prio L sub LIntermediate s2) as [s3 r3] eqn:E3.
  apply do_list_follows in E3. assert (F3 := follows_trans _ _ _ F2 E3).
  destruct r3 as [ims|e]; [|injection H as <- _; exact F3].
  refine (follows_trans _ _ _ F3 _). refine (mfold_follows _ _ _ _ _ _ _ _ H).
  intros acc x t1 t2 t3 Ht. unfold mbind in Ht. destruct (trawl E O fuel prio L n sub x type t1) as [t4 [ids|e]] eqn:E4;
    injection Ht as <- _; exact (IH _ _ _ _ _ E4).
Qed.

(** [i] may be in the answer of a search from [sub] *)
Definition may_find (s0 : cstate) (sub type i : string) : Prop :=
  exists y, searched down sub y /\
    (lists E O fuel prio L y (LType type) i \/ stray E O fuel prio L y (LType type) i \/ is_of_type E L s0 y type i).

Lemma searched_under a b c : down a b -> searched down b c -> searched down a c.
Proof.
  intros Hd Hs. induction Hs as [|y x _ IH Hd'].
  - apply searched_down with a; [constructor|exact Hd].
  - exact (searched_down _ _ _ _ IH Hd').
Qed.

Lemma mfold_trawl_ok s0 (f : string -> M fstate (list string)) (P : string -> string -> Prop) l acc s s' r :
  (forall x s1 s2 ids, In x l -> f x s1 = (s2, ids) -> follows (f_col s1) (f_col s2)) ->
  (forall x s1 s2 ids i, In x l -> follows s0 (f_col s1) -> f x s1 = (s2, Ok ids) -> In i ids -> P x i) ->
  follows s0 (f_col s) ->
  mfold (fun acc x => do ids <- f x in ret (acc ++ ids)) l acc s = (s', Ok r) ->
  forall i, In i r -> In i acc \/ exists x, In x l /\ P x i.
Proof.
  revert acc s. induction l as [|x l IH]; intros acc s Hfo Hf Hs H i Hi; cbn [mfold] in H.
  - injection H as _ <-. auto.
  - apply bind_ok_m in H. destruct H as (s1 & acc' & H1 & H).
    apply bind_ok_m in H1. destruct H1 as (s2 & ids & H1 & H2). injection H2 as <- <-.
    assert (F2 := follows_trans _ _ _ Hs (Hfo x s s2 (Ok ids) (or_introl eq_refl) H1)).
    destruct (IH (acc ++ ids) s2) with (i := i) as [Ha|(x' & Hx & HP)]; try assumption.
    + intros x' t1 t2 t3 Hx. apply Hfo. right. exact Hx.
    + intros x' t1 t2 t3 t4 Hx. apply Hf. right. exact Hx.
    + apply in_app_or in Ha. destruct Ha as [Ha|Ha]; [auto|]. right. exists x. split; [left; reflexivity|].
      exact (Hf x s s2 ids i (or_introl eq_refl) Hs H1 Ha).
    + right. exists x'. split; [right; exact Hx|exact HP].
Qed.

Lemma trawl_sound s0 n type : forall sup sub s s' ids,
  follows s0 (f_col s) -> trawl E O fuel prio L n sup sub type s = (s', Ok ids) ->
  forall i, In i ids -> may_find s0 sub type i.
Proof.
  induction n as [|n IH]; intros sup sub s s' ids F0 H i Hi; cbn [trawl] in H; [discriminate H|].
  apply bind_ok_m in H. destruct H as (s1 & c & E1 & H).
  destruct (configuration_of_follows _ _ _ _ _ (introduce_follows sup sub) E1) as [F1 G1].
  specialize (G1 c eq_refl). apply (presents_follows _ _ _ _ F0) in G1. assert (F01 := follows_trans _ _ _ F0 F1).
  apply bind_ok_m in H. destruct H as (s2 & m & Em & H). apply lift_ok in Em. destruct Em as [-> Em].
  destruct (s_metadata c) as [m'|] eqn:Es; [|discriminate Em]. injection Em as ->.
  cbv zeta in H. apply bind_ok_m in H. destruct H as (s3 & fe & Ef & H). apply lift_ok in Ef. destruct Ef as [-> Ef].
  assert (Own : In i (if dmem type m then [s_sub c] else []) -> may_find s0 sub type i).
  { destruct (dmem type m) eqn:Em; [|intros []]. intros [<-|[]]. exists sub. split; [constructor|]. right. right.
    unfold dmem in Em. destruct (dget type m) as [md|] eqn:Ed; [|discriminate Em]. exists c, m, md. auto. }
  destruct (negb _); [injection H as _ <-; exact (Own Hi)|].
  apply bind_ok_m in H. destruct H as (s4 & added & E2 & H).
  apply bind_ok_m in H. destruct H as (s5 & ims & E3 & H).
  assert (F4 := follows_trans _ _ _ F01 (do_list_follows _ _ _ _ _ E2)).
  assert (F5 := follows_trans _ _ _ F4 (do_list_follows _ _ _ _ _ E3)).
  destruct (mfold_trawl_ok s0 (fun id => trawl E O fuel prio L n sub id type) (fun x i => may_find s0 x type i) _ _ _ _ _
              (fun x t1 t2 t3 _ => trawl_follows n type sub x t1 t2 t3)
              (fun x t1 t2 t3 i' _ Ft Hx => IH sub x t1 t2 t3 Ft Hx i') F5 H i Hi) as [Ha|(x & Hx & (y & Hy & HP))].
  - apply in_app_or in Ha. destruct Ha as [Ha|Ha]; [exact (Own Ha)|].
    exists sub. split; [constructor|]. destruct (do_list_ok _ _ _ _ _ E2 i Ha); auto.
  - exists y. split; [|exact HP]. apply (searched_under sub x y); [|exact Hy]. exact (do_list_ok _ _ _ _ _ E3 x Hx).
Qed.

(** ** Enough depth *)

Lemma mbind_ext S A B (m : M S A) (f g : A -> M S B) s :
  (forall s' a, m s = (s', Ok a) -> f a s' = g a s') -> mbind m f s = mbind m g s.
Proof. intros H. unfold mbind. destruct (m s) as [s1 [a|e]]; [apply H; reflexivity|reflexivity]. Qed.

Lemma mfold_ext S A B (f g : B -> A -> M S B) l b s :
  (forall a b s, In a l -> f b a s = g b a s) -> mfold f l b s = mfold g l b s.
Proof.
  revert b s. induction l as [|a l IH]; intros b s H; [reflexivity|]. cbn [mfold]. unfold mbind.
  rewrite (H a b s (or_introl eq_refl)). destruct (g b a s) as [s1 [b1|e]]; [|reflexivity].
  apply IH. intros a' b' s' Hin. apply H. right. exact Hin.
Qed.

Lemma trawl_depth type (rank : string -> nat) :
  forall n n' sup sub s, (forall y x, searched down sub y -> down y x -> rank x < rank y) ->
  rank sub < n -> rank sub < n' ->
  trawl E O fuel prio L n sup sub type s = trawl E O fuel prio L n' sup sub type s.
Proof.
  induction n as [|n IH]; intros n' sup sub s HR H H'; [lia|]. destruct n' as [|n']; [lia|]. cbn [trawl].
  apply mbind_ext. intros s1 c _. apply mbind_ext. intros s2 m _. cbv zeta. apply mbind_ext. intros s3 fe _.
  destruct (negb _); [reflexivity|]. apply mbind_ext. intros s4 added _. apply mbind_ext. intros s5 ims E3.
  apply mfold_ext. intros x acc t Hx. unfold mbind.
  assert (Hd : down sub x) by exact (do_list_ok _ _ _ _ _ E3 x Hx).
  assert (R : rank x < rank sub) by (apply HR; [constructor|exact Hd]).
  rewrite (IH n' sub x t); [reflexivity| |lia|lia].
  intros y z Hy. apply HR. exact (searched_under sub x y Hd Hy).
Qed.

End Sound.
