(** Collections while the documents of the federation do not change: the caches do not influence the
    outcome, and a second collection needs no requests. *)
From Verif Require Import PyFacts.
From Verif Require Export CollectorFacts.
From Coq Require Import Lia.

(** ** Vocabulary *)

(** documents and time stand still *)
Definition static (E : cenv) : Prop :=
  (forall n q, e_net E n q = e_net E 0 q) /\ (forall n, e_clock E n = e_clock E 0).

(** no document is about to expire *)
Definition serves_fresh (E : cenv) : Prop :=
  forall n q k p, e_net E n q = RText (Some (TJws k p)) ->
                  exists z, s_exp p = Some z /\ (e_clock E 0 < z - e_delta E)%Z.

(** the caches a collector has after collections in such a federation *)
Inductive visited (E : cenv) : cstate -> Prop :=
| visited_none tick : visited E (mkState [] [] tick)
| visited_more s fuel stop_at id : visited E s -> clean id ->
    visited E (fst (collect E fuel stop_at id s)).

(** every branch leads to a statement, except that of a trust anchor naming itself *)
Inductive complete (E : cenv) : string -> tree esval -> Prop :=
| complete_T entity bs :
    (forall a, In (a, None) bs -> entity = a /\ In entity (e_anchors E)) ->
    (forall a v t, In (a, Some (v, t)) bs -> complete E a t) ->
    complete E entity (T bs).

(** nothing in the caches is too old for [E] *)
Definition all_fresh (E : cenv) (s : cstate) : Prop :=
  (forall id e, dget id (st_cfg s) = Some e ->
     exists z, s_exp (ce_stmt e) = Some z /\ (e_clock E (st_tick s) < z - e_delta E)%Z) /\
  (forall k z, dget k (st_es s) = Some (ESExp z) -> (e_clock E (st_tick s) <= z - e_delta E)%Z).

(** ** The outcome as a function of the documents *)
Section Pure.
Context (E : cenv).

Definition pdoc (q : request) : res (option token) :=
  match e_net E 0 q with
  | RText t => Ok t
  | R404 => Err MissingPage
  | RStatus => Err FailedConfigurationRetrieval
  | RNoConnection => Err ConnectionError
  end.

Definition pconf (id : string) : res (option token) :=
  match pdoc (QDoc (e_wk E id)) with
  | Err MissingPage =>
      if String.eqb (e_tenant E id) (e_wk E id) then Err MissingPage else pdoc (QDoc (e_tenant E id))
  | r => r
  end.

Definition pverified (id : string) : res (token * stmt) :=
  let* t := pconf id in verify_self_signed E (e_clock E 0) t.

Definition pendpoint (id : string) : res string :=
  let* tp := pverified id in get_endpoint (snd tp).

Definition pstatement (a e : string) : res (option esval) :=
  let* ep := pendpoint a in
  if String.eqb ep "" then Ok None
  else
    let* signed := pdoc (QFetch ep a e) in
    let* p := unverified signed in
    match signed with
    | None => Err ValueError
    | Some t => match s_exp p with None => Err KeyError | Some _ => Ok (Some (ESTok t)) end
    end.

Definition pbranch (rec : string -> stmt -> res (tree esval)) (entity a : string)
  : res (option (esval * tree esval)) :=
  if String.eqb entity a && smem entity (e_anchors E) then Ok None
  else
    let* es := pstatement a entity in
    match es with
    | None => Ok None
    | Some v =>
        let* tp := pverified a in
        let* t := rec a (snd tp) in
        Ok (Some (v, t))
    end.

Fixpoint ptree (fuel : nat) (stop_at entity : string) (c : stmt) : res (tree esval) :=
  match fuel with
  | O => Err RecursionError
  | S fuel' =>
      match s_hints c with
      | None => Ok (T [])
      | Some hints =>
          if String.eqb (s_iss c) stop_at then Ok (T [])
          else
            let* bs := foldM (fun acc a =>
                                let* b := pbranch (ptree fuel' stop_at) entity a in
                                Ok (dset a b acc)) hints [] in
            Ok (T bs)
      end
  end.

Definition pcollect (fuel : nat) (stop_at id : string) : res (option (tree esval * token)) :=
  let* signed := pconf id in
  match signed with
  | None => Ok None
  | Some _ =>
      let* tp := verify_self_signed E (e_clock E 0) signed in
      let* tr := ptree fuel stop_at id (snd tp) in
      Ok (Some (tr, fst tp))
  end.

(** the two entries of a pair *)
Definition pair_in (s : cstate) (a e : string) (v : esval) : Prop :=
  dget (cache_key a e) (st_es s) = Some v /\
  exists z, dget (time_key a e) (st_es s) = Some (ESExp z).

Definition consistent (s : cstate) : Prop :=
  (forall id e, dget id (st_cfg s) = Some e ->
     exists t, pverified id = Ok (t, ce_stmt e) /\ e = mkEntry (ce_stmt e) (Some t) CDict) /\
  (forall a e v, clean a -> clean e -> dget (cache_key a e) (st_es s) = Some v ->
     pstatement a e = Ok (Some v) /\
     (exists k p z, v = ESTok (TJws k p) /\ s_exp p = Some z /\
                    dget (time_key a e) (st_es s) = Some (ESExp z)) /\
     (exists c, dget a (st_cfg s) = Some c)).

Definition below (s s' : cstate) : Prop :=
  (forall id e, dget id (st_cfg s) = Some e -> dget id (st_cfg s') = Some e) /\
  (forall a e v, clean a -> clean e -> pair_in s a e v -> pair_in s' a e v).

Lemma below_refl s : below s s.
Proof. split; auto. Qed.

Lemma below_trans s1 s2 s3 : below s1 s2 -> below s2 s3 -> below s1 s3.
Proof. intros [A1 A2] [B1 B2]. split; auto. Qed.

Inductive cached (s : cstate) : string -> tree esval -> Prop :=
| cached_T entity bs :
    clean entity ->
    (forall a v t, In (a, Some (v, t)) bs ->
       pair_in s a entity v /\ (exists c, dget a (st_cfg s) = Some c)) ->
    (forall a v t, In (a, Some (v, t)) bs -> cached s a t) ->
    (forall a v t, In (a, Some (v, t)) bs -> ~ (entity = a /\ In entity (e_anchors E))) ->
    cached s entity (T bs).

Context (HS : static E) (HF : serves_fresh E).

Lemma pdoc_served q k p : pdoc q = Ok (Some (TJws k p)) -> e_net E 0 q = RText (Some (TJws k p)).
Proof. unfold pdoc. destruct (e_net E 0 q); try discriminate. intros [= ->]. reflexivity. Qed.

Lemma pconf_served id k p : pconf id = Ok (Some (TJws k p)) ->
  serves_config E 0 id (TJws k p).
Proof.
  unfold pconf. destruct (pdoc (QDoc (e_wk E id))) as [t|x] eqn:Ep.
  - intros [= ->]. left. apply pdoc_served, Ep.
  - destruct x; try discriminate. destruct (String.eqb _ _); [discriminate|].
    intros H. right. apply pdoc_served, H.
Qed.

Lemma pverified_inv id t p : pverified id = Ok (t, p) ->
  pconf id = Ok (Some t) /\ self_signed t p.
Proof.
  unfold pverified. intros H. apply bind_ok in H. destruct H as (t0 & H1 & H2).
  apply verify_self_signed_ok in H2. destruct H2 as [-> H2]. auto.
Qed.

Lemma pverified_fresh id t p : pverified id = Ok (t, p) ->
  exists z, s_exp p = Some z /\ (e_clock E 0 < z - e_delta E)%Z.
Proof.
  intros H. apply pverified_inv in H. destruct H as [H (k & keys & -> & _)].
  apply pconf_served in H. destruct H as [H|H]; exact (HF _ _ _ _ H).
Qed.

Lemma pverified_obtainable s id t p : pverified id = Ok (t, p) -> obtainable E s id p.
Proof.
  intros H. apply pverified_inv in H. destruct H as [H Hs]. left. exists t, (st_tick s).
  split; [lia|]. split; [|exact Hs].
  destruct Hs as (k & keys & -> & _). apply pconf_served in H. destruct HS as [HS1 _].
  destruct H as [H|H]; [left|right]; rewrite HS1; exact H.
Qed.

Lemma get_document_eq q s :
  get_document E q s = (mkState (st_cfg s) (st_es s) (S (st_tick s)), pdoc q).
Proof. unfold get_document, pdoc. rewrite (proj1 HS). reflexivity. Qed.

Lemma get_entity_configuration_eq id s :
  exists tick, get_entity_configuration E id s = (mkState (st_cfg s) (st_es s) tick, pconf id).
Proof.
  unfold get_entity_configuration, pconf. rewrite get_document_eq.
  destruct (pdoc (QDoc (e_wk E id))) as [t|x]; [eexists; reflexivity|].
  destruct x; try (eexists; reflexivity).
  destruct (String.eqb _ _); [eexists; reflexivity|]. rewrite get_document_eq. simpl.
  eexists; reflexivity.
Qed.

Lemma cfg_getitem_eq id s : consistent s -> cfg_getitem E id s = (s, Ok (dget id (st_cfg s))).
Proof.
  intros [C _]. unfold cfg_getitem, cache_getitem.
  destruct (dget id (st_cfg s)) as [e|] eqn:Ee; [|destruct s; reflexivity].
  destruct (C id e Ee) as (t & Hv & ->). simpl.
  destruct (pverified_fresh id t (ce_stmt e) Hv) as (z & -> & Hz). rewrite (proj2 HS).
  destruct (Z.ltb_spec (e_clock E 0) (z - e_delta E)); [|lia]. destruct s; reflexivity.
Qed.

Lemma consistent_tick s tick : consistent s -> consistent (mkState (st_cfg s) (st_es s) tick).
Proof. intros C. exact C. Qed.

Lemma consistent_cfg_set s id t p :
  consistent s -> pverified id = Ok (t, p) ->
  consistent (mkState (dset id (mkEntry p (Some t) CDict) (st_cfg s)) (st_es s) (st_tick s)) /\
  below s (mkState (dset id (mkEntry p (Some t) CDict) (st_cfg s)) (st_es s) (st_tick s)).
Proof.
  intros [C1 C2] Hv.
  assert (Keep : forall id' e, dget id' (st_cfg s) = Some e ->
                 dget id' (dset id (mkEntry p (Some t) CDict) (st_cfg s)) = Some e).
  { intros id' e H. rewrite dget_dset. destruct (String.eqb_spec id' id) as [->|N]; [|exact H].
    destruct (C1 id e H) as (t' & Hv' & ->). rewrite Hv in Hv'. injection Hv' as <- <-. reflexivity. }
  split; [split|split].
  - simpl. intros id' e H. rewrite dget_dset in H. destruct (String.eqb_spec id' id) as [->|N].
    + injection H as <-. exists t. auto.
    + apply C1, H.
  - simpl. intros a e v Ha He H. destruct (C2 a e v Ha He H) as (H1 & H2 & (c & H3)).
    split; [exact H1|]. split; [exact H2|]. exists c. apply Keep, H3.
  - exact Keep.
  - intros a e v _ _ H. exact H.
Qed.

Lemma get_federation_fetch_endpoint_eq id s :
  consistent s ->
  exists s1, get_federation_fetch_endpoint E id s = (s1, pendpoint id) /\
  consistent s1 /\ below s s1 /\
  (forall ep, pendpoint id = Ok ep -> exists c, dget id (st_cfg s1) = Some c).
Proof.
  intros C. unfold get_federation_fetch_endpoint. unfold mbind at 1. rewrite cfg_getitem_eq by exact C.
  assert (Fetch : exists s1,
     (do signed <- get_entity_configuration E id in
      do tp <- open_self_signed E signed in
      do ep' <- lift (get_endpoint (snd tp)) in
      do _ <- cfg_set id (mkEntry (snd tp) (Some (fst tp)) CDict) in ret ep') s = (s1, pendpoint id) /\
     consistent s1 /\ below s s1 /\
     (forall ep, pendpoint id = Ok ep -> exists c, dget id (st_cfg s1) = Some c)).
  { destruct (get_entity_configuration_eq id s) as [tick Eg].
    unfold pendpoint, pverified. unfold mbind at 1. rewrite Eg.
    destruct (pconf id) as [signed|x] eqn:Ec; simpl.
    2:{ eexists. split; [reflexivity|]. split; [exact C|]. split; [split; auto|discriminate]. }
    unfold mbind at 1, open_self_signed at 1. rewrite (proj2 HS).
    destruct (verify_self_signed E (e_clock E 0) signed) as [[t p]|x] eqn:Ev; simpl.
    2:{ eexists. split; [reflexivity|]. split; [exact C|]. split; [split; auto|discriminate]. }
    unfold mbind at 1, lift at 1.
    destruct (get_endpoint p) as [ep|x] eqn:Ee; simpl.
    2:{ eexists. split; [reflexivity|]. split; [exact C|]. split; [split; auto|discriminate]. }
    assert (Hv : pverified id = Ok (t, p)) by (unfold pverified; rewrite Ec; simpl; exact Ev).
    destruct (consistent_cfg_set (mkState (st_cfg s) (st_es s) tick) id t p C Hv) as [C' B'].
    unfold mbind, cfg_set, modify, ret, cache_set. simpl.
    eexists. split; [reflexivity|]. split; [exact C'|]. split; [exact B'|].
    intros _ _. eexists. apply dget_dset_same. }
  destruct (dget id (st_cfg s)) as [e|] eqn:Ed.
  - destruct (proj1 C id e Ed) as (t & Hv & Ee).
    unfold mbind at 1, lift at 1.
    assert (Hp : pendpoint id = get_endpoint (ce_stmt e)) by (unfold pendpoint; rewrite Hv; reflexivity).
    destruct (get_endpoint (ce_stmt e)) as [ep|x] eqn:Eg.
    + destruct (String.eqb_spec ep "") as [->|N]; simpl; [exact Fetch|]. rewrite Hp.
      eexists. split; [reflexivity|].
      split; [exact C|]. split; [apply below_refl|]. intros _ _. exists e. exact Ed.
    + rewrite Hp. eexists. split; [reflexivity|].
      split; [exact C|]. split; [apply below_refl|]. discriminate.
  - unfold mbind at 1, ret at 1. simpl. exact Fetch.
Qed.

Lemma get_entity_statement_eq e a s :
  clean e -> clean a -> consistent s ->
  exists s2, get_entity_statement E e a s = (s2, pstatement a e) /\
  consistent s2 /\ below s s2 /\
  (forall v, pstatement a e = Ok (Some v) ->
     pair_in s2 a e v /\ (exists c, dget a (st_cfg s2) = Some c) /\ es_truthy v = true).
Proof.
  intros He Ha C. destruct (dget (cache_key a e) (st_es s)) as [v|] eqn:Ek.
  - destruct (proj2 C a e v Ha He Ek) as (H1 & (k & p & z & -> & Hz & Ht) & H3).
    rewrite (es_fresh E e a s (ESTok (TJws k p)) z Ek Ht).
    + rewrite H1. exists s. split; [reflexivity|]. split; [exact C|]. split; [apply below_refl|].
      intros v [= <-]. split; [split; [exact Ek|eauto]|]. split; [exact H3|reflexivity].
    + unfold clock_of. rewrite (proj2 HS).
      unfold pstatement in H1. apply bind_ok in H1. destruct H1 as (ep & _ & H1).
      destruct (String.eqb ep ""); [discriminate|]. apply bind_ok in H1.
      destruct H1 as (signed & Hd & H1). apply bind_ok in H1. destruct H1 as (p' & Hu & H1).
      destruct signed as [t|]; [|discriminate]. destruct (s_exp p') as [z'|]; [|discriminate].
      injection H1 as ->. apply pdoc_served in Hd. destruct (HF _ _ _ _ Hd) as (z2 & E1 & E2).
      rewrite Hz in E1. injection E1 as <-. lia.
  - unfold get_entity_statement.
    assert (E0 : es_getitem E (cache_key a e) s = (s, Ok None)).
    { unfold es_getitem, cache_getitem. rewrite Ek. destruct s; reflexivity. }
    unfold mbind at 1. rewrite E0. cbn beta iota. unfold mbind at 1, ret at 1. cbn beta iota.
    unfold mbind at 1.
    destruct (get_federation_fetch_endpoint_eq a s C) as (s1 & P1 & P2 & P3 & P4). rewrite P1.
    unfold pstatement. destruct (pendpoint a) as [ep|x] eqn:Ep.
    2:{ exists s1. split; [reflexivity|]. split; [exact P2|]. split; [exact P3|discriminate]. }
    destruct (P4 ep eq_refl) as (c & P4'). cbn [bind].
    destruct (String.eqb_spec ep "") as [->|N].
    { exists s1. split; [reflexivity|]. split; [exact P2|]. split; [exact P3|discriminate]. }
    unfold mbind at 1. rewrite get_document_eq.
    destruct (pdoc (QFetch ep a e)) as [signed|x] eqn:Ed.
    2:{ eexists. split; [reflexivity|]. split; [exact P2|]. split; [exact P3|discriminate]. }
    unfold mbind at 1, lift at 1. cbn [bind].
    destruct (unverified signed) as [p|x] eqn:Eu.
    2:{ eexists. split; [reflexivity|]. split; [exact P2|]. split; [exact P3|discriminate]. }
    destruct signed as [[|k q]|]; try discriminate. injection Eu as ->.
    destruct (HF _ _ _ _ (pdoc_served _ _ _ Ed)) as (z & Hz & Hfresh).
    assert (PS : pstatement a e = Ok (Some (ESTok (TJws k p)))).
    { unfold pstatement. rewrite Ep. cbn [bind]. apply String.eqb_neq in N. rewrite N, Ed. simpl.
      rewrite Hz. reflexivity. }
    unfold mbind at 1, es_set at 1, modify at 1. cbn [bind]. rewrite Hz.
    unfold mbind, es_set, modify, ret, cache_set. cbn [st_cfg st_es st_tick].
    set (es' := dset (time_key a e) (ESExp z) (dset (cache_key a e) (ESTok (TJws k p)) (st_es s1))).
    assert (G1 : dget (cache_key a e) es' = Some (ESTok (TJws k p))).
    { unfold es'. rewrite dget_dset_other by apply key_kinds_same. apply dget_dset_same. }
    assert (G2 : dget (time_key a e) es' = Some (ESExp z)) by apply dget_dset_same.
    assert (Gother : forall a' e', clean a' -> (a', e') <> (a, e) ->
       dget (cache_key a' e') es' = dget (cache_key a' e') (st_es s1) /\
       dget (time_key a' e') es' = dget (time_key a' e') (st_es s1)).
    { intros a' e' Ha' N'. unfold es'. split.
      - rewrite dget_dset_other by (apply key_kinds; assumption).
        rewrite dget_dset_other; [reflexivity|]. intros X. apply cache_key_inj in X; [|assumption..].
        destruct X as [-> ->]. apply N'. reflexivity.
      - rewrite dget_dset_other.
        + rewrite dget_dset_other; [reflexivity|]. intros X. symmetry in X. revert X.
          apply key_kinds; assumption.
        + intros X. apply time_key_inj in X; [|assumption..]. destruct X as [-> ->].
          apply N'. reflexivity. }
    assert (Hdec : forall a' e', (a', e') = (a, e) \/ (a', e') <> (a, e)).
    { intros a' e'. destruct (string_dec a' a) as [->|N1]; [|right; congruence].
      destruct (string_dec e' e) as [->|N2]; [left; reflexivity|right; congruence]. }
    eexists. split; [reflexivity|]. split; [split|split; [split|]].
    + simpl. exact (proj1 P2).
    + simpl. intros a' e' v Ha' He' H. destruct (Hdec a' e') as [[= -> ->]|N'].
      * rewrite G1 in H. injection H as <-. split; [exact PS|]. split; [|exists c; exact P4'].
        exists k, p, z. auto.
      * destruct (Gother a' e' Ha' N') as [O1 O2]. rewrite O1 in H.
        destruct (proj2 P2 a' e' v Ha' He' H) as (H1 & H2 & H3). split; [exact H1|].
        split; [|exact H3]. rewrite O2. exact H2.
    + simpl. exact (proj1 P3).
    + simpl. intros a' e' v Ha' He' Hp. assert (Hp' := proj2 P3 a' e' v Ha' He' Hp).
      destruct (Hdec a' e') as [[= -> ->]|N'].
      * destruct Hp as [Hp _]. congruence.
      * destruct (Gother a' e' Ha' N') as [O1 O2]. unfold pair_in in *. simpl. rewrite O1, O2.
        exact Hp'.
    + intros v [= <-]. split; [split; [exact G1|exists z; exact G2]|].
      split; [exists c; exact P4'|reflexivity].
Qed.

Context (HC : forall id t p hints a, pverified id = Ok (t, p) -> s_hints p = Some hints ->
                                     In a hints -> clean a).

(** one step of the simulation: same result, consistent caches, nothing lost *)
Definition simulates {A} (m : M cstate A) (r : res A) (Post : cstate -> A -> Prop) : Prop :=
  forall s, consistent s ->
    snd (m s) = r /\ consistent (fst (m s)) /\ below s (fst (m s)) /\
    (forall x, r = Ok x -> Post (fst (m s)) x).

Lemma cached_below s s' entity tr : below s s' -> cached s entity tr -> cached s' entity tr.
Proof.
  intros B H. induction H as [entity bs Hc H2 H4 IH H3].
  constructor; [exact Hc| |exact IH|exact H3].
  intros a v t Hin. destruct (H2 a v t Hin) as (P1 & (c & P2)).
  assert (Ha : clean a) by (specialize (H4 a v t Hin); inversion H4; assumption).
  split; [apply (proj2 B); assumption|]. exists c; apply (proj1 B), P2.
Qed.

Definition goes_well {A} (m : M cstate A) (r : res A) (Post : cstate -> A -> Prop) : Prop :=
  forall s, consistent s ->
    exists s1, m s = (s1, r) /\ consistent s1 /\ below s s1 /\ (forall x, r = Ok x -> Post s1 x).

Lemma gw_mfold A B (f : B -> A -> M cstate B) (g : B -> A -> res B) (Post : list A -> cstate -> B -> Prop) l :
  (forall l s s' b, below s s' -> Post l s b -> Post l s' b) ->
  (forall l1 x b s, In x l -> consistent s -> Post l1 s b ->
     exists s1, f b x s = (s1, g b x) /\ consistent s1 /\ below s s1 /\
                (forall b', g b x = Ok b' -> Post (l1 ++ [x]) s1 b')) ->
  forall b s, consistent s -> Post [] s b ->
    exists s1, mfold f l b s = (s1, foldM g l b) /\ consistent s1 /\ below s s1 /\
               (forall b', foldM g l b = Ok b' -> Post l s1 b').
Proof.
  intros Hmono Hf.
  assert (G : forall l2 l1 b s, l1 ++ l2 = l -> consistent s -> Post l1 s b ->
    exists s1, mfold f l2 b s = (s1, foldM g l2 b) /\ consistent s1 /\ below s s1 /\
               (forall b', foldM g l2 b = Ok b' -> Post l s1 b')).
  { induction l2 as [|x l2 IH]; intros l1 b s El C Hp; simpl.
    - exists s. rewrite app_nil_r in El. subst l1. split; [reflexivity|]. split; [exact C|].
      split; [apply below_refl|]. intros b' [= <-]. exact Hp.
    - destruct (Hf l1 x b s) as (s1 & F1 & F2 & F3 & F4);
        [subst l; apply in_or_app; right; left; reflexivity|exact C|exact Hp|].
      unfold mbind. rewrite F1. destruct (g b x) as [b1|e].
      + destruct (IH (l1 ++ [x]) b1 s1) as (s2 & I1 & I2 & I3 & I4);
          [rewrite <- app_assoc; exact El|exact F2|apply F4; reflexivity|].
        exists s2. split; [exact I1|]. split; [exact I2|]. split; [eapply below_trans; eauto|exact I4].
      + exists s1. split; [reflexivity|]. split; [exact F2|]. split; [exact F3|discriminate]. }
  intros b s C Hp. apply (G l [] b s eq_refl C Hp).
Qed.

(** trees end up in the caches *)
Definition in_cache (entity : string) (s : cstate) (tr : tree esval) : Prop := cached s entity tr.

Definition branch_in_cache (entity a : string) (s : cstate) (b : option (esval * tree esval)) : Prop :=
  match b with
  | None => True
  | Some (v, t) => pair_in s a entity v /\ (exists c, dget a (st_cfg s) = Some c) /\
                   ~ (entity = a /\ In entity (e_anchors E)) /\ cached s a t
  end.

Lemma branch_below entity a s s' b : clean entity -> clean a ->
  below s s' -> branch_in_cache entity a s b -> branch_in_cache entity a s' b.
Proof.
  intros He Ha B. destruct b as [[v t]|]; [|auto]. intros (H1 & (c & H2) & H3 & H4).
  split; [apply (proj2 B); assumption|]. split; [exists c; apply (proj1 B), H2|].
  split; [exact H3|]. apply (cached_below s s'); auto.
Qed.

Lemma collect_branch_eq rec prec entity a :
  clean entity -> clean a ->
  (forall t c, pverified a = Ok (t, c) -> goes_well (rec a (Some c)) (prec a c) (in_cache a)) ->
  goes_well (collect_branch E rec entity a) (pbranch prec entity a) (branch_in_cache entity a).
Proof.
  intros He Ha Hrec s C. unfold collect_branch, pbranch.
  destruct (String.eqb entity a && smem entity (e_anchors E)) eqn:Eself.
  { exists s. split; [reflexivity|]. split; [exact C|]. split; [apply below_refl|].
    intros x [= <-]. exact I. }
  assert (Hno : ~ (entity = a /\ In entity (e_anchors E))).
  { intros [-> Hin]. rewrite String.eqb_refl in Eself. simpl in Eself. apply smem_false in Eself.
    contradiction. }
  destruct (get_entity_statement_eq entity a s He Ha C) as (s1 & G1 & G2 & G3 & G4).
  unfold mbind at 1. rewrite G1.
  destruct (pstatement a entity) as [[v|]|x] eqn:Ep; cbn [bind].
  2:{ exists s1. split; [reflexivity|]. split; [exact G2|]. split; [exact G3|].
      intros y [= <-]. exact I. }
  2:{ exists s1. split; [reflexivity|]. split; [exact G2|]. split; [exact G3|discriminate]. }
  destruct (G4 v eq_refl) as (H1 & (c & H2) & ->).
  unfold mbind at 1. rewrite cfg_getitem_eq by exact G2. rewrite H2. cbn [option_map].
  destruct (proj1 G2 a c H2) as (t & Hv & _). rewrite Hv. cbn [bind snd].
  destruct (Hrec t (ce_stmt c) Hv s1 G2) as (s2 & R1 & R2 & R3 & R4).
  unfold mbind. rewrite R1. destruct (prec a (ce_stmt c)) as [tr|x]; cbn [bind].
  - exists s2. split; [reflexivity|]. split; [exact R2|]. split; [eapply below_trans; eauto|].
    intros y [= <-]. split; [apply (proj2 R3); assumption|].
    split; [exists c; apply (proj1 R3), H2|]. split; [exact Hno|]. apply R4. reflexivity.
  - exists s2. split; [reflexivity|]. split; [exact R2|].
    split; [eapply below_trans; eauto|discriminate].
Qed.

Lemma collect_tree_eq stop_at fuel : forall entity t c,
  clean entity -> pverified entity = Ok (t, c) ->
  goes_well (collect_tree E fuel stop_at entity (Some c)) (ptree fuel stop_at entity c)
            (in_cache entity).
Proof.
  induction fuel as [|fuel IH]; intros entity t c He Hv s C; cbn [collect_tree ptree].
  { exists s. split; [reflexivity|]. split; [exact C|]. split; [apply below_refl|discriminate]. }
  assert (Hempty : in_cache entity s (T [])).
  { constructor; [exact He|intros a v x []|intros a v x []|intros a v x []]. }
  destruct (s_hints c) as [hints|] eqn:Eh.
  2:{ exists s. split; [reflexivity|]. split; [exact C|]. split; [apply below_refl|].
      intros x [= <-]. exact Hempty. }
  destruct (String.eqb (s_iss c) stop_at).
  { exists s. split; [reflexivity|]. split; [exact C|]. split; [apply below_refl|].
    intros x [= <-]. exact Hempty. }
  assert (Hh : forall a, In a hints -> clean a) by (intros a; apply (HC entity t c hints a Hv Eh)).
  destruct (gw_mfold _ _
     (fun acc authority => do b <- collect_branch E (collect_tree E fuel stop_at) entity authority in
                           ret (dset authority b acc))
     (fun acc a => let* b := pbranch (ptree fuel stop_at) entity a in Ok (dset a b acc))
     (fun _ s bs => forall a b, In (a, b) bs -> clean a /\ branch_in_cache entity a s b) hints)
     with (b := @nil (string * option (esval * tree esval))) (s := s) as (s1 & F1 & F2 & F3 & F4).
  - intros _ s1 s2 bs B H a b Hin. destruct (H a b Hin) as [Ha Hb]. split; [exact Ha|].
    apply (branch_below entity a s1 s2); assumption.
  - intros l1 a bs s1 Hin C1 Hbs.
    destruct (collect_branch_eq (collect_tree E fuel stop_at) (ptree fuel stop_at) entity a He (Hh a Hin))
      with (s := s1) as (s2 & B1 & B2 & B3 & B4).
    + intros t' c' Hv'. apply (IH a t' c' (Hh a Hin) Hv').
    + exact C1.
    + unfold mbind. rewrite B1. destruct (pbranch (ptree fuel stop_at) entity a) as [b|x]; cbn [bind].
      * exists s2. split; [reflexivity|]. split; [exact B2|]. split; [exact B3|].
        intros bs' [= <-] a' b' Hin'. apply In_dset in Hin'.
        destruct Hin' as [[= -> ->]|Hin'].
        -- split; [apply Hh, Hin|apply B4; reflexivity].
        -- destruct (Hbs a' b' Hin') as [Ha' Hb']. split; [exact Ha'|].
           apply (branch_below entity a' s1 s2); assumption.
      * exists s2. split; [reflexivity|]. split; [exact B2|]. split; [exact B3|discriminate].
  - exact C.
  - intros a b [].
  - unfold mbind at 1. rewrite F1.
    match goal with |- context [foldM ?f hints ?d] => destruct (foldM f hints d) as [bs|x] end; cbn [bind].
    + exists s1. split; [reflexivity|]. split; [exact F2|]. split; [exact F3|].
      intros x [= <-]. specialize (F4 bs eq_refl).
      constructor; [exact He| | |].
      * intros a v tr Hin. destruct (F4 a _ Hin) as [_ (P1 & P2 & _)]. split; assumption.
      * intros a v tr Hin. destruct (F4 a _ Hin) as [_ (_ & _ & _ & P4)]. exact P4.
      * intros a v tr Hin. destruct (F4 a _ Hin) as [_ (_ & _ & P3 & _)]. exact P3.
    + exists s1. split; [reflexivity|]. split; [exact F2|]. split; [exact F3|discriminate].
Qed.

Lemma collect_eq stop_at fuel id : clean id ->
  goes_well (collect E fuel stop_at id) (pcollect fuel stop_at id)
    (fun s x => match x with
                | None => True
                | Some (tr, t) => in_cache id s tr /\
                    exists c, pverified id = Ok (t, c) /\ ptree fuel stop_at id c = Ok tr /\
                              dget id (st_cfg s) = Some (mkEntry c (Some t) CDict)
                end).
Proof.
  intros Hid s C. unfold collect, pcollect. unfold mbind at 1, StateM.get, cache_get.
  destruct (dget id (st_cfg s)) as [e|] eqn:Ed.
  - destruct (proj1 C id e Ed) as (t & Hv & Ee). rewrite Ee.
    destruct (pverified_fresh id t (ce_stmt e) Hv) as (z & Hz & Hfresh).
    unfold mbind at 1 2, now at 1. unfold mbind at 1, lift at 1. unfold too_old at 1.
    cbn [ce_stmt]. rewrite Hz. rewrite (proj2 HS).
    destruct (Z.leb_spec (z + e_delta E) (e_clock E 0)) as [Hold|_].
    + (* only possible with a negative delta: the configuration is fetched again *)
      unfold ret at 1. cbn beta iota. unfold mbind at 1.
      destruct (get_entity_configuration_eq id s) as [tick Eg]. rewrite Eg.
      destruct (pverified_inv id t (ce_stmt e) Hv) as [Hc _]. rewrite Hc. cbn [bind].
      assert (Hvs : verify_self_signed E (e_clock E 0) (Some t) = Ok (t, ce_stmt e))
        by (unfold pverified in Hv; rewrite Hc in Hv; exact Hv).
      unfold mbind at 1, open_self_signed at 1. rewrite (proj2 HS), Hvs. cbn [bind fst snd].
      unfold mbind at 1, cfg_set, modify, cache_set.
      destruct (consistent_cfg_set (mkState (st_cfg s) (st_es s) tick) id t (ce_stmt e) C Hv) as [C' B'].
      destruct (collect_tree_eq stop_at fuel id t (ce_stmt e) Hid Hv _ C') as (s2 & T1 & T2 & T3 & T4).
      unfold mbind. cbn [st_cfg st_es st_tick] in T1 |- *. rewrite T1.
      destruct (ptree fuel stop_at id (ce_stmt e)) as [tr|x] eqn:Et; cbn [bind].
      * exists s2. split; [reflexivity|]. split; [exact T2|].
        split; [eapply below_trans; [exact B'|exact T3]|]. intros y [= <-].
        split; [apply T4; reflexivity|]. exists (ce_stmt e). split; [exact Hv|].
        split; [exact Et|]. apply (proj1 T3). apply dget_dset_same.
      * exists s2. split; [reflexivity|]. split; [exact T2|].
        split; [eapply below_trans; [exact B'|exact T3]|discriminate].
    + cbn [ce_jws ret]. unfold ret at 1. cbn beta iota.
      destruct (pverified_inv id t (ce_stmt e) Hv) as [Hc _]. rewrite Hc. cbn [bind].
      assert (Hvs : verify_self_signed E (e_clock E 0) (Some t) = Ok (t, ce_stmt e))
        by (unfold pverified in Hv; rewrite Hc in Hv; exact Hv).
      rewrite Hvs. cbn [bind fst snd].
      destruct (collect_tree_eq stop_at fuel id t (ce_stmt e) Hid Hv s C) as (s2 & T1 & T2 & T3 & T4).
      unfold mbind. rewrite T1.
      destruct (ptree fuel stop_at id (ce_stmt e)) as [tr|x] eqn:Et; cbn [bind].
      * exists s2. split; [reflexivity|]. split; [exact T2|]. split; [exact T3|]. intros y [= <-].
        split; [apply T4; reflexivity|]. exists (ce_stmt e). split; [exact Hv|].
        split; [exact Et|]. apply (proj1 T3). rewrite <- Ee. exact Ed.
      * exists s2. split; [reflexivity|]. split; [exact T2|]. split; [exact T3|discriminate].
  - unfold mbind at 1, ret at 1. cbn beta iota. unfold mbind at 1.
    destruct (get_entity_configuration_eq id s) as [tick Eg]. rewrite Eg.
    destruct (pconf id) as [signed|x] eqn:Hc; cbn [bind].
    2:{ eexists. split; [reflexivity|]. split; [exact C|]. split; [split; auto|discriminate]. }
    destruct signed as [t0|].
    2:{ eexists. split; [reflexivity|]. split; [exact C|]. split; [split; auto|].
        intros y [= <-]. exact I. }
    unfold mbind at 1, open_self_signed at 1. rewrite (proj2 HS).
    destruct (verify_self_signed E (e_clock E 0) (Some t0)) as [[t p]|x] eqn:Hvs; cbn [bind fst snd].
    2:{ eexists. split; [reflexivity|]. split; [exact C|]. split; [split; auto|discriminate]. }
    assert (Hv : pverified id = Ok (t, p)) by (unfold pverified; rewrite Hc; exact Hvs).
    unfold mbind at 1, cfg_set, modify, cache_set.
    destruct (consistent_cfg_set (mkState (st_cfg s) (st_es s) tick) id t p C Hv) as [C' B'].
    destruct (collect_tree_eq stop_at fuel id t p Hid Hv _ C') as (s2 & T1 & T2 & T3 & T4).
    unfold mbind. cbn [st_cfg st_es st_tick] in T1 |- *. rewrite T1.
    destruct (ptree fuel stop_at id p) as [tr|x] eqn:Et; cbn [bind].
    + exists s2. split; [reflexivity|]. split; [exact T2|].
      split; [eapply below_trans; [exact B'|exact T3]|]. intros y [= <-].
      split; [apply T4; reflexivity|]. exists p. split; [exact Hv|].
      split; [exact Et|]. apply (proj1 T3). apply dget_dset_same.
    + exists s2. split; [reflexivity|]. split; [exact T2|].
      split; [eapply below_trans; [exact B'|exact T3]|discriminate].
Qed.

Lemma visited_consistent s : visited E s -> consistent s.
Proof.
  induction 1 as [tick|s fuel stop_at id Hs IH Hid].
  - split; [discriminate|discriminate].
  - destruct (collect_eq stop_at fuel id Hid s IH) as (s1 & -> & H & _). exact H.
Qed.

(** ** A second collection, with whatever network, while everything is fresh *)
Context (E' : cenv) (Ha : e_anchors E' = e_anchors E).

Lemma again_branch s rec prec entity a b :
  consistent s -> all_fresh E' s -> clean entity -> clean a ->
  pbranch prec entity a = Ok b ->
  (b = None -> entity = a /\ In entity (e_anchors E)) ->
  (forall v t, b = Some (v, t) -> pair_in s a entity v /\ exists c, dget a (st_cfg s) = Some c) ->
  (forall v t tk c, b = Some (v, t) -> pverified a = Ok (tk, c) -> prec a c = Ok t ->
                  rec a (Some c) s = (s, Ok t)) ->
  collect_branch E' rec entity a s = (s, Ok b).
Proof.
  intros C [F1 F2] He Hc Hp Hn Hs Hrec. unfold pbranch in Hp. unfold collect_branch. rewrite Ha.
  destruct (String.eqb entity a && smem entity (e_anchors E)) eqn:Eself.
  { injection Hp as <-. reflexivity. }
  apply bind_ok in Hp. destruct Hp as (es & Hst & Hp).
  destruct es as [v|].
  2:{ injection Hp as <-. destruct (Hn eq_refl) as [-> Hin]. rewrite String.eqb_refl in Eself.
      simpl in Eself. apply smem_false in Eself. contradiction. }
  apply bind_ok in Hp. destruct Hp as ([tk c] & Hv & Hp). apply bind_ok in Hp.
  destruct Hp as (t & Ht & Hp). injection Hp as <-. cbn [snd] in Ht.
  destruct (Hs v t eq_refl) as ((P1 & z & P2) & (e & P3)).
  assert (Hft : (clock_of E' s <= z - e_delta E')%Z) by (apply (F2 _ _ P2)).
  unfold mbind at 1. rewrite (es_fresh E' entity a s v z P1 P2 Hft).
  destruct (proj2 C a entity v Hc He P1) as (_ & (k & p & z' & -> & _ & _) & _). cbn [es_truthy].
  destruct (proj1 C a e P3) as (tk' & Hv' & Ee). rewrite Hv in Hv'. injection Hv' as <- ->.
  assert (Eg : cfg_getitem E' a s = (s, Ok (Some e))).
  { unfold cfg_getitem, cache_getitem. rewrite P3. destruct (F1 a e P3) as (ze & Hze & Hlt).
    rewrite Ee at 1. cbn [ce_class]. rewrite Hze.
    destruct (Z.ltb_spec (e_clock E' (st_tick s)) (ze - e_delta E')); [|lia]. destruct s; reflexivity. }
  unfold mbind at 1. rewrite Eg. cbn [option_map]. unfold mbind.
  rewrite (Hrec _ t tk (ce_stmt e) eq_refl Hv Ht). reflexivity.
Qed.

Lemma foldM_dset (g : string -> res (option (esval * tree esval))) l : forall d bs,
  foldM (fun acc a => let* b := g a in Ok (dset a b acc)) l d = Ok bs ->
  (forall a b, In (a, b) d -> g a = Ok b) ->
  (forall a b, In (a, b) bs -> g a = Ok b) /\ (forall a b, In (a, b) d -> In (a, b) bs) /\
  (forall a, In a l -> exists b, g a = Ok b /\ In (a, b) bs).
Proof.
  induction l as [|a l IH]; intros d bs H Hd; simpl in H.
  - injection H as <-. split; [exact Hd|]. split; [auto|intros a []].
  - destruct (g a) as [b|x] eqn:Eg; [|discriminate]. simpl in H.
    assert (Hd' : forall a' b', In (a', b') (dset a b d) -> g a' = Ok b').
    { intros a' b' Hin. apply In_dset in Hin. destruct Hin as [[= -> ->]|Hin]; auto. }
    assert (Hin1 : In (a, b) (dset a b d)) by (apply dget_In, dget_dset_same).
    assert (Hin2 : forall a' b', In (a', b') d -> In (a', b') (dset a b d)).
    { intros a' b' Hin. assert (G := Hd a' b' Hin). revert Hin. clear - Eg G.
      induction d as [|[k v] d IHd]; simpl; [tauto|]. intros Hin.
      destruct (String.eqb_spec a k) as [->|N]; simpl.
      - destruct Hin as [[= -> ->]|Hin]; [left; congruence|right; exact Hin].
      - destruct Hin as [[= -> ->]|Hin]; [left; reflexivity|right; apply IHd, Hin]. }
    destruct (IH (dset a b d) bs H Hd') as (I1 & I2 & I3). split; [exact I1|].
    split; [intros a' b' Hin; apply I2, Hin2, Hin|].
    intros a' [->|Hin]; [exists b; split; [exact Eg|apply I2, Hin1]|apply I3, Hin].
Qed.

Lemma again_tree s stop_at fuel : consistent s -> all_fresh E' s ->
  forall entity t c tr,
  clean entity -> pverified entity = Ok (t, c) -> ptree fuel stop_at entity c = Ok tr ->
  cached s entity tr -> complete E entity tr ->
  collect_tree E' fuel stop_at entity (Some c) s = (s, Ok tr).
Proof.
  intros C F. induction fuel as [|fuel IH]; intros entity t c tr He Hv Hp Hc Hcomp; cbn [ptree] in Hp; [discriminate|].
  cbn [collect_tree]. destruct (s_hints c) as [hints|] eqn:Eh; [|injection Hp as <-; reflexivity].
  destruct (String.eqb (s_iss c) stop_at); [injection Hp as <-; reflexivity|].
  apply bind_ok in Hp. destruct Hp as (bs & Hf & [= <-]).
  assert (Hh : forall a, In a hints -> clean a) by (intros a; apply (HC entity t c hints a Hv Eh)).
  destruct (foldM_dset (pbranch (ptree fuel stop_at) entity) hints [] bs Hf) as (D1 & _ & D3);
    [intros a b []|].
  inversion Hc as [? ? _ Q2 Q3 Q4]; subst. inversion Hcomp as [? ? Q1 Q5]; subst.
  assert (Step : forall a, In a hints -> exists b, pbranch (ptree fuel stop_at) entity a = Ok b /\
             collect_branch E' (collect_tree E' fuel stop_at) entity a s = (s, Ok b)).
  { intros a Hin. destruct (D3 a Hin) as (b & Hb & Hbs). exists b. split; [exact Hb|].
    apply (again_branch s (collect_tree E' fuel stop_at) (ptree fuel stop_at) entity a b C F He (Hh a Hin) Hb).
    - intros ->. apply Q1, Hbs.
    - intros v tr ->. apply (Q2 a v tr Hbs).
    - intros v tr tk c' -> Hv' Ht'. apply (IH a tk c' tr (Hh a Hin) Hv' Ht'); [apply (Q3 a v tr Hbs)|apply (Q5 a v tr Hbs)]. }
  assert (Loop : forall l acc, (forall a, In a l -> In a hints) ->
     mfold (fun acc authority => do b <- collect_branch E' (collect_tree E' fuel stop_at) entity authority in
                           ret (dset authority b acc)) l acc s
     = (s, foldM (fun acc a => let* b := pbranch (ptree fuel stop_at) entity a in Ok (dset a b acc)) l acc)).
  { induction l as [|a l IHl]; intros acc Hl; [reflexivity|]. cbn [mfold foldM].
    destruct (Step a (Hl a (or_introl eq_refl))) as (b & S1 & S2). unfold mbind at 1.
    unfold mbind at 1. rewrite S2. rewrite S1. cbn [bind]. unfold ret at 1. cbn beta iota.
    apply IHl. intros a' Hin. apply Hl. right. exact Hin. }
  unfold mbind at 1. rewrite (Loop hints [] (fun a h => h)). rewrite Hf. reflexivity.
Qed.

End Pure.
