(** Lemmas about BuildModel. *)
From Coq Require Import Lia.
From Verif Require Import StateM PyFacts TrawlFacts VerifierModel BuildModel BuildSpec.
Local Open Scope string_scope.
Local Open Scope list_scope.

(** * Invariants of computations *)

Definition keeps {S A} (I : S -> Prop) (m : M S A) (Q : A -> Prop) : Prop :=
  forall s, I s -> I (fst (m s)) /\ (forall a, snd (m s) = Ok a -> Q a).

Lemma keeps_ret {S A} (I : S -> Prop) (a : A) (Q : A -> Prop) : Q a -> keeps I (ret a) Q.
Proof. intros H s Hs. split; [exact Hs|]. intros b E. inversion E; subst. exact H. Qed.

Lemma keeps_bind {S A B} (I : S -> Prop) (m : M S A) (f : A -> M S B) (Q : A -> Prop) (R : B -> Prop) :
  keeps I m Q -> (forall a, Q a -> keeps I (f a) R) -> keeps I (mbind m f) R.
Proof.
  intros Hm Hf s Hs. unfold mbind. destruct (Hm s Hs) as [H1 H2].
  destruct (m s) as [s' [a|x]]; cbn in *.
  - exact (Hf a (H2 a eq_refl) s' H1).
  - split; [exact H1|]. intros b E. discriminate E.
Qed.

Lemma keeps_fold {S A B} (I : S -> Prop) (f : B -> A -> M S B) (Q : B -> Prop) (l : list A) b :
  (forall b a, In a l -> Q b -> keeps I (f b a) Q) -> Q b -> keeps I (mfold f l b) Q.
Proof.
  revert b. induction l as [|a l IH]; intros b Hf Hb; cbn [mfold].
  - apply keeps_ret. exact Hb.
  - eapply keeps_bind; [apply Hf; [left; reflexivity|exact Hb]|].
    intros b' Hb'. apply IH; [|exact Hb']. intros b2 a2 Hin. apply Hf. right. exact Hin.
Qed.

(** * Entries of dictionaries *)

Lemma In_dset_inv {A} k (v : A) d x : In x (dset k v d) -> x = (k, v) \/ In x d.
Proof.
  induction d as [|[k' v'] d IH]; cbn [dset].
  - intros [H|[]]. left. symmetry. exact H.
  - destruct (String.eqb k k') eqn:E; intros [H|H].
    + left. symmetry. rewrite String.eqb_eq in E. subst k'. exact H.
    + right. right. exact H.
    + right. left. exact H.
    + destruct (IH H) as [H'|H']; [left; exact H'|right; right; exact H'].
Qed.

Lemma In_dupdate_inv {A} (d e : dict A) x : In x (dupdate d e) -> In x d \/ In x e.
Proof.
  unfold dupdate. revert d. induction e as [|[k v] e IH]; intros d H; cbn in H.
  - left. exact H.
  - destruct (IH _ H) as [H'|H'].
    + apply In_dset_inv in H'. destruct H' as [->|H']; [right; left; reflexivity|left; exact H'].
    + right. right. exact H'.
Qed.

(** * Trust anchor objects in tables and selections *)

Definition table_refs (P : object -> Prop) (st : store) : Prop :=
  forall p, defs_refs P (tables st p).
Definition sel_refs (P : object -> Prop) (sel : dict src) : Prop :=
  forall n it, In (n, Mine it) sel -> item_refs P it.

Definition inv_refs (P : object -> Prop) (h : object -> dict (list key)) (st : store) : Prop :=
  table_refs P st /\ heap st = h.

Lemma update_item_refs (P : object -> Prop) (v : dict kval) (it it' : item) :
  (forall k o, In (k, KAnchors o) v -> P o) -> item_refs P it -> update_item v it = Ok it' ->
  item_refs P it'.
Proof.
  intros Hv Hi H. unfold update_item in H. destruct (it_kwargs it) as [kw|] eqn:E; [|discriminate H].
  inversion H; subst it'. intros kw' k o Hk Hin. cbn in Hk. inversion Hk; subst kw'.
  apply In_dupdate_inv in Hin. destruct Hin as [Hin|Hin].
  - exact (Hi kw k o E Hin).
  - exact (Hv k o Hin).
Qed.

Lemma put_setting_refs (P : object -> Prop) h p sel (kv : string * dict kval) :
  (forall k o, In (k, KAnchors o) (snd kv) -> P o) -> sel_refs P sel ->
  keeps (inv_refs P h) (put_setting p sel kv) (sel_refs P).
Proof.
  intros Hv Hs st [Ht Hh]. unfold put_setting.
  destruct (dget (fst kv) sel) as [[|it]|] eqn:Eg; cbn.
  - destruct (dget (fst kv) (tables st p)) as [it|] eqn:Et; cbn.
    + destruct (update_item (snd kv) it) as [it'|x] eqn:Eu; cbn.
      * split; [|intros a E; inversion E; subst; exact Hs]. split; [|exact Hh].
        intros q n it2 Hin. cbn in Hin. destruct (part_eqb p q) eqn:Epq; [|exact (Ht q n it2 Hin)].
        apply In_dset_inv in Hin. destruct Hin as [Hin|Hin]; [|exact (Ht q n it2 Hin)].
        inversion Hin; subst. refine (update_item_refs P _ _ _ Hv _ Eu).
        exact (Ht p _ it (dget_In _ _ _ _ Et)).
      * split; [split; assumption|]. intros a E; discriminate E.
    + split; [split; assumption|]. intros a E; discriminate E.
  - destruct (update_item (snd kv) it) as [it'|x] eqn:Eu; cbn.
    + split; [split; assumption|]. intros a E. inversion E; subst a.
      intros n it2 Hin. apply In_dset_inv in Hin. destruct Hin as [Hin|Hin].
      * inversion Hin; subst. refine (update_item_refs P _ _ _ Hv _ Eu).
        exact (Hs _ it (dget_In _ _ _ _ Eg)).
      * exact (Hs n it2 Hin).
    + split; [split; assumption|]. intros a E; discriminate E.
  - split; [split; assumption|]. intros a E. inversion E; subst. exact Hs.
Qed.

Lemma default_items_refs (P : object -> Prop) p : sel_refs P (default_items p).
Proof.
  intros n it H. unfold default_items in H. apply in_map_iff in H. destruct H as [m [H _]].
  discriminate H.
Qed.

Lemma add_refs (P : object -> Prop) h p given spec args :
  settings_refs P spec -> settings_refs P args -> sel_refs P given ->
  keeps (inv_refs P h) (add p given spec args) (sel_refs P).
Proof.
  intros Hs Ha Hg. unfold add. eapply keeps_bind.
  - apply (keeps_fold (inv_refs P h) (put_setting p) (sel_refs P)).
    + intros sel [n d] Hin Hsel. apply put_setting_refs; [|exact Hsel].
      intros k o. cbn. exact (Hs n d k o Hin).
    + destruct (is_nil given); [apply default_items_refs|exact Hg].
  - intros sel Hsel. apply (keeps_fold (inv_refs P h) (put_setting p) (sel_refs P)); [|exact Hsel].
    intros sel' [n d] Hin Hsel'. apply put_setting_refs; [|exact Hsel'].
    intros k o. cbn. destruct p; [exact (Hs n d k o Hin)|exact (Hs n d k o Hin)|exact (Ha n d k o Hin)].
Qed.

Lemma mine_refs (P : object -> Prop) d : defs_refs P d -> sel_refs P (mine d).
Proof.
  intros H n it Hin. unfold mine in Hin. apply in_map_iff in Hin. destruct Hin as [[m i] [E Hin]].
  cbn in E. inversion E; subst. exact (H n it Hin).
Qed.

Lemma sel_refs_dset_shared (P : object -> Prop) n sel : sel_refs P sel -> sel_refs P (dset n Shared sel).
Proof.
  intros H m it Hin. apply In_dset_inv in Hin. destruct Hin as [E|Hin]; [discriminate E|].
  exact (H m it Hin).
Qed.

Lemma with_defs_refs (P : object -> Prop) l r :
  (forall d, In (WDefs d) l -> defs_refs P d) -> sel_refs P r -> sel_refs P (with_defs l r).
Proof.
  unfold with_defs. revert r. induction l as [|w l IH]; intros r Hl Hr; cbn [fold_left]; [exact Hr|].
  apply IH; [intros d Hd; apply Hl; right; exact Hd|].
  destruct w as [n|d]; [exact Hr|]. intros m it Hin. apply In_dupdate_inv in Hin.
  destruct Hin as [Hin|Hin]; [exact (Hr m it Hin)|].
  exact (mine_refs P d (Hl d (or_introl eq_refl)) m it Hin).
Qed.

Lemma sel_refs_nil (P : object -> Prop) : sel_refs P [].
Proof. intros n it []. Qed.

Lemma functions_refs (P : object -> Prop) tbl l r : federation_functions tbl l = Ok r -> sel_refs P r.
Proof.
  intros H. unfold federation_functions in H.
  refine (foldM_inv _ _ _ (sel_refs P) l [] r _ _ H).
  - intros b a b' _ Hb E. destruct a as [n|d]; [|discriminate E].
    destruct (dmem n tbl); [|discriminate E]. inversion E; subst. apply sel_refs_dset_shared. exact Hb.
  - apply sel_refs_nil.
Qed.

Lemma select_refs (P : object -> Prop) p tbl i given :
  items_refs P i -> select p tbl i = Ok given -> sel_refs P given.
Proof.
  intros Hi H. destruct i as [|l|d].
  - destruct p; inversion H; subst; apply sel_refs_nil.
  - destruct p; cbn in H.
    + inversion H; subst. unfold federation_services. apply with_defs_refs; [exact Hi|].
      generalize (sel_refs_nil P). generalize (@nil (string * src)). clear.
      induction l as [|w l IH]; intros r Hr; cbn [fold_left]; [exact Hr|]. apply IH.
      destruct w as [n|d]; [|exact Hr]. destruct (dmem n tbl); [|exact Hr].
      apply sel_refs_dset_shared. exact Hr.
    + exact (functions_refs P tbl l given H).
    + unfold federation_endpoints in H. apply bind_ok in H. destruct H as [r [H1 H2]].
      inversion H2; subst. apply with_defs_refs; [exact Hi|].
      refine (foldM_inv _ _ _ (sel_refs P) l [] r _ _ H1).
      * intros b a b' _ Hb E. destruct a as [n|d]; [|inversion E; subst; exact Hb].
        destruct (dmem n tbl); [|discriminate E]. inversion E; subst.
        apply sel_refs_dset_shared. exact Hb.
      * apply sel_refs_nil.
  - destruct p; cbn in H.
    + inversion H; subst. apply mine_refs. exact Hi.
    + exact (functions_refs P tbl _ given H).
    + inversion H; subst. apply mine_refs. exact Hi.
Qed.

Definition opt_refs (P : object -> Prop) (o : option (dict src)) : Prop :=
  forall sel, o = Some sel -> sel_refs P sel.

Lemma build_part_refs (P : object -> Prop) h a p :
  args_refs P a -> keeps (inv_refs P h) (build_part a p) (opt_refs P).
Proof.
  intros Ha. destruct (Ha p) as [Hi [Hs Hr]]. unfold build_part.
  destruct (has_items (a_items a p)).
  - intros st Hst. unfold mbind, StateM.get, lift. cbn.
    destruct (select p (tables st p) (a_items a p)) as [given|x] eqn:E; cbn.
    + destruct (add_refs P h p given _ _ Hs Hr (select_refs P _ _ _ _ Hi E) st Hst) as [H1 H2].
      destruct (add p given (a_init a p) (a_args a p) st) as [st' [sel|x]]; cbn in *.
      * split; [exact H1|]. intros o Eo. inversion Eo; subst o. intros sel' E'. inversion E'; subst sel'.
        exact (H2 sel eq_refl).
      * split; [exact H1|]. intros o Eo. discriminate Eo.
    + split; [exact Hst|]. intros o Eo. discriminate Eo.
  - destruct (services_empty a).
    + apply keeps_ret. intros sel E. discriminate E.
    + eapply keeps_bind; [exact (add_refs P h p [] _ _ Hs Hr (sel_refs_nil P))|].
      intros sel Hsel. apply keeps_ret. intros sel' E. inversion E; subst. exact Hsel.
Qed.

Lemma build_refs (P : object -> Prop) h a :
  args_refs P a ->
  keeps (inv_refs P h) (build_entity_config a) (fun cfg => forall p, opt_refs P (cfg p)).
Proof.
  intros Ha. unfold build_entity_config.
  eapply keeps_bind; [exact (build_part_refs P h a Services Ha)|]. intros s Hs.
  eapply keeps_bind; [exact (build_part_refs P h a Functions Ha)|]. intros f Hf.
  eapply keeps_bind; [exact (build_part_refs P h a Endpoints Ha)|]. intros e He.
  apply keeps_ret. intros []; assumption.
Qed.

Lemma read_In tbl sel n it :
  In (n, it) (read tbl sel) -> In (n, Mine it) sel \/ In (n, it) tbl.
Proof.
  intros H. unfold read in H. apply in_flat_map in H. destruct H as [[m s] [Hin H]]. cbn in H.
  destruct s as [|it'].
  - destruct (dget m tbl) as [it'|] eqn:E; [|destruct H]. destruct H as [H|[]].
    inversion H; subst. right. exact (dget_In _ _ _ _ E).
  - destruct H as [H|[]]. inversion H; subst. left. exact Hin.
Qed.

(** what FederationEntity.__init__ makes *)
Lemma federation_entity_inv (P : object -> Prop) st cfg own e :
  table_refs P st -> (forall p, opt_refs P (cfg p)) -> federation_entity st cfg own = Ok e ->
  en_items e = (fun p => option_map (read (tables st p)) (cfg p))
  /\ ((en_anchors e = None /\ en_keys e = own)
      \/ exists q, P q /\ en_anchors e = Some q /\ en_keys e = import_all (heap st q) own).
Proof.
  intros Ht Hc H. unfold federation_entity in H. apply bind_ok in H. destruct H as [[an kj] [H1 H2]].
  cbn in H2.
  assert (Hshape : (an = None /\ kj = own) \/ exists q, P q /\ an = Some q /\ kj = import_all (heap st q) own).
  { destruct (cfg Functions) as [sel|] eqn:Ef; cbn in H1.
    - unfold make_functions in H1.
      destruct (existsb _ (read (tables st Functions) sel)); [discriminate H1|].
      destruct (dget "trust_chain_collector" (read (tables st Functions) sel)) as [it|] eqn:Ec.
      + destruct (it_kwargs it) as [kw|] eqn:Ek; [|discriminate H1].
        destruct (dget "trust_anchors" kw) as [[v|q]|] eqn:Ea; [discriminate H1| |discriminate H1].
        inversion H1; subst. right. exists q. split; [|split; reflexivity].
        apply dget_In in Ec. apply read_In in Ec.
        assert (Hit : item_refs P it).
        { destruct Ec as [Ec|Ec]; [exact (Hc Functions sel Ef _ it Ec)|exact (Ht Functions _ it Ec)]. }
        exact (Hit kw _ q Ek (dget_In _ _ _ _ Ea)).
      + inversion H1; subst. left. split; reflexivity.
    - inversion H1; subst. left. split; reflexivity. }
  destruct (cfg Endpoints) as [sel|]; cbn in H2; [|discriminate H2].
  inversion H2; subst e. cbn. split; [reflexivity|exact Hshape].
Qed.

(** what make_federation_entity makes *)
Lemma make_inv (P : object -> Prop) h a st st' r :
  inv_refs P h st -> args_refs P a -> make_federation_entity a st = (st', r) ->
  inv_refs P h st'
  /\ forall e, r = Ok e ->
       exists kj,
         (kj = a_own a \/ exists q, P q /\ kj = import_all (h q) (a_own a))
         /\ match a_anchors a with
            | Some o =>
                if is_nil (h o)
                then en_keys e = kj /\ (en_anchors e = None \/ exists q, P q /\ en_anchors e = Some q)
                else en_anchors e = Some o /\ en_keys e = import_all (h o) kj
            | None => en_keys e = kj /\ (en_anchors e = None \/ exists q, P q /\ en_anchors e = Some q)
            end.
Proof.
  intros Hst Ha H. unfold make_federation_entity, mbind, StateM.get, lift in H.
  destruct (build_refs P h a Ha st Hst) as [Hb1 Hb2].
  destruct (build_entity_config a st) as [st1 [cfg|x]] eqn:Eb; cbn in Hb1, Hb2, H.
  2:{ inversion H; subst. split; [exact Hb1|]. intros e E; discriminate E. }
  pose proof Hb1 as Hst1. destruct Hb1 as [Ht Hh].
  destruct (federation_entity st1 cfg (a_own a)) as [e0|x] eqn:Ef.
  2:{ inversion H; subst. split; [exact Hst1|]. intros e E; discriminate E. }
  destruct (federation_entity_inv P st1 cfg _ e0 Ht (Hb2 cfg eq_refl) Ef) as [_ Hsh].
  assert (Hkj : exists kj, en_keys e0 = kj /\ (kj = a_own a \/ exists q, P q /\ kj = import_all (h q) (a_own a))
                /\ (en_anchors e0 = None \/ exists q, P q /\ en_anchors e0 = Some q)).
  { exists (en_keys e0). split; [reflexivity|]. destruct Hsh as [[H1 H2]|[q [H1 [H2 H3]]]].
    - split; [left; exact H2|left; exact H1].
    - split; [right; exists q; split; [exact H1|rewrite <- Hh; exact H3]|right; exists q; split; assumption]. }
  destruct Hkj as [kj [Hk [Hkj Han]]].
  destruct (a_anchors a) as [o|].
  - rewrite Hh in H. destruct (is_nil (h o)) eqn:En.
    + inversion H; subst. split; [exact Hst1|]. intros e E. inversion E; subst e.
      exists (en_keys e0). split; [exact Hkj|]. split; [reflexivity|exact Han].
    + destruct (en_anchors e0) as [q|] eqn:Ea; inversion H; subst.
      * split; [exact Hst1|]. intros e E. inversion E; subst e.
        exists (en_keys e0). split; [exact Hkj|]. cbn. split; reflexivity.
      * split; [exact Hst1|]. intros e E. discriminate E.
  - inversion H; subst. split; [exact Hst1|]. intros e E. inversion E; subst e.
    exists (en_keys e0). split; [exact Hkj|]. split; [reflexivity|exact Han].
Qed.

(** * Lists of entities *)

Lemma nth_set_nth_same {A} i (x y : A) l : nth_error l i = Some y -> nth_error (set_nth i x l) i = Some x.
Proof.
  revert i. induction l as [|z l IH]; intros [|i] H; cbn in *; [discriminate H|discriminate H|reflexivity|].
  exact (IH i H).
Qed.

Lemma nth_set_nth_other {A} i j (x : A) l : i <> j -> nth_error (set_nth i x l) j = nth_error l j.
Proof.
  revert i j. induction l as [|z l IH]; intros [|i] [|j] H; cbn; [reflexivity..|congruence|reflexivity|reflexivity|].
  apply IH. congruence.
Qed.

Lemma length_set_nth {A} i (x : A) l : length (set_nth i x l) = length l.
Proof. revert i. induction l as [|z l IH]; intros [|i]; cbn; [reflexivity..|]. rewrite IH. reflexivity. Qed.

(** * An entity with a dictionary of its own *)

(** before the entity is made: nobody has the dictionary *)
Definition nobody (o : object) (d : dict (list key)) (s : sys) : Prop :=
  table_refs (fun q => q <> o) (s_store s)
  /\ heap (s_store s) o = d
  /\ (forall j e, nth_error (s_entities s) j = Some e -> en_anchors e <> Some o).

(** afterwards: only entity [i] has it *)
Definition only (i : nat) (o : object) (d : dict (list key)) (s : sys) : Prop :=
  table_refs (fun q => q <> o) (s_store s)
  /\ heap (s_store s) o = d
  /\ (forall j e, nth_error (s_entities s) j = Some e -> (en_anchors e = Some o <-> j = i))
  /\ i < length (s_entities s).

Lemma nth_error_snoc {A} (l : list A) x j y :
  nth_error (l ++ [x]) j = Some y -> nth_error l j = Some y \/ (j = length l /\ y = x).
Proof.
  intros H. destruct (Nat.ltb_spec j (length l)).
  - left. rewrite nth_error_app1 in H by assumption. exact H.
  - rewrite nth_error_app2 in H by assumption. destruct (j - length l) as [|n] eqn:E.
    + right. cbn in H. inversion H. split; [lia|reflexivity].
    + cbn in H. destruct n; discriminate H.
Qed.

Lemma step_make_inv a s :
  exists st' r, make_federation_entity a (s_store s) = (st', r)
    /\ fst (step (Make a) s)
       = mkSys st' (s_entities s ++ match r with Ok e => [e] | Err _ => [] end).
Proof.
  cbn. unfold make. destruct (make_federation_entity a (s_store s)) as [st' [e|x]].
  - exists st', (Ok e). split; reflexivity.
  - exists st', (Err x). split; [reflexivity|]. cbn. rewrite app_nil_r. reflexivity.
Qed.

(** a made entity does not get [o] unless it was handed out *)
Lemma make_apart o h a st st' r :
  inv_refs (fun q => q <> o) h st -> apart o (Make a) -> make_federation_entity a st = (st', r) ->
  inv_refs (fun q => q <> o) h st'
  /\ (forall e, r = Ok e -> en_anchors e <> Some o).
Proof.
  intros Hi [Ha Ho] H. destruct (make_inv _ h a st st' r Hi Ha H) as [H1 H2]. split; [exact H1|].
  intros e E. destruct (H2 e E) as [kj [_ H3]]. destruct (a_anchors a) as [q|].
  - destruct (is_nil (h q)).
    + destruct H3 as [_ [H3|[q' [Hq H3]]]]; rewrite H3; congruence.
    + destruct H3 as [H3 _]. rewrite H3. congruence.
  - destruct H3 as [_ [H3|[q' [Hq H3]]]]; rewrite H3; congruence.
Qed.

Lemma nobody_step o d x s : apart o x -> nobody o d s -> nobody o d (fst (step x s)).
Proof.
  intros Hx [Ht [Hh He]]. destruct x as [a|i id ks|i q].
  - destruct (step_make_inv a s) as [st' [r [Hm ->]]].
    destruct (make_apart o (heap (s_store s)) a _ _ _ (conj Ht eq_refl) Hx Hm) as [[Ht' Hh'] Hr].
    split; [exact Ht'|]. split; [cbn; rewrite Hh'; exact Hh|].
    cbn. intros j e Hj. destruct r as [e0|x]; [|rewrite app_nil_r in Hj; exact (He j e Hj)].
    apply nth_error_snoc in Hj. destruct Hj as [Hj|[_ ->]]; [exact (He j e Hj)|exact (Hr e0 eq_refl)].
  - cbn. unfold add_trust_anchor. destruct (nth_error (s_entities s) i) as [e|] eqn:Ei.
    2:{ exact (conj Ht (conj Hh He)). }
    assert (He' : forall j e', nth_error (set_nth i (mkEntity (en_items e) (en_anchors e) (import_keys (en_keys e) (id, ks))) (s_entities s)) j = Some e' -> en_anchors e' <> Some o).
    { intros j e' Hj. destruct (Nat.eq_dec i j) as [<-|Hne].
      - rewrite (nth_set_nth_same _ _ e) in Hj by exact Ei. inversion Hj; subst. cbn. exact (He i e Ei).
      - rewrite nth_set_nth_other in Hj by exact Hne. exact (He j e' Hj). }
    destruct (en_anchors e) as [q|] eqn:Ea; cbn.
    + split; [exact Ht|]. split; [|exact He']. cbn.
      destruct (Nat.eqb q o) eqn:Eq; [|exact Hh]. apply Nat.eqb_eq in Eq. subst q.
      exfalso. exact (He i e Ei Ea).
    + split; [exact Ht|]. split; [exact Hh|exact He'].
  - cbn. unfold set_trust_anchors. destruct (nth_error (s_entities s) i) as [e|] eqn:Ei.
    2:{ exact (conj Ht (conj Hh He)). }
    destruct (en_anchors e) as [q'|] eqn:Ea; cbn; [|exact (conj Ht (conj Hh He))].
    split; [exact Ht|]. split; [exact Hh|]. cbn. intros j e' Hj.
    destruct (Nat.eq_dec i j) as [<-|Hne].
    + rewrite (nth_set_nth_same _ _ e) in Hj by exact Ei. inversion Hj; subst. cbn. cbn in Hx. congruence.
    + rewrite nth_set_nth_other in Hj by exact Hne. exact (He j e' Hj).
Qed.

Lemma nobody_run o d ops s : Forall (apart o) ops -> nobody o d s -> nobody o d (run ops s).
Proof.
  unfold run. revert s. induction ops as [|x ops IH]; intros s Ho Hs; cbn [fold_left]; [exact Hs|].
  inversion Ho; subst. apply IH; [assumption|]. apply nobody_step; assumption.
Qed.

Lemma only_step i o d x s :
  apart o x -> ~ assigns i x -> only i o d s ->
  only i o (with_additions (added_to i [x]) d) (fst (step x s)).
Proof.
  intros Hx Hn [Ht [Hh [He Hl]]]. destruct x as [a|j id ks|j q].
  - destruct (step_make_inv a s) as [st' [r [Hm ->]]].
    destruct (make_apart o (heap (s_store s)) a _ _ _ (conj Ht eq_refl) Hx Hm) as [[Ht' Hh'] Hr].
    split; [exact Ht'|]. split; [cbn; rewrite Hh'; exact Hh|]. split.
    + cbn. intros j e Hj. destruct r as [e0|x]; [|rewrite app_nil_r in Hj; exact (He j e Hj)].
      apply nth_error_snoc in Hj. destruct Hj as [Hj|[-> ->]]; [exact (He j e Hj)|].
      split; [intros E; exfalso; exact (Hr e0 eq_refl E)|]. intros E. exfalso. lia.
    + cbn. rewrite app_length. lia.
  - cbn [added_to flat_map app step]. unfold add_trust_anchor.
    destruct (nth_error (s_entities s) j) as [e|] eqn:Ej.
    2:{ cbn [fst]. assert (Hji : Nat.eqb j i = false).
        { apply Nat.eqb_neq. intros ->. apply nth_error_None in Ej. lia. }
        rewrite Hji. cbn. exact (conj Ht (conj Hh (conj He Hl))). }
    assert (He' : forall k e', nth_error (set_nth j (mkEntity (en_items e) (en_anchors e) (import_keys (en_keys e) (id, ks))) (s_entities s)) k = Some e' -> (en_anchors e' = Some o <-> k = i)).
    { intros k e' Hk. destruct (Nat.eq_dec j k) as [<-|Hne].
      - rewrite (nth_set_nth_same _ _ e) in Hk by exact Ej. inversion Hk; subst. cbn. exact (He j e Ej).
      - rewrite nth_set_nth_other in Hk by exact Hne. exact (He k e' Hk). }
    destruct (en_anchors e) as [q|] eqn:Ea; cbn [fst].
    + split; [exact Ht|]. split; [|split; [exact He'|cbn; rewrite length_set_nth; exact Hl]]. cbn.
      destruct (Nat.eqb q o) eqn:Eq.
      * apply Nat.eqb_eq in Eq. subst q. pose proof (proj1 (He j e Ej) Ea) as ->.
        rewrite Nat.eqb_refl. cbn. rewrite Hh. reflexivity.
      * assert (Hji : Nat.eqb j i = false).
        { apply Nat.eqb_neq. intros ->. pose proof (proj2 (He i e Ej) eq_refl) as H.
          rewrite H in Ea. inversion Ea; subst. rewrite Nat.eqb_refl in Eq. discriminate Eq. }
        rewrite Hji. cbn. exact Hh.
    + assert (Hji : Nat.eqb j i = false).
      { apply Nat.eqb_neq. intros ->. pose proof (proj2 (He i e Ej) eq_refl) as H. congruence. }
      rewrite Hji. cbn. split; [exact Ht|]. split; [exact Hh|].
      split; [exact He'|cbn; rewrite length_set_nth; exact Hl].
  - cbn. unfold set_trust_anchors. destruct (nth_error (s_entities s) j) as [e|] eqn:Ej.
    2:{ exact (conj Ht (conj Hh (conj He Hl))). }
    destruct (en_anchors e) as [q'|] eqn:Ea; cbn; [|exact (conj Ht (conj Hh (conj He Hl)))].
    split; [exact Ht|]. split; [exact Hh|]. split; [|cbn; rewrite length_set_nth; exact Hl].
    cbn. intros k e' Hk. destruct (Nat.eq_dec j k) as [<-|Hne].
    + rewrite (nth_set_nth_same _ _ e) in Hk by exact Ej. inversion Hk; subst. cbn. cbn in Hx, Hn.
      split; [congruence|intros E; exfalso; exact (Hn E)].
    + rewrite nth_set_nth_other in Hk by exact Hne. exact (He k e' Hk).
Qed.

Lemma added_to_cons i x ops : added_to i (x :: ops) = added_to i [x] ++ added_to i ops.
Proof. unfold added_to. cbn [flat_map]. rewrite app_nil_r. reflexivity. Qed.

Lemma only_run i o d ops s :
  Forall (apart o) ops -> Forall (fun x => ~ assigns i x) ops -> only i o d s ->
  only i o (with_additions (added_to i ops) d) (run ops s).
Proof.
  unfold run. revert d s. induction ops as [|x ops IH]; intros d s Ho Hn Hs; cbn [fold_left].
  - exact Hs.
  - inversion Ho; subst. inversion Hn; subst. rewrite added_to_cons.
    unfold with_additions. rewrite fold_left_app. apply IH; [assumption|assumption|].
    apply only_step; assumption.
Qed.

(** * Key jars *)

(** the key jar of an entity changes only when it is given an anchor *)
Lemma jar_step i x s :
  i < length (s_entities s) ->
  jar_of (fst (step x s)) i = import_all (added_to i [x]) (jar_of s i)
  /\ i < length (s_entities (fst (step x s))).
Proof.
  intros Hl. destruct x as [a|j id ks|j q].
  - destruct (step_make_inv a s) as [st' [r [_ ->]]]. unfold jar_of. cbn.
    rewrite nth_error_app1 by exact Hl. rewrite app_length. split; [reflexivity|lia].
  - cbn [added_to flat_map app step]. unfold add_trust_anchor, jar_of.
    destruct (nth_error (s_entities s) j) as [e|] eqn:Ej.
    2:{ cbn [fst]. assert (Hji : Nat.eqb j i = false).
        { apply Nat.eqb_neq. intros ->. apply nth_error_None in Ej. lia. }
        rewrite Hji. cbn. split; [reflexivity|exact Hl]. }
    assert (Hgoal : forall st', 
      match nth_error (s_entities (mkSys st' (set_nth j (mkEntity (en_items e) (en_anchors e) (import_keys (en_keys e) (id, ks))) (s_entities s)))) i with Some e' => en_keys e' | None => [] end
      = import_all ((if Nat.eqb j i then [(id, ks)] else []) ++ []) match nth_error (s_entities s) i with Some e' => en_keys e' | None => [] end).
    { intros st'. cbn [s_entities]. destruct (Nat.eqb j i) eqn:E.
      - apply Nat.eqb_eq in E. subst j. rewrite (nth_set_nth_same _ _ e) by exact Ej. rewrite Ej.
        reflexivity.
      - rewrite nth_set_nth_other by (apply Nat.eqb_neq; exact E). reflexivity. }
    destruct (en_anchors e) as [q|]; cbn [fst]; (split; [apply Hgoal|cbn; rewrite length_set_nth; exact Hl]).
  - cbn. unfold set_trust_anchors, jar_of. destruct (nth_error (s_entities s) j) as [e|] eqn:Ej.
    2:{ split; [reflexivity|exact Hl]. }
    destruct (en_anchors e) as [q'|] eqn:Ea; cbn; [|split; [reflexivity|exact Hl]].
    split; [|rewrite length_set_nth; exact Hl].
    destruct (Nat.eq_dec j i) as [->|Hne].
    + rewrite (nth_set_nth_same _ _ e) by exact Ej. rewrite Ej. reflexivity.
    + rewrite nth_set_nth_other by exact Hne. reflexivity.
Qed.

Lemma jar_run i ops s :
  i < length (s_entities s) -> jar_of (run ops s) i = import_all (added_to i ops) (jar_of s i).
Proof.
  unfold run. revert s. induction ops as [|x ops IH]; intros s Hl; cbn [fold_left]; [reflexivity|].
  destruct (jar_step i x s Hl) as [H1 H2]. rewrite IH by exact H2. rewrite H1.
  rewrite (added_to_cons i x ops). unfold import_all. rewrite fold_left_app. reflexivity.
Qed.

Lemma keys_of_import kj e id :
  keys_of (import_keys kj e) id = keys_of kj id ++ (if String.eqb (fst e) id then snd e else []).
Proof.
  unfold import_keys, keys_of at 1. destruct (String.eqb (fst e) id) eqn:E.
  - apply String.eqb_eq in E. subst id. rewrite dget_dset_same. reflexivity.
  - rewrite dget_dset_other by (intros ->; rewrite String.eqb_refl in E; discriminate E).
    rewrite app_nil_r. reflexivity.
Qed.

Lemma keys_of_import_all l kj id : keys_of (import_all l kj) id = keys_of kj id ++ keys_given id l.
Proof.
  unfold import_all. revert kj. induction l as [|e l IH]; intros kj; cbn [fold_left].
  - cbn. rewrite app_nil_r. reflexivity.
  - rewrite IH, keys_of_import, <- app_assoc. reflexivity.
Qed.

(** * The default dictionary stays empty *)

Definition untouched (h : object -> dict (list key)) (s : sys) : Prop :=
  table_refs (fun q => q = default_anchors) (s_store s)
  /\ heap (s_store s) default_anchors = []
  /\ (forall o, h o <> [] -> o <> default_anchors -> heap (s_store s) o <> [])
  /\ (forall j e, nth_error (s_entities s) j = Some e -> en_anchors e <> Some default_anchors).

Lemma args_refs_mono (P Q : object -> Prop) a :
  (forall o, P o -> Q o) -> args_refs P a -> args_refs Q a.
Proof.
  intros H Ha p. destruct (Ha p) as [H1 [H2 H3]]. split; [|split].
  - destruct (a_items a p) as [|l|d]; cbn in *; [exact I| |].
    + intros d Hd n it Hin kw k o Hk Ho. exact (H o (H1 d Hd n it Hin kw k o Hk Ho)).
    + intros n it Hin kw k o Hk Ho. exact (H o (H1 n it Hin kw k o Hk Ho)).
  - intros n d k o Hd Ho. exact (H o (H2 n d k o Hd Ho)).
  - intros n d k o Hd Ho. exact (H o (H3 n d k o Hd Ho)).
Qed.

Lemma dset_not_nil {A} k (v : A) d : dset k v d <> [].
Proof. destruct d as [|[k' v'] d]; cbn; [discriminate|]. destruct (String.eqb k k'); discriminate. Qed.

Lemma untouched_step h x s : explicit h x -> untouched h s -> untouched h (fst (step x s)).
Proof.
  intros Hx [Ht [H0 [Hg He]]]. destruct x as [a|i id ks|i q].
  - destruct Hx as [Ha [o [Ho [Hne Hh]]]].
    destruct (step_make_inv a s) as [st' [r [Hm ->]]].
    destruct (make_inv (fun q => q = default_anchors) (heap (s_store s)) a _ _ _ (conj Ht eq_refl)
                (args_refs_mono _ _ a (fun q (f : False) => match f with end) Ha) Hm) as [[Ht' Hh'] Hr].
    split; [exact Ht'|]. split; [cbn; rewrite Hh'; exact H0|].
    split; [cbn; rewrite Hh'; exact Hg|]. cbn. intros j e Hj.
    destruct r as [e0|x]; [|rewrite app_nil_r in Hj; exact (He j e Hj)].
    apply nth_error_snoc in Hj. destruct Hj as [Hj|[_ ->]]; [exact (He j e Hj)|].
    destruct (Hr e0 eq_refl) as [kj [_ H]]. rewrite Ho in H.
    destruct (heap (s_store s) o) eqn:E; [exfalso; exact (Hg o Hh Hne E)|]. cbn in H.
    destruct H as [H _]. rewrite H. congruence.
  - cbn. unfold add_trust_anchor. destruct (nth_error (s_entities s) i) as [e|] eqn:Ei.
    2:{ exact (conj Ht (conj H0 (conj Hg He))). }
    assert (He' : forall j e', nth_error (set_nth i (mkEntity (en_items e) (en_anchors e) (import_keys (en_keys e) (id, ks))) (s_entities s)) j = Some e' -> en_anchors e' <> Some default_anchors).
    { intros j e' Hj. destruct (Nat.eq_dec i j) as [<-|Hne].
      - rewrite (nth_set_nth_same _ _ e) in Hj by exact Ei. inversion Hj; subst. cbn. exact (He i e Ei).
      - rewrite nth_set_nth_other in Hj by exact Hne. exact (He j e' Hj). }
    destruct (en_anchors e) as [q|] eqn:Ea; cbn.
    + split; [exact Ht|]. split; [|split; [|exact He']].
      * cbn. destruct (Nat.eqb q default_anchors) eqn:Eq; [|exact H0]. apply Nat.eqb_eq in Eq. subst q.
        exfalso. exact (He i e Ei Ea).
      * intros o Ho Hne. cbn. destruct (Nat.eqb q o); [apply dset_not_nil|exact (Hg o Ho Hne)].
    + exact (conj Ht (conj H0 (conj Hg He'))).
  - cbn. unfold set_trust_anchors. destruct (nth_error (s_entities s) i) as [e|] eqn:Ei.
    2:{ exact (conj Ht (conj H0 (conj Hg He))). }
    destruct (en_anchors e) as [q'|] eqn:Ea; cbn; [|exact (conj Ht (conj H0 (conj Hg He)))].
    split; [exact Ht|]. split; [exact H0|]. split; [exact Hg|]. cbn. intros j e' Hj.
    destruct (Nat.eq_dec i j) as [<-|Hne].
    + rewrite (nth_set_nth_same _ _ e) in Hj by exact Ei. inversion Hj; subst. cbn. cbn in Hx. congruence.
    + rewrite nth_set_nth_other in Hj by exact Hne. exact (He j e' Hj).
Qed.

Lemma untouched_run h ops s : Forall (explicit h) ops -> untouched h s -> untouched h (run ops s).
Proof.
  unfold run. revert s. induction ops as [|x ops IH]; intros s Ho Hs; cbn [fold_left]; [exact Hs|].
  inversion Ho; subst. apply IH; [assumption|]. apply untouched_step; assumption.
Qed.

(** * The start *)

Lemma initial_refs : table_refs (fun q => q = default_anchors) (mkStore initial_tables (fun _ => [])).
Proof.
  intros p n it Hin kw k o Hk Hin2. destruct p; cbn in Hin;
    repeat match type of Hin with
           | _ \/ _ => destruct Hin as [Hin|Hin]
           | False => destruct Hin
           | _ = _ => inversion Hin; subst; clear Hin; cbn in Hk;
                      first [discriminate Hk
                            | inversion Hk; subst; cbn in Hin2;
                              repeat match type of Hin2 with
                                     | _ \/ _ => destruct Hin2 as [Hin2|Hin2]
                                     | False => destruct Hin2
                                     | _ = _ => inversion Hin2; reflexivity
                                     end]
           end.
Qed.

Lemma start_nobody h o : o <> default_anchors -> nobody o (h o) (start h).
Proof.
  intros Ho. split; [|split].
  - intros p n it Hin kw k q Hk Hin2. pose proof (initial_refs p n it Hin kw k q Hk Hin2) as ->.
    intros E. apply Ho. symmetry. exact E.
  - cbn. destruct o; [exfalso; apply Ho; reflexivity|reflexivity].
  - intros j e H. cbn in H. destruct j; discriminate H.
Qed.

Lemma start_untouched h : untouched h (start h).
Proof.
  split; [exact initial_refs|]. split; [reflexivity|]. split.
  - intros o Ho Hne. cbn. destruct o; [exfalso; apply Hne; reflexivity|exact Ho].
  - intros j e H. cbn in H. destruct j; discriminate H.
Qed.

(** * Making the entity that gets the dictionary *)

Lemma make_only o d a s s' :
  nobody o d s -> d <> [] -> args_refs (fun q => q <> o) a -> a_anchors a = Some o ->
  step (Make a) s = (s', Ok tt) ->
  only (length (s_entities s)) o d s'
  /\ exists kj, jar_of s' (length (s_entities s)) = import_all d kj
                /\ (kj = a_own a \/ exists q, q <> o /\ kj = import_all (heap (s_store s) q) (a_own a)).
Proof.
  intros [Ht [Hh He]] Hd Ha Hao Hs. cbn in Hs. unfold make in Hs.
  destruct (make_federation_entity a (s_store s)) as [st' [e|x]] eqn:Em; [|discriminate Hs].
  inversion Hs; subst s'. clear Hs.
  destruct (make_inv _ (heap (s_store s)) a _ _ _ (conj Ht eq_refl) Ha Em) as [[Ht' Hh'] Hr].
  destruct (Hr e eq_refl) as [kj [Hkj H]]. rewrite Hao, Hh in H.
  destruct d as [|x d]; [congruence|]. cbn in H. destruct H as [H1 H2]. split.
  - split; [exact Ht'|]. split; [cbn; rewrite Hh'; exact Hh|]. split.
    + cbn. intros j e' Hj. apply nth_error_snoc in Hj. destruct Hj as [Hj|[-> ->]].
      * split; [intros E; exfalso; exact (He j e' Hj E)|]. intros ->.
        assert (length (s_entities s) < length (s_entities s)); [|lia].
        apply nth_error_Some. rewrite Hj. discriminate.
      * split; [reflexivity|intros _; exact H1].
    + cbn. rewrite app_length. cbn. lia.
  - exists kj. split; [|exact Hkj]. unfold jar_of. cbn.
    rewrite nth_error_app2, Nat.sub_diag by lia. cbn. exact H2.
Qed.

(** * Items and their arguments *)

Lemma part_eqb_refl p : part_eqb p p = true.
Proof. destruct p; reflexivity. Qed.
Lemma part_eqb_eq p q : part_eqb p q = true -> p = q.
Proof. destruct p, q; intros H; try reflexivity; discriminate H. Qed.

(** the item a selection stands for *)
Definition look (st : store) (p : part) (sel : dict src) (n : string) : option item :=
  match dget n sel with
  | Some Shared => dget n (tables st p)
  | Some (Mine it) => Some it
  | None => None
  end.

Definition changed (d : dict kval) (it it' : item) : Prop :=
  it_class it' = it_class it
  /\ forall k, argument it' k = match dget k d with Some v => Some v | None => argument it k end.

Lemma update_item_changed d it it' :
  NoDup (dkeys d) -> update_item d it = Ok it' -> changed d it it'.
Proof.
  intros Hd H. unfold update_item in H. destruct (it_kwargs it) as [kw|] eqn:E; [|discriminate H].
  inversion H; subst it'. split; [reflexivity|]. intros k. unfold argument. cbn. rewrite E.
  rewrite dget_dupdate by exact Hd. reflexivity.
Qed.

(** what one setting does *)
Lemma put_setting_inv p sel kv st st' sel' :
  put_setting p sel kv st = (st', Ok sel') ->
  (forall q, q <> p -> tables st' q = tables st q)
  /\ (forall n, dmem n (tables st' p) = dmem n (tables st p))
  /\ (forall n, dmem n sel' = dmem n sel)
  /\ (forall n, In (n, Shared) sel' -> In (n, Shared) sel)
  /\ (forall n, n <> fst kv -> look st' p sel' n = look st p sel n)
  /\ match look st p sel (fst kv) with
     | None => look st' p sel' (fst kv) = None
     | Some it => exists it', look st' p sel' (fst kv) = Some it' /\ update_item (snd kv) it = Ok it'
     end.
Proof.
  intros H. unfold put_setting in H. unfold look.
  destruct (dget (fst kv) sel) as [[|it]|] eqn:Eg.
  - destruct (dget (fst kv) (tables st p)) as [it|] eqn:Et; [|discriminate H].
    destruct (update_item (snd kv) it) as [it'|x] eqn:Eu; [|discriminate H].
    inversion H; subst st' sel'. clear H. split; [|split; [|split; [|split; [|split]]]].
    + intros q Hq. cbn. destruct (part_eqb p q) eqn:E; [|reflexivity].
      apply part_eqb_eq in E. congruence.
    + intros n. cbn. rewrite part_eqb_refl. unfold dmem. destruct (String.eqb n (fst kv)) eqn:En.
      * apply String.eqb_eq in En. subst n. rewrite dget_dset_same, Et. reflexivity.
      * rewrite dget_dset_other; [reflexivity|]. intros E. subst n. rewrite String.eqb_refl in En. discriminate En.
    + reflexivity.
    + intros n Hn. exact Hn.
    + intros n Hn. cbn. rewrite part_eqb_refl. rewrite dget_dset_other by congruence. reflexivity.
    + rewrite Eg. exists it'. split; [|reflexivity]. cbn. rewrite part_eqb_refl.
      apply dget_dset_same.
  - destruct (update_item (snd kv) it) as [it'|x] eqn:Eu; [|discriminate H].
    inversion H; subst st' sel'. clear H. split; [|split; [|split; [|split; [|split]]]].
    + reflexivity.
    + reflexivity.
    + intros n. unfold dmem. destruct (String.eqb n (fst kv)) eqn:En.
      * apply String.eqb_eq in En. subst n. rewrite dget_dset_same, Eg. reflexivity.
      * rewrite dget_dset_other; [reflexivity|]. intros E. subst n. rewrite String.eqb_refl in En. discriminate En.
    + intros n Hn. apply In_dset_inv in Hn. destruct Hn as [Hn|Hn]; [discriminate Hn|exact Hn].
    + intros n Hn. rewrite dget_dset_other by congruence. reflexivity.
    + exists it'. rewrite dget_dset_same. split; reflexivity.
  - inversion H; subst st' sel'. rewrite Eg. repeat split; auto.
Qed.

Definition after (s : settings) (n : string) (it it' : item) : Prop :=
  it_class it' = it_class it
  /\ forall k, argument it' k = match setting s n k with Some v => Some v | None => argument it k end.

Lemma fold_settings_inv p spec sel st st' sel' :
  wf_settings spec -> mfold (put_setting p) spec sel st = (st', Ok sel') ->
  (forall q, q <> p -> tables st' q = tables st q)
  /\ (forall n, dmem n (tables st' p) = dmem n (tables st p))
  /\ (forall n, dmem n sel' = dmem n sel)
  /\ (forall n, In (n, Shared) sel' -> In (n, Shared) sel)
  /\ (forall n, match look st p sel n with
                | None => look st' p sel' n = None
                | Some it => exists it', look st' p sel' n = Some it' /\ after spec n it it'
                end).
Proof.
  revert sel st. induction spec as [|[m d] spec IH]; intros sel st Hwf H; cbn [mfold] in H.
  - inversion H; subst. repeat split; auto. intros n.
    destruct (look st' p sel' n) as [it|]; [|reflexivity]. exists it. repeat split; auto.
  - unfold mbind in H. destruct (put_setting p sel (m, d) st) as [st1 [sel1|x]] eqn:E1; [|discriminate H].
    destruct Hwf as [Hnd Hin]. inversion Hnd as [|? ? Hm Hnd']; subst.
    assert (Hwf' : wf_settings spec). { split; [exact Hnd'|]. intros n d' Hn. exact (Hin n d' (or_intror Hn)). }
    destruct (IH sel1 st1 Hwf' H) as [I1 [I2 [I3 [I4 I5]]]].
    destruct (put_setting_inv _ _ _ _ _ _ E1) as [J1 [J2 [J3 [J4 [J5 J6]]]]].
    split; [intros q Hq; rewrite I1 by exact Hq; exact (J1 q Hq)|].
    split; [intros n; rewrite I2; exact (J2 n)|].
    split; [intros n; rewrite I3; exact (J3 n)|].
    split; [intros n Hn; exact (J4 n (I4 n Hn))|].
    intros n. specialize (I5 n). cbn [fst snd] in J5, J6.
    destruct (String.eqb n m) eqn:En.
    + apply String.eqb_eq in En. subst n.
      destruct (look st p sel m) as [it|].
      * destruct J6 as [it1 [K1 K2]]. rewrite K1 in I5. destruct I5 as [it' [K3 [K4 K5]]].
        exists it'. split; [exact K3|].
        destruct (update_item_changed d it it1 (Hin m d (or_introl eq_refl)) K2) as [L1 L2].
        split; [congruence|]. intros k. rewrite K5.
        assert (Hs : setting spec m k = None).
        { unfold setting. destruct (dget m spec) as [d'|] eqn:Ed; [|reflexivity].
          exfalso. apply Hm. exact (dget_In_key _ _ _ _ Ed). }
        rewrite Hs. unfold setting. cbn [dget]. rewrite String.eqb_refl. exact (L2 k).
      * rewrite J6 in I5. exact I5.
    + assert (Hne : n <> m) by (intros ->; rewrite String.eqb_refl in En; discriminate En).
      rewrite (J5 n Hne) in I5. destruct (look st p sel n) as [it|]; [|exact I5].
      destruct I5 as [it' [K1 [K2 K3]]]. exists it'. split; [exact K1|]. split; [exact K2|].
      intros k. rewrite K3. unfold setting. cbn [dget].
      destruct (String.eqb n m) eqn:En'; [discriminate En|]. reflexivity.
Qed.

(** the value that counts: for endpoints what is in item_args comes last *)
Definition effective (p : part) (spec args : settings) (n k : string) : option kval :=
  match p with
  | Endpoints => match setting args n k with Some v => Some v | None => setting spec n k end
  | _ => setting spec n k
  end.

Lemma add_inv p given spec args st st' sel :
  wf_settings spec -> wf_settings args -> add p given spec args st = (st', Ok sel) ->
  let sel0 := if is_nil given then default_items p else given in
  (forall q, q <> p -> tables st' q = tables st q)
  /\ (forall n, dmem n (tables st' p) = dmem n (tables st p))
  /\ (forall n, dmem n sel = dmem n sel0)
  /\ (forall n, In (n, Shared) sel -> In (n, Shared) sel0)
  /\ (forall n, match look st p sel0 n with
                | None => look st' p sel n = None
                | Some it =>
                    exists it', look st' p sel n = Some it'
                      /\ it_class it' = it_class it
                      /\ forall k, argument it' k
                                   = match effective p spec args n k with Some v => Some v | None => argument it k end
                end).
Proof.
  intros Hs Ha H. unfold add in H. intros sel0. fold sel0 in H. unfold mbind in H.
  destruct (mfold (put_setting p) spec sel0 st) as [st1 [sel1|x]] eqn:E1; [|discriminate H].
  destruct (fold_settings_inv p spec sel0 st st1 sel1 Hs E1) as [I1 [I2 [I3 [I4 I5]]]].
  assert (Hwf2 : wf_settings (match p with Endpoints => args | _ => spec end)) by (destruct p; assumption).
  destruct (fold_settings_inv p _ sel1 st1 st' sel Hwf2 H) as [J1 [J2 [J3 [J4 J5]]]].
  split; [intros q Hq; rewrite J1 by exact Hq; exact (I1 q Hq)|].
  split; [intros n; rewrite J2; exact (I2 n)|].
  split; [intros n; rewrite J3; exact (I3 n)|].
  split; [intros n Hn; exact (I4 n (J4 n Hn))|].
  intros n. specialize (I5 n). specialize (J5 n).
  destruct (look st p sel0 n) as [it|].
  - destruct I5 as [it1 [K1 [K2 K3]]]. rewrite K1 in J5. destruct J5 as [it' [L1 [L2 L3]]].
    exists it'. split; [exact L1|]. split; [congruence|]. intros k. rewrite L3, K3.
    unfold effective. destruct p; destruct (setting spec n k); try reflexivity;
      destruct (setting args n k); reflexivity.
  - rewrite I5 in J5. exact J5.
Qed.

(** * Tables keep their names and classes *)

Definition known_tables (st : store) : Prop :=
  forall p n, option_map it_class (dget n (tables st p)) = option_map it_class (dget n (initial_tables p)).
Definition known_sel (p : part) (sel : dict src) : Prop :=
  forall n, In (n, Shared) sel -> dmem n (initial_tables p) = true.

Lemma known_dmem st p n : known_tables st -> dmem n (tables st p) = dmem n (initial_tables p).
Proof.
  intros H. specialize (H p n). unfold dmem.
  destruct (dget n (tables st p)), (dget n (initial_tables p)); cbn in H; try discriminate H; reflexivity.
Qed.

Lemma put_setting_known p sel kv :
  known_sel p sel -> keeps known_tables (put_setting p sel kv) (known_sel p).
Proof.
  intros Hs st Ht. unfold put_setting.
  destruct (dget (fst kv) sel) as [[|it]|] eqn:Eg.
  - destruct (dget (fst kv) (tables st p)) as [it|] eqn:Et.
    + destruct (update_item (snd kv) it) as [it'|x] eqn:Eu.
      * split; [|intros a E; cbn in E; inversion E; subst; exact Hs].
        intros q n. cbn. destruct (part_eqb p q) eqn:Epq; [|exact (Ht q n)].
        apply part_eqb_eq in Epq. subst q. destruct (String.eqb n (fst kv)) eqn:En.
        -- apply String.eqb_eq in En. subst n. rewrite dget_dset_same. rewrite <- (Ht p (fst kv)), Et.
           unfold update_item in Eu. destruct (it_kwargs it); [|discriminate Eu].
           inversion Eu; reflexivity.
        -- rewrite dget_dset_other; [exact (Ht p n)|].
           intros E. subst n. rewrite String.eqb_refl in En. discriminate En.
      * split; [exact Ht|]. intros a E. cbn in E. discriminate E.
    + split; [exact Ht|]. intros a E. cbn in E. discriminate E.
  - destruct (update_item (snd kv) it) as [it'|x] eqn:Eu.
    + split; [exact Ht|]. intros a E. cbn in E. inversion E; subst a. intros n Hn.
      apply In_dset_inv in Hn. destruct Hn as [Hn|Hn]; [discriminate Hn|exact (Hs n Hn)].
    + split; [exact Ht|]. intros a E. cbn in E. discriminate E.
  - split; [exact Ht|]. intros a E. cbn in E. inversion E; subst. exact Hs.
Qed.

Lemma default_known p : known_sel p (default_items p).
Proof.
  intros n H. unfold default_items in H. apply in_map_iff in H. destruct H as [m [E H]].
  inversion E; subst m. destruct p; cbn in H;
    repeat (destruct H as [<-|H]; [reflexivity|]); destruct H.
Qed.

Lemma add_known p given spec args :
  known_sel p given -> keeps known_tables (add p given spec args) (known_sel p).
Proof.
  intros Hg. unfold add. eapply keeps_bind.
  - apply (keeps_fold known_tables (put_setting p) (known_sel p)).
    + intros sel kv _ Hsel. apply put_setting_known. exact Hsel.
    + destruct (is_nil given); [apply default_known|exact Hg].
  - intros sel Hsel. apply (keeps_fold known_tables (put_setting p) (known_sel p)); [|exact Hsel].
    intros sel' kv _ Hsel'. apply put_setting_known. exact Hsel'.
Qed.

Lemma known_dset p n sel :
  dmem n (initial_tables p) = true -> known_sel p sel -> known_sel p (dset n Shared sel).
Proof.
  intros Hn H m Hm. apply In_dset_inv in Hm. destruct Hm as [E|Hm]; [inversion E; subst; exact Hn|].
  exact (H m Hm).
Qed.

Lemma known_nil p : known_sel p [].
Proof. intros n []. Qed.

Lemma known_mine p d : known_sel p (mine d).
Proof.
  intros n Hn. unfold mine in Hn. apply in_map_iff in Hn. destruct Hn as [x [E _]]. discriminate E.
Qed.

Lemma known_with_defs p l r : known_sel p r -> known_sel p (with_defs l r).
Proof.
  unfold with_defs. revert r. induction l as [|w l IH]; intros r Hr; cbn [fold_left]; [exact Hr|].
  apply IH. destruct w as [n|d]; [exact Hr|]. intros m Hm. apply In_dupdate_inv in Hm.
  destruct Hm as [Hm|Hm]; [exact (Hr m Hm)|exact (known_mine p d m Hm)].
Qed.

Lemma select_known p st i given :
  known_tables st -> select p (tables st p) i = Ok given -> known_sel p given.
Proof.
  intros Ht H.
  assert (Hf : forall l r, federation_functions (tables st p) l = Ok r -> known_sel p r).
  { intros l r Hr. unfold federation_functions in Hr.
    refine (foldM_inv _ _ _ (known_sel p) l [] r _ (known_nil p) Hr).
    intros b a b' _ Hb E. destruct a as [n|d]; [|discriminate E].
    destruct (dmem n (tables st p)) eqn:En; [|discriminate E]. inversion E; subst.
    apply known_dset; [rewrite <- (known_dmem st p n Ht); exact En|exact Hb]. }
  destruct i as [|l|d].
  - destruct p; inversion H; subst; apply known_nil.
  - destruct p; cbn in H.
    + inversion H; subst. unfold federation_services. apply known_with_defs.
      generalize (known_nil Services). generalize (@nil (string * src)). clear -Ht.
      induction l as [|w l IH]; intros r Hr; cbn [fold_left]; [exact Hr|]. apply IH.
      destruct w as [n|d]; [|exact Hr]. destruct (dmem n (tables st Services)) eqn:En; [|exact Hr].
      apply known_dset; [rewrite <- (known_dmem st Services n Ht); exact En|exact Hr].
    + exact (Hf l given H).
    + unfold federation_endpoints in H. apply bind_ok in H. destruct H as [r [H1 H2]].
      inversion H2; subst. apply known_with_defs.
      refine (foldM_inv _ _ _ (known_sel Endpoints) l [] r _ (known_nil Endpoints) H1).
      intros b a b' _ Hb E. destruct a as [n|d]; [|inversion E; subst; exact Hb].
      destruct (dmem n (tables st Endpoints)) eqn:En; [|discriminate E]. inversion E; subst.
      apply known_dset; [rewrite <- (known_dmem st Endpoints n Ht); exact En|exact Hb].
  - destruct p; cbn in H.
    + inversion H; subst. apply known_mine.
    + exact (Hf _ given H).
    + inversion H; subst. apply known_mine.
Qed.

Definition known_opt (p : part) (o : option (dict src)) : Prop :=
  forall sel, o = Some sel -> known_sel p sel.

Lemma build_part_known a p : keeps known_tables (build_part a p) (known_opt p).
Proof.
  unfold build_part. destruct (has_items (a_items a p)).
  - intros st Hst. unfold mbind, StateM.get, lift. cbn.
    destruct (select p (tables st p) (a_items a p)) as [given|x] eqn:E; cbn.
    + destruct (add_known p given (a_init a p) (a_args a p) (select_known p st _ _ Hst E) st Hst) as [H1 H2].
      destruct (add p given (a_init a p) (a_args a p) st) as [st' [sel|x]]; cbn in *.
      * split; [exact H1|]. intros o Eo. inversion Eo; subst o. intros sel' E'. inversion E'; subst sel'.
        exact (H2 sel eq_refl).
      * split; [exact H1|]. intros o Eo. discriminate Eo.
    + split; [exact Hst|]. intros o Eo. discriminate Eo.
  - destruct (services_empty a).
    + apply keeps_ret. intros sel E. discriminate E.
    + eapply keeps_bind; [exact (add_known p [] _ _ (known_nil p))|].
      intros sel Hsel. apply keeps_ret. intros sel' E. inversion E; subst. exact Hsel.
Qed.

Lemma build_known a :
  keeps known_tables (build_entity_config a) (fun cfg => forall p, known_opt p (cfg p)).
Proof.
  unfold build_entity_config.
  eapply keeps_bind; [exact (build_part_known a Services)|]. intros s Hs.
  eapply keeps_bind; [exact (build_part_known a Functions)|]. intros f Hf.
  eapply keeps_bind; [exact (build_part_known a Endpoints)|]. intros e He.
  apply keeps_ret. intros []; assumption.
Qed.

Lemma make_store a st : fst (make_federation_entity a st) = fst (build_entity_config a st).
Proof.
  unfold make_federation_entity, mbind, StateM.get, lift.
  destruct (build_entity_config a st) as [st1 [cfg|x]]; [|reflexivity].
  destruct (federation_entity st1 cfg (a_own a)) as [e|x]; [|reflexivity].
  destruct (a_anchors a) as [o|]; [|reflexivity].
  destruct (is_nil (heap st1 o)); [reflexivity|]. destruct (en_anchors e); reflexivity.
Qed.

Lemma step_tables x s :
  tables (s_store (fst (step x s))) = match x with
                                      | Make a => tables (fst (build_entity_config a (s_store s)))
                                      | _ => tables (s_store s)
                                      end.
Proof.
  destruct x as [a|i id ks|i q].
  - rewrite <- make_store. cbn. unfold make.
    destruct (make_federation_entity a (s_store s)) as [st' [e|x]]; reflexivity.
  - cbn. unfold add_trust_anchor. destruct (nth_error (s_entities s) i) as [e|]; [|reflexivity].
    destruct (en_anchors e); reflexivity.
  - cbn. unfold set_trust_anchors. destruct (nth_error (s_entities s) i) as [e|]; [|reflexivity].
    destruct (en_anchors e); reflexivity.
Qed.

Lemma known_run ops s : known_tables (s_store s) -> known_tables (s_store (run ops s)).
Proof.
  unfold run. revert s. induction ops as [|x ops IH]; intros s Hs; cbn [fold_left]; [exact Hs|].
  apply IH. intros p n. rewrite step_tables. destruct x as [a|i id ks|i q]; [|exact (Hs p n)..].
  exact (proj1 (build_known a (s_store s) Hs) p n).
Qed.

(** the items of an entity that was made *)
Lemma read_look st p sel n :
  known_tables st -> known_sel p sel -> dget n (read (tables st p) sel) = look st p sel n.
Proof.
  intros Ht. unfold look. induction sel as [|[m s] sel IH]; intros Hs; [reflexivity|].
  assert (Hs' : known_sel p sel) by (intros x Hx; exact (Hs x (or_intror Hx))).
  cbn [read flat_map]. fold (read (tables st p) sel). cbn [fst snd dget].
  destruct s as [|it].
  - pose proof (Hs m (or_introl eq_refl)) as Hm. rewrite <- (known_dmem st p m Ht) in Hm.
    unfold dmem in Hm. destruct (dget m (tables st p)) as [it|] eqn:Em; [|discriminate Hm].
    cbn [app dget]. destruct (String.eqb n m) eqn:E; [|exact (IH Hs')].
    apply String.eqb_eq in E. subst n. symmetry. exact Em.
  - cbn [app dget]. destruct (String.eqb n m); [reflexivity|exact (IH Hs')].
Qed.

Lemma made_items a st st' e :
  make_federation_entity a st = (st', Ok e) ->
  exists cfg, build_entity_config a st = (st', Ok cfg)
              /\ en_items e = (fun p => option_map (read (tables st' p)) (cfg p)).
Proof.
  intros H. pose proof (make_store a st) as Hms. rewrite H in Hms. cbn in Hms.
  unfold make_federation_entity, mbind, StateM.get, lift in H.
  destruct (build_entity_config a st) as [st1 [cfg|x]] eqn:Eb; [|discriminate H].
  cbn in Hms. subst st1. exists cfg. split; [reflexivity|].
  destruct (federation_entity st' cfg (a_own a)) as [e0|x] eqn:Ef; [|discriminate H].
  assert (He0 : en_items e0 = (fun p => option_map (read (tables st' p)) (cfg p))).
  { unfold federation_entity in Ef. apply bind_ok in Ef. destruct Ef as [r [_ Ef]]. cbn in Ef.
    destruct (option_map (read (tables st' Endpoints)) (cfg Endpoints)); [|discriminate Ef].
    inversion Ef; reflexivity. }
  destruct (a_anchors a) as [o|]; [|inversion H; subst; exact He0].
  destruct (is_nil (heap st' o)); [inversion H; subst; exact He0|].
  destruct (en_anchors e0); inversion H; subst. exact He0.
Qed.

(** one part of a configuration that was built *)
Lemma build_parts a st st' cfg :
  build_entity_config a st = (st', Ok cfg) ->
  exists s0 s1 s2 s3,
    st = s0 /\ st' = s3
    /\ build_part a Services s0 = (s1, Ok (cfg Services))
    /\ build_part a Functions s1 = (s2, Ok (cfg Functions))
    /\ build_part a Endpoints s2 = (s3, Ok (cfg Endpoints)).
Proof.
  intros H. unfold build_entity_config, mbind in H.
  destruct (build_part a Services st) as [s1 [s|x]] eqn:E1; [|discriminate H].
  destruct (build_part a Functions s1) as [s2 [f|x]] eqn:E2; [|discriminate H].
  destruct (build_part a Endpoints s2) as [s3 [g|x]] eqn:E3; [|discriminate H].
  inversion H; subst. exists st, s1, s2, st'. repeat split; assumption.
Qed.

(** [base]: what an item is before the settings of this call *)
Definition part_result (a : margs) (p : part) (st st' : store) (o : option (dict src)) : Prop :=
  (forall q, q <> p -> tables st' q = tables st q)
  /\ match o with
     | None => has_items (a_items a p) = false /\ services_empty a = true
     | Some sel =>
         exists given,
           select p (tables st p) (a_items a p) = Ok given
           /\ (has_items (a_items a p) = false -> services_empty a = false /\ given = [])
           /\ let sel0 := if is_nil given then default_items p else given in
              (forall n, dmem n sel = dmem n sel0)
              /\ (forall n, match look st p sel0 n with
                            | None => look st' p sel n = None
                            | Some it =>
                                exists it', look st' p sel n = Some it'
                                  /\ it_class it' = it_class it
                                  /\ forall k, argument it' k
                                       = match effective p (a_init a p) (a_args a p) n k with
                                         | Some v => Some v
                                         | None => argument it k
                                         end
                            end)
     end.

Lemma select_empty p tbl i : has_items i = false -> select p tbl i = Ok [].
Proof.
  destruct i as [|l|d]; cbn; intros H.
  - destruct p; reflexivity.
  - destruct l; [|discriminate H]. destruct p; reflexivity.
  - destruct d; [|discriminate H]. destruct p; reflexivity.
Qed.

Lemma build_part_inv a p st st' o :
  wf_settings (a_init a p) -> wf_settings (a_args a p) ->
  build_part a p st = (st', Ok o) -> part_result a p st st' o.
Proof.
  intros Hs Ha H. unfold build_part in H. unfold part_result.
  destruct (has_items (a_items a p)) eqn:Eh.
  - unfold mbind, StateM.get, lift in H.
    destruct (select p (tables st p) (a_items a p)) as [given|x] eqn:Esel; [|discriminate H].
    destruct (add p given (a_init a p) (a_args a p) st) as [st1 [sel|x]] eqn:Ea; [|discriminate H].
    inversion H; subst. destruct (add_inv p given _ _ _ _ _ Hs Ha Ea) as [I1 [_ [I3 [_ I5]]]].
    split; [exact I1|]. exists given. split; [reflexivity|]. split; [intros E; discriminate E|].
    split; [exact I3|exact I5].
  - destruct (services_empty a) eqn:Ese.
    + inversion H; subst. split; [reflexivity|]. split; reflexivity.
    + unfold mbind in H.
      destruct (add p [] (a_init a p) (a_args a p) st) as [st1 [sel|x]] eqn:Ea; [|discriminate H].
      inversion H; subst. destruct (add_inv p [] _ _ _ _ _ Hs Ha Ea) as [I1 [_ [I3 [_ I5]]]].
      split; [exact I1|]. exists []. split; [apply select_empty; exact Eh|].
      split; [intros _; split; reflexivity|]. split; [exact I3|exact I5].
Qed.

Definition wf_args (a : margs) : Prop :=
  forall p, wf_settings (a_init a p) /\ wf_settings (a_args a p).

(** the item named [n] of an entity, in terms of the tables before it was made *)
Lemma made_part a st st' e p :
  wf_args a -> known_tables st -> make_federation_entity a st = (st', Ok e) ->
  match en_items e p with
  | None => has_items (a_items a p) = false /\ services_empty a = true
  | Some its =>
      exists given,
        select p (tables st p) (a_items a p) = Ok given
        /\ (has_items (a_items a p) = false -> services_empty a = false /\ given = [])
        /\ let sel0 := if is_nil given then default_items p else given in
           (forall n, match look st p sel0 n with
                      | None => dget n its = None
                      | Some it =>
                          exists it', dget n its = Some it'
                            /\ it_class it' = it_class it
                            /\ forall k, argument it' k
                                 = match effective p (a_init a p) (a_args a p) n k with
                                   | Some v => Some v
                                   | None => argument it k
                                   end
                      end)
  end.
Proof.
  intros Hwf Hk H. destruct (made_items a st st' e H) as [cfg [Hb He]]. rewrite He. cbn.
  destruct (build_known a st Hk) as [Hk' Hc]. rewrite Hb in Hk', Hc. cbn in Hk', Hc.
  specialize (Hc cfg eq_refl).
  destruct (build_parts a st st' cfg Hb) as [s0 [s1 [s2 [s3 [-> [-> [B1 [B2 B3]]]]]]]].
  pose proof (build_part_inv a Services _ _ _ (proj1 (Hwf Services)) (proj2 (Hwf Services)) B1) as [P1 R1].
  pose proof (build_part_inv a Functions _ _ _ (proj1 (Hwf Functions)) (proj2 (Hwf Functions)) B2) as [P2 R2].
  pose proof (build_part_inv a Endpoints _ _ _ (proj1 (Hwf Endpoints)) (proj2 (Hwf Endpoints)) B3) as [P3 R3].
  assert (Hgen : forall sa sb, tables sa p = tables s0 p -> tables s3 p = tables sb p ->
            match cfg p with
            | None => has_items (a_items a p) = false /\ services_empty a = true
            | Some sel => exists given,
               select p (tables sa p) (a_items a p) = Ok given
               /\ (has_items (a_items a p) = false -> services_empty a = false /\ given = [])
               /\ let sel0 := if is_nil given then default_items p else given in
                  (forall n, dmem n sel = dmem n sel0)
                  /\ (forall n, match look sa p sel0 n with
                                | None => look sb p sel n = None
                                | Some it =>
                                    exists it', look sb p sel n = Some it'
                                      /\ it_class it' = it_class it
                                      /\ forall k, argument it' k
                                           = match effective p (a_init a p) (a_args a p) n k with
                                             | Some v => Some v
                                             | None => argument it k
                                             end
                                end)
            end ->
            match option_map (read (tables s3 p)) (cfg p) with
            | None => has_items (a_items a p) = false /\ services_empty a = true
            | Some its => exists given,
               select p (tables s0 p) (a_items a p) = Ok given
               /\ (has_items (a_items a p) = false -> services_empty a = false /\ given = [])
               /\ let sel0 := if is_nil given then default_items p else given in
                  (forall n, match look s0 p sel0 n with
                                | None => dget n its = None
                                | Some it =>
                                    exists it', dget n its = Some it'
                                      /\ it_class it' = it_class it
                                      /\ forall k, argument it' k
                                           = match effective p (a_init a p) (a_args a p) n k with
                                             | Some v => Some v
                                             | None => argument it k
                                             end
                                end)
            end).
  { intros sa sb Ea Eb HR. destruct (cfg p) as [sel|] eqn:Ec; cbn; [|exact HR].
    destruct HR as [given [G1 [G2 [_ G4]]]]. exists given. rewrite <- Ea. split; [exact G1|].
    split; [exact G2|]. intros n. specialize (G4 n).
    rewrite (read_look s3 p sel n Hk' (Hc p sel Ec)).
    assert (El : look s3 p sel n = look sb p sel n) by (unfold look; rewrite Eb; reflexivity).
    assert (El0 : forall sel1, look s0 p sel1 n = look sa p sel1 n) by (intros; unfold look; rewrite Ea; reflexivity).
    rewrite El, El0. exact G4. }
  destruct p.
  - apply (Hgen s0 s1); [reflexivity| |exact R1].
    rewrite (P3 Services) by discriminate. rewrite (P2 Services) by discriminate. reflexivity.
  - apply (Hgen s1 s2); [| |exact R2].
    + apply (P1 Functions). discriminate.
    + apply (P3 Functions). discriminate.
  - apply (Hgen s2 s3); [| |exact R3].
    + rewrite (P2 Endpoints) by discriminate. apply (P1 Endpoints). discriminate.
    + reflexivity.
Qed.

(** * The heap does not matter for the items *)

Definition blind {A} (m : M store A) : Prop :=
  forall t, exists t' r, forall h, m (mkStore t h) = (mkStore t' h, r).

Lemma blind_ret {A} (a : A) : blind (ret a).
Proof. intros t. exists t, (Ok a). reflexivity. Qed.

Lemma blind_bind {A B} (m : M store A) (f : A -> M store B) :
  blind m -> (forall a, blind (f a)) -> blind (mbind m f).
Proof.
  intros Hm Hf t. destruct (Hm t) as [t1 [r1 H1]]. destruct r1 as [a|x].
  - destruct (Hf a t1) as [t2 [r2 H2]]. exists t2, r2. intros h. unfold mbind. rewrite H1. apply H2.
  - exists t1, (Err x). intros h. unfold mbind. rewrite H1. reflexivity.
Qed.

Lemma blind_fold {A B} (f : B -> A -> M store B) l b :
  (forall b a, blind (f b a)) -> blind (mfold f l b).
Proof.
  intros Hf. revert b. induction l as [|a l IH]; intros b; cbn [mfold].
  - apply blind_ret.
  - apply blind_bind; [apply Hf|exact IH].
Qed.

Lemma blind_put p sel kv : blind (put_setting p sel kv).
Proof.
  intros t. unfold put_setting. cbn [tables].
  destruct (dget (fst kv) sel) as [[|it]|].
  - destruct (dget (fst kv) (t p)) as [it|].
    + destruct (update_item (snd kv) it) as [it'|x].
      * eexists. exists (Ok sel). intros h. unfold set_item. cbn [tables heap]. reflexivity.
      * exists t, (Err x). reflexivity.
    + exists t, (Err KeyError). reflexivity.
  - destruct (update_item (snd kv) it) as [it'|x].
    + exists t. eexists. reflexivity.
    + exists t, (Err x). reflexivity.
  - exists t, (Ok sel). reflexivity.
Qed.

Lemma blind_add p given spec args : blind (add p given spec args).
Proof.
  unfold add. apply blind_bind.
  - apply blind_fold. intros. apply blind_put.
  - intros sel. apply blind_fold. intros. apply blind_put.
Qed.

Lemma blind_part a p : blind (build_part a p).
Proof.
  unfold build_part. destruct (has_items (a_items a p)).
  - intros t. unfold mbind, StateM.get, lift. cbn [tables].
    destruct (select p (t p) (a_items a p)) as [given|x].
    + exact (blind_bind _ _ (blind_add p given (a_init a p) (a_args a p)) (fun sel => blind_ret (Some sel)) t).
    + exists t, (Err x). reflexivity.
  - destruct (services_empty a); [apply blind_ret|].
    apply blind_bind; [apply blind_add|]. intros sel. apply blind_ret.
Qed.

Lemma blind_build a : blind (build_entity_config a).
Proof.
  unfold build_entity_config.
  apply blind_bind; [apply blind_part|]. intros s.
  apply blind_bind; [apply blind_part|]. intros f.
  apply blind_bind; [apply blind_part|]. intros e. apply blind_ret.
Qed.

(** without settings the tables stay as they are *)
Lemma add_no_settings p given st : exists sel, add p given [] [] st = (st, Ok sel).
Proof. destruct p; eexists; reflexivity. Qed.

Lemma build_part_no_settings a p st :
  a_init a p = [] -> a_args a p = [] -> fst (build_part a p st) = st.
Proof.
  intros E1 E2. unfold build_part. rewrite E1, E2. destruct (has_items (a_items a p)).
  - unfold mbind, StateM.get, lift. destruct (select p (tables st p) (a_items a p)) as [given|x]; [|reflexivity].
    destruct (add_no_settings p given st) as [sel ->]. reflexivity.
  - destruct (services_empty a); [reflexivity|]. unfold mbind.
    destruct (add_no_settings p [] st) as [sel ->]. reflexivity.
Qed.

Lemma build_no_settings a st :
  (forall p, a_init a p = [] /\ a_args a p = []) -> fst (build_entity_config a st) = st.
Proof.
  intros Hn. unfold build_entity_config, mbind.
  pose proof (build_part_no_settings a Services st (proj1 (Hn Services)) (proj2 (Hn Services))) as H1.
  destruct (build_part a Services st) as [s1 [s|x]]; cbn in H1; subst s1; [|reflexivity].
  pose proof (build_part_no_settings a Functions st (proj1 (Hn Functions)) (proj2 (Hn Functions))) as H1.
  destruct (build_part a Functions st) as [s1 [f|x]]; cbn in H1; subst s1; [|reflexivity].
  pose proof (build_part_no_settings a Endpoints st (proj1 (Hn Endpoints)) (proj2 (Hn Endpoints))) as H1.
  destruct (build_part a Endpoints st) as [s1 [g|x]]; cbn in H1; subst s1; reflexivity.
Qed.

Lemma tables_no_settings ops s :
  Forall no_settings ops -> tables (s_store (run ops s)) = tables (s_store s).
Proof.
  unfold run. revert s. induction ops as [|x ops IH]; intros s Ho; cbn [fold_left]; [reflexivity|].
  inversion Ho; subst. rewrite IH by assumption. rewrite step_tables.
  destruct x as [a|i id ks|i q]; [|reflexivity..]. rewrite build_no_settings by assumption. reflexivity.
Qed.

(** * Names *)

Lemma dmem_dset {A} n k (v : A) d : dmem n (dset k v d) = (String.eqb n k || dmem n d)%bool.
Proof.
  unfold dmem. destruct (String.eqb n k) eqn:E.
  - apply String.eqb_eq in E. subst n. rewrite dget_dset_same. reflexivity.
  - rewrite dget_dset_other; [reflexivity|]. intros H. subst n. rewrite String.eqb_refl in E. discriminate E.
Qed.

Lemma dmem_dupdate {A} n (d e : dict A) : dmem n (dupdate d e) = (dmem n d || dmem n e)%bool.
Proof.
  unfold dupdate. revert d. induction e as [|[k v] e IH]; intros d; cbn [fold_left fst snd].
  - rewrite Bool.orb_false_r. reflexivity.
  - assert (E : dmem n ((k, v) :: e) = (String.eqb n k || dmem n e)%bool).
    { unfold dmem. cbn [dget]. destruct (String.eqb n k); reflexivity. }
    rewrite IH, dmem_dset, E. destruct (String.eqb n k), (dmem n d), (dmem n e); reflexivity.
Qed.

Lemma dget_mine n d : dget n (mine d) = option_map Mine (dget n d).
Proof.
  induction d as [|[k v] d IH]; [reflexivity|]. cbn. destruct (String.eqb n k); [reflexivity|exact IH].
Qed.

Lemma dmem_mine n d : dmem n (mine d) = dmem n d.
Proof. unfold dmem. rewrite dget_mine. destruct (dget n d); reflexivity. Qed.

Definition defines (n : string) (w : want) : bool :=
  match w with WName _ => false | WDefs d => dmem n d end.
Definition names_it (n : string) (w : want) : bool :=
  match w with WName m => String.eqb n m | WDefs _ => false end.

Lemma dmem_with_defs n l r : dmem n (with_defs l r) = (dmem n r || existsb (defines n) l)%bool.
Proof.
  unfold with_defs. revert r. induction l as [|w l IH]; intros r; cbn [fold_left existsb].
  - rewrite Bool.orb_false_r. reflexivity.
  - rewrite IH. destruct w as [m|d]; cbn [defines]; [reflexivity|].
    rewrite dmem_dupdate, dmem_mine. rewrite Bool.orb_assoc. reflexivity.
Qed.

Lemma fold_names n (tbl : dict item) (l : list want) r r' :
  foldM (fun r w => match w with
                    | WName n => if dmem n tbl then Ok (dset n Shared r) else Err KeyError
                    | WDefs _ => Ok r
                    end) l r = Ok r' ->
  dmem n r' = (dmem n r || existsb (names_it n) l)%bool.
Proof.
  revert r. induction l as [|w l IH]; intros r H; cbn [foldM existsb] in *.
  - inversion H; subst. rewrite Bool.orb_false_r. reflexivity.
  - destruct w as [m|d]; cbn [bind] in H.
    + destruct (dmem m tbl); [|discriminate H]. cbn [bind] in H. rewrite (IH _ H), dmem_dset.
      cbn [names_it]. rewrite (Bool.orb_comm (String.eqb n m)), Bool.orb_assoc. reflexivity.
    + rewrite (IH _ H). reflexivity.
Qed.

Lemma functions_names n (tbl : dict item) (l : list want) r r' :
  foldM (fun r w => match w with
                    | WName n => if dmem n tbl then Ok (dset n Shared r) else Err KeyError
                    | WDefs _ => Err TypeError
                    end) l r = Ok r' ->
  dmem n r' = (dmem n r || existsb (names_it n) l)%bool.
Proof.
  revert r. induction l as [|w l IH]; intros r H; cbn [foldM existsb] in *.
  - inversion H; subst. rewrite Bool.orb_false_r. reflexivity.
  - destruct w as [m|d]; cbn [bind] in H; [|discriminate H].
    destruct (dmem m tbl); [|discriminate H]. cbn [bind] in H. rewrite (IH _ H), dmem_dset.
    cbn [names_it]. rewrite (Bool.orb_comm (String.eqb n m)), Bool.orb_assoc. reflexivity.
Qed.

Lemma services_names n (tbl : dict item) (l : list want) (r : dict src) :
  dmem n (fold_left (fun r w => match w with
                                | WName n => if dmem n tbl then dset n Shared r else r
                                | WDefs _ => r
                                end) l r)
  = (dmem n r || (dmem n tbl && existsb (names_it n) l))%bool.
Proof.
  revert r. induction l as [|w l IH]; intros r; cbn [fold_left existsb].
  - rewrite Bool.andb_false_r, Bool.orb_false_r. reflexivity.
  - rewrite IH. destruct w as [m|d]; cbn [names_it]; [|reflexivity].
    destruct (String.eqb n m) eqn:E.
    + apply String.eqb_eq in E. subst m. destruct (dmem n tbl) eqn:Et; cbn; [|reflexivity].
      rewrite dmem_dset, String.eqb_refl. cbn. rewrite Bool.orb_true_r. reflexivity.
    + destruct (dmem m tbl); [|reflexivity]. rewrite dmem_dset, E. reflexivity.
Qed.

Lemma asked_In n l :
  In n (asked l) <-> existsb (names_it n) l = true \/ existsb (defines n) l = true.
Proof.
  induction l as [|w l IH]; cbn [asked flat_map existsb].
  - split; [intros []|]. intros [H|H]; discriminate H.
  - fold (asked l). rewrite in_app_iff, IH. destruct w as [m|d]; cbn [names_it defines].
    + cbn. destruct (String.eqb n m) eqn:E.
      * apply String.eqb_eq in E. subst m. cbn. intuition auto.
      * cbn. split; [|intuition auto]. intros [[H|[]]|H]; [|exact H].
        subst n. rewrite String.eqb_refl in E. discriminate E.
    + cbn. destruct (dmem n d) eqn:E.
      * apply dmem_true in E. cbn. intuition auto.
      * cbn. split; [|intuition auto]. intros [H|H]; [|exact H].
        exfalso. apply key_In_dget in H. destruct H as [v Hv]. unfold dmem in E. rewrite Hv in E. discriminate E.
Qed.

Lemma not_nil_dmem {A} n (d : dict A) : dmem n d = true -> is_nil d = false.
Proof. destruct d; [discriminate|reflexivity]. Qed.
