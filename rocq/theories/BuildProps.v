(** C123-C128: entities that are built with make_federation_entity.  The tables of
    defaults.py are shared by all entities of a process. *)
From Coq Require Import Lia.
From Verif Require Import StateM PyFacts VerifierModel BuildModel BuildSpec BuildFacts.
Local Open Scope string_scope.
Local Open Scope list_scope.

(** * Calls used in the examples *)

Definition no_refs_settings : part -> settings := fun _ => [].
Definition all_default : margs :=
  mkArgs (fun _ => INone) no_refs_settings no_refs_settings None [].
Definition with_anchors (o : object) : margs :=
  mkArgs (fun _ => INone) no_refs_settings no_refs_settings (Some o) [("", [90])].
(** the caller's dictionaries: object 1 has one trust anchor, object 2 another *)
Definition caller (o : object) : dict (list key) :=
  match o with
  | 1 => [("https://ta1.example", [1])]
  | 2 => [("https://ta2.example", [2])]
  | _ => []
  end.

(** * C123: an entity has the trust anchors it was given *)

(** The anchors it was made with, and later those of its own add_trust_anchor
    calls: whatever happens to other entities. *)
Definition C123_anchors_full : Prop :=
  forall h pre a post s s',
    s = run pre (start h) ->
    step (Make a) s = (s', Ok tt) ->
    args_refs (fun _ => False) a ->
    (forall o, a_anchors a = Some o -> o <> default_anchors /\ Forall (apart o) (pre ++ post)) ->
    let i := length (s_entities s) in
    Forall (fun x => ~ assigns i x) post ->
    forall d, anchors_of (run post s') i = Some d ->
    d = with_additions (added_to i post) (match a_anchors a with Some o => h o | None => [] end).

(** Two entities without trust anchors share the default dictionary: an anchor
    that is added to one is an anchor of the other. *)
Theorem C123_anchors_refuted : ~ C123_anchors_full.
Proof.
  intros H.
  specialize (H caller [Make all_default] all_default
                [AddAnchor 0 "https://evil.example" [66]]
                (run [Make all_default] (start caller))
                (run [Make all_default; Make all_default] (start caller)) eq_refl).
  cbv zeta in H.
  assert (E : step (Make all_default) (run [Make all_default] (start caller))
              = (run [Make all_default; Make all_default] (start caller), Ok tt)) by reflexivity.
  specialize (H E).
  assert (Ha : args_refs (fun _ => False) all_default).
  { intros p. split; [exact I|]. split; intros n d k o []. }
  specialize (H Ha).
  assert (Ho : forall o, a_anchors all_default = Some o ->
            o <> default_anchors /\ Forall (apart o) ([Make all_default] ++ [AddAnchor 0 "https://evil.example" [66]])).
  { intros o Eo. discriminate Eo. }
  specialize (H Ho).
  assert (Hn : Forall (fun x => ~ assigns (length (s_entities (run [Make all_default] (start caller)))) x)
                      [AddAnchor 0 "https://evil.example" [66]]).
  { constructor; [intros []|constructor]. }
  specialize (H Hn [("https://evil.example", [66])] eq_refl).
  cbv in H. discriminate H.
Qed.
Print Assumptions C123_anchors_refuted.

(** With a dictionary of its own that has something in it, and that the caller
    does not hand out again, the anchors are exactly as expected: whatever the
    other entities are given, with any settings. *)
Theorem C123_anchors_partial h pre a post s s' o :
  s = run pre (start h) ->
  step (Make a) s = (s', Ok tt) ->
  a_anchors a = Some o -> o <> default_anchors -> h o <> [] ->
  args_refs (fun q => q <> o) a ->
  Forall (apart o) (pre ++ post) ->
  let i := length (s_entities s) in
  Forall (fun x => ~ assigns i x) post ->
  anchors_of (run post s') i = Some (with_additions (added_to i post) (h o)).
Proof.
  intros Hs Hm Hao Hne Hh Ha Hap i Hn. apply Forall_app in Hap. destruct Hap as [Hpre Hpost].
  assert (Hno : nobody o (h o) s) by (rewrite Hs; apply nobody_run; [exact Hpre|apply start_nobody; exact Hne]).
  destruct (make_only o (h o) a s s' Hno Hh Ha Hao Hm) as [Honly _]. fold i in Honly.
  destruct (only_run i o (h o) post s' Hpost Hn Honly) as [_ [Hd [He Hl]]].
  unfold anchors_of. destruct (nth_error (s_entities (run post s')) i) as [e|] eqn:Ei.
  - rewrite (proj2 (He i e Ei) eq_refl). cbn. rewrite Hd. reflexivity.
  - exfalso. apply nth_error_None in Ei. lia.
Qed.
Print Assumptions C123_anchors_partial.

(** The keys in its key jar, on which the verification of trust chains relies
    (C92), are its own, those of its trust anchors and those that it was given
    with add_trust_anchor: for an entity that is made with trust anchors. *)
Definition C123_keys_full : Prop :=
  forall h pre a post s s' o,
    s = run pre (start h) ->
    step (Make a) s = (s', Ok tt) ->
    a_anchors a = Some o -> o <> default_anchors -> h o <> [] ->
    args_refs (fun _ => False) a ->
    Forall (apart o) (pre ++ post) ->
    let i := length (s_entities s) in
    forall id,
      keys_of (jar_of (run post s') i) id
      = keys_of (a_own a) id ++ keys_given id (h o) ++ keys_given id (added_to i post).

(** An anchor that was added to an entity without anchors of its own has its keys
    in the key jar of every entity that is made later, also of one that is made
    with its own trust anchors. *)
Theorem C123_keys_refuted : ~ C123_keys_full.
Proof.
  intros H.
  set (pre := [Make all_default; AddAnchor 0 "https://evil.example" [66]]).
  specialize (H caller pre (with_anchors 1) [] (run pre (start caller))
                (run (pre ++ [Make (with_anchors 1)]) (start caller)) 1 eq_refl eq_refl eq_refl).
  assert (H1 : 1 <> default_anchors) by discriminate.
  assert (H2 : caller 1 <> []) by discriminate.
  assert (Ha : forall b, args_refs (fun _ => False) (with_anchors b)).
  { intros b p. split; [exact I|]. split; intros n d k o []. }
  assert (Hd : args_refs (fun q => q <> 1) all_default).
  { intros p. split; [exact I|]. split; intros n d k o []. }
  specialize (H H1 H2 (Ha 1)).
  assert (Hap : Forall (apart 1) (pre ++ [])).
  { constructor; [split; [exact Hd|discriminate]|]. constructor; [exact I|constructor]. }
  specialize (H Hap "https://evil.example"). cbv in H. discriminate H.
Qed.
Print Assumptions C123_keys_refuted.

(** It holds where every entity that was made before has trust anchors of its own. *)
Theorem C123_keys_partial h pre a post s s' o :
  s = run pre (start h) ->
  Forall (explicit h) pre ->
  step (Make a) s = (s', Ok tt) ->
  a_anchors a = Some o -> o <> default_anchors -> h o <> [] ->
  args_refs (fun _ => False) a ->
  Forall (apart o) pre ->
  let i := length (s_entities s) in
  forall id,
    keys_of (jar_of (run post s') i) id
    = keys_of (a_own a) id ++ keys_given id (h o) ++ keys_given id (added_to i post).
Proof.
  intros Hs Hex Hm Hao Hne Hh Ha Hpre i id.
  assert (Hno : nobody o (h o) s) by (rewrite Hs; apply nobody_run; [exact Hpre|apply start_nobody; exact Hne]).
  assert (Hun : untouched h s) by (rewrite Hs; apply untouched_run; [exact Hex|apply start_untouched]).
  destruct (make_only o (h o) a s s' Hno Hh (args_refs_mono _ _ a (fun q (f : False) => match f with end) Ha) Hao Hm)
    as [[_ [_ [_ Hl]]] _]. fold i in Hl.
  assert (Hjar : jar_of s' i = import_all (h o) (a_own a)).
  { destruct Hun as [Ht [H0 _]]. cbn in Hm. unfold make in Hm.
    destruct (make_federation_entity a (s_store s)) as [st' [e|x]] eqn:Em; [|discriminate Hm].
    inversion Hm; subst s'. clear Hm.
    destruct (make_inv (fun q => q = default_anchors) (heap (s_store s)) a _ _ _ (conj Ht eq_refl)
                (args_refs_mono _ _ a (fun q (f : False) => match f with end) Ha) Em) as [_ Hr].
    destruct (Hr e eq_refl) as [kj [Hkj H]]. rewrite Hao in H.
    destruct Hno as [_ [Hho _]]. rewrite Hho in H.
    destruct (is_nil (h o)) eqn:En; [exfalso; destruct (h o); [congruence|discriminate En]|].
    destruct H as [_ H]. unfold jar_of. cbn. unfold i. rewrite nth_error_app2, Nat.sub_diag by lia. cbn.
    rewrite H. destruct Hkj as [->|[q [-> ->]]]; [reflexivity|]. rewrite H0. reflexivity. }
  rewrite jar_run by exact Hl. rewrite Hjar, !keys_of_import_all, app_assoc. reflexivity.
Qed.
Print Assumptions C123_keys_partial.

(** two entities with their own anchors; one is given another anchor *)
Example C123_ex :
  let s := run [Make (with_anchors 1); Make (with_anchors 2); AddAnchor 0 "https://ta3.example" [3]] (start caller) in
  anchors_of s 0 = Some [("https://ta1.example", [1]); ("https://ta3.example", [3])]
  /\ anchors_of s 1 = Some [("https://ta2.example", [2])]
  /\ jar_of s 1 = [("", [90]); ("https://ta2.example", [2])].
Proof. repeat split; reflexivity. Qed.

(** * C124: the keys of the listed trust anchors are there *)

Definition C124_keys_of_anchors_full : Prop :=
  forall h ops i d id ks,
    anchors_of (run ops (start h)) i = Some d -> dget id d = Some ks ->
    incl ks (keys_of (jar_of (run ops (start h)) i) id).

(** Assigning to trust_anchors does not import keys. *)
Theorem C124_keys_of_anchors_refuted : ~ C124_keys_of_anchors_full.
Proof.
  intros H.
  pose proof (H caller [Make (with_anchors 1); SetAnchors 0 2] 0 [("https://ta2.example", [2])]
                "https://ta2.example" [2] eq_refl eq_refl 2 (or_introl eq_refl)) as X.
  cbv in X. exact X.
Qed.
Print Assumptions C124_keys_of_anchors_refuted.

(** Nor does an anchor that reaches the entity through the default dictionary. *)
Theorem C124_shared_refuted :
  ~ (forall h ops i d id ks,
        (forall j o, ~ In (SetAnchors j o) ops) ->
        anchors_of (run ops (start h)) i = Some d -> dget id d = Some ks ->
        incl ks (keys_of (jar_of (run ops (start h)) i) id)).
Proof.
  intros H.
  assert (Hn : forall j o, ~ In (SetAnchors j o)
                 [Make all_default; Make all_default; AddAnchor 0 "https://ta3.example" [3]]).
  { intros j o [E|[E|[E|[]]]]; discriminate E. }
  pose proof (H caller _ 1 [("https://ta3.example", [3])] "https://ta3.example" [3] Hn
                eq_refl eq_refl 3 (or_introl eq_refl)) as X.
  cbv in X. exact X.
Qed.
Print Assumptions C124_shared_refuted.

Lemma with_additions_get l d id ks :
  dget id (with_additions l d) = Some ks -> dget id d = Some ks \/ In (id, ks) l.
Proof.
  unfold with_additions. revert d. induction l as [|[k v] l IH]; intros d H; cbn [fold_left fst snd] in H.
  - left. exact H.
  - destruct (IH _ H) as [H1|H1]; [|right; right; exact H1].
    destruct (String.eqb id k) eqn:E.
    + apply String.eqb_eq in E. subst k. rewrite dget_dset_same in H1. inversion H1; subst.
      right. left. reflexivity.
    + rewrite dget_dset_other in H1; [left; exact H1|].
      intros F. subst k. rewrite String.eqb_refl in E. discriminate E.
Qed.

Lemma keys_given_In id ks l : In (id, ks) l -> incl ks (keys_given id l).
Proof.
  intros H k Hk. unfold keys_given. apply in_flat_map. exists (id, ks). split; [exact H|].
  cbn. rewrite String.eqb_refl. exact Hk.
Qed.

(** For an entity with a dictionary of its own to which nobody assigns, the keys
    of every listed anchor are in the key jar. *)
Theorem C124_keys_of_anchors_partial h pre a post s s' o :
  s = run pre (start h) ->
  step (Make a) s = (s', Ok tt) ->
  a_anchors a = Some o -> o <> default_anchors -> h o <> [] ->
  args_refs (fun q => q <> o) a ->
  Forall (apart o) (pre ++ post) ->
  let i := length (s_entities s) in
  Forall (fun x => ~ assigns i x) post ->
  forall d id ks,
    anchors_of (run post s') i = Some d -> dget id d = Some ks ->
    incl ks (keys_of (jar_of (run post s') i) id).
Proof.
  intros Hs Hm Hao Hne Hh Ha Hap i Hn d id ks Hd Hid.
  pose proof (C123_anchors_partial h pre a post s s' o Hs Hm Hao Hne Hh Ha Hap Hn) as Hd'.
  cbv zeta in Hd'. fold i in Hd'. rewrite Hd' in Hd. clear Hd'.
  inversion Hd; subst d. clear Hd. apply Forall_app in Hap. destruct Hap as [Hpre Hpost].
  assert (Hno : nobody o (h o) s) by (rewrite Hs; apply nobody_run; [exact Hpre|apply start_nobody; exact Hne]).
  destruct (make_only o (h o) a s s' Hno Hh Ha Hao Hm) as [[_ [_ [_ Hl]]] [kj [Hj _]]].
  fold i in Hl, Hj. rewrite jar_run by exact Hl. rewrite Hj, !keys_of_import_all.
  apply with_additions_get in Hid. destruct Hid as [Hid|Hid].
  - intros k Hk. apply in_or_app. left. apply in_or_app. right.
    exact (keys_given_In id ks _ (dget_In _ _ _ _ Hid) k Hk).
  - intros k Hk. apply in_or_app. right. exact (keys_given_In id ks _ Hid k Hk).
Qed.
Print Assumptions C124_keys_of_anchors_partial.

Example C124_ex :
  let s := run [Make (with_anchors 1); AddAnchor 0 "https://ta3.example" [3; 4]] (start caller) in
  anchors_of s 0 = Some [("https://ta1.example", [1]); ("https://ta3.example", [3; 4])]
  /\ keys_of (jar_of s 0) "https://ta3.example" = [3; 4].
Proof. split; reflexivity. Qed.

(** * C125: None means the default, [] means none *)

(** the comment at utils.py:91 *)
Definition C125_default_or_none_full : Prop :=
  forall a st st' cfg p,
    build_entity_config a st = (st', Ok cfg) ->
    (a_items a p = INone -> exists sel, cfg p = Some sel /\ dkeys sel = default_names p)
    /\ (a_items a p = IList [] -> cfg p = None).

Definition asking (s f e : items) : margs :=
  mkArgs (fun p => match p with Services => s | Functions => f | Endpoints => e end)
         no_refs_settings no_refs_settings None [].

(** The test is on the services for all three: [] for the endpoints or functions
    gives the default ones. *)
Theorem C125_empty_refuted :
  ~ (forall a st st' cfg p,
        build_entity_config a st = (st', Ok cfg) -> a_items a p = IList [] -> cfg p = None).
Proof.
  intros H.
  pose proof (H (asking INone INone (IList [])) (s_store (start caller)) _ _ Endpoints eq_refl eq_refl) as X.
  cbv in X. discriminate X.
Qed.
Print Assumptions C125_empty_refuted.

(** ... and no services at all takes the default functions and endpoints away. *)
Theorem C125_default_refuted :
  ~ (forall a st st' cfg p,
        build_entity_config a st = (st', Ok cfg) -> a_items a p = INone -> exists sel, cfg p = Some sel).
Proof.
  intros H.
  destruct (H (asking (IList []) INone INone) (s_store (start caller)) _ _ Functions eq_refl eq_refl) as [sel X].
  cbv in X. discriminate X.
Qed.
Print Assumptions C125_default_refuted.

(** What happens: a part is left out exactly if nothing is asked for in it and
    services == []; otherwise nothing (None, [] or {}) means the default. *)
Theorem C125_default_or_none_partial a st st' cfg p :
  wf_args a -> build_entity_config a st = (st', Ok cfg) ->
  (cfg p = None <-> has_items (a_items a p) = false /\ a_items a Services = IList [])
  /\ (has_items (a_items a p) = false -> a_items a Services <> IList [] ->
      exists sel, cfg p = Some sel /\ forall n, In n (dkeys sel) <-> In n (default_names p)).
Proof.
  intros Hwf Hb.
  assert (Hse : services_empty a = true <-> a_items a Services = IList []).
  { unfold services_empty. destruct (a_items a Services) as [|[|w l]|d]; split; intros E; try reflexivity; discriminate E. }
  destruct (build_parts a st st' cfg Hb) as [s0 [s1 [s2 [s3 [_ [_ [B1 [B2 B3]]]]]]]].
  assert (Hp : exists sa sb, part_result a p sa sb (cfg p)).
  { destruct (Hwf p) as [W1 W2].
    destruct p; [exists s0, s1|exists s1, s2|exists s2, s3]; apply build_part_inv; assumption. }
  destruct Hp as [sa [sb [_ Hp]]]. destruct (cfg p) as [sel|].
  - destruct Hp as [given [Hg [Hh [Hn _]]]]. split.
    + split; [intros E; discriminate E|]. intros [E1 E2]. destruct (Hh E1) as [E3 _].
      apply Hse in E2. congruence.
    + intros E1 _. destruct (Hh E1) as [_ ->]. cbn [is_nil] in Hn. exists sel. split; [reflexivity|].
      intros n. specialize (Hn n). rewrite <- dmem_true, Hn, dmem_true. unfold default_items, dkeys.
      rewrite map_map. cbn. rewrite map_id. reflexivity.
  - destruct Hp as [E1 E2]. split.
    + split; [|reflexivity]. intros _. split; [exact E1|]. apply Hse. exact E2.
    + intros _ E3. exfalso. apply E3. apply Hse. exact E2.
Qed.
Print Assumptions C125_default_or_none_partial.

(** Without services and endpoints the entity cannot be made: there is no server. *)
Example C125_ex :
  snd (make_federation_entity (asking (IList []) (IList [WName "policy"]) INone) (s_store (start caller)))
  = Err AttributeError
  /\ (exists e, snd (make_federation_entity (asking (IList []) (IList [WName "policy"]) (IList [WName "fetch"]))
                                            (s_store (start caller))) = Ok e
                /\ en_items e Services = None).
Proof. split; [reflexivity|]. eexists. split; reflexivity. Qed.

(** * C126: settings for an item reach the item *)

(** init_kwargs and item_args both set arguments of the items of an entity. *)
Definition C126_settings_full : Prop :=
  forall h ops a st' e p its n it k v,
    wf_args a ->
    make_federation_entity a (s_store (run ops (start h))) = (st', Ok e) ->
    en_items e p = Some its -> dget n its = Some it ->
    setting (a_args a p) n k = Some v \/ (setting (a_args a p) n k = None /\ setting (a_init a p) n k = Some v) ->
    argument it k = Some v.

Definition one (p : part) (s : settings) : part -> settings := fun q => if part_eqb p q then s else [].
Definition setting_args (p : part) (s : settings) : margs :=
  mkArgs (fun _ => INone) no_refs_settings (one p s) None [].
Definition setting_init (p : part) (s : settings) : margs :=
  mkArgs (fun _ => INone) (one p s) no_refs_settings None [].

Lemma wf_one p n k v q : wf_settings (one p [(n, [(k, v)])] q).
Proof.
  unfold one. destruct (part_eqb p q); split.
  - constructor; [intros []|constructor].
  - intros m d [E|[]]. inversion E; subst. constructor; [intros []|constructor].
  - constructor.
  - intros m d [].
Qed.
Lemma wf_none q : wf_settings (no_refs_settings q).
Proof. split; [constructor|]. intros m d []. Qed.

(** item_args are not looked at for services and functions. *)
Theorem C126_settings_refuted : ~ C126_settings_full.
Proof.
  intros H.
  pose proof (H caller [] (setting_args Functions [("trust_chain_collector", [("allowed_delta", KVal (VInt 5))])])
                _ _ Functions _ "trust_chain_collector" _ "allowed_delta" (KVal (VInt 5))
                (fun p => conj (wf_none p) (wf_one Functions _ _ _ p))
                eq_refl eq_refl eq_refl (or_introl eq_refl)) as X.
  cbv in X. discriminate X.
Qed.
Print Assumptions C126_settings_refuted.

(** init_kwargs reach the items of every part, item_args those of the endpoints,
    where they go before init_kwargs; and an argument for which this call has
    neither keeps the value it had.  In whatever state the process is. *)
Theorem C126_settings_partial h ops a st' e p its n it :
  let st := s_store (run ops (start h)) in
  wf_args a ->
  make_federation_entity a st = (st', Ok e) ->
  en_items e p = Some its -> dget n its = Some it ->
  (forall k v, setting (a_init a p) n k = Some v ->
               (p = Endpoints -> setting (a_args a p) n k = None) -> argument it k = Some v)
  /\ (forall k v, p = Endpoints -> setting (a_args a p) n k = Some v -> argument it k = Some v)
  /\ (forall k, setting (a_init a p) n k = None -> setting (a_args a p) n k = None ->
        exists given it0,
          select p (tables st p) (a_items a p) = Ok given
          /\ look st p (if is_nil given then default_items p else given) n = Some it0
          /\ it_class it = it_class it0 /\ argument it k = argument it0 k).
Proof.
  intros st Hwf Hm Hits Hit.
  assert (Hk : known_tables st) by (apply known_run; intros q m; reflexivity).
  pose proof (made_part a st st' e p Hwf Hk Hm) as Hp. rewrite Hits in Hp.
  destruct Hp as [given [G1 [_ G3]]]. specialize (G3 n).
  destruct (look st p (if is_nil given then default_items p else given) n) as [it0|] eqn:El;
    [|congruence].
  destruct G3 as [it' [L1 [L2 L3]]]. rewrite L1 in Hit. inversion Hit; subst it'. split; [|split].
  - intros k v Hv He. rewrite L3. unfold effective. destruct p; [rewrite Hv; reflexivity..|].
    rewrite (He eq_refl), Hv. reflexivity.
  - intros k v -> Hv. rewrite L3. unfold effective. rewrite Hv. reflexivity.
  - intros k H1 H2. exists given, it0. split; [exact G1|]. split; [exact El|]. split; [exact L2|].
    rewrite L3. unfold effective. destruct p; rewrite ?H1, ?H2; reflexivity.
Qed.
Print Assumptions C126_settings_partial.

Example C126_ex :
  exists st' e its it,
    make_federation_entity (setting_init Functions [("trust_chain_collector", [("allowed_delta", KVal (VInt 5))])])
                           (s_store (start caller)) = (st', Ok e)
    /\ en_items e Functions = Some its /\ dget "trust_chain_collector" its = Some it
    /\ argument it "allowed_delta" = Some (KVal (VInt 5))
    /\ argument it "trust_anchors" = Some (KAnchors default_anchors).
Proof. do 4 eexists. repeat split; reflexivity. Qed.

(** * C127: what an entity is made of does not depend on other entities *)

Definition C127_independent_full : Prop :=
  forall h ops a st1 e1 st2 e2 p,
    make_federation_entity a (s_store (run ops (start h))) = (st1, Ok e1) ->
    make_federation_entity a (s_store (start h)) = (st2, Ok e2) ->
    en_items e1 p = en_items e2 p.

(** Settings for a default item stay for entities that are made later. *)
Theorem C127_independent_refuted : ~ C127_independent_full.
Proof.
  intros H.
  pose proof (H caller [Make (setting_init Functions [("trust_chain_collector", [("allowed_delta", KVal (VInt 5))])])]
                all_default _ _ _ _ Functions eq_refl eq_refl) as X.
  cbv in X. discriminate X.
Qed.
Print Assumptions C127_independent_refuted.

(** It holds as long as no call had settings, whatever anchors were added. *)
Theorem C127_independent_partial h ops a st1 e1 st2 e2 p :
  Forall no_settings ops ->
  make_federation_entity a (s_store (run ops (start h))) = (st1, Ok e1) ->
  make_federation_entity a (s_store (start h)) = (st2, Ok e2) ->
  en_items e1 p = en_items e2 p.
Proof.
  intros Hn H1 H2. pose proof (tables_no_settings ops (start h) Hn) as Ht.
  destruct (s_store (run ops (start h))) as [t hp]. cbn in Ht. subst t.
  destruct (made_items _ _ _ _ H1) as [c1 [B1 ->]]. destruct (made_items _ _ _ _ H2) as [c2 [B2 ->]].
  destruct (blind_build a initial_tables) as [t' [r Hr]].
  rewrite Hr in B1. unfold start in B2. cbn [s_store] in B2. rewrite Hr in B2.
  inversion B1; subst. inversion B2; subst. reflexivity.
Qed.
Print Assumptions C127_independent_partial.

(** Always: the names that are known and their classes stay the same. *)
Theorem C127_classes_stay h ops p n :
  option_map it_class (dget n (tables (s_store (run ops (start h))) p))
  = option_map it_class (dget n (initial_tables p)).
Proof. apply known_run. intros q m. reflexivity. Qed.
Print Assumptions C127_classes_stay.

Example C127_ex :
  exists st1 e1 its it,
    make_federation_entity all_default
      (s_store (run [Make (setting_init Endpoints [("fetch", [("x", KVal (VInt 5))])])] (start caller))) = (st1, Ok e1)
    /\ en_items e1 Endpoints = Some its /\ dget "fetch" its = Some it
    /\ it_class it = "fedservice.entity.server.fetch.Fetch"
    /\ argument it "x" = Some (KVal (VInt 5)).
Proof. do 4 eexists. repeat split; reflexivity. Qed.

(** * C128: the items that are asked for are there *)

Definition C128_asked_full : Prop :=
  forall h ops a st' e p l,
    wf_args a ->
    make_federation_entity a (s_store (run ops (start h))) = (st', Ok e) ->
    a_items a p = IList l -> l <> [] ->
    exists its, en_items e p = Some its /\ forall n, In n (dkeys its) <-> In n (asked l).

(** An unknown service is not an error; if there is no other the entity gets the
    default services. *)
Theorem C128_asked_refuted : ~ C128_asked_full.
Proof.
  intros H.
  destruct (H caller [] (asking (IList [WName "trust_marks"]) INone INone) _ _ Services [WName "trust_marks"]
              (fun p => conj (wf_none p) (wf_none p)) eq_refl eq_refl ltac:(discriminate)) as [its [E X]].
  cbv in E. inversion E; subst its. clear E.
  pose proof (proj1 (X "resolve") ltac:(cbn; auto 6)) as [Y|[]]. discriminate Y.
Qed.
Print Assumptions C128_asked_refuted.

Lemma made_names a st st' e p its :
  wf_args a -> known_tables st -> make_federation_entity a st = (st', Ok e) ->
  en_items e p = Some its ->
  exists given,
    select p (tables st p) (a_items a p) = Ok given
    /\ known_sel p given
    /\ forall n, In n (dkeys its) <-> dmem n (if is_nil given then default_items p else given) = true.
Proof.
  intros Hwf Hk Hm Hits. pose proof (made_part a st st' e p Hwf Hk Hm) as Hp. rewrite Hits in Hp.
  destruct Hp as [given [G1 [_ G3]]]. exists given. split; [exact G1|].
  pose proof (select_known p st _ _ Hk G1) as Hks. split; [exact Hks|]. intros n. specialize (G3 n).
  set (sel0 := if is_nil given then default_items p else given) in *.
  assert (Hks0 : known_sel p sel0) by (unfold sel0; destruct (is_nil given); [apply default_known|exact Hks]).
  unfold look in G3. rewrite <- dmem_true. unfold dmem. destruct (dget n sel0) as [[|it0]|] eqn:Eg.
  - assert (Hn : dmem n (tables st p) = true).
    { rewrite (known_dmem st p n Hk). exact (Hks0 n (dget_In _ _ _ _ Eg)). }
    unfold dmem in Hn. destruct (dget n (tables st p)) as [it0|]; [|discriminate Hn].
    destruct G3 as [it' [-> _]]. split; reflexivity.
  - destruct G3 as [it' [-> _]]. split; reflexivity.
  - rewrite G3. split; intros E; discriminate E.
Qed.

(** For endpoints and functions exactly what is asked for is there; for services
    what is asked for and known, or the default services if that is nothing. *)
Theorem C128_asked_partial h ops a st' e p l its :
  wf_args a ->
  make_federation_entity a (s_store (run ops (start h))) = (st', Ok e) ->
  a_items a p = IList l -> asked l <> [] -> en_items e p = Some its ->
  match p with
  | Services =>
      let there n := In (WName n) l /\ dmem n services_table = true \/ exists d, In (WDefs d) l /\ In n (dkeys d) in
      ((exists n, there n) -> forall n, In n (dkeys its) <-> there n)
      /\ ((forall n, ~ there n) -> forall n, In n (dkeys its) <-> In n (default_names Services))
  | _ => forall n, In n (dkeys its) <-> In n (asked l)
  end.
Proof.
  intros Hwf Hm Hi Hne Hits. set (st := s_store (run ops (start h))) in *.
  assert (Hk : known_tables st) by (apply known_run; intros q m; reflexivity).
  destruct (made_names a st st' e p its Hwf Hk Hm Hits) as [given [G1 [_ G3]]]. rewrite Hi in G1.
  assert (Hex : exists n, In n (asked l)).
  { destruct (asked l) as [|n l']; [congruence|]. exists n. left. reflexivity. }
  assert (Hdef : forall p', (forall n, dmem n (default_items p') = true <-> In n (default_names p'))).
  { intros p' n. rewrite dmem_true. unfold default_items, dkeys. rewrite map_map. cbn. rewrite map_id. reflexivity. }
  destruct p.
  - cbn in G1. inversion G1; subst given. clear G1. intros there.
    assert (Hg : forall n, dmem n (federation_services (tables st Services) l) = true <-> there n).
    { intros n. unfold federation_services. rewrite dmem_with_defs, services_names. cbn [dmem dget orb].
      rewrite (known_dmem st Services n Hk). unfold there.
      assert (HA : existsb (names_it n) l = true <-> In (WName n) l).
      { rewrite existsb_exists. split.
        - intros [w [Hw E]]. destruct w as [m|d]; cbn in E; [|discriminate E]. apply String.eqb_eq in E. subst m. exact Hw.
        - intros Hw. exists (WName n). split; [exact Hw|]. cbn. apply String.eqb_refl. }
      assert (HB : existsb (defines n) l = true <-> exists d, In (WDefs d) l /\ In n (dkeys d)).
      { rewrite existsb_exists. split.
        - intros [w [Hw E]]. destruct w as [m|d]; cbn in E; [discriminate E|]. exists d. split; [exact Hw|].
          apply dmem_true. exact E.
        - intros [d [Hd E]]. exists (WDefs d). split; [exact Hd|]. cbn. apply dmem_true. exact E. }
      rewrite Bool.orb_true_iff, Bool.andb_true_iff, HA, HB.
      change (initial_tables Services) with services_table. intuition auto. }
    split.
    + intros [m Hm'] n. rewrite G3.
      rewrite (not_nil_dmem m) by (apply Hg; exact Hm'). apply Hg.
    + intros Hno n. rewrite G3.
      destruct (federation_services (tables st Services) l) as [|[m s] r] eqn:Ef.
      * cbn [is_nil]. apply Hdef.
      * exfalso. apply (Hno m). apply Hg. unfold dmem. cbn. rewrite String.eqb_refl. reflexivity.
  - cbn in G1. unfold federation_functions in G1.
    assert (Hg : forall n, dmem n given = true <-> In n (asked l)).
    { intros n. rewrite (functions_names n _ l [] given G1). cbn [dmem dget orb]. rewrite asked_In.
      split; [intros E; left; exact E|]. intros [E|E]; [exact E|]. exfalso.
      clear -G1 E. revert G1. generalize (@nil (string * src)). induction l as [|w l IH]; intros r G1; [discriminate E|].
      cbn [foldM existsb] in *. destruct w as [m|d]; [|discriminate G1].
      destruct (dmem m (tables st Functions)); [|discriminate G1]. exact (IH E _ G1). }
    intros n. rewrite G3. destruct Hex as [m Hm']. rewrite (not_nil_dmem m) by (apply Hg; exact Hm'). apply Hg.
  - cbn in G1. unfold federation_endpoints in G1. apply bind_ok in G1. destruct G1 as [r [G1 G2]].
    inversion G2; subst given. clear G2.
    assert (Hg : forall n, dmem n (with_defs l r) = true <-> In n (asked l)).
    { intros n. rewrite dmem_with_defs, (fold_names n _ l [] r G1). cbn [dmem dget orb].
      rewrite Bool.orb_true_iff, asked_In. reflexivity. }
    intros n. rewrite G3. destruct Hex as [m Hm']. rewrite (not_nil_dmem m) by (apply Hg; exact Hm'). apply Hg.
Qed.
Print Assumptions C128_asked_partial.

(** Definitions in a dictionary are used as given. *)
Definition C128_definitions_full : Prop :=
  forall h ops a st' e p d its n it,
    wf_args a ->
    make_federation_entity a (s_store (run ops (start h))) = (st', Ok e) ->
    a_items a p = IDict d -> en_items e p = Some its -> dget n d = Some it ->
    exists it', dget n its = Some it' /\ it_class it' = it_class it.

(** Not for functions: only the names are taken from the dictionary. *)
Theorem C128_definitions_refuted : ~ C128_definitions_full.
Proof.
  intros H.
  destruct (H caller [] (asking INone (IDict [("policy", plain "my.Policy")]) INone) _ _ Functions
              [("policy", plain "my.Policy")] _ "policy" (plain "my.Policy")
              (fun p => conj (wf_none p) (wf_none p)) eq_refl eq_refl eq_refl eq_refl) as [it' [E X]].
  cbv in E. inversion E; subst it'. cbv in X. discriminate X.
Qed.
Print Assumptions C128_definitions_refuted.

Theorem C128_definitions_partial h ops a st' e p d its n :
  wf_args a -> p <> Functions ->
  make_federation_entity a (s_store (run ops (start h))) = (st', Ok e) ->
  a_items a p = IDict d -> d <> [] -> en_items e p = Some its ->
  match dget n d with
  | None => dget n its = None
  | Some it =>
      exists it', dget n its = Some it' /\ it_class it' = it_class it
        /\ forall k, setting (a_init a p) n k = None -> setting (a_args a p) n k = None ->
                     argument it' k = argument it k
  end.
Proof.
  intros Hwf Hp Hm Hi Hd Hits. set (st := s_store (run ops (start h))) in *.
  assert (Hk : known_tables st) by (apply known_run; intros q m; reflexivity).
  pose proof (made_part a st st' e p Hwf Hk Hm) as HP. rewrite Hits in HP.
  destruct HP as [given [G1 [_ G3]]]. specialize (G3 n). rewrite Hi in G1.
  assert (given = mine d) as -> by (destruct p; [inversion G1; reflexivity|congruence|inversion G1; reflexivity]).
  assert (is_nil (mine d) = false) as Hnil by (destruct d; [congruence|reflexivity]).
  rewrite Hnil in G3. unfold look in G3. rewrite dget_mine in G3.
  destruct (dget n d) as [it|]; cbn in G3; [|exact G3].
  destruct G3 as [it' [L1 [L2 L3]]]. exists it'. split; [exact L1|]. split; [exact L2|].
  intros k H1 H2. rewrite L3. unfold effective. destruct p; rewrite ?H1, ?H2; reflexivity.
Qed.
Print Assumptions C128_definitions_partial.

Example C128_ex :
  exists st' e its,
    make_federation_entity
      (asking (IList [WName "who"; WName "nonsense"; WDefs [("mine", plain "my.Service")]])
              (IList [WName "policy"; WName "trust_chain_collector"])
              (IDict [("fetch", plain "my.Fetch")])) (s_store (start caller)) = (st', Ok e)
    /\ en_items e Services = Some its /\ dkeys its = ["who"; "mine"]
    /\ option_map dkeys (en_items e Functions) = Some ["policy"; "trust_chain_collector"]
    /\ en_items e Endpoints = Some [("fetch", plain "my.Fetch")].
Proof. do 3 eexists. repeat split; reflexivity. Qed.
