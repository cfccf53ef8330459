(** Lemmas about federations under attack. *)
From Verif Require Import PyFacts CollectorFacts VerifierFacts FederationProps FetchFacts ResolveFacts.
From Verif Require Export AttackSpec.

(** ** Invariants of computations *)

Definition keeps {S A} (I : S -> Prop) (m : M S A) (Q : A -> Prop) : Prop :=
  forall s, I s -> I (fst (m s)) /\ (forall a, snd (m s) = Ok a -> Q a).

Section Keeps.
Context {S : Type} (I : S -> Prop).

Lemma k_ret A (a : A) (Q : A -> Prop) : Q a -> keeps I (ret a) Q.
Proof. intros H s Hs. split; [exact Hs|]. intros b [= <-]. exact H. Qed.

Lemma k_raise A e (Q : A -> Prop) : keeps I (raise e) Q.
Proof. intros s Hs. split; [exact Hs|]. intros b [=]. Qed.

Lemma k_lift A (r : res A) (Q : A -> Prop) : (forall a, r = Ok a -> Q a) -> keeps I (lift r) Q.
Proof. intros H s Hs. split; [exact Hs|]. exact H. Qed.

Lemma k_get : keeps I StateM.get (fun s => I s).
Proof. intros s Hs. split; [exact Hs|]. intros a [= <-]. exact Hs. Qed.

Lemma k_bind A B (m : M S A) (f : A -> M S B) (Q : A -> Prop) (R : B -> Prop) :
  keeps I m Q -> (forall a, Q a -> keeps I (f a) R) -> keeps I (mbind m f) R.
Proof.
  intros Hm Hf s Hs. unfold mbind. destruct (Hm s Hs) as [H1 H2].
  destruct (m s) as [s' [a|x]]; cbn [fst snd] in *.
  - exact (Hf a (H2 a eq_refl) s' H1).
  - split; [exact H1|]. intros b [=].
Qed.

Lemma k_weaken A (m : M S A) (P Q : A -> Prop) : keeps I m P -> (forall a, P a -> Q a) -> keeps I m Q.
Proof. intros H HPQ s Hs. destruct (H s Hs) as [H1 H2]. split; auto. Qed.

Lemma k_mfold A B (f : B -> A -> M S B) (Q : B -> Prop) (l : list A) : forall b,
  (forall b a, In a l -> Q b -> keeps I (f b a) Q) -> Q b -> keeps I (mfold f l b) Q.
Proof.
  induction l as [|a l IH]; intros b Hf Hb; cbn [mfold].
  - apply k_ret. exact Hb.
  - eapply k_bind; [apply Hf; [left; reflexivity|exact Hb]|].
    intros b' Hb'. apply IH; [|exact Hb']. intros b2 a2 Hin. apply Hf. right. exact Hin.
Qed.
End Keeps.

Section Attack.
Context (own : token -> Prop) (W : world) (E : cenv) (HE : exposed W E).
Context (Hown : forall t, own t -> wire W t).
Context (Hmine : forall n t tp, wire W t -> verify_self_signed E n (Some t) = Ok tp -> own t).

(** ** The collector hands on what came in *)

Definition ci := caches_from own (wire W).
Definition es_from (v : esval) : Prop := match v with ESTok t => wire W t | ESExp _ => True end.

Lemma k_cfg_getitem id : keeps ci (cfg_getitem E id)
  (fun o => forall e t, o = Some e -> ce_jws e = Some t -> own t).
Proof.
  intros s (H1 & H2). unfold cfg_getitem, cache_getitem. destruct (dget id (st_cfg s)) as [v|] eqn:Ev.
  2:{ split; [split; assumption|]. intros o [= <-] e t [=]. }
  destruct (ce_class v).
  - destruct (s_exp (ce_stmt v)) as [x|].
    2:{ split; [split; assumption|]. intros o [=]. }
    destruct (Z.ltb _ _); cbn [fst snd st_cfg st_es].
    + split; [split; assumption|]. intros o [= <-] e t [= <-] Et. exact (H1 _ _ _ Ev Et).
    + split; [|intros o [= <-] e t [=]]. split; cbn [st_cfg st_es]; [|exact H2].
      intros id' e t Hg. destruct (string_dec id' id) as [->|N].
      * rewrite dget_ddel_same in Hg. discriminate.
      * rewrite dget_ddel_other in Hg by exact N. apply (H1 id'). exact Hg.
  - cbn [fst snd]. split; [split; assumption|]. intros o [= <-] e t [= <-] Et. exact (H1 _ _ _ Ev Et).
  - cbn [fst snd]. split; [split; assumption|]. intros o [= <-] e t [= <-] Et. exact (H1 _ _ _ Ev Et).
Qed.

Lemma k_cfg_set id v : (forall t, ce_jws v = Some t -> own t) -> keeps ci (cfg_set id v) (fun _ => True).
Proof.
  intros Hv s (H1 & H2). split; [|trivial]. cbn. split; cbn [st_cfg st_es]; [|exact H2].
  intros id' e t Hg. unfold cache_set in Hg. rewrite dget_dset in Hg.
  destruct (String.eqb id' id); [|apply (H1 id'); exact Hg]. injection Hg as <-. apply Hv.
Qed.

Lemma k_es_getitem k : keeps ci (es_getitem E k) (fun o => forall v, o = Some v -> es_from v).
Proof.
  intros s (H1 & H2). unfold es_getitem, cache_getitem. destruct (dget k (st_es s)) as [v|] eqn:Ev; cbn [fst snd].
  - split; [split; assumption|]. intros o [= <-] v' [= <-]. destruct v; [exact (H2 _ _ Ev)|exact Logic.I].
  - split; [split; assumption|]. intros o [= <-] v [=].
Qed.

Lemma k_es_set k v : es_from v -> keeps ci (es_set k v) (fun _ => True).
Proof.
  intros Hv s (H1 & H2). split; [|trivial]. cbn. split; cbn [st_cfg st_es]; [exact H1|].
  intros k' t Hg. unfold cache_set in Hg. rewrite dget_dset in Hg.
  destruct (String.eqb k' k); [|apply (H2 k'); exact Hg]. injection Hg as ->. exact Hv.
Qed.

Lemma k_es_del k : keeps ci (es_del k) (fun _ => True).
Proof.
  intros s (H1 & H2). unfold es_del, cache_delitem. destruct (dmem k (st_es s)); cbn [fst snd].
  - split; [|trivial]. split; cbn [st_cfg st_es]; [exact H1|]. intros k' t Hg.
    destruct (string_dec k' k) as [->|N].
    + rewrite dget_ddel_same in Hg. discriminate.
    + rewrite dget_ddel_other in Hg by exact N. apply (H2 k'). exact Hg.
  - split; [split; assumption|trivial].
Qed.

Lemma k_now : keeps ci (now E) (fun _ => True).
Proof. intros s Hs. split; [exact Hs|trivial]. Qed.

Lemma k_get_document q : keeps ci (get_document E q) (fun o => forall t, o = Some t -> wire W t).
Proof.
  intros s (H1 & H2). unfold get_document. cbn [fst snd]. split; [split; assumption|].
  destruct (e_net E (st_tick s) q) as [t| | |] eqn:En; intros o [=]. subst o. intros t' ->.
  exact (HE _ _ _ En).
Qed.

Lemma k_get_entity_configuration id :
  keeps ci (get_entity_configuration E id) (fun o => forall t, o = Some t -> wire W t).
Proof.
  intros s Hs. unfold get_entity_configuration.
  destruct (k_get_document (QDoc (e_wk E id)) s Hs) as [H1 H2].
  destruct (get_document E (QDoc (e_wk E id)) s) as [s' [o|x]]; cbn [fst snd] in *; [split; assumption|].
  assert (G : ci (fst (s', Err x : res (option token))) /\ (forall a, snd (s', Err x : res (option token)) = Ok a -> forall t, a = Some t -> wire W t)).
  { split; [exact H1|]. intros a [=]. }
  destruct x; try exact G.
  destruct (String.eqb _ _); [exact G|].
  apply k_get_document. exact H1.
Qed.

Lemma self_signed_ok n t tp : verify_self_signed E n t = Ok tp -> t = Some (fst tp) /\ exists k, fst tp = TJws k (snd tp).
Proof.
  unfold verify_self_signed. destruct t as [[|k p]|]; [discriminate| |discriminate].
  destruct (s_jwks p); [|discriminate]. destruct (kmem _ _); [|discriminate].
  destruct (lib_valid _ _ _); [|discriminate]. intros [= <-]. split; [reflexivity|].
  exists k. reflexivity.
Qed.

Lemma k_open t (Q : token * stmt -> Prop) :
  (forall n tp, verify_self_signed E n t = Ok tp -> Q tp) -> keeps ci (open_self_signed E t) Q.
Proof.
  intros H s Hs. unfold open_self_signed. split; [exact Hs|]. intros tp Ht. exact (H _ tp Ht).
Qed.

Lemma k_fetch_endpoint id : keeps ci (get_federation_fetch_endpoint E id) (fun _ => True).
Proof.
  unfold get_federation_fetch_endpoint. eapply k_bind; [apply k_cfg_getitem|]. intros o _.
  eapply k_bind with (Q := fun _ => True).
  { destruct o; [apply k_lift; trivial|apply k_ret; trivial]. }
  intros ep _. destruct (negb _); [apply k_ret; trivial|].
  eapply k_bind; [apply k_get_entity_configuration|]. intros signed Hs.
  eapply k_bind with (Q := fun tp => own (fst tp)).
  { apply k_open. intros n tp H. destruct (self_signed_ok _ _ _ H) as [G _]. subst signed.
    exact (Hmine _ _ tp (Hs _ eq_refl) H). }
  intros tp Htp. eapply k_bind with (Q := fun _ => True); [apply k_lift; trivial|]. intros ep' _.
  eapply k_bind with (Q := fun _ => True); [|intros; apply k_ret; trivial].
  apply k_cfg_set. intros t [= <-]. exact Htp.
Qed.

Lemma k_get_entity_statement entity authority :
  keeps ci (get_entity_statement E entity authority) (fun o => forall v, o = Some v -> es_from v).
Proof.
  unfold get_entity_statement. eapply k_bind; [apply k_es_getitem|]. intros cached Hc.
  eapply k_bind with (Q := fun o => forall v, o = Some v -> es_from v).
  { destruct cached as [v|]; [|apply k_ret; intros v [=]].
    eapply k_bind; [apply k_now|]. intros n _. eapply k_bind; [apply k_es_getitem|]. intros ex _.
    destruct ex as [[t|z]|]; try apply k_raise. destruct (Z.ltb _ _).
    - eapply k_bind; [apply k_es_del|]. intros _ _. eapply k_bind; [apply k_es_del|]. intros _ _.
      apply k_ret. intros v' [=].
    - apply k_ret. intros v' [= <-]. apply Hc. reflexivity. }
  intros usable Hu. destruct usable as [v|]; [apply k_ret; exact Hu|].
  eapply k_bind; [apply k_fetch_endpoint|]. intros ep _. destruct (String.eqb ep ""); [apply k_ret; intros v [=]|].
  eapply k_bind; [apply k_get_document|]. intros signed Hs.
  eapply k_bind with (Q := fun _ => True); [apply k_lift; trivial|]. intros p _.
  destruct signed as [t|]; [|apply k_raise].
  eapply k_bind; [apply k_es_set; exact (Hs t eq_refl)|]. intros _ _.
  destruct (s_exp p); [|apply k_raise].
  eapply k_bind; [apply k_es_set; exact Logic.I|]. intros _ _. apply k_ret. intros v [= <-]. exact (Hs t eq_refl).
Qed.

(** all values in a tree *)
Inductive tree_from : tree esval -> Prop :=
| tf bs : (forall a v t, In (a, Some (v, t)) bs -> es_from v /\ tree_from t) -> tree_from (T bs).

Lemma tree_from_chains : forall t, tree_from t -> forall l v, In l (tree2chains t) -> In v l -> es_from v.
Proof.
  fix IH 2. intros t [bs H] l v Hl Hv. cbn [tree2chains] in Hl. apply in_flat_map in Hl.
  destruct Hl as ([a o] & Hin & Hl). cbn [snd] in Hl. destruct o as [[w u]|].
  - destruct (H a w u Hin) as [Hw Hu].
    assert (G : forall m, In m (tree2chains u) -> In v (m ++ [w]) -> es_from v).
    { intros m Hm Hv'. apply in_app_or in Hv'. destruct Hv' as [Hv'|[<-|[]]]; [exact (IH u Hu m v Hm Hv')|exact Hw]. }
    destruct u as [[|b bs']].
    + destruct Hl as [<-|[]]. destruct Hv as [<-|[]]. exact Hw.
    + apply in_map_iff in Hl. destruct Hl as (m & <- & Hm). exact (G m Hm Hv).
  - destruct Hl as [<-|[]]. destruct Hv.
Qed.

Lemma k_collect_branch rec entity authority :
  (forall e c, keeps ci (rec e c) tree_from) ->
  keeps ci (collect_branch E rec entity authority) (fun o => forall v t, o = Some (v, t) -> es_from v /\ tree_from t).
Proof.
  intros Hrec. unfold collect_branch. destruct (_ && _); [apply k_ret; intros v t [=]|].
  eapply k_bind; [apply k_get_entity_statement|]. intros es Hes. destruct es as [v|]; [|apply k_ret; intros v t [=]].
  destruct (es_truthy v); [|apply k_ret; intros v' t [=]].
  eapply k_bind; [apply k_cfg_getitem|]. intros cfg _. eapply k_bind; [apply Hrec|]. intros t Ht.
  apply k_ret. intros v' t' [= <- <-]. split; [apply Hes; reflexivity|exact Ht].
Qed.

Lemma k_collect_tree stop_at fuel : forall entity c, keeps ci (collect_tree E fuel stop_at entity c) tree_from.
Proof.
  induction fuel as [|fuel IH]; intros entity c; [apply k_raise|]. cbn [collect_tree].
  destruct c as [c|]; [|apply k_raise]. destruct (s_hints c) as [hints|]; [|apply k_ret; constructor; intros a v t []].
  destruct (String.eqb _ _); [apply k_ret; constructor; intros a v t []|].
  eapply k_bind with (Q := fun bs => forall a v t, In (a, Some (v, t)) bs -> es_from v /\ tree_from t).
  2:{ intros bs H. apply k_ret. constructor. exact H. }
  apply k_mfold; [|intros a v t []]. intros bs a _ Hbs.
  eapply k_bind; [apply k_collect_branch; exact IH|]. intros b Hb. apply k_ret.
  intros a' v t Hin. apply In_dset in Hin. destruct Hin as [[= -> Eb]|Hin]; [apply Hb; symmetry; exact Eb|].
  apply (Hbs a'). exact Hin.
Qed.

Lemma k_collect fuel stop_at id :
  keeps ci (collect E fuel stop_at id) (fun o => forall tr t, o = Some (tr, t) -> tree_from tr /\ own t).
Proof.
  unfold collect. eapply k_bind; [apply k_get|]. intros s Hs.
  eapply k_bind with (Q := fun o => forall t c, o = Some (t, c) -> own t).
  { unfold cache_get. destruct (dget id (st_cfg s)) as [e|] eqn:Ee; [|apply k_ret; intros t c [=]].
    eapply k_bind; [apply k_now|]. intros n _. eapply k_bind with (Q := fun _ => True); [apply k_lift; trivial|].
    intros old _. destruct old; [apply k_ret; intros t c [=]|].
    destruct (ce_jws e) as [t|] eqn:Et; [|apply k_raise]. apply k_ret. intros t' c [= <- <-].
    exact (proj1 Hs _ _ _ Ee Et). }
  intros cached Hc. destruct cached as [[t c]|].
  - eapply k_bind; [apply k_collect_tree|]. intros tr Htr. apply k_ret. intros tr' t' [= <- <-].
    split; [exact Htr|]. exact (Hc t c eq_refl).
  - eapply k_bind; [apply k_get_entity_configuration|]. intros signed Hsg.
    destruct signed as [t|]; [|apply k_ret; intros tr t [=]].
    eapply k_bind with (Q := fun tp => own (fst tp)).
    { apply k_open. intros n tp H. destruct (self_signed_ok _ _ _ H) as [[= ->] _].
      exact (Hmine _ _ tp (Hsg _ eq_refl) H). }
    intros tp Htp. eapply k_bind with (Q := fun _ => True).
    { apply k_cfg_set. intros t' [= <-]. exact Htp. }
    intros _ _. eapply k_bind; [apply k_collect_tree|]. intros tr Htr. apply k_ret. intros tr' t' [= <- <-].
    split; assumption.
Qed.

(** ** The verifier *)

Context (U : unforgeable W) (TR : truthful W) (D : discreet W).

Definition tok_from (t : token) : Prop := match t with TJunk => True | TJws _ _ => wire W t end.

Lemma tok_of_from v : es_from v -> tok_from (tok_of v).
Proof. destruct v as [[|k p]|z]; simpl; auto. Qed.

Lemma wire_tok t : wire W t -> tok_from t.
Proof. destruct t; simpl; auto. Qed.

Lemma step_vouches k p : wire W (TJws k p) -> fair W (s_iss p) k -> vouches W p.
Proof.
  intros Hw Hf. unfold fair in Hf. destruct (in_fed W (s_iss p)) eqn:Ei.
  - exact (TR _ _ Ei (U _ _ Hw Ei Hf)).
  - exact (D _ _ Hw Ei Hf).
Qed.

Lemma step_genuine k p : wire W (TJws k p) -> fair W (s_iss p) k -> genuine W p.
Proof.
  intros Hw Hf. unfold fair in Hf. split.
  - intros Ei. rewrite Ei in Hf. exact (U _ _ Hw Ei Hf).
  - intros C. destruct (in_fed W (s_iss p)); [reflexivity|]. destruct (C k Hf).
Qed.

Lemma add_keys_fair L kj sub new :
  jar_fair W kj -> (forall k, In k new -> fair W sub k) -> jar_fair W (add_keys L kj sub new).
Proof.
  intros Hj Hn e k (l & El & Hk). unfold add_keys in El. destruct (dget sub kj) as [old|] eqn:Eo.
  - destruct (is_nil _); [apply Hj; exists l; auto|]. rewrite dget_dset in El.
    destruct (String.eqb_spec e sub) as [->|N]; [|apply Hj; exists l; auto]. injection El as <-.
    apply in_app_or in Hk. destruct Hk as [Hk|Hk]; [apply Hj; exists old; auto|]. apply filter_In in Hk. apply Hn. tauto.
  - destruct (_ || _); [|apply Hj; exists l; auto]. rewrite dget_dset in El.
    destruct (String.eqb_spec e sub) as [->|N]; [|apply Hj; exists l; auto]. injection El as <-. apply Hn. exact Hk.
Qed.

Lemma verify_keys_held L kj t e k : In k (verify_keys L kj t e) -> holds kj e k.
Proof.
  unfold verify_keys, keys_of. intros H. apply filter_In in H. destruct H as [H _].
  destruct (dget e kj) as [l|] eqn:El; [|destruct H]. exists l. auto.
Qed.

Lemma verify_tokens_fair L n ts : forall kj ves, jar_fair W kj -> (forall t, In t ts -> tok_from t) ->
  (forall p, In p ves -> genuine W p) ->
  jar_fair W (fst (verify_tokens L kj n ves ts)) /\
  forall l, snd (verify_tokens L kj n ves ts) = Ok l -> forall p, In p l -> genuine W p.
Proof.
  induction ts as [|[|k p] ts IH]; intros kj ves Hj Ht Hv; cbn [verify_tokens].
  - split; [exact Hj|]. intros l [= <-]. exact Hv.
  - apply IH; [exact Hj| |exact Hv]. intros t H. apply Ht. right. exact H.
  - destruct (is_nil _); [split; [exact Hj|intros l [=]]|].
    destruct (kmem k _) eqn:Ek; [|split; [exact Hj|intros l [=]]].
    apply kmem_In in Ek. apply verify_keys_held in Ek. apply Hj in Ek.
    assert (Hw : wire W (TJws k p)) by exact (Ht _ (or_introl eq_refl)).
    assert (Ht' : forall t, In t ts -> tok_from t) by (intros t H; apply Ht; right; exact H).
    assert (Hv' : forall q, In q (ves ++ [p]) -> genuine W q).
    { intros q Hq. apply in_app_or in Hq. destruct Hq as [Hq|[<-|[]]]; [exact (Hv q Hq)|]. exact (step_genuine _ _ Hw Ek). }
    destruct (s_jwks p) as [jw|] eqn:Ej.
    + apply IH; [|exact Ht'|exact Hv']. apply add_keys_fair; [exact Hj|]. intros k' Hk'.
      exact (step_vouches _ _ Hw Ek jw k' Ej Hk').
    + destruct (Nat.eqb _ _); [apply IH; assumption|]. split; [exact Hj|intros l [=]].
Qed.

Definition tc_from (tc : trust_chain) : Prop :=
  exists p l, tc_verified tc = p :: l /\ s_iss p = tc_anchor tc /\ forall q, In q (p :: l) -> genuine W q.

Lemma k_run_verifier ts : (forall t, In t ts -> tok_from t) ->
  keeps (jar_fair W) (run_verifier E ts) (fun o => forall tc, o = Some tc -> tc_from tc).
Proof.
  intros Ht kj Hj. unfold run_verifier, verifier_call, verify_trust_chain.
  destruct ts as [|t ts]; [split; [exact Hj|intros o [=]]|].
  destruct (trusted_anchor kj t) as [[|]|x]; cbn [fst snd].
  - destruct (verify_tokens_fair (e_lib E) (length (t :: ts) - 1) (t :: ts) kj [] Hj Ht (fun p H => match H with end)) as [H1 H2].
    destruct (verify_tokens _ _ _ _ _) as [kj' [ves|x]]; cbn [fst snd] in *.
    2:{ split; [exact H1|intros o [=]]. }
    destruct ves as [|p l]; cbn [is_nil]; [split; [exact H1|]; intros o [= <-] tc [=]|].
    destruct (meets_restrictions (p :: l)) as [[|]|x]; cbn [bind fst snd].
    + split; [exact H1|]. intros o Ho. apply bind_ok in Ho. destruct Ho as (ex & _ & [= <-]). intros tc [= <-].
      exists p, l. split; [reflexivity|]. split; [reflexivity|]. exact (H2 _ eq_refl).
    + split; [exact H1|]. intros o [= <-] tc [=].
    + split; [exact H1|]. intros o [=].
  - split; [exact Hj|]. intros o [= <-] tc [=].
  - split; [exact Hj|]. intros o [=].
Qed.

Lemma k_verify_chains chains extra : (forall ch t, In ch chains -> In t (ch ++ extra) -> tok_from t) ->
  keeps (jar_fair W) (verify_trust_chains E chains extra) (fun tcs => forall tc, In tc tcs -> tc_from tc).
Proof.
  intros H. unfold verify_trust_chains. apply k_mfold; [|intros tc []].
  intros acc ch Hch Hacc. eapply k_bind; [apply k_run_verifier; intros t Ht; exact (H ch t Hch Ht)|].
  intros [tc|] Ho; apply k_ret; [|exact Hacc]. intros tc' Hin. apply in_app_or in Hin.
  destruct Hin as [Hin|[<-|[]]]; [exact (Hacc _ Hin)|exact (Ho _ eq_refl)].
Qed.

(** ** The federation entity *)

Context (O : iter_order) (fuel : nat).

Lemma applied_made tcs cs : apply_policies O tcs = Ok cs -> (forall tc, In tc tcs -> tc_from tc) ->
  forall c, In c cs -> made_of W O c.
Proof.
  intros Ha H c Hc. destruct (proj1 (mapM_In _ _ _ _ _ Ha) c Hc) as (tc & Htc & Hap).
  destruct (H tc Htc) as (p & l & Ev & Ei & Hg). exists tc, p, l. split; [exact Ev|].
  apply apply_keeps in Hap as Hk. destruct Hk as (A1 & _). unfold ch_anchor. rewrite A1.
  split; [exact Ei|]. split; [exact Hap|exact Hg].
Qed.

Definition si := sound_with own W O.

Lemma k_on_col A (m : M cstate A) Q : keeps ci m Q -> keeps si (on_col m) Q.
Proof.
  intros H s (H1 & H2 & H3). unfold on_col. destruct (H _ H2) as [G1 G2].
  destruct (m (f_col s)) as [c r]; cbn [fst snd] in *. split; [|exact G2]. split; [exact H1|]. split; [exact G1|exact H3].
Qed.

Lemma k_on_keys A (m : M keyjar A) Q : keeps (jar_fair W) m Q -> keeps si (on_keys m) Q.
Proof.
  intros H s (H1 & H2 & H3). unfold on_keys. destruct (H _ H1) as [G1 G2].
  destruct (m (f_keys s)) as [c r]; cbn [fst snd] in *. split; [|exact G2]. split; [exact G1|]. split; [exact H2|exact H3].
Qed.

Definition chains_from (r : list (list token) * option token) : Prop :=
  (forall ch t, In ch (fst r) -> In t ch -> tok_from t) /\ (forall t, snd r = Some t -> own t).

Lemma tree_chains_from tr : tree_from tr ->
  forall ch t, In ch (map (map tok_of) (tree2chains tr)) -> In t ch -> tok_from t.
Proof.
  intros Htr ch t Hch Ht. apply in_map_iff in Hch. destruct Hch as (l & <- & Hl). apply in_map_iff in Ht.
  destruct Ht as (v & <- & Hv). apply tok_of_from. exact (tree_from_chains tr Htr l v Hl Hv).
Qed.

Lemma k_collect_trust_chains id stop_at : keeps si (collect_trust_chains E fuel id stop_at) chains_from.
Proof.
  unfold collect_trust_chains. eapply k_bind; [apply k_on_col, k_collect|]. intros [[tr t]|] H.
  - apply k_ret. destruct (H tr t eq_refl) as [Htr Ht]. split; cbn [fst snd].
    + exact (tree_chains_from tr Htr).
    + intros t' [= <-]. exact Ht.
  - apply k_ret. split; [intros ch t []|intros t [=]].
Qed.

Lemma k_collect_signed id t stop_at hints : own t ->
  keeps si (collect_trust_chains_signed E fuel id t stop_at hints) chains_from.
Proof.
  intros Hw. unfold collect_trust_chains_signed. eapply k_bind with (Q := fun _ => True); [apply k_on_col, k_open; trivial|].
  intros tp _. eapply k_bind; [apply k_on_col, k_collect_tree|]. intros tr Htr. apply k_ret.
  split; cbn [fst snd]; [exact (tree_chains_from tr Htr)|]. intros t' [= <-]. exact Hw.
Qed.

Lemma chains_extra r : chains_from r ->
  forall ch t, In ch (fst r) -> In t (ch ++ match snd r with Some t => [t] | None => [] end) -> tok_from t.
Proof.
  intros [H1 H2] ch t Hch Ht. apply in_app_or in Ht. destruct Ht as [Ht|Ht]; [exact (H1 ch t Hch Ht)|].
  destruct (snd r) as [l|]; [|destruct Ht]. destruct Ht as [<-|[]]. apply wire_tok, Hown, H2. reflexivity.
Qed.

Lemma k_get_verified id : keeps si (get_verified_trust_chains E O fuel id) (fun cs => forall c, In c cs -> made_of W O c).
Proof.
  unfold get_verified_trust_chains. eapply k_bind; [apply k_collect_trust_chains|]. intros [chains leaf] H.
  assert (H' := chains_extra _ H). cbn [fst snd] in H'.
  destruct chains as [|ch chains]; [apply k_ret; intros c []|]. destruct leaf as [leaf|]; [|apply k_ret; intros c []].
  eapply k_bind; [apply k_on_keys, k_verify_chains; exact H'|]. intros tcs Htcs. apply k_lift. intros cs Hcs.
  exact (applied_made tcs cs Hcs Htcs).
Qed.

Lemma k_store id cs : (forall c, In c cs -> made_of W O c) -> keeps si (store_trust_chain id cs) (fun _ => True).
Proof.
  intros H s (H1 & H2 & H3). split; [|trivial]. cbn. split; [exact H1|]. split; [exact H2|]. cbn [f_chains].
  intros id' cs' c Hg. rewrite dget_dset in Hg. destruct (String.eqb id' id).
  - injection Hg as <-. apply H.
  - apply (H3 id'). exact Hg.
Qed.

Lemma k_get_chains id : keeps si (get_trust_chains E O fuel id) (fun cs => forall c, In c cs -> made_of W O c).
Proof.
  unfold get_trust_chains. eapply k_bind; [apply k_get|]. intros s Hs.
  destruct (dget id (f_chains s)) as [cs|] eqn:Eg.
  - apply k_ret. intros c Hc. exact (proj2 (proj2 Hs) id cs c Eg Hc).
  - eapply k_bind; [apply k_get_verified|]. intros cs Hcs. destruct (is_nil cs); [apply k_ret; intros c []|].
    eapply k_bind; [apply k_store; exact Hcs|]. intros _ _. apply k_ret. exact Hcs.
Qed.

(** metadata of a chain made of genuine statements *)
Lemma k_get_metadata id : keeps si (get_verified_metadata E O fuel id)
  (fun o => forall m, o = Some m -> exists c, made_of W O c /\ ch_md c = m).
Proof.
  unfold get_verified_metadata. eapply k_bind; [apply k_get|]. intros s Hs.
  eapply k_bind with (Q := fun cs => forall c, In c cs -> made_of W O c).
  { destruct (dget id (f_chains s)) as [cs|] eqn:Eg.
    - apply k_ret. intros c Hc. exact (proj2 (proj2 Hs) id cs c Eg Hc).
    - eapply k_bind; [apply k_get_verified|]. intros cs Hcs. destruct (is_nil cs); [apply k_ret; exact Hcs|].
      eapply k_bind; [apply k_store; exact Hcs|]. intros _ _. apply k_ret. exact Hcs. }
  intros [|c cs] Hcs; apply k_ret; [intros m [=]|]. intros m [= <-]. exists c. split; [apply Hcs; left; reflexivity|reflexivity].
Qed.

Lemma k_provided ts : (forall t, In t ts -> wire W t) ->
  keeps si (do tcs <- on_keys (verify_trust_chains E [ts] []) in lift (apply_policies O tcs))
    (fun cs => forall c, In c cs -> made_of W O c).
Proof.
  intros H. eapply k_bind; [apply k_on_keys, k_verify_chains|].
  - intros ch t [<-|[]] Ht. rewrite app_nil_r in Ht. apply wire_tok, H, Ht.
  - intros tcs Htcs. apply k_lift. intros cs Hcs. exact (applied_made tcs cs Hcs Htcs).
Qed.

Lemma k_get_chain_config id : keeps ci (get_chain_config E id) (fun _ => True).
Proof.
  unfold get_chain_config. eapply k_bind; [apply k_cfg_getitem|]. intros [e|] _; [|apply k_raise].
  destruct (ce_jws e); [apply k_ret; trivial|apply k_raise].
Qed.

Lemma k_get_chain_statements path : keeps ci (get_chain_statements E path) (fun _ => True).
Proof.
  induction path as [|a [|b rest] IH]; cbn [get_chain_statements]; try (apply k_ret; trivial).
  eapply k_bind; [apply k_es_getitem|]. intros v _. eapply k_bind; [exact IH|]. intros vs _. apply k_ret. trivial.
Qed.

Lemma k_get_chain path anchor wta : keeps ci (get_chain E path anchor wta) (fun _ => True).
Proof.
  unfold get_chain. destruct path as [|leaf path]; [apply k_raise|].
  eapply k_bind; [apply k_get_chain_config|]. intros t _. eapply k_bind; [apply k_get_chain_statements|]. intros vs _.
  destruct wta; [|apply k_ret; trivial]. eapply k_bind; [apply k_get_chain_config|]. intros ta _. apply k_ret. trivial.
Qed.

(** the metadata in a resolve response is that of a chain to the anchor asked for *)
Lemma k_resolve me jwks wta q : keeps si (resolve E O fuel me jwks wta q)
  (fun resp => exists a sub c md n, rq_anchor q = Some a /\ rq_sub q = Some sub /\ made_of W O c /\ ch_anchor c = a /\
     asked_for (ch_md c) (rq_type q) md /\ create_entity_statement n me sub jwks [("metadata", md)] = Ok (rr_claims resp)).
Proof.
  unfold resolve. eapply k_bind with (Q := fun a => rq_anchor q = Some a).
  { apply k_lift. destruct (rq_anchor q); cbn; intros a [=]; subst; reflexivity. }
  intros a Ha. eapply k_bind with (Q := fun a => rq_sub q = Some a).
  { apply k_lift. destruct (rq_sub q); cbn; intros b [=]; subst; reflexivity. }
  intros sub Hsub. eapply k_bind; [apply k_collect_trust_chains|]. intros r Hr.
  eapply k_bind; [apply k_on_keys, k_verify_chains; exact (chains_extra r Hr)|]. intros tcs Htcs.
  eapply k_bind with (Q := fun cs => forall c, In c cs -> made_of W O c).
  { apply k_lift. intros cs Hcs. exact (applied_made tcs cs Hcs Htcs). }
  intros cs Hcs. destruct (find _ cs) as [c|] eqn:Ef; [|apply k_raise].
  apply find_some in Ef. destruct Ef as [Hin Ean]. apply String.eqb_eq in Ean.
  eapply k_bind with (Q := fun md => asked_for (ch_md c) (rq_type q) md).
  { apply k_lift. intros md Hmd. apply metadata_asked_ok. exact Hmd. }
  intros md Hmd. eapply k_bind; [apply k_on_col, k_get_chain|]. intros chain _.
  eapply k_bind; [apply k_on_col, k_now|]. intros n _.
  eapply k_bind with (Q := fun cl => create_entity_statement n me sub jwks [("metadata", md)] = Ok cl).
  { apply k_lift. intros cl H. exact H. }
  intros cl Hcl. apply k_ret. exists a, sub, c, md, n. repeat (split; [first [assumption|symmetry; assumption|exact (Hcs c Hin)]|]).
  exact Hcl.
Qed.

(** ** Histories *)

Lemma k_perform me jwks wta a : act_from W a ->
  keeps si (perform E O fuel me jwks wta a) (fun cs => forall c, In c cs -> made_of W O c).
Proof.
  destruct a as [id|id|id|ts|q]; cbn [perform act_from]; intros H.
  - apply k_get_verified.
  - apply k_get_chains.
  - eapply k_bind; [apply k_get_metadata|]. intros _ _. apply k_ret. intros c [].
  - apply k_provided. exact H.
  - eapply k_bind; [apply k_resolve|]. intros _ _. apply k_ret. intros c [].
Qed.

Lemma after_sound me jwks wta acts : forall s, (forall a, In a acts -> act_from W a) -> si s ->
  si (after E O fuel me jwks wta acts s).
Proof.
  induction acts as [|a acts IH]; intros s H Hs; cbn; [exact Hs|]. apply IH.
  - intros b Hb. apply H. right. exact Hb.
  - exact (proj1 (k_perform me jwks wta a (H a (or_introl eq_refl)) s Hs)).
Qed.

End Attack.
