(** Lemmas about collections on two networks that give the same answers, except that statements about others may name
    different superiors: the chains are the same, with these exceptions. *)
From Verif Require Import PyFacts TreeProps.
From Verif Require Export CollectorRepeat FederationModel.
From Coq Require Import Lia.

Local Open Scope list_scope.

(** ** Collections on another network *)

Definition with_net (E : cenv) (net : nat -> request -> response) : cenv :=
  mkEnv (e_delta E) (e_anchors E) net (e_clock E) (e_lib E) (e_wk E) (e_tenant E).

(** a configuration that is served for [id] *)
Definition obtained (E : cenv) (id : string) (c : stmt) : Prop :=
  exists n k u, (u = e_wk E id \/ (u = e_tenant E id /\ exists n0, e_net E n0 (QDoc (e_wk E id)) = R404)) /\
                e_net E n (QDoc u) = RText (Some (TJws k c)).

(** the requests a collector may make: for configurations, and for statements about somebody, to the endpoint of somebody
    who is named there as superior *)
Inductive relevant (E : cenv) : request -> Prop :=
| relevant_wk id : relevant E (QDoc (e_wk E id))
| relevant_tenant id : relevant E (QDoc (e_tenant E id))
| relevant_fetch id c hs a c' ep : obtained E id c -> s_hints c = Some hs -> In a hs -> obtained E a c' ->
    get_endpoint c' = Ok ep -> ep <> "" -> relevant E (QFetch ep a id).

(** ** Other superiors *)

Definition naming_superiors (h : option (list string)) (p : stmt) : stmt :=
  mkStmt (s_iss p) (s_sub p) (s_exp p) (s_jwks p) (s_metadata p) (s_policy p) (s_constraints p) h.

(** which keys a token can be checked with does not depend on the superiors it names *)
Definition blind (L : keyjar_lib) : Prop :=
  forall k p h x, lib_picks L (TJws k (naming_superiors h p)) x = lib_picks L (TJws k p) x.

Definition rmap {A B} (f : A -> B) (r : res A) : res B := match r with Ok a => Ok (f a) | Err e => Err e end.

Section Names.
Context (hs : string -> string -> option (list string)).

(** statements about others with the superiors [hs] says *)
Definition fixed (p : stmt) : stmt :=
  if String.eqb (s_iss p) (s_sub p) then p else naming_superiors (hs (s_iss p) (s_sub p)) p.

Definition fixed_token (t : token) : token := match t with TJunk => TJunk | TJws k p => TJws k (fixed p) end.

Definition fixed_value (v : esval) : esval := match v with ESTok t => ESTok (fixed_token t) | ESExp z => ESExp z end.

Definition fixed_answer (r : response) : response :=
  match r with RText t => RText (option_map fixed_token t) | x => x end.

Definition dmap {A} (f : A -> A) (d : dict A) : dict A := map (fun e => (fst e, f (snd e))) d.

Definition fixed_state (s : cstate) : cstate := mkState (st_cfg s) (dmap fixed_value (st_es s)) (st_tick s).

Fixpoint fixed_tree (t : tree esval) : tree esval :=
  match t with
  | T bs => T (map (fun b => (fst b, match snd b with
                                     | None => None
                                     | Some (v, u) => Some (fixed_value v, fixed_tree u)
                                     end)) bs)
  end.

Definition fixed_branch (b : option (esval * tree esval)) : option (esval * tree esval) :=
  match b with None => None | Some (v, u) => Some (fixed_value v, fixed_tree u) end.

Definition fixed_chain (c : trust_chain) : trust_chain :=
  mkTC (tc_anchor c) (map fixed_token (tc_chain c)) (tc_exp c) (tc_iss_path c) (map fixed (tc_verified c)).

Definition fixed_result (c : tchain) : tchain := mkTChain (fixed_chain (ch_tc c)) (ch_md c).

Lemma fixed_same p : s_iss (fixed p) = s_iss p /\ s_sub (fixed p) = s_sub p /\ s_exp (fixed p) = s_exp p /\
  s_jwks (fixed p) = s_jwks p /\ s_metadata (fixed p) = s_metadata p /\ s_policy (fixed p) = s_policy p /\
  s_constraints (fixed p) = s_constraints p.
Proof. unfold fixed. destruct (String.eqb _ _); repeat split. Qed.

Lemma fixed_eq p : fixed p = naming_superiors (s_hints (fixed p)) p.
Proof. unfold fixed. destruct (String.eqb _ _); [destruct p|]; reflexivity. Qed.

Lemma dget_dmap A (f : A -> A) k d : dget k (dmap f d) = option_map f (dget k d).
Proof. induction d as [|[x v] d IH]; [reflexivity|]. cbn [dmap map dget fst snd]. destruct (String.eqb k x); [reflexivity|exact IH]. Qed.

Lemma dset_dmap A (f : A -> A) k v d : dset k (f v) (dmap f d) = dmap f (dset k v d).
Proof.
  induction d as [|[x w] d IH]; [reflexivity|]. cbn [dmap map dset fst snd]. destruct (String.eqb k x); [reflexivity|].
  cbn [map fst snd]. f_equal. exact IH.
Qed.

Lemma ddel_dmap A (f : A -> A) k d : ddel k (dmap f d) = dmap f (ddel k d).
Proof.
  induction d as [|[x w] d IH]; [reflexivity|]. cbn [dmap map ddel fst snd]. destruct (String.eqb k x); [exact IH|].
  cbn [map fst snd]. f_equal. exact IH.
Qed.

Lemma dmem_dmap A (f : A -> A) k d : dmem k (dmap f d) = dmem k d.
Proof. unfold dmem. rewrite dget_dmap. destruct (dget k d); reflexivity. Qed.

Lemma fixed_chains t : tree2chains (fixed_tree t) = map (map fixed_value) (tree2chains t).
Proof.
  induction t as [bs IH] using tree_ind'. cbn [fixed_tree tree2chains]. rewrite flat_map_concat_map, map_map.
  rewrite <- flat_map_concat_map. induction bs as [|[a [[v u]|]] bs IHb]; [reflexivity| |].
  - cbn [flat_map fst snd]. rewrite map_app. f_equal.
    2:{ apply IHb. intros. eapply IH. right. eassumption. }
    assert (Hu : tree2chains (fixed_tree u) = map (map fixed_value) (tree2chains u)) by (eapply IH; left; reflexivity).
    destruct u as [[|b us]]; [reflexivity|]. cbn [fixed_tree map] in Hu |- *. rewrite Hu, !map_map. apply map_ext.
    intros l. rewrite map_app. reflexivity.
  - cbn [flat_map fst snd]. rewrite map_app. f_equal. apply IHb. intros. eapply IH. right. eassumption.
Qed.

Lemma tok_of_fixed v : tok_of (fixed_value v) = fixed_token (tok_of v).
Proof. destruct v; reflexivity. Qed.

Lemma fixed_rules p t : stmt_rule (fixed p) t = stmt_rule p t.
Proof. unfold stmt_rule. destruct (fixed_same p) as (_ & _ & _ & _ & -> & -> & _). reflexivity. Qed.

Lemma fixed_gather O l t : gather_policies O (map fixed l) t = gather_policies O l t.
Proof.
  destruct l as [|p l]; [reflexivity|]. cbn [gather_policies map]. rewrite fixed_rules. generalize (stmt_rule p t).
  induction l as [|q l IH]; intros r; [reflexivity|]. cbn [map foldM]. rewrite fixed_rules.
  destruct (if is_nil _ && is_nil _ then _ else _); [apply IH|reflexivity].
Qed.

Lemma fixed_set p t md : set_type_metadata (fixed p) t md = fixed (set_type_metadata p t md).
Proof.
  unfold set_type_metadata, fixed. destruct p as [i s e j m po c h]. cbn. destruct m; cbn; destruct (String.eqb i s); reflexivity.
Qed.

Lemma fixed_policy_type O l p t :
  policy_type O (map fixed l) (fixed p) t = rmap (fun r => (fst r, fixed (snd r))) (policy_type O l p t).
Proof.
  unfold policy_type. rewrite fixed_gather. destruct (gather_policies O l t) as [r|e]; [|reflexivity]. cbn [bind].
  destruct (fixed_same p) as (_ & _ & _ & _ & -> & _ & _). destruct (s_metadata p) as [m|]; [|reflexivity].
  destruct (dget t m) as [md|]; [|reflexivity]. destruct (apply_policy O md r) as [[md' b]|e]; [|reflexivity].
  cbn [bind rmap fst snd]. destruct b; [rewrite fixed_set|]; reflexivity.
Qed.

Lemma fixed_policy_call O l p :
  policy_call O (map fixed l) (fixed p) = rmap (fun r => (fst r, fixed (snd r))) (policy_call O l p).
Proof.
  unfold policy_call. destruct (fixed_same p) as (_ & _ & _ & _ & -> & _ & _). destruct (s_metadata p) as [m|]; [|reflexivity].
  change (@nil (string * option metadata), fixed p) with (fst (@nil (string * option metadata), p), fixed (snd (@nil (string * option metadata), p))).
  generalize (@nil (string * option metadata), p). induction (dkeys m) as [|t ts IH]; intros [acc q]; [reflexivity|].
  cbn [foldM fst snd]. rewrite fixed_policy_type. destruct (policy_type O l q t) as [[o q']|e]; [|reflexivity].
  cbn [bind rmap fst snd]. apply (IH (dset t o acc, q')).
Qed.

Lemma fixed_policy_chain O l :
  policy_call_chain O (map fixed l) = rmap (fun r => (fst r, map fixed (snd r))) (policy_call_chain O l).
Proof.
  unfold policy_call_chain. rewrite <- map_rev. destruct (rev l) as [|leaf front]; [reflexivity|]. cbn [map].
  destruct (fixed_same leaf) as (_ & _ & _ & _ & -> & _ & _).
  destruct front as [|x front]; cbn [is_nil map].
  - destruct (s_metadata leaf) as [m|]; [|reflexivity]. cbn [bind]. destruct (dindex "" m); reflexivity.
  - rewrite <- map_cons, <- map_rev, fixed_policy_call. destruct (policy_call O (rev (x :: front)) leaf) as [[o q]|e]; [|reflexivity].
    cbn [bind rmap fst snd]. rewrite map_app. reflexivity.
Qed.

Lemma fixed_apply O c : apply_to_chain O (fixed_chain c) = rmap fixed_result (apply_to_chain O c).
Proof.
  unfold apply_to_chain. cbn [fixed_chain tc_verified tc_anchor tc_chain tc_exp tc_iss_path]. rewrite fixed_policy_chain.
  destruct (policy_call_chain O (tc_verified c)) as [[o q]|e]; reflexivity.
Qed.

Lemma fixed_applied O cs : apply_policies O (map fixed_chain cs) = rmap (map fixed_result) (apply_policies O cs).
Proof.
  unfold apply_policies. induction cs as [|c cs IH]; [reflexivity|]. cbn [map mapM]. rewrite fixed_apply, IH.
  destruct (apply_to_chain O c); [|reflexivity]. cbn [rmap]. destruct (mapM _ cs); reflexivity.
Qed.

Lemma fixed_upper l : forall z n, check_upper (map fixed l) z n = check_upper l z n.
Proof.
  induction l as [|p l IH]; intros z n; [reflexivity|]. cbn [map check_upper].
  destruct (fixed_same p) as (_ & Hs & _ & _ & _ & _ & ->). rewrite ?Hs.
  destruct (s_constraints p) as [c|]; [|apply IH]. cbv zeta. destruct (Z.ltb _ 0); [reflexivity|].
  destruct (update_naming_constraints c n) as [n'|]; [|reflexivity]. cbn [bind].
  destruct (name_ok (s_sub p) n') as [[|]|]; [apply IH|reflexivity|reflexivity].
Qed.

Lemma fixed_restrictions l : meets_restrictions (map fixed l) = meets_restrictions l.
Proof.
  unfold meets_restrictions. rewrite <- map_rev. destruct (rev l) as [|leaf up]; [reflexivity|]. cbn [map].
  rewrite <- map_rev, fixed_upper. destruct (fixed_same leaf) as (_ & -> & _). reflexivity.
Qed.

Lemma fixed_expires l : forall z, expires_from z (map fixed l) = expires_from z l.
Proof.
  induction l as [|p l IH]; intros z; [reflexivity|]. cbn [map expires_from].
  destruct (fixed_same p) as (_ & _ & -> & _). destruct (s_exp p); [apply IH|reflexivity].
Qed.

Section Verifier.
Context (L : keyjar_lib) (HB : blind L).

Lemma fixed_keys kj t i : verify_keys L kj (fixed_token t) i = verify_keys L kj t i.
Proof.
  unfold verify_keys. apply filter_ext. intros x. destruct t as [|k p]; [reflexivity|]. cbn [fixed_token].
  rewrite fixed_eq. apply HB.
Qed.

Lemma fixed_tokens n ts : forall kj ves,
  verify_tokens L kj n (map fixed ves) (map fixed_token ts) =
  (fst (verify_tokens L kj n ves ts), rmap (map fixed) (snd (verify_tokens L kj n ves ts))).
Proof.
  induction ts as [|t ts IH]; intros kj ves; [reflexivity|]. cbn [map verify_tokens].
  destruct t as [|k p]; cbn [fixed_token]; [apply IH|].
  change (TJws k (fixed p)) with (fixed_token (TJws k p)). rewrite fixed_keys.
  destruct (fixed_same p) as (-> & -> & _ & -> & _). rewrite map_length.
  destruct (is_nil _); [reflexivity|]. destruct (kmem k _); [|reflexivity].
  change [fixed p] with (map fixed [p]). rewrite <- map_app.
  destruct (s_jwks p); [apply IH|]. destruct (Nat.eqb _ _); [apply IH|reflexivity].
Qed.

Lemma fixed_verified kj ts : verifier_call L kj (map fixed_token ts) =
  (fst (verifier_call L kj ts), rmap (option_map fixed_chain) (snd (verifier_call L kj ts))).
Proof.
  assert (V : verify_trust_chain L kj (map fixed_token ts) =
              (fst (verify_trust_chain L kj ts), rmap (map fixed) (snd (verify_trust_chain L kj ts)))).
  { destruct ts as [|t ts]; [reflexivity|]. unfold verify_trust_chain. cbn [map].
    assert (A : trusted_anchor kj (fixed_token t) = trusted_anchor kj t).
    { destruct t as [|k p]; [reflexivity|]. cbn [fixed_token trusted_anchor]. destruct (fixed_same p) as (-> & _). reflexivity. }
    rewrite A. destruct (trusted_anchor kj t) as [[|]|e]; [|reflexivity|reflexivity].
    rewrite <- map_cons, map_length. assert (X := fixed_tokens (length (t :: ts) - 1) (t :: ts) kj []). cbn [map] in X |- *. rewrite X.
    destruct (verify_tokens L kj _ [] (t :: ts)) as [kj' [ves|e]]; [|reflexivity]. cbn [fst snd rmap].
    destruct ves as [|v ves]; [reflexivity|]. rewrite fixed_restrictions. cbn [map is_nil].
    destruct (meets_restrictions (v :: ves)) as [[|]|e]; reflexivity. }
  unfold verifier_call. rewrite V. destruct (verify_trust_chain L kj ts) as [kj' [[|v ves]|e]]; [reflexivity| |reflexivity].
  cbn [fst snd rmap map]. unfold trust_chain_expires_at. rewrite <- map_cons, fixed_expires.
  destruct (expires_from (-1) (v :: ves)) as [z|e]; [|reflexivity]. cbn [bind rmap option_map].
  unfold fixed_chain. cbn [tc_anchor tc_chain tc_exp tc_iss_path tc_verified].
  destruct (fixed_same v) as (Hv & _). rewrite Hv, map_map.
  rewrite (map_ext (fun x => s_iss (fixed x)) s_iss) by (intros x; apply fixed_same). reflexivity.
Qed.

Lemma fixed_all_verified E extra chains : e_lib E = L -> forall kj,
  verify_trust_chains E (map (map fixed_token) chains) (map fixed_token extra) kj =
  (fst (verify_trust_chains E chains extra kj), rmap (map fixed_chain) (snd (verify_trust_chains E chains extra kj))).
Proof.
  intros HE. unfold verify_trust_chains.
  set (f1 := fun acc c => do tc <- run_verifier E (c ++ map fixed_token extra) in
                          ret (match tc with Some t => acc ++ [t] | None => acc end)).
  set (f2 := fun acc c => do tc <- run_verifier E (c ++ extra) in
                          ret (match tc with Some t => acc ++ [t] | None => acc end)).
  assert (H : forall acc c kj, f1 (map fixed_chain acc) (map fixed_token c) kj =
                               (fst (f2 acc c kj), rmap (map fixed_chain) (snd (f2 acc c kj)))).
  { intros acc c kj. unfold f1, f2, mbind, run_verifier, ret. rewrite <- map_app, HE, fixed_verified.
    destruct (verifier_call L kj (c ++ extra)) as [kj' [[t|]|e]]; cbn [fst snd rmap option_map]; try reflexivity.
    rewrite map_app. reflexivity. }
  assert (G : forall acc kj, mfold f1 (map (map fixed_token) chains) (map fixed_chain acc) kj =
    (fst (mfold f2 chains acc kj), rmap (map fixed_chain) (snd (mfold f2 chains acc kj)))).
  { induction chains as [|c chains IH]; intros acc kj; [reflexivity|]. cbn [map mfold]. unfold mbind. rewrite H.
    destruct (f2 acc c kj) as [kj' [o|e]]; cbn [fst snd rmap]; [apply IH|reflexivity]. }
  intros kj. exact (G [] kj).
Qed.
End Verifier.
End Names.

(** ** Simulation *)

Section Congruence.
Context (E : cenv) (net : nat -> request -> response) (hs : string -> string -> option (list string)).
Hypothesis HB : blind (e_lib E).
(** the same answers, but for superiors *)
Hypothesis AG : forall n q, relevant E q ->
  match q with QDoc _ => net n q = e_net E n q | QFetch _ _ _ => fixed_answer hs (net n q) = e_net E n q end.
(** configurations are about their issuers *)
Hypothesis SELF : forall id c, obtained E id c -> s_iss c = s_sub c.

Notation E' := (with_net E net).
Notation FS := (fixed_state hs).
Notation FV := (fixed_value hs).
Notation FT := (fixed_token hs).

Definition served_cache (s : cstate) : Prop := forall id e, dget id (st_cfg s) = Some e ->
  obtained E id (ce_stmt e) /\ forall t, ce_jws e = Some t -> FT t = t.

Definition sim {A} (f : A -> A) (Q : A -> Prop) (m m' : M cstate A) : Prop := forall s, served_cache s ->
  m' (FS s) = (FS (fst (m s)), rmap f (snd (m s))) /\ served_cache (fst (m s)) /\ (forall a, snd (m s) = Ok a -> Q a).

Definition same {A} (a : A) : A := a.

Lemma rmap_same A (r : res A) : rmap same r = r.
Proof. destruct r; reflexivity. Qed.

Lemma self_fixed id k c : obtained E id c -> FT (TJws k c) = TJws k c.
Proof. intros H. cbn [fixed_token]. unfold fixed. rewrite (SELF id c H), String.eqb_refl. reflexivity. Qed.

Lemma sim_bind A B (f : A -> A) (g : B -> B) (Q : A -> Prop) (R : B -> Prop) m m' (k k' : A -> M cstate B) :
  sim f Q m m' -> (forall a, Q a -> sim g R (k a) (k' (f a))) -> sim g R (mbind m k) (mbind m' k').
Proof.
  intros H G s Hs. destruct (H s Hs) as (H1 & H2 & H3). unfold mbind. rewrite H1.
  destruct (m s) as [s1 [a|x]]; cbn [fst snd rmap] in *.
  - exact (G a (H3 a eq_refl) s1 H2).
  - split; [reflexivity|]. split; [exact H2|]. discriminate.
Qed.

Lemma sim_ret A f (Q : A -> Prop) a : Q a -> sim f Q (ret a) (ret (f a)).
Proof. intros H s Hs. split; [reflexivity|]. split; [exact Hs|]. intros b [= <-]. exact H. Qed.

Lemma sim_raise A f (Q : A -> Prop) x : sim f Q (raise x) (raise x).
Proof. intros s Hs. split; [reflexivity|]. split; [exact Hs|]. discriminate. Qed.

Lemma sim_lift A (Q : A -> Prop) r : (forall a, r = Ok a -> Q a) -> sim same Q (lift r) (lift r).
Proof. intros H s Hs. unfold lift. cbn [fst snd]. rewrite rmap_same. split; [reflexivity|]. split; [exact Hs|]. exact H. Qed.

Lemma sim_now : sim same (fun _ => True) (now E') (now E).
Proof. intros s Hs. split; [reflexivity|]. split; [exact Hs|auto]. Qed.

Lemma sim_doc u id : u = e_wk E id \/ (u = e_tenant E id /\ exists n0, e_net E n0 (QDoc (e_wk E id)) = R404) ->
  sim same (fun t => forall k c, t = Some (TJws k c) -> obtained E id c) (get_document E' (QDoc u)) (get_document E (QDoc u)).
Proof.
  intros Hu s Hs. unfold get_document. cbn [with_net e_net fixed_state st_tick st_cfg st_es].
  assert (R : relevant E (QDoc u)) by (destruct Hu as [->|[-> _]]; constructor).
  assert (G := AG (st_tick s) _ R). cbv iota in G. cbn [fst snd]. rewrite G, rmap_same. split; [reflexivity|]. split; [exact Hs|].
  intros t Ht k c ->. destruct (e_net E (st_tick s) (QDoc u)) as [t'| | |] eqn:En; try discriminate Ht.
  injection Ht as ->. exists (st_tick s), k, u. auto.
Qed.

Lemma sim_configuration id :
  sim same (fun t => forall k c, t = Some (TJws k c) -> obtained E id c) (get_entity_configuration E' id) (get_entity_configuration E id).
Proof.
  intros s Hs. unfold get_entity_configuration.
  destruct (sim_doc (e_wk E id) id (or_introl eq_refl) s Hs) as (H1 & H2 & H3).
  change (e_wk E' id) with (e_wk E id). change (e_tenant E' id) with (e_tenant E id). rewrite H1.
  assert (Q : snd (get_document E' (QDoc (e_wk E id)) s) = Err MissingPage -> exists n0, e_net E n0 (QDoc (e_wk E id)) = R404).
  { unfold get_document. cbn [snd with_net e_net]. rewrite (AG (st_tick s) _ (relevant_wk E id)).
    destruct (e_net E (st_tick s) (QDoc (e_wk E id))) eqn:En; try discriminate. eauto. }
  destruct (get_document E' (QDoc (e_wk E id)) s) as [s1 [t|x]]; cbn [fst snd rmap] in *.
  - auto.
  - destruct x; try (split; [reflexivity|]; split; [exact H2|discriminate]).
    destruct (String.eqb (e_tenant E id) (e_wk E id)); [split; [reflexivity|]; split; [exact H2|discriminate]|].
    exact (sim_doc (e_tenant E id) id (or_intror (conj eq_refl (Q eq_refl))) s1 H2).
Qed.

Lemma sim_getitem id : sim same (fun o => forall e, o = Some e -> obtained E id (ce_stmt e)) (cfg_getitem E' id) (cfg_getitem E id).
Proof.
  intros s Hs. unfold cfg_getitem, cache_getitem. cbn [fixed_state st_cfg st_es st_tick with_net e_delta e_clock].
  destruct (dget id (st_cfg s)) as [v|] eqn:Ed.
  - destruct (ce_class v).
    + destruct (s_exp (ce_stmt v)) as [z|]; cbn [fst snd].
      * destruct (Z.ltb _ _); cbn [fst snd].
        -- split; [reflexivity|]. split; [exact Hs|]. intros o [= <-] e [= <-]. exact (proj1 (Hs id v Ed)).
        -- split; [reflexivity|]. split; [|intros o [= <-] e; discriminate]. intros j e He. cbn [st_cfg] in He.
           destruct (String.eqb_spec j id) as [->|N]; [rewrite dget_ddel_same in He; discriminate|].
           rewrite dget_ddel_other in He by exact N. exact (Hs j e He).
      * split; [reflexivity|]. split; [exact Hs|discriminate].
    + cbn [fst snd]. split; [reflexivity|]. split; [exact Hs|]. intros o [= <-] e [= <-]. exact (proj1 (Hs id v Ed)).
    + cbn [fst snd]. split; [reflexivity|]. split; [exact Hs|]. intros o [= <-] e [= <-]. exact (proj1 (Hs id v Ed)).
  - cbn [fst snd]. split; [reflexivity|]. split; [exact Hs|]. intros o [= <-] e; discriminate.
Qed.

Lemma sim_set id e : obtained E id (ce_stmt e) -> (forall t, ce_jws e = Some t -> FT t = t) ->
  sim same (fun _ => True) (cfg_set id e) (cfg_set id e).
Proof.
  intros He Ht s Hs. split; [reflexivity|]. split; [|auto]. intros j x Hx. unfold cfg_set, modify, cache_set in Hx. cbn [fst st_cfg] in Hx.
  rewrite dget_dset in Hx. destruct (String.eqb_spec j id) as [->|N]; [injection Hx as <-; auto|exact (Hs j x Hx)].
Qed.

Lemma sim_open id t : (forall k c, t = Some (TJws k c) -> obtained E id c) ->
  sim same (fun tp => obtained E id (snd tp) /\ FT (fst tp) = fst tp) (open_self_signed E' t) (open_self_signed E t).
Proof.
  intros Ht s Hs. unfold open_self_signed. cbn [fst snd]. rewrite rmap_same. split; [reflexivity|]. split; [exact Hs|].
  unfold verify_self_signed.
  destruct t as [[|k p]|]; try discriminate. destruct (s_jwks p); try discriminate.
  destruct (kmem _ _); try discriminate. destruct (lib_valid _ _ _); try discriminate.
  intros tp [= <-]. cbn [fst snd]. split; [exact (Ht k p eq_refl)|]. exact (self_fixed id k p (Ht k p eq_refl)).
Qed.

Lemma sim_endpoint a :
  sim same (fun ep => ep = "" \/ exists c', obtained E a c' /\ get_endpoint c' = Ok ep)
      (get_federation_fetch_endpoint E' a) (get_federation_fetch_endpoint E a).
Proof.
  unfold get_federation_fetch_endpoint. eapply sim_bind; [apply sim_getitem|]. intros o Ho. cbv beta. unfold same at 2.
  apply (sim_bind _ _ same _ (fun ep => ep = "" \/ exists c', obtained E a c' /\ get_endpoint c' = Ok ep)).
  { destruct o as [e|]; [|apply (sim_ret _ same); auto]. apply sim_lift. intros ep Hep. right. eauto. }
  intros ep Hep. unfold same at 2 3. destruct (negb (String.eqb ep "")); [apply (sim_ret _ same); exact Hep|].
  eapply sim_bind; [apply sim_configuration|]. intros t Ht. cbv beta. unfold same at 2.
  eapply sim_bind; [apply (sim_open a); exact Ht|]. intros tp [Htp Hfp]. cbv beta in *. unfold same at 2 3 4.
  apply (sim_bind _ _ same _ (fun ep' => get_endpoint (snd tp) = Ok ep')); [apply sim_lift; auto|]. intros ep' Hep'. unfold same at 2.
  eapply sim_bind; [apply (sim_set a (mkEntry (snd tp) (Some (fst tp)) CDict)); [exact Htp|]|].
  { intros t0 [= <-]. exact Hfp. }
  intros _ _. apply (sim_ret _ same). right. eauto.
Qed.

Lemma sim_es_get k : sim (option_map FV) (fun _ => True) (es_getitem E' k) (es_getitem E k).
Proof.
  intros s Hs. unfold es_getitem, cache_getitem. cbn [fixed_state st_cfg st_es st_tick with_net e_delta e_clock].
  rewrite dget_dmap. destruct (dget k (st_es s)) as [v|]; cbn [option_map fst snd]; (split; [reflexivity|]; split; [exact Hs|auto]).
Qed.

Lemma sim_es_del k : sim same (fun _ => True) (es_del k) (es_del k).
Proof.
  intros s Hs. unfold es_del, cache_delitem. cbn [fixed_state st_cfg st_es st_tick]. rewrite dmem_dmap.
  destruct (dmem k (st_es s)); cbn [fst snd rmap]; [|split; [reflexivity|]; split; [exact Hs|discriminate]].
  split; [|split; [exact Hs|auto]]. unfold fixed_state. cbn [st_cfg st_es st_tick]. rewrite ddel_dmap. reflexivity.
Qed.

Lemma sim_es_set k v : sim same (fun _ => True) (es_set k v) (es_set k (FV v)).
Proof.
  intros s Hs. unfold es_set, modify, cache_set. cbn [fixed_state st_cfg st_es st_tick fst snd rmap].
  split; [|split; [exact Hs|auto]]. unfold fixed_state. cbn [st_cfg st_es st_tick]. rewrite dset_dmap. reflexivity.
Qed.

Lemma sim_statement id c hh a : obtained E id c -> s_hints c = Some hh -> In a hh ->
  sim (option_map FV) (fun _ => True) (get_entity_statement E' id a) (get_entity_statement E id a).
Proof.
  intros Hc Hh Ha. unfold get_entity_statement.
  eapply sim_bind; [apply sim_es_get|]. intros o _. cbv beta.
  apply (sim_bind _ _ (option_map FV) _ (fun _ => True)).
  { destruct o as [v|]; cbn [option_map]; [|apply (sim_ret _ (option_map FV)); exact I].
    eapply sim_bind; [apply sim_now|]. intros n _. cbv beta. unfold same at 1.
    eapply sim_bind; [apply sim_es_get|]. intros x _. cbv beta.
    destruct x as [[t|z]|]; cbn [option_map fixed_value]; try apply sim_raise.
    cbn [with_net e_delta]. destruct (Z.ltb _ _); [|apply (sim_ret _ (option_map FV) _ (Some v)); exact I].
    eapply sim_bind; [apply sim_es_del|]. intros _ _. cbv beta. eapply sim_bind; [apply sim_es_del|].
    intros _ _. apply (sim_ret _ (option_map FV) _ None). exact I. }
  intros u _. cbv beta. destruct u as [v|]; cbn [option_map]; [apply (sim_ret _ (option_map FV) _ (Some v)); exact I|].
  eapply sim_bind; [apply sim_endpoint|]. intros ep Hep. cbv beta in *. unfold same.
  destruct (String.eqb_spec ep "") as [|Ne]; [apply (sim_ret _ (option_map FV) _ None); exact I|].
  destruct Hep as [Hep|(c' & Hc' & Hep)]; [contradiction|].
  apply (sim_bind _ _ (option_map FT) _ (fun _ => True)).
  { intros s Hs. unfold get_document. cbn [with_net e_net fixed_state st_cfg st_es st_tick].
    assert (G := AG (st_tick s) _ (relevant_fetch E id c hh a c' ep Hc Hh Ha Hc' Hep Ne)). cbv iota in G. rewrite <- G. cbn [fst snd].
    destruct (net (st_tick s) (QFetch ep a id)) as [t| | |]; cbn [fixed_answer rmap]; (split; [reflexivity|]; split; [exact Hs|auto]). }
  intros t _. cbv beta.
  assert (U : unverified (option_map FT t) = rmap (fixed hs) (unverified t)).
  { destruct t as [[|k p]|]; reflexivity. }
  apply (sim_bind _ _ (fixed hs) _ (fun _ => True)).
  { intros s Hs. unfold lift. rewrite U. cbn [fst snd]. split; [reflexivity|]. split; [exact Hs|auto]. }
  intros p _. cbv beta. destruct t as [t|]; cbn [option_map]; [|apply sim_raise].
  eapply sim_bind; [apply (sim_es_set _ (ESTok t))|]. intros _ _. cbv beta.
  destruct (fixed_same hs p) as (_ & _ & -> & _). destruct (s_exp p) as [z|]; [|apply sim_raise].
  eapply sim_bind; [apply (sim_es_set _ (ESExp z))|]. intros _ _. apply (sim_ret _ (option_map FV) _ (Some (ESTok t))). exact I.
Qed.

Lemma sim_mfold A B (g : B -> B) (Q : B -> Prop) (f f' : B -> A -> M cstate B) l :
  (forall b a, Q b -> In a l -> sim g Q (f b a) (f' (g b) a)) -> forall b, Q b -> sim g Q (mfold f l b) (mfold f' l (g b)).
Proof.
  induction l as [|a l IH]; intros H b Hb; cbn [mfold]; [apply sim_ret; exact Hb|].
  eapply sim_bind; [apply H; [exact Hb|left; reflexivity]|]. intros b' Hb'. apply IH; [|exact Hb'].
  intros b1 a1 Hb1 Ha1. apply H; [exact Hb1|right; exact Ha1].
Qed.

Lemma sim_tree stop : forall fuel id config, (forall c, config = Some c -> obtained E id c) ->
  sim (fixed_tree hs) (fun _ => True) (collect_tree E' fuel stop id config) (collect_tree E fuel stop id config).
Proof.
  induction fuel as [|fuel IH]; intros id config Hc; cbn [collect_tree]; [apply sim_raise|].
  destruct config as [c|]; [|apply sim_raise].
  destruct (s_hints c) as [hh|] eqn:Hh; [|apply (sim_ret _ (fixed_tree hs) _ (T [])); exact I].
  destruct (String.eqb (s_iss c) stop); [apply (sim_ret _ (fixed_tree hs) _ (T [])); exact I|].
  set (bm := dmap (fixed_branch hs)).
  apply (sim_bind _ _ bm _ (fun _ => True)).
  2:{ intros bs _. assert (X : T (bm bs) = fixed_tree hs (T bs)) by reflexivity. rewrite X. apply sim_ret. exact I. }
  apply (sim_mfold _ _ bm _ _ _ hh); [|exact I]. intros acc a _ Ha.
  apply (sim_bind _ _ (fixed_branch hs) _ (fun _ => True)).
  2:{ intros b _. unfold bm. rewrite dset_dmap. apply sim_ret. exact I. }
  unfold collect_branch. cbn [with_net e_anchors].
  destruct (String.eqb id a && smem id (e_anchors E)); [apply (sim_ret _ (fixed_branch hs) _ None); exact I|].
  eapply sim_bind; [exact (sim_statement id c hh a (Hc c eq_refl) Hh Ha)|]. intros es _. cbv beta.
  destruct es as [v|]; cbn [option_map]; [|apply (sim_ret _ (fixed_branch hs) _ None); exact I].
  assert (Tv : es_truthy (FV v) = es_truthy v) by (destruct v; reflexivity). rewrite Tv.
  destruct (es_truthy v); [|apply (sim_ret _ (fixed_branch hs) _ None); exact I].
  eapply sim_bind; [apply sim_getitem|]. intros o Ho. cbv beta in *. unfold same.
  apply (sim_bind _ _ (fixed_tree hs) _ (fun _ => True)).
  2:{ intros t _. apply (sim_ret _ (fixed_branch hs) _ (Some (v, t))). exact I. }
  apply IH. intros c' Hc'. destruct o as [e|]; [|discriminate Hc']. injection Hc' as <-. exact (Ho e eq_refl).
Qed.

Definition fixed_collection (r : option (tree esval * token)) : option (tree esval * token) :=
  match r with None => None | Some (tr, t) => Some (fixed_tree hs tr, t) end.

(** collect after the look in the cache *)
Definition collect_from (X : cenv) (fuel : nat) (stop id : string) (o : option centry) : M cstate (option (tree esval * token)) :=
  do cached <- match o with
               | None => ret None
               | Some e => do n <- now X in do old <- lift (too_old X n (ce_stmt e)) in
                   if old then ret None
                   else match ce_jws e with Some t => ret (Some (t, ce_stmt e)) | None => raise AttributeError end
               end in
  match cached with
  | Some (t, c) => do tr <- collect_tree X fuel stop id (Some c) in ret (Some (tr, t))
  | None =>
      do signed <- get_entity_configuration X id in
      match signed with
      | None => ret None
      | Some _ =>
          do tp <- open_self_signed X signed in
          do _ <- cfg_set id (mkEntry (snd tp) (Some (fst tp)) CDict) in
          do tr <- collect_tree X fuel stop id (Some (snd tp)) in
          ret (Some (tr, fst tp))
      end
  end.

Lemma collect_eq' X fuel stop id s : collect X fuel stop id s = collect_from X fuel stop id (cache_get id (st_cfg s)) s.
Proof. reflexivity. Qed.

Lemma sim_collect fuel stop id :
  sim fixed_collection (fun r => forall tr t, r = Some (tr, t) -> FT t = t) (collect E' fuel stop id) (collect E fuel stop id).
Proof.
  intros s0 Hs0. rewrite !collect_eq'. change (st_cfg (FS s0)) with (st_cfg s0).
  assert (Ho : forall e, cache_get id (st_cfg s0) = Some e -> obtained E id (ce_stmt e) /\ forall t, ce_jws e = Some t -> FT t = t).
  { intros e He. exact (Hs0 id e He). }
  generalize dependent (cache_get id (st_cfg s0)). intros o Ho. revert s0 Hs0.
  change (sim fixed_collection (fun r => forall tr t, r = Some (tr, t) -> FT t = t) (collect_from E' fuel stop id o) (collect_from E fuel stop id o)).
  unfold collect_from.
  apply (sim_bind _ _ same _ (fun r => forall t c, r = Some (t, c) -> obtained E id c /\ FT t = t)).
  - destruct o as [e|]; [|apply (sim_ret _ same); discriminate]. destruct (Ho e eq_refl) as [Ho1 Ho2].
    eapply sim_bind; [apply sim_now|]. intros n _. cbv beta. unfold same at 2.
    eapply (sim_bind _ _ same _ (fun _ => True)); [apply sim_lift; auto|]. intros old _. cbv beta. unfold same at 2.
    destruct old; [apply (sim_ret _ same); discriminate|]. destruct (ce_jws e) as [t|]; [|apply sim_raise].
    apply (sim_ret _ same). intros t0 c0 [= <- <-]. split; [exact Ho1|]. apply Ho2. reflexivity.
  - intros r Hr. cbv beta. unfold same. destruct r as [[t c]|].
    + destruct (Hr t c eq_refl) as [Hr1 Hr2].
      eapply (sim_bind _ _ (fixed_tree hs) _ (fun _ => True)).
      2:{ intros tr _. apply (sim_ret _ fixed_collection _ (Some (tr, t))). intros ? ? [= _ <-]. exact Hr2. }
      apply sim_tree. intros c0 [= <-]. exact Hr1.
    + eapply sim_bind; [apply sim_configuration|]. intros t Ht. cbv beta in *. unfold same at 1.
      destruct t as [t|]; [|apply (sim_ret _ fixed_collection _ None); discriminate].
      eapply sim_bind; [apply (sim_open id); exact Ht|]. intros tp [Htp Hfp]. cbv beta in *. unfold same.
      eapply sim_bind; [apply (sim_set id (mkEntry (snd tp) (Some (fst tp)) CDict)); [exact Htp|]|].
      { intros t0 [= <-]. exact Hfp. }
      intros _ _. cbv beta.
      eapply (sim_bind _ _ (fixed_tree hs) _ (fun _ => True)).
      2:{ intros tr _. apply (sim_ret _ fixed_collection _ (Some (tr, fst tp))). intros ? ? [= _ <-]. exact Hfp. }
      apply sim_tree. intros c0 [= <-]. exact Htp.
Qed.

Lemma visited_served s : visited E' s -> visited E (FS s) /\ served_cache s.
Proof.
  induction 1 as [tick|s fuel stop id V [IH1 IH2] Hc].
  - split; [constructor|]. intros id e H. discriminate H.
  - destruct (sim_collect fuel stop id s IH2) as (H1 & H2 & _). split; [|exact H2].
    assert (X := visited_more E (FS s) fuel stop id IH1 Hc). rewrite H1 in X. exact X.
Qed.

(** the chains, and what is left of the collector *)
Lemma chains_congruence O fuel id s : served_cache (f_col s) ->
  let r := get_verified_trust_chains E' O fuel id s in
  get_verified_trust_chains E O fuel id (mkFed (FS (f_col s)) (f_keys s) (f_chains s)) =
  (mkFed (FS (f_col (fst r))) (f_keys (fst r)) (f_chains (fst r)), rmap (map (fixed_result hs)) (snd r)) /\
  served_cache (f_col (fst r)).
Proof.
  intros Hs. cbv zeta. unfold get_verified_trust_chains, collect_trust_chains, on_col, mbind. cbn [f_col f_keys f_chains].
  destruct (sim_collect fuel "" id (f_col s) Hs) as (H1 & H2 & H3). rewrite H1.
  destruct (collect E' fuel "" id (f_col s)) as [c [[[tr t]|]|e]]; cbn [fst snd rmap fixed_collection] in *; unfold ret;
    [|split; [reflexivity|exact H2]|split; [reflexivity|exact H2]].
  assert (C : map (map tok_of) (tree2chains (fixed_tree hs tr)) = map (map FT) (map (map tok_of) (tree2chains tr))).
  { rewrite fixed_chains, !map_map. apply map_ext. intros l. rewrite !map_map. apply map_ext. apply tok_of_fixed. }
  rewrite C. destruct (map (map tok_of) (tree2chains tr)) as [|l ls] eqn:Ec; [split; [reflexivity|exact H2]|].
  cbn [map]. rewrite <- map_cons. unfold on_keys. cbn [f_col f_keys f_chains].
  assert (V := fixed_all_verified hs (e_lib E) HB E [t] (l :: ls) eq_refl (f_keys s)).
  cbn [map] in V. rewrite (H3 _ eq_refl tr t eq_refl) in V. cbn [map] in V |- *. rewrite V.
  change (verify_trust_chains E' (l :: ls) [t] (f_keys s)) with (verify_trust_chains E (l :: ls) [t] (f_keys s)).
  destruct (verify_trust_chains E (l :: ls) [t] (f_keys s)) as [kj [tcs|e]]; cbn [fst snd rmap]; [|split; [reflexivity|exact H2]].
  unfold lift. rewrite fixed_applied. split; [reflexivity|exact H2].
Qed.

End Congruence.
