(** Vocabulary and lemmas for the who endpoint (C114-C117). *)
From Coq Require Import Lia.
From Verif Require Import PyFacts CollectorProps ExampleKit VerifierFacts ResolveFacts.
From Verif Require Export TrawlFacts TrawlSpec.

(** ** What is looked for in metadata *)

(** [k] is in the list or dictionary, or a part of the string *)
Definition mentions (k : string) (v : val) : Prop :=
  match v with
  | VList l => In (VStr k) l
  | VDict d => exists x, dget k d = Some x
  | VStr s => exists n, substring n (String.length k) s = k
  | _ => False
  end.

(** one of the credentials an issuer supports has type [c] *)
Definition credential_offered (m : tc_metadata) (c : string) : Prop :=
  exists ci l cred def t, type_entry m "openid_credential_issuer" (VDict ci) /\
    dget "credentials_supported" ci = Some (VList l) /\ In (VDict cred) l /\
    dget "credential_definition" cred = Some (VDict def) /\ dget "type" def = Some t /\ mentions c t.

Lemma vmem_str k l : vmem (VStr k) l = true <-> In (VStr k) l.
Proof.
  unfold vmem. rewrite existsb_exists. split.
  - intros (x & Hx & He). destruct x as [| | |y| |]; try discriminate He. cbn in He. apply String.eqb_eq in He. subst y. exact Hx.
  - intros H. exists (VStr k). split; [exact H|]. cbn. apply String.eqb_refl.
Qed.

Lemma index_none k s : String.index 0 k s = None -> forall n, substring n (String.length k) s <> k.
Proof.
  intros H n. destruct k as [|a k].
  - exfalso. destruct s; discriminate H.
  - apply (index_correct3 0 n (String a k) s H); [discriminate|lia].
Qed.

Lemma contains_ok k v b : contains k v = Ok b -> (b = true <-> mentions k v).
Proof.
  destruct v as [| | |s|l|d]; intros [= <-]; cbn [mentions].
  - destruct (String.index 0 k s) as [n|] eqn:Ei.
    + split; [|reflexivity]. intros _. exists n. exact (index_correct1 0 n k s Ei).
    + split; [discriminate|]. intros (n & Hn). destruct (index_none k s Ei n Hn).
  - apply vmem_str.
  - unfold dmem. destruct (dget k d) as [x|]; split; try discriminate; eauto. intros (x & [=]).
Qed.

Lemma offers_one_ok cs c b : offers_one cs c = Ok b ->
  (b = true <-> exists cred def t, In (VDict cred) cs /\ dget "credential_definition" cred = Some (VDict def) /\
                 dget "type" def = Some t /\ mentions c t).
Proof.
  revert b. induction cs as [|v cs IH]; intros b H; cbn [offers_one] in H.
  - injection H as <-. split; [discriminate|]. intros (cred & def & t & [] & _).
  - apply bind_ok in H. destruct H as (d & Hd & H). apply bind_ok in H. destruct H as (t & Ht & H).
    apply bind_ok in H. destruct H as (b1 & Hb & H).
    destruct v as [| | | | |cred]; try discriminate Hd. cbn [vindex] in Hd. apply dindex_ok in Hd.
    destruct d as [| | | | |def]; try discriminate Ht. cbn [vindex] in Ht. apply dindex_ok in Ht.
    apply contains_ok in Hb. destruct b1.
    + injection H as <-. split; [|reflexivity]. intros _. exists cred, def, t. split; [left; reflexivity|].
      split; [exact Hd|]. split; [exact Ht|]. apply Hb. reflexivity.
    + apply IH in H. rewrite H. split.
      * intros (cr & de & t' & Hi & Hr). exists cr, de, t'. split; [right; exact Hi|exact Hr].
      * intros (cr & de & t' & [Hi|Hi] & H1 & H2 & H3); [|exists cr, de, t'; auto].
        injection Hi as <-. rewrite Hd in H1. injection H1 as <-. rewrite Ht in H2. injection H2 as <-.
        apply Hb in H3. discriminate H3.
Qed.

Lemma type_entry_eq m t v w : type_entry m t v -> type_entry m t w -> v = w.
Proof. intros Hv Hw. apply md_index_ok in Hv, Hw. congruence. Qed.

Lemma offers_ok m c b : offers m c = Ok b -> (b = true <-> credential_offered m c).
Proof.
  unfold offers. intros H. apply bind_ok in H. destruct H as (ci & Hc & H). apply bind_ok in H. destruct H as (l & Hl & H).
  apply bind_ok in H. destruct H as (cs & Hcs & H). apply md_index_ok in Hc.
  destruct ci as [| | | | |ci]; try discriminate Hl. cbn [vindex] in Hl. apply dindex_ok in Hl.
  apply offers_one_ok in H. rewrite H. split.
  - intros (cred & def & t & Hi & H1 & H2 & H3).
    assert (Hcl : l = VList cs).
    { destruct l as [| | |s|l|d]; try discriminate Hcs; injection Hcs as <-; [|reflexivity|]; exfalso.
      - revert Hi. clear. induction s as [|a s IH]; [intros []|]. cbn. intros [[=]|Hi]. exact (IH Hi).
      - apply in_map_iff in Hi. destruct Hi as (x & [=] & _). }
    subst l. exists ci, cs, cred, def, t. auto 10.
  - intros (ci' & l' & cred & def & t & Ht & H1 & H2 & H3 & H4 & H5).
    assert (X := type_entry_eq _ _ _ _ Hc Ht). injection X as <-. rewrite Hl in H1. injection H1 as ->.
    injection Hcs as <-. exists cred, def, t. auto.
Qed.

(** ** What happens while a request is answered *)

Section Reach.
Context (E : cenv) (O : iter_order) (fuel : nat) (prio : list string) (L : lenv) (V : tmenv)
        (ask : string -> string -> string -> res (dict val)) (marks_of : stmt -> option (list tmtoken)).

(** one of: asking a list endpoint, getting a configuration, getting trust chains or verified metadata, verifying a mark *)
Definition step (s s' : fstate) : Prop :=
  (exists id q r, do_list E O fuel prio L id q s = (s', r)) \/
  (exists superior id r, configuration_of E id (introduce E L superior id) s = (s', r)) \/
  (exists id r, get_trust_chains E O fuel id s = (s', r)) \/
  (exists id r, get_verified_metadata E O fuel id s = (s', r)) \/
  (exists t check r, verify_trust_mark E O fuel V ask t check s = (s', r)).

Inductive reach (s : fstate) : fstate -> Prop :=
| reach_refl : reach s s
| reach_step s1 s2 : reach s s1 -> step s1 s2 -> reach s s2.

Lemma reach_one s s' : step s s' -> reach s s'.
Proof. intros H. exact (reach_step _ _ _ (reach_refl s) H). Qed.

Lemma reach_trans s s1 s2 : reach s s1 -> reach s1 s2 -> reach s s2.
Proof. intros H H'. induction H' as [|t1 t2 _ IH Hs]; [exact H|]. exact (reach_step _ _ _ IH Hs). Qed.

Lemma mfold_reach A B (f : B -> A -> M fstate B) l b s s' r :
  (forall b x s1 s2 r2, f b x s1 = (s2, r2) -> reach s1 s2) -> mfold f l b s = (s', r) -> reach s s'.
Proof.
  intros Hf. revert b s. induction l as [|x l IH]; intros b s H; cbn [mfold] in H.
  - injection H as <- _. constructor.
  - unfold mbind in H. destruct (f b x s) as [s1 [b1|e]] eqn:E1; apply Hf in E1.
    + exact (reach_trans _ _ _ E1 (IH _ _ H)).
    + injection H as <- _. exact E1.
Qed.

Lemma do_list_reach id q s s' r : do_list E O fuel prio L id q s = (s', r) -> reach s s'.
Proof. intros H. apply reach_one. left. eauto. Qed.

Lemma trawl_reach n type : forall sup sub s s' r, trawl E O fuel prio L n sup sub type s = (s', r) -> reach s s'.
Proof.
  induction n as [|n IH]; intros sup sub s s' r H; cbn [trawl] in H; [injection H as <- _; constructor|].
  unfold mbind at 1 in H. destruct (configuration_of E sub (introduce E L sup sub) s) as [s1 r1] eqn:E1.
  assert (R1 : reach s s1) by (apply reach_one; right; left; eauto).
  destruct r1 as [c|e]; [|injection H as <- _; exact R1].
  unfold mbind at 1, lift at 1 in H. destruct (s_metadata c) as [m|]; [|injection H as <- _; exact R1].
  cbv zeta in H. unfold mbind at 1, lift at 1 in H. destruct (dindex "federation_entity" m) as [fe|e]; [|injection H as <- _; exact R1].
  destruct (negb _); [injection H as <- _; exact R1|].
  unfold mbind at 1 in H. destruct (do_list E O fuel prio L sub (LType type) s1) as [s2 r2] eqn:E2.
  apply do_list_reach in E2. assert (R2 := reach_trans _ _ _ R1 E2).
  destruct r2 as [added|e]; [|injection H as <- _; exact R2].
  unfold mbind at 1 in H. destruct (do_list E O fuel prio L sub LIntermediate s2) as [s3 r3] eqn:E3.
  apply do_list_reach in E3. assert (R3 := reach_trans _ _ _ R2 E3).
  destruct r3 as [ims|e]; [|injection H as <- _; exact R3].
  refine (reach_trans _ _ _ R3 _). refine (mfold_reach _ _ _ _ _ _ _ _ _ H).
  intros acc x t1 t2 t3 Ht. unfold mbind in Ht. destruct (trawl E O fuel prio L n sub x type t1) as [t4 [ids|e]] eqn:E4;
    injection Ht as <- _; exact (IH _ _ _ _ _ E4).
Qed.

Lemma find_servers_reach n me ids type s s' r : find_servers E O fuel prio L n me ids type s = (s', r) -> reach s s'.
Proof.
  unfold find_servers. intros H. refine (mfold_reach _ _ _ _ _ _ _ _ _ H).
  intros acc x t1 t2 t3 Ht. unfold mbind in Ht. destruct (trawl E O fuel prio L n me x type t1) as [t4 [l|e]] eqn:E4;
    injection Ht as <- _; exact (trawl_reach _ _ _ _ _ _ _ E4).
Qed.

Lemma below_anchor_reach me anchor s s' r : below_anchor E O fuel prio L me anchor s = (s', r) -> reach s s'.
Proof.
  unfold below_anchor. destruct (String.eqb anchor ""); [intros [= <- _]; constructor|].
  destruct (String.eqb anchor me); [apply do_list_reach|]. destruct (negb _); [intros [= <- _]; constructor|apply do_list_reach].
Qed.

(** *** Stored chains *)

(** the stored chains stay as they are *)
Definition same_chains {A} (m : M fstate A) : Prop := forall s, f_chains (fst (m s)) = f_chains s.

Lemma sc_bind A B (m : M fstate A) (f : A -> M fstate B) :
  same_chains m -> (forall a, same_chains (f a)) -> same_chains (do a <- m in f a).
Proof.
  intros Hm Hf s. unfold mbind. specialize (Hm s). destruct (m s) as [s1 [a|e]]; cbn [fst] in *; [|exact Hm].
  rewrite <- Hm. apply Hf.
Qed.
Lemma sc_ret A (a : A) : same_chains (ret a). Proof. intros s. reflexivity. Qed.
Lemma sc_raise A e : same_chains (raise (A := A) e). Proof. intros s. reflexivity. Qed.
Lemma sc_lift A (r : res A) : same_chains (lift r). Proof. intros s. reflexivity. Qed.
Lemma sc_get : same_chains (StateM.get). Proof. intros s. reflexivity. Qed.
Lemma sc_col A (m : M cstate A) : same_chains (on_col m).
Proof. intros s. unfold on_col. destruct (m (f_col s)). reflexivity. Qed.
Lemma sc_keys A (m : M keyjar A) : same_chains (on_keys m).
Proof. intros s. unfold on_keys. destruct (m (f_keys s)). reflexivity. Qed.

Ltac same := repeat first
  [ apply sc_ret | apply sc_raise | apply sc_lift | apply sc_get | apply sc_col | apply sc_keys
  | apply sc_bind; [|intros ?]
  | match goal with |- same_chains (match ?x with _ => _ end) => destruct x end
  | intros s; reflexivity ].

Lemma sc_collect id stop : same_chains (collect_trust_chains E fuel id stop).
Proof. unfold collect_trust_chains. same. Qed.

Lemma sc_verified id : same_chains (get_verified_trust_chains E O fuel id).
Proof. unfold get_verified_trust_chains. apply sc_bind; [apply sc_collect|intros [chains o]; same]. Qed.

Lemma sc_do_list id q : same_chains (do_list E O fuel prio L id q).
Proof.
  unfold do_list. apply sc_bind.
  - unfold get_verified_endpoint. destruct (smem id (e_anchors E)).
    + apply sc_bind; [unfold get_verified_trust_anchor_statement; same|intros p; same].
    + apply sc_bind; [apply sc_verified|intros cs; same].
  - intros o; same.
Qed.

Lemma sc_request a q : same_chains (request_statement E L a q).
Proof. intros s. unfold request_statement. destruct (e_net E (st_tick (f_col s)) q) as [[[|k p]|]| | |]; reflexivity. Qed.

Lemma sc_configuration id : same_chains (request_configuration E L id).
Proof. unfold request_configuration. apply sc_bind; [apply sc_request|intros r; same]. Qed.

Lemma sc_configuration_of id m : same_chains m -> same_chains (configuration_of E id m).
Proof.
  intros H. unfold configuration_of. apply sc_bind; [apply sc_get|]. intros s. destruct (cache_contains id (st_cfg (f_col s))).
  - same.
  - apply sc_bind; [exact H|intros r; same].
Qed.

Lemma sc_introduce superior id : same_chains (introduce E L superior id).
Proof.
  unfold introduce. apply sc_bind.
  - unfold request_about. apply sc_bind; [apply sc_configuration_of, sc_configuration|]. intros c.
    apply sc_bind; [apply sc_lift|]. intros fe. apply sc_bind; [apply sc_lift|]. intros ep.
    apply sc_bind; [apply sc_request|intros r; same].
  - intros [p|]; [|same]. destruct (s_jwks p) as [ks|]; [|same].
    apply sc_bind; [intros s; reflexivity|]. intros u. apply sc_configuration.
Qed.

Lemma sc_tm_verifier t anchor check ent : same_chains (tm_verifier E O fuel V t anchor check ent).
Proof.
  unfold tm_verifier. destruct t as [|k p]; [same|].
  apply sc_bind; [same|]. intros u. apply sc_bind; [same|]. intros n. apply sc_bind; [same|]. intros expired.
  destruct expired; [same|]. apply sc_bind.
  - destruct (dmem "delegation" p); [|same]. unfold verify_delegation. apply sc_bind; [|intros m; same].
    unfold get_metadata. apply sc_bind; [apply sc_get|]. intros s. apply sc_bind; [same|]. intros usable.
    apply sc_bind; [|intros e; same]. destruct usable; [same|]. apply sc_bind; [apply sc_collect|intros r; same].
  - intros b. destruct (dget "iss" p) as [[| | |iss| |]|]; [same| same | same | | same| same| same]. apply sc_bind; [apply sc_verified|]. intros cs.
    destruct (is_nil cs); [same|]. destruct (negb _); [same|]. apply sc_bind; [intros s; reflexivity|]. intros keys.
    apply sc_bind; [|intros ks; same]. destruct (is_nil keys); [|same]. apply sc_bind; [|intros u'; intros s; reflexivity].
    unfold import_leaf_keys. same.
Qed.

Lemma get_trust_chains_chains id s s' r : get_trust_chains E O fuel id s = (s', r) ->
  f_chains s' = f_chains s \/
  exists s1 (cs : list tchain), dget id (f_chains s) = None /\ cs <> [] /\
    get_verified_trust_chains E O fuel id s = (s1, Ok cs) /\ f_chains s' = dset id cs (f_chains s).
Proof.
  unfold get_trust_chains, mbind at 1, StateM.get. destruct (dget id (f_chains s)) eqn:Ed; [intros [= <- _]; left; reflexivity|].
  unfold mbind at 1. assert (H := sc_verified id s).
  destruct (get_verified_trust_chains E O fuel id s) as [s1 [cs|x]] eqn:Ev; cbn [fst] in H; [|intros [= <- _]; left; exact H].
  destruct cs as [|c cs]; [intros [= <- _]; left; exact H|]. cbn [is_nil]. unfold mbind, store_trust_chain, modify, ret.
  intros [= <- _]. right. exists s1, (c :: cs). cbn [f_chains]. rewrite H. split; [reflexivity|]. split; [discriminate|]. auto.
Qed.

Lemma get_verified_metadata_chains id s s' r : get_verified_metadata E O fuel id s = (s', r) ->
  f_chains s' = f_chains s \/
  exists s1 (cs : list tchain), dget id (f_chains s) = None /\ cs <> [] /\
    get_verified_trust_chains E O fuel id s = (s1, Ok cs) /\ f_chains s' = dset id cs (f_chains s).
Proof.
  unfold get_verified_metadata, mbind at 1, StateM.get. destruct (dget id (f_chains s)) as [[|c cs]|] eqn:Ed;
    [intros [= <- _]; left; reflexivity ..|].
  unfold mbind at 1. unfold mbind at 1. assert (H := sc_verified id s).
  destruct (get_verified_trust_chains E O fuel id s) as [s1 [cs|x]] eqn:Ev; cbn [fst] in H; [|intros [= <- _]; left; exact H].
  destruct cs as [|c cs]; [intros [= <- _]; left; exact H|]. cbn [is_nil]. unfold mbind, store_trust_chain, modify, ret.
  intros [= <- _]. right. exists s1, (c :: cs). cbn [f_chains]. rewrite H. split; [reflexivity|]. split; [discriminate|]. auto.
Qed.

Lemma get_verified_metadata_ok id s s' m : get_verified_metadata E O fuel id s = (s', Ok (Some m)) ->
  exists c cs, dget id (f_chains s') = Some (c :: cs) /\ ch_md c = m.
Proof.
  unfold get_verified_metadata, mbind at 1, StateM.get. destruct (dget id (f_chains s)) as [[|c cs]|] eqn:Ed.
  - intros [=].
  - intros [= <- <-]. eauto.
  - unfold mbind at 1. unfold mbind at 1.
    destruct (get_verified_trust_chains E O fuel id s) as [s1 [[|c cs]|x]]; [intros [=]| |intros [=]].
    cbn [is_nil]. unfold mbind, store_trust_chain, modify, ret. intros [= <- <-]. exists c, cs. cbn [f_chains].
    rewrite dget_dset_same. auto.
Qed.

Lemma step_chains s s' : step s s' ->
  f_chains s' = f_chains s \/
  exists id s1 (cs : list tchain), dget id (f_chains s) = None /\ cs <> [] /\
    get_verified_trust_chains E O fuel id s = (s1, Ok cs) /\ f_chains s' = dset id cs (f_chains s).
Proof.
  intros [(id & q & r & H)|[(sup & id & r & H)|[(id & r & H)|[(id & r & H)|(t & check & r & H)]]]].
  - left. assert (X := sc_do_list id q s). rewrite H in X. exact X.
  - left. assert (X := sc_configuration_of id _ (sc_introduce sup id) s). rewrite H in X. exact X.
  - apply get_trust_chains_chains in H. destruct H as [H|H]; [auto|]. right. exists id. exact H.
  - apply get_verified_metadata_chains in H. destruct H as [H|H]; [auto|]. right. exists id. exact H.
  - unfold verify_trust_mark in H. destruct t as [|k p]; [injection H as <- _; auto|].
    destruct (dget "iss" p) as [[| | |iss| |]|]; try (injection H as <- _; auto; fail).
    unfold mbind at 1 in H. destruct (get_trust_chains E O fuel iss s) as [s1 r1] eqn:E1. apply get_trust_chains_chains in E1.
    assert (X : f_chains s' = f_chains s1); [|rewrite X; destruct E1 as [E1|E1]; [auto|right; exists iss; exact E1]].
    destruct r1 as [[|c cs]|x]; [injection H as <- _; reflexivity| |injection H as <- _; reflexivity].
    clear E1. revert H. match goal with |- ?m s1 = _ -> _ => assert (S : same_chains m) end.
    { apply sc_bind; [apply sc_tm_verifier|]. intros v. same. }
    intros H. specialize (S s1). rewrite H in S. exact S.
Qed.

(** stored chains are not replaced *)
Lemma reach_keeps s s' id cs : reach s s' -> dget id (f_chains s) = Some cs -> dget id (f_chains s') = Some cs.
Proof.
  intros H Hd. induction H as [|s1 s2 _ IH Hs]; [exact Hd|].
  destruct (step_chains _ _ Hs) as [->|(id' & t & cs' & Hn & _ & _ & ->)]; [exact IH|].
  rewrite dget_dset_other; [exact IH|]. intros ->. rewrite IH in Hn. discriminate Hn.
Qed.

(** [cs] were stored for [id] before, or have been found since *)
Definition verified_for (s : fstate) (id : string) (cs : list tchain) : Prop :=
  dget id (f_chains s) = Some cs \/
  exists s1 s2, reach s s1 /\ get_verified_trust_chains E O fuel id s1 = (s2, Ok cs).

Lemma reach_verified s s' id cs : reach s s' -> dget id (f_chains s') = Some cs -> verified_for s id cs.
Proof.
  intros H. revert cs. induction H as [|s1 s2 R IH Hs]; intros cs Hd; [left; exact Hd|].
  destruct (step_chains _ _ Hs) as [Hc|(id' & t & cs' & Hn & _ & Hv & Hc)]; rewrite Hc in Hd; [exact (IH _ Hd)|].
  rewrite dget_dset in Hd. destruct (String.eqb_spec id id') as [->|N]; [|exact (IH _ Hd)].
  injection Hd as <-. right. exists s1, t. auto.
Qed.

(** *** The two filters *)

Lemma with_credential_ok servers type s s' ids :
  with_credential E O fuel servers type s = (s', Ok ids) ->
  reach s s' /\ NoDup ids /\
  forall i, In i ids <-> In i servers /\ exists c cs, dget i (f_chains s') = Some (c :: cs) /\ credential_offered (ch_md c) type.
Proof.
  unfold with_credential.
  set (f := fun (acc : list string) (id : string) =>
              do m <- get_verified_metadata E O fuel id in
              match m with
              | None => raise TypeError
              | Some m => do b <- lift (offers m type) in ret (if b : bool then acc ++ [id] else acc)
              end).
  assert (G : forall l acc s, NoDup (acc ++ l) -> mfold f l acc s = (s', Ok ids) ->
            reach s s' /\ NoDup ids /\
            forall i, In i ids <-> In i acc \/ (In i l /\ exists c cs, dget i (f_chains s') = Some (c :: cs) /\
                                                 credential_offered (ch_md c) type)).
  { induction l as [|x l IH]; intros acc t N H; cbn [mfold] in H.
    - injection H as -> <-. split; [constructor|]. rewrite app_nil_r in N. split; [exact N|]. intros i. cbn [In]. tauto.
    - apply bind_ok_m in H. destruct H as (t1 & acc' & H1 & H). unfold f in H1.
      apply bind_ok_m in H1. destruct H1 as (t2 & [m|] & Hm & H1); [|discriminate H1].
      apply bind_ok_m in H1. destruct H1 as (t3 & b & Hb & H1). apply lift_ok in Hb. destruct Hb as [-> Hb].
      injection H1 as -> <-. apply offers_ok in Hb.
      assert (Hx := get_verified_metadata_ok _ _ _ _ Hm). destruct Hx as (c & cs & Hc & <-).
      assert (R1 : reach t t1) by (apply reach_one; right; right; right; left; eauto).
      assert (N' : NoDup ((if b : bool then acc ++ [x] else acc) ++ l)).
      { destruct b; [rewrite <- app_assoc; exact N|]. exact (NoDup_remove_1 _ _ _ N). }
      destruct (IH _ _ N' H) as (R & Nd & Hi). split; [exact (reach_trans _ _ _ R1 R)|]. split; [exact Nd|].
      intros i. rewrite Hi. assert (Hc' := reach_keeps _ _ _ _ R Hc). destruct b.
      + rewrite in_app_iff. cbn [In]. split.
        * intros [[Ha|[<-|[]]]|(Ha & Hb')]; [auto| |auto]. right. split; [auto|]. exists c, cs. split; [exact Hc'|].
          apply Hb. reflexivity.
        * intros [Ha|([<-|Ha] & Hb')]; auto.
      + cbn [In]. split; [intros [Ha|(Ha & Hb')]; auto|]. intros [Ha|([<-|Ha] & Hb')]; auto.
        destruct Hb' as (c' & cs' & Hd & Ho). rewrite Hc' in Hd. injection Hd as <- <-. apply Hb in Ho. discriminate Ho. }
  intros H. apply G in H; [|cbn [app]; apply ios_NoDup, NoDup_nodup]. destruct H as (R & N & Hi). split; [exact R|].
  split; [exact N|]. intros i. rewrite Hi, ios_In, nodup_In. cbn [In]. tauto.
Qed.

Lemma count_marks_ok id mark ms acc s s' r :
  count_marks E O fuel V ask id mark ms acc s = (s', r) ->
  reach s s' /\
  forall l, r = Ok l -> forall i, In i l -> In i acc \/
    (i = id /\ exists t s1 s2 p, In t ms /\ reach s s1 /\ verify_trust_mark E O fuel V ask t true s1 = (s2, Ok (Some p)) /\
                               dget "id" p = Some (VStr mark)).
Proof.
  unfold count_marks. revert acc s. induction ms as [|t ms IH]; intros acc s H; cbn [mfold] in H.
  - injection H as <- <-. split; [constructor|]. intros l [= <-]. auto.
  - unfold mbind at 1 in H. unfold mbind at 1 in H.
    destruct (verify_trust_mark E O fuel V ask t true s) as [s1 r1] eqn:E1.
    assert (R1 : reach s s1) by (apply reach_one; do 4 right; eauto).
    destruct r1 as [[p|]|x]; [|injection H as <- <-; split; [exact R1|]; intros l [=] ..].
    unfold ret at 1 in H. destruct (IH _ _ H) as [R Hl]. split; [exact (reach_trans _ _ _ R1 R)|].
    intros l Hr i Hi. destruct (Hl l Hr i Hi) as [Ha|(-> & t' & t1 & t2 & p' & Ht & Rt & Hv)].
    + destruct (dget "id" p) as [v|] eqn:Ed; [|auto]. destruct (py_eqb v (VStr mark)) eqn:Ee; [|auto].
      apply in_app_or in Ha. destruct Ha as [Ha|[<-|[]]]; [auto|]. right. split; [reflexivity|].
      destruct v as [| | |w| |]; try discriminate Ee. cbn in Ee. apply String.eqb_eq in Ee. subst w.
      exists t, s, s1, p. split; [left; reflexivity|]. split; [constructor|]. auto.
    + right. split; [reflexivity|]. exists t', t1, t2, p'. split; [right; exact Ht|]. split; [exact (reach_trans _ _ _ R1 Rt)|].
      exact Hv.
Qed.

Lemma with_mark_ok mark : forall ids acc s s' r,
  (forall i, In i ids -> exists c cs, dget i (f_chains s) = Some (c :: cs)) ->
  with_mark E O fuel V ask marks_of ids mark acc s = (s', r) ->
  reach s s' /\
  (forall l, r = Ok l -> exists ids', l = Some ids' /\
     forall i, In i ids' -> In i acc \/
       (In i ids /\ exists c cs leaf rest ms t s1 s2 p, dget i (f_chains s) = Some (c :: cs) /\ rev (ch_verified c) = leaf :: rest /\
          marks_of leaf = Some ms /\ In t ms /\ reach s s1 /\
          verify_trust_mark E O fuel V ask t true s1 = (s2, Ok (Some p)) /\ dget "id" p = Some (VStr mark))).
Proof.
  induction ids as [|x ids IH]; intros acc s s' r Hc H; cbn [with_mark] in H.
  - injection H as <- <-. split; [constructor|]. intros l [= <-]. exists acc. auto.
  - destruct (Hc x (or_introl eq_refl)) as (c & cs & Hx).
    unfold mbind at 1, get_trust_chains, mbind at 1, StateM.get in H. rewrite Hx in H. unfold ret at 1 in H.
    destruct (rev (ch_verified c)) as [|leaf rest] eqn:Er; [injection H as <- <-; split; [constructor|]; intros l [=]|].
    unfold mbind at 1 in H.
    destruct ((match marks_of leaf with Some ms => count_marks E O fuel V ask x mark ms acc | None => ret acc end) s)
      as [s1 r1] eqn:E1.
    assert (A : reach s s1 /\ forall l, r1 = Ok l -> forall i, In i l -> In i acc \/
       (i = x /\ exists ms t s1 s2 p, marks_of leaf = Some ms /\ In t ms /\ reach s s1 /\
          verify_trust_mark E O fuel V ask t true s1 = (s2, Ok (Some p)) /\ dget "id" p = Some (VStr mark))).
    { destruct (marks_of leaf) as [ms|] eqn:Em; [|injection E1 as <- <-; split; [constructor|]; intros l [= <-]; auto].
      apply count_marks_ok in E1. destruct E1 as [R Hl]. split; [exact R|]. intros l Hl' i Hi.
      destruct (Hl l Hl' i Hi) as [Ha|(-> & t & t1 & t2 & p & Ht)]; [auto|]. right. split; [reflexivity|].
      exists ms, t, t1, t2, p. tauto. }
    clear E1. destruct A as [R1 A]. destruct r1 as [acc'|e]; [|injection H as <- <-; split; [exact R1|]; intros l [=]].
    specialize (A acc' eq_refl).
    assert (Hc' : forall i, In i ids -> exists c cs, dget i (f_chains s1) = Some (c :: cs)).
    { intros i Hi. destruct (Hc i (or_intror Hi)) as (c' & cs' & Hd). exists c', cs'. exact (reach_keeps _ _ _ _ R1 Hd). }
    destruct (IH _ _ _ _ Hc' H) as [R Hl]. split; [exact (reach_trans _ _ _ R1 R)|].
    intros l Hr. destruct (Hl l Hr) as (ids' & -> & Hi). exists ids'. split; [reflexivity|]. intros i Hin.
    destruct (Hi i Hin) as [Ha|(Hii & c' & cs' & leaf' & rest' & ms & t & t1 & t2 & p & H1 & H2 & H3 & H4 & H5 & H6)].
    + destruct (A i Ha) as [Hacc|(-> & ms & t & t1 & t2 & p & H1 & H2 & H3 & H4)]; [auto|]. right. split; [left; reflexivity|].
      exists c, cs, leaf, rest, ms, t, t1, t2, p. auto 10.
    + right. split; [right; exact Hii|]. destruct (Hc i (or_intror Hii)) as (c2 & cs2 & Hd).
      rewrite (reach_keeps _ _ _ _ R1 Hd) in H1. injection H1 as -> ->.
      exists c', cs', leaf', rest', ms, t, t1, t2, p. split; [exact Hd|]. split; [exact H2|]. split; [exact H3|].
      split; [exact H4|]. split; [exact (reach_trans _ _ _ R1 H5)|]. exact H6.
Qed.

(** *** A request that is answered *)

Lemma who_ok n C q anchor s s' resp :
  who E O fuel prio L V ask marks_of n C q anchor s = (s', Ok resp) ->
  exists ids s1 s2 s3 listed servers srv,
    resp = Use ids /\
    below_anchor E O fuel prio L (wc_me C) anchor s = (s1, Ok listed) /\
    find_servers E O fuel prio L n (wc_me C) listed (asked (wq_type q) (wc_type C)) s1 = (s2, Ok servers) /\
    reach s s3 /\
    (asked (wq_credential q) (wc_credential C) = "" -> srv = []) /\
    (asked (wq_credential q) (wc_credential C) <> "" -> NoDup srv /\
     forall i, In i srv <-> In i servers /\ exists c cs, dget i (f_chains s3) = Some (c :: cs) /\
                                         credential_offered (ch_md c) (asked (wq_credential q) (wc_credential C))) /\
    (asked (wq_mark q) (wc_mark C) = "" -> ids = srv) /\
    (asked (wq_mark q) (wc_mark C) <> "" -> forall i, In i ids -> In i srv /\
       exists c cs leaf rest ms t s4 s5 p, dget i (f_chains s3) = Some (c :: cs) /\ rev (ch_verified c) = leaf :: rest /\
          marks_of leaf = Some ms /\ In t ms /\ reach s s4 /\
          verify_trust_mark E O fuel V ask t true s4 = (s5, Ok (Some p)) /\
          dget "id" p = Some (VStr (asked (wq_mark q) (wc_mark C)))).
Proof.
  unfold who. intros H. apply bind_ok_m in H. destruct H as (s1 & listed & H1 & H).
  apply bind_ok_m in H. destruct H as (s2 & servers & H2 & H). cbv zeta in H.
  set (cr := asked (wq_credential q) (wc_credential C)) in *. set (mk := asked (wq_mark q) (wc_mark C)) in *.
  assert (R2 := reach_trans _ _ _ (below_anchor_reach _ _ _ _ _ H1) (find_servers_reach _ _ _ _ _ _ _ H2)).
  apply bind_ok_m in H. destruct H as (s3 & srv & H3 & H).
  assert (A : reach s2 s3 /\ (cr = "" -> srv = []) /\
     (cr <> "" -> NoDup srv /\ forall i, In i srv <-> In i servers /\ exists c cs, dget i (f_chains s3) = Some (c :: cs) /\ credential_offered (ch_md c) cr)).
  { destruct (String.eqb_spec cr "") as [Ec|Nc].
    - injection H3 as <- <-. split; [constructor|]. split; [reflexivity|]. intros X. contradiction.
    - destruct (with_credential_ok _ _ _ _ _ H3) as (R & N & Hi). split; [exact R|]. split; [intros X; contradiction|]. auto. }
  destruct A as (R3 & A1 & A2). assert (R := reach_trans _ _ _ R2 R3).
  destruct (String.eqb_spec mk "") as [Em|Nm].
  - injection H as <- <-. exists srv, s1, s2, s3, listed, servers, srv. split; [reflexivity|].
    do 5 (split; [assumption|]). split; [reflexivity|]. intros X. contradiction.
  - apply bind_ok_m in H. destruct H as (s4 & r & H4 & H).
    assert (Hc : forall i, In i srv -> exists c cs, dget i (f_chains s3) = Some (c :: cs)).
    { intros i Hi. destruct (string_dec cr "") as [Ec|Nc]; [rewrite (A1 Ec) in Hi; destruct Hi|].
      apply (proj2 (A2 Nc)) in Hi. destruct Hi as (_ & c & cs & Hd & _). eauto. }
    destruct (with_mark_ok mk _ _ _ _ _ Hc H4) as [R4 Hl]. destruct (Hl r eq_refl) as (ids & -> & Hi).
    injection H as <- <-. exists ids, s1, s2, s3, listed, servers, srv. split; [reflexivity|].
    do 5 (split; [assumption|]). split; [intros X; contradiction|]. intros _ i Hin. destruct (Hi i Hin) as [[]|(Hs & c & cs & leaf & rest & ms & t & t1 & t2 & p & D & D2 & D3 & D4 & D5 & D6)].
    split; [exact Hs|]. exists c, cs, leaf, rest, ms, t, t1, t2, p. repeat (split; [assumption|]).
    split; [exact (reach_trans _ _ _ R D5)|exact D6].
Qed.

End Reach.
