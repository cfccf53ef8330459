(** The expiring cache as a map with expiry (C37). *)
From Verif Require Import PyFacts.
From Verif Require Export CacheModel.
From Coq Require Import Lia Sorted.

(** ** The abstract map, independent of the model: the last value stored and not deleted since *)
Inductive stored {A} (k : string) : list (Z * @cop A) -> option A -> Prop :=
| stored_nil : stored k [] None
| stored_set h t v : stored k (h ++ [(t, OpSet k v)]) (Some v)
| stored_del h t : stored k (h ++ [(t, OpDel k)]) None
| stored_skip h t o x : stored k h x ->
    (match o with OpSet k' _ => k' <> k | OpDel k' => k' <> k | OpGetitem _ => True end) ->
    stored k (h ++ [(t, o)]) x.

Ltac sorted := simpl;
  repeat first [apply SSorted_nil|apply SSorted_cons|apply Forall_nil|apply Forall_cons|lia].

Definition clock_ok {A} (h : list (Z * @cop A)) (now : Z) : Prop :=
  StronglySorted Z.le (map fst h ++ [now]).

(** what a user expects of a value with an exp claim, whatever its class *)
Definition fresh {A} (exp_of : A -> option Z) (delta now : Z) (v : A) : Prop :=
  match exp_of v with Some e => (now < e - delta)%Z | None => True end.

Definition C37_full : Prop := forall A (class_of : A -> vclass) (exp_of : A -> option Z) delta h now k x,
  clock_ok h now -> stored k h x ->
  match x with
  | None => snd (cache_getitem class_of exp_of delta now k (cache_run class_of exp_of delta h [])) = Ok None
  | Some v =>
      (fresh exp_of delta now v ->
       snd (cache_getitem class_of exp_of delta now k (cache_run class_of exp_of delta h [])) = Ok (Some v)) /\
      (~ fresh exp_of delta now v ->
       snd (cache_getitem class_of exp_of delta now k (cache_run class_of exp_of delta h [])) = Ok None)
  end.

(** the entry the client service stores is a Message and is never too old *)
Theorem C37_map_with_expiry_refuted : ~ C37_full.
Proof.
  intros H.
  destruct (H Z (fun _ => CMessage) (fun e => Some e) 300%Z [(0%Z, OpSet "k" 100%Z)] 5000%Z "k"
              (Some 100%Z)) as [_ E].
  - unfold clock_ok. sorted.
  - apply (stored_set "k" [] 0%Z 100%Z).
  - unfold fresh in E. assert (X : ~ (5000 < 100 - 300)%Z) by lia. specialize (E X). discriminate.
Qed.

Section Facts.
Context {A : Type} (class_of : A -> vclass) (exp_of : A -> option Z) (delta : Z).

(** the values for which the class does not matter: dictionaries with exp, others without *)
Definition plain_or_dict (v : A) : Prop :=
  match class_of v with
  | CDict => exp_of v <> None
  | _ => exp_of v = None
  end.

Definition ops_ok (h : list (Z * @cop A)) : Prop :=
  forall t k v, In (t, OpSet k v) h -> plain_or_dict v.

Lemma run_snoc h o c :
  cache_run class_of exp_of delta (h ++ [o]) c
  = cache_step class_of exp_of delta (cache_run class_of exp_of delta h c) o.
Proof. unfold cache_run. rewrite fold_left_app. reflexivity. Qed.

Lemma sorted_init l x y :
  StronglySorted Z.le ((l ++ [x]) ++ [y]) -> StronglySorted Z.le (l ++ [x]) /\ (x <= y)%Z.
Proof.
  induction l as [|a l IH]; simpl; intros H; inversion H as [|? ? Hs Hf]; subst.
  - split; [sorted|]. inversion Hf; assumption.
  - destruct (IH Hs) as [H1 H2]. split; [|exact H2]. constructor; [exact H1|].
    rewrite Forall_app in Hf. apply (proj1 Hf).
Qed.

(** invariant: the entry is the stored value, or it is gone and was outdated at an earlier time *)
Lemma run_inv h now k x :
  ops_ok h -> clock_ok h now -> stored k h x ->
  dget k (cache_run class_of exp_of delta h []) = x \/
  dget k (cache_run class_of exp_of delta h []) = None /\
  exists v e, x = Some v /\ exp_of v = Some e /\ ~ (now < e - delta)%Z.
Proof.
  intros Hops Hc Hs. revert now Hops Hc. induction Hs as [|h t v|h t|h t o x Hs IH Ho];
    intros now Hops Hc.
  - left; reflexivity.
  - left. rewrite run_snoc. simpl. apply dget_dset_same.
  - left. rewrite run_snoc. unfold cache_step; simpl. unfold cache_delitem.
    destruct (dmem k _) eqn:E; simpl; [apply dget_ddel_same|apply dmem_false; exact E].
  - unfold clock_ok in Hc. rewrite map_app in Hc. simpl in Hc. apply sorted_init in Hc.
    destruct Hc as [Hc Ht].
    assert (Hops' : ops_ok h)
      by (intros t' k' v' Hin; apply (Hops t' k' v'), in_or_app; left; exact Hin).
    specialize (IH t Hops' Hc). rewrite run_snoc.
    destruct o as [k' v|k'|k']; unfold cache_step; simpl.
    + unfold cache_set. rewrite dget_dset_other by congruence.
      destruct IH as [IH|(IH & v' & e & E1 & E2 & E3)]; [left; exact IH|right].
      split; [exact IH|]. exists v', e. repeat split; try assumption. lia.
    + set (c := cache_run class_of exp_of delta h []) in *. unfold cache_getitem.
      destruct (dget k' c) as [v|] eqn:Ev; simpl.
      * assert (Keep : dget k c = x \/ dget k c = None /\
                  exists v e, x = Some v /\ exp_of v = Some e /\ ~ (now < e - delta)%Z).
        { destruct IH as [IH|(IH & v' & e & E1 & E2 & E3)]; [left; exact IH|right].
          split; [exact IH|]. exists v', e. repeat split; try assumption. lia. }
        destruct (class_of v) eqn:Ecl; simpl; [|exact Keep|exact Keep].
        destruct (exp_of v) as [e|] eqn:Ee; [|exact Keep].
        destruct (Z.ltb_spec t (e - delta)) as [Hlt|Hge]; simpl; [exact Keep|].
        destruct (string_dec k k') as [->|N].
        -- right. split; [apply dget_ddel_same|].
           destruct IH as [IH|(IH & _)]; [|congruence].
           exists v, e. split; [congruence|]. split; [exact Ee|lia].
        -- rewrite dget_ddel_other by exact N. exact Keep.
      * destruct IH as [IH|(IH & v' & e & E1 & E2 & E3)]; [left; exact IH|right].
        split; [exact IH|]. exists v', e. repeat split; try assumption. lia.
    + unfold cache_delitem. destruct (dmem k' _) eqn:E; simpl.
      * rewrite dget_ddel_other by congruence.
        destruct IH as [IH|(IH & v' & e & E1 & E2 & E3)]; [left; exact IH|right].
        split; [exact IH|]. exists v', e. repeat split; try assumption. lia.
      * destruct IH as [IH|(IH & v' & e & E1 & E2 & E3)]; [left; exact IH|right].
        split; [exact IH|]. exists v', e. repeat split; try assumption. lia.
Qed.

Lemma stored_in (h : list (Z * @cop A)) k v : stored k h (Some v) -> exists t, In (t, OpSet k v) h.
Proof.
  intros H. remember (Some v) as x eqn:Ex. induction H as [|h t w|h t|h t o x Hs IH Ho].
  - discriminate.
  - injection Ex as <-. exists t. apply in_or_app. right. left. reflexivity.
  - discriminate.
  - destruct (IH Ex) as [t' Hin]. exists t'. apply in_or_app. left. exact Hin.
Qed.

End Facts.

(** Missing: Messages, which never expire, and dictionaries without exp, which raise. *)
Theorem C37_map_with_expiry_partial :
  forall A (class_of : A -> vclass) (exp_of : A -> option Z) delta h now k x,
  ops_ok class_of exp_of h -> clock_ok h now -> stored k h x ->
  match x with
  | None => snd (cache_getitem class_of exp_of delta now k (cache_run class_of exp_of delta h [])) = Ok None
  | Some v =>
      (fresh exp_of delta now v ->
       snd (cache_getitem class_of exp_of delta now k (cache_run class_of exp_of delta h [])) = Ok (Some v)) /\
      (~ fresh exp_of delta now v ->
       snd (cache_getitem class_of exp_of delta now k (cache_run class_of exp_of delta h [])) = Ok None)
  end.
Proof.
  intros A class_of exp_of delta h now k x Hops Hc Hs.
  destruct (run_inv class_of exp_of delta h now k x Hops Hc Hs) as [E|(E & v & e & -> & Ee & Hn)];
    unfold cache_getitem; rewrite E.
  - destruct x as [v|]; [|reflexivity].
    destruct (stored_in h k v Hs) as [t Hin]. specialize (Hops t k v Hin).
    unfold plain_or_dict in Hops. unfold fresh.
    destruct (class_of v); simpl.
    + destruct (exp_of v) as [e|]; [|congruence].
      destruct (Z.ltb_spec now (e - delta)); split; intros; try reflexivity; lia.
    + rewrite Hops. split; [reflexivity|intros []; exact I].
    + rewrite Hops. split; [reflexivity|intros []; exact I].
  - unfold fresh. rewrite Ee. split; [intros; contradiction|reflexivity].
Qed.

(** the lookup without expiry ([get]) never invents a value and never loses a fresh one *)
Theorem C37_raw_get : forall A (class_of : A -> vclass) (exp_of : A -> option Z) delta h now k x,
  ops_ok class_of exp_of h -> clock_ok h now -> stored k h x ->
  (forall v, cache_get k (cache_run class_of exp_of delta h []) = Some v -> x = Some v) /\
  (forall v, x = Some v -> fresh exp_of delta now v ->
             cache_get k (cache_run class_of exp_of delta h []) = Some v).
Proof.
  intros A class_of exp_of delta h now k x Hops Hc Hs. unfold cache_get.
  destruct (run_inv class_of exp_of delta h now k x Hops Hc Hs) as [E|(E & v & e & -> & Ee & Hn)];
    rewrite E; split; try congruence.
  intros w [= <-] Hf. unfold fresh in Hf. rewrite Ee in Hf. contradiction.
Qed.

(** Messages and plain values stay until deleted or overwritten *)
Theorem C37_non_dict_kept_forever :
  forall A (class_of : A -> vclass) (exp_of : A -> option Z) delta h now k v,
  stored k h (Some v) -> class_of v <> CDict ->
  snd (cache_getitem class_of exp_of delta now k (cache_run class_of exp_of delta h [])) = Ok (Some v).
Proof.
  intros A class_of exp_of delta h now k v Hs Hcl.
  assert (E : dget k (cache_run class_of exp_of delta h []) = Some v).
  { remember (Some v) as x eqn:Ex. induction Hs as [|h t w|h t|h t o x Hs IH Ho]; try discriminate.
    - rewrite run_snoc. rewrite Ex. injection Ex as ->. apply dget_dset_same.
    - specialize (IH Ex). rewrite run_snoc. unfold cache_step. simpl.
      destruct o as [k' w|k'|k']; simpl.
      + unfold cache_set. rewrite dget_dset_other by congruence. exact IH.
      + unfold cache_getitem. destruct (dget k' _) as [w|] eqn:Ew; [|exact IH].
        destruct (class_of w) eqn:Ec; try exact IH.
        destruct (exp_of w); [|exact IH].
        destruct (Z.ltb _ _); [exact IH|]. simpl.
        destruct (string_dec k k') as [->|N]; [|rewrite dget_ddel_other by exact N; exact IH].
        rewrite IH in Ew. rewrite Ex in Ew. injection Ew as <-. contradiction.
      + unfold cache_delitem. destruct (dmem k' _); simpl; [|exact IH].
        rewrite dget_ddel_other by congruence. exact IH. }
  unfold cache_getitem. rewrite E. destruct (class_of v); [contradiction|reflexivity|reflexivity].
Qed.

(** a stored dictionary is looked up, expires, is looked up again, replaced and looked up *)
Example C37_ex :
  let h := [(0, OpSet "a" 1000); (1, OpSet "b" 5000); (10, OpGetitem "a"); (800, OpGetitem "a");
            (900, OpSet "a" 2000)]%Z in
  clock_ok h 1500%Z /\ stored "a" h (Some 2000%Z) /\ ops_ok (fun _ => CDict) Some h /\
  snd (cache_getitem (fun _ => CDict) Some 300 1500 "a" (cache_run (fun _ => CDict) Some 300 h []))
  = Ok (Some 2000%Z) /\
  snd (cache_getitem (fun _ => CDict) Some 300 1700 "a" (cache_run (fun _ => CDict) Some 300 h []))
  = Ok None /\
  dget "a" (cache_run (fun _ => CDict) Some 300 (firstn 4 h) []) = None.
Proof.
  split; [unfold clock_ok; sorted|].
  split; [apply (stored_set "a" [_; _; _; _])|].
  split; [intros t k v _; discriminate|].
  repeat split; reflexivity.
Qed.

Print Assumptions C37_map_with_expiry_refuted.
Print Assumptions C37_map_with_expiry_partial.
Print Assumptions C37_raw_get.
Print Assumptions C37_non_dict_kept_forever.
