(** Property C31: the chains of a tree of superiors. *)
From Verif Require Import TreeModel.
From Coq Require Import Lia.

(** ** Specification *)

(** [path t c]: going up in [t] to the end of one of its branches passes the statements [c],
    listed top down *)
Inductive path {A} : tree A -> list A -> Prop :=
| path_none : forall bs a, In (a, None) bs -> path (T bs) []
| path_end : forall bs a s, In (a, Some (s, T [])) bs -> path (T bs) [s]
| path_step : forall bs a s t p,
    In (a, Some (s, t)) bs -> branches t <> [] -> path t p -> path (T bs) (p ++ [s]).

(** number of ends of a tree *)
Fixpoint ends {A} (t : tree A) : nat :=
  match t with
  | T bs => list_sum (map (fun b => match snd b with
                                    | None => 1
                                    | Some (_, u) => match u with T [] => 1 | T _ => ends u end
                                    end) bs)
  end.

Section Ind.
Context {A : Type} (P : tree A -> Prop).
Context (H : forall bs, (forall a s t, In (a, Some (s, t)) bs -> P t) -> P (T bs)).

Fixpoint tree_ind' (t : tree A) : P t :=
  match t with
  | T bs =>
      H bs ((fix go (l : list (string * option (A * tree A)))
               : forall a s t, In (a, Some (s, t)) l -> P t :=
               match l return forall a s t, In (a, Some (s, t)) l -> P t with
               | [] => fun a s t Hin => match Hin with end
               | b :: l' =>
                   fun a s t Hin =>
                     match Hin with
                     | or_introl E =>
                         match b as b0 return b0 = (a, Some (s, t)) -> P t with
                         | (a0, Some (s0, t0)) => fun E0 =>
                             eq_ind t0 P (tree_ind' t0) t
                               (f_equal (fun x => match snd x with
                                                  | Some (_, u) => u | None => t0 end) E0)
                         | (a0, None) => fun E0 =>
                             False_ind _ (eq_ind None (fun o => match o with None => True | Some _ => False end) I _ (f_equal snd E0))
                         end E
                     | or_intror Hin' => go l' a s t Hin'
                     end
               end) bs)
  end.
End Ind.

Lemma chains_path : forall A (t : tree A) c, In c (tree2chains t) <-> path t c.
Proof.
  intros A t. induction t as [bs IH] using tree_ind'. intros c.
  cbn [tree2chains]. rewrite in_flat_map. split.
  - intros ((a & b) & Hb & Hc). cbn [snd] in Hc. destruct b as [[s t]|].
    + destruct t as [[|b0 bs0]].
      * destruct Hc as [<-|[]]. eapply path_end; eauto.
      * apply in_map_iff in Hc. destruct Hc as (p & <- & Hp).
        eapply path_step; [exact Hb|discriminate|]. apply (IH _ _ _ Hb). exact Hp.
    + destruct Hc as [<-|[]]. eapply path_none; eauto.
  - intros Hp. inversion Hp as [bs' a Hin E1 E2|bs' a s Hin E1 E2|bs' a s t p Hin Hn Hp' E1 E2]; subst.
    + exists (a, None). split; [exact Hin|]. left. reflexivity.
    + exists (a, Some (s, T [])). split; [exact Hin|]. left. reflexivity.
    + exists (a, Some (s, t)). split; [exact Hin|]. cbn [snd].
      destruct t as [[|b0 bs0]]; [contradiction Hn; reflexivity|].
      apply in_map_iff. exists p. split; [reflexivity|]. apply (IH _ _ _ Hin). exact Hp'.
Qed.

Lemma chains_count : forall A (t : tree A), length (tree2chains t) = ends t.
Proof.
  intros A t. induction t as [bs IH] using tree_ind'. cbn [tree2chains ends].
  induction bs as [|[a b] bs IHb]; [reflexivity|].
  cbn [flat_map map list_sum fold_right snd]. rewrite app_length.
  rewrite IHb by (intros a' s' t' Hin; eapply IH; right; exact Hin). f_equal.
  destruct b as [[s t]|]; [|reflexivity].
  destruct t as [[|b0 bs0]]; [reflexivity|]. rewrite map_length.
  apply (IH a s). left. reflexivity.
Qed.

(** ** C31 *)

Theorem C31_chains_are_paths : forall A (t : tree A) c, In c (tree2chains t) <-> path t c.
Proof. exact chains_path. Qed.

Theorem C31_one_chain_per_end : forall A (t : tree A), length (tree2chains t) = ends t.
Proof. exact chains_count. Qed.

(** the order of the chains is the order of the branches *)
Theorem C31_order : forall A (bs1 bs2 : list (string * option (A * tree A))),
  tree2chains (T (bs1 ++ bs2)) = tree2chains (T bs1) ++ tree2chains (T bs2).
Proof. intros A bs1 bs2. cbn [tree2chains]. apply flat_map_app. Qed.

(** the statement about the entity at the root comes last in all its chains *)
Theorem C31_nearest_to_the_anchor_first : forall A a (s : A) t c,
  In c (tree2chains (T [(a, Some (s, t))])) <->
  (branches t = [] /\ c = [s]) \/
  (branches t <> [] /\ exists c', In c' (tree2chains t) /\ c = c' ++ [s]).
Proof.
  intros A a s t c. rewrite chains_path. split.
  - intros H. inversion H as [bs' x Hin|bs' x s' Hin|bs' x s' t' p Hin Hn Hp]; subst;
      destruct Hin as [Hin|[]]; try discriminate; injection Hin as <- <-; subst.
    + left. split; reflexivity.
    + right. split; [exact Hn|]. exists p. split; [apply chains_path; exact Hp|reflexivity].
  - intros [[E ->]|(Hn & c' & Hc & ->)].
    + destruct t as [bs]. simpl in E. subst bs. eapply path_end. left. reflexivity.
    + eapply path_step; [left; reflexivity|exact Hn|]. apply chains_path. exact Hc.
Qed.

(** tests/test_04_tree2chains.py, and a branch that could not be followed *)
Example C31_ex :
  tree2chains (T [("rp", Some (1, T [("im1", Some (2, T [("anchor1", Some (3, T []))]));
                                     ("im2", Some (5, T [("anchor2", Some (4, T [])); ("x", None)]))]))])
  = [[3; 2; 1]; [4; 5; 1]; [5; 1]].
Proof. reflexivity. Qed.

Print Assumptions C31_chains_are_paths.
Print Assumptions C31_one_chain_per_end.
Print Assumptions C31_order.
Print Assumptions C31_nearest_to_the_anchor_first.
