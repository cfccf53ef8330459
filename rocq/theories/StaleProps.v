(** Coming back to a federation after a long time (C171). *)
From Verif Require Import PyFacts CollectorProps TreeProps VerifierFacts FederationProps RevokeProps StaleFacts.
From Verif Require Export StaleSpec.
From Coq Require Import Lia.

(** ** C171 *)

(** When everything that an entity was told has ended, it sees the federation as somebody sees it who comes
    new to it with the same keys: every later question has the same answer. *)
Definition C171_full : Prop := forall E O steps s0 later,
  newborn s0 -> forwards E -> (0 <= e_delta E)%Z -> clean_net E -> clean_steps steps -> clean_steps later ->
  let s := after_steps E O steps s0 in
  dated_over E (st_tick (f_col s)) -> all_dated E (st_tick (f_col s)) ->
  results E O later s = results E O later (newcomer s).

(** rp moves from im to ib at request 20, long after everything that was said before has ended *)
Definition moved_before : request -> response := says
  [("rp/wk", TJws 3 (ec "rp" 3 1000 (Some ["im"]))); ("im/wk", TJws 2 (ec "im" 2 1000 (Some ["ta"])));
   ("ib/wk", TJws 4 (ec "ib" 4 1000 (Some ["ta"]))); ("ta/wk", TJws 1 (ec "ta" 1 1000 None))]
  [("im", "rp", TJws 2 (est "im" "rp" 900 [3])); ("ta", "im", TJws 1 (est "ta" "im" 900 [2]));
   ("ta", "ib", TJws 1 (est "ta" "ib" 900 [4]))].

Definition moved_after : request -> response := says
  [("rp/wk", TJws 3 (ec "rp" 3 9000 (Some ["ib"]))); ("im/wk", TJws 2 (ec "im" 2 9000 (Some ["ta"])));
   ("ib/wk", TJws 4 (ec "ib" 4 9000 (Some ["ta"]))); ("ta/wk", TJws 1 (ec "ta" 1 9000 None))]
  [("ib", "rp", TJws 4 (est "ib" "rp" 9000 [3])); ("ta", "im", TJws 1 (est "ta" "im" 9000 [2]));
   ("ta", "ib", TJws 1 (est "ta" "ib" 9000 [4]))].

Definition turn (before after : request -> response) : cenv :=
  env_of (fun n => if Nat.ltb n 20 then before else after) (fun n => if Nat.ltb n 20 then 0%Z else 2000%Z).

Definition moved : cenv := turn moved_before moved_after.

Lemma turn_forwards b a : forwards (turn b a).
Proof. intros n m H. cbn [turn env_of e_clock]. destruct (Nat.ltb_spec n 20), (Nat.ltb_spec m 20); lia. Qed.

Lemma moved_docs n u t : e_net moved n (QDoc u) = RText (Some t) ->
  exists id k x h, t = TJws k (ec id k x h) /\ (n < 20 -> x = 1000%Z) /\ (forall l a, h = Some l -> In a l -> clean a).
Proof.
  cbn [moved turn env_of e_net]. destruct (Nat.ltb_spec n 20) as [L|L]; intros H; apply says_doc in H;
    destruct H as [H|[H|[H|[H|[]]]]]; injection H as _ <-;
    do 4 eexists; (split; [reflexivity|]); (split; [intros; try lia; reflexivity|]);
    intros l a; [| | |discriminate| | | |discriminate]; intros [= <-] [<-|[]]; reflexivity.
Qed.

Lemma moved_fetch n ep a e t : e_net moved n (QFetch ep a e) = RText (Some t) ->
  exists k x ks, t = TJws k (est a e x ks) /\ (n < 20 -> x = 900%Z).
Proof.
  cbn [moved turn env_of e_net]. destruct (Nat.ltb_spec n 20) as [L|L]; intros H; apply says_fetch in H;
    repeat (destruct H as [[= <- <- <-]|H];
            [do 3 eexists; split; [reflexivity|intros; try lia; reflexivity]|]); destruct H.
Qed.

Lemma moved_clean : clean_net moved.
Proof.
  intros n u k p l a H Hl Hin. apply moved_docs in H. destruct H as (id & k' & x & h & [= _ ->] & _ & Hc).
  exact (Hc l a Hl Hin).
Qed.

Lemma moved_over : dated_over moved 20 /\ all_dated moved 20.
Proof.
  split.
  - intros m q k p z L H Hz. cbn [moved turn env_of e_clock e_delta]. rewrite Nat.ltb_irrefl.
    destruct q as [u|ep a e].
    + apply moved_docs in H. destruct H as (id & k' & x & h & [= _ ->] & Hx & _). cbn in Hz. injection Hz as <-.
      rewrite Hx by exact L. lia.
    + apply moved_fetch in H. destruct H as (k' & x & ks & [= _ ->] & Hx). cbn in Hz. injection Hz as <-.
      rewrite Hx by exact L. lia.
  - intros m q k p L H. destruct q as [u|ep a e].
    + apply moved_docs in H. destruct H as (id & k' & x & h & [= _ ->] & _). discriminate.
    + apply moved_fetch in H. destruct H as (k' & x & ks & [= _ ->] & _). discriminate.
Qed.

(** chains that are stored are returned for ever *)
Definition idle (st : step) (s : fstate) (E : cenv) : list step :=
  st :: repeat Wait (20 - st_tick (f_col (do_step E id_order s st))).

Definition asked_first : list step := idle (Ask 9 "rp") knows_ta moved.
Definition looked_first : list step := idle (Look 9 "rp") knows_ta moved.
Notation s_asked := (after_steps moved id_order asked_first knows_ta).
Notation s_looked := (after_steps moved id_order looked_first knows_ta).

Definition names (r : option (res (list tchain))) : option (list (list (string * string))) :=
  match r with Some (Ok cs) => Some (map (fun c => map between (ch_verified c)) cs) | _ => None end.

Lemma asked_tick : st_tick (f_col s_asked) = 20. Proof. vm_compute. reflexivity. Qed.
Lemma looked_tick : st_tick (f_col s_looked) = 20. Proof. vm_compute. reflexivity. Qed.

Lemma asked_names :
  map names (results moved id_order [Ask 9 "rp"] s_asked) = [Some [[("ta", "im"); ("im", "rp"); ("rp", "rp")]]] /\
  map names (results moved id_order [Ask 9 "rp"] (newcomer s_asked))
  = [Some [[("ta", "ib"); ("ib", "rp"); ("rp", "rp")]]].
Proof. split; vm_compute; reflexivity. Qed.

Lemma idle_clean st s E : (forall id, asked_for st = Some id -> clean id) -> clean_steps (idle st s E).
Proof.
  intros H st' id [<-|Hin] Ha; [apply H, Ha|]. apply repeat_spec in Hin. subst st'. discriminate.
Qed.

Lemma one_clean st : (forall id, asked_for st = Some id -> clean id) -> clean_steps [st].
Proof. intros H st' id [<-|[]] Ha. apply H, Ha. Qed.

Theorem C171_stored_refuted : ~ C171_full.
Proof.
  intros H. assert (G := H moved id_order asked_first knows_ta [Ask 9 "rp"]). cbv zeta in G.
  rewrite asked_tick in G. destruct asked_names as [N1 N2].
  rewrite G in N1.
  - rewrite N2 in N1. discriminate N1.
  - repeat split.
  - apply turn_forwards.
  - cbn. lia.
  - apply moved_clean.
  - apply idle_clean. intros id [= <-]. reflexivity.
  - apply one_clean. intros id [= <-]. reflexivity.
  - apply moved_over.
  - apply moved_over.
Qed.

(** nor does it hold for questions that look again: a configuration without an end is never let go *)
Definition C171_looking : Prop := forall E O steps s0 fuel id,
  newborn s0 -> forwards E -> (0 <= e_delta E)%Z -> clean_net E -> clean_steps steps -> clean id ->
  let s := after_steps E O steps s0 in
  dated_over E (st_tick (f_col s)) ->
  snd (get_verified_trust_chains E O fuel id s) = snd (get_verified_trust_chains E O fuel id (newcomer s)).

(** rp forgot the end of its configuration, and has corrected that long ago *)
Definition undated_before : request -> response := says
  [("rp/wk", TJws 3 (mkStmt "rp" "rp" None (Some [3]) None None None (Some ["ta"])));
   ("ta/wk", TJws 1 (ec "ta" 1 1000 None))]
  [("ta", "rp", TJws 1 (est "ta" "rp" 900 [3]))].
Definition undated_after : request -> response := says
  [("rp/wk", TJws 3 (ec "rp" 3 9000 (Some ["ta"]))); ("ta/wk", TJws 1 (ec "ta" 1 9000 None))]
  [("ta", "rp", TJws 1 (est "ta" "rp" 9000 [3]))].
Definition undated : cenv := turn undated_before undated_after.

Lemma undated_net n q k p : e_net undated n q = RText (Some (TJws k p)) ->
  (forall z, n < 20 -> s_exp p = Some z -> (z <= 1000)%Z) /\ (forall l a, s_hints p = Some l -> In a l -> a = "ta").
Proof.
  cbn [undated turn env_of e_net]. destruct (Nat.ltb_spec n 20) as [L|L]; intros H;
    (destruct q as [u|ep i x]; [apply says_doc in H|apply says_fetch in H]);
    repeat (destruct H as [H|H];
            [injection H as; subst; split; cbn;
             [intros z ?; try lia; intros [= <-]; lia|
              intros l a; try discriminate; intros [= <-] [<-|[]]; reflexivity]|]); destruct H.
Qed.

Definition undated_first : list step := idle (Look 9 "rp") knows_ta undated.
Notation s_undated := (after_steps undated id_order undated_first knows_ta).
Lemma undated_tick : st_tick (f_col s_undated) = 20. Proof. vm_compute. reflexivity. Qed.

Theorem C171_undated_refuted : ~ C171_looking.
Proof.
  intros H. assert (G := H undated id_order undated_first knows_ta 9 "rp"). cbv zeta in G.
  rewrite undated_tick in G.
  assert (N1 : is_ok (snd (get_verified_trust_chains undated id_order 9 "rp" s_undated)) = false) by (vm_compute; reflexivity).
  assert (N2 : is_ok (snd (get_verified_trust_chains undated id_order 9 "rp" (newcomer s_undated))) = true)
    by (vm_compute; reflexivity).
  rewrite G in N1; [rewrite N2 in N1; discriminate N1| | | | | | |].
  - repeat split.
  - apply turn_forwards.
  - cbn. lia.
  - intros n u k p l a Hn Hl Hin. destruct (undated_net _ _ _ _ Hn) as [_ Ha]. rewrite (Ha l a Hl Hin). reflexivity.
  - apply idle_clean. intros id [= <-]. reflexivity.
  - reflexivity.
  - intros m q k p z L Hn Hz. destruct (undated_net _ _ _ _ Hn) as [Hx _]. specialize (Hx z L Hz).
    cbn [undated turn env_of e_clock e_delta]. rewrite Nat.ltb_irrefl. lia.
Qed.

(** Missing: entities of which chains are stored, and servers that leave out the end.  What holds: for every
    history and every later list of questions, the answers are those that a newcomer gets, as long as chains
    are asked for only of entities of which none were stored. *)
Theorem C171_like_new_partial : forall E O steps s0 later,
  newborn s0 -> forwards E -> (0 <= e_delta E)%Z -> clean_net E -> clean_steps steps -> clean_steps later ->
  let s := after_steps E O steps s0 in
  dated_over E (st_tick (f_col s)) -> all_dated E (st_tick (f_col s)) -> none_stored s later ->
  results E O later s = results E O later (newcomer s).
Proof.
  intros E O steps s0 later Hn FW DL HC Hst Hl s Hov Hda Hno.
  apply (twins_results E (st_tick (f_col s)) FW DL HC O (f_chains s) later Hl Hno).
  split; [exact (fi_later E _ 0 _ (fi_run E O steps s0 Hn HC Hst) (Nat.le_0_l _))|].
  split; [|split; [reflexivity|intros id Hid; exact Hid]].
  apply kept_over; [exact DL| |exact Hov|exact Hda]. apply kept_steps; [exact HC|exact Hst|]. apply kept_start, Hn.
Qed.

Example C171_ex :
  newborn knows_ta /\ forwards moved /\ clean_net moved /\ clean_steps looked_first /\
  dated_over moved (st_tick (f_col s_looked)) /\ all_dated moved (st_tick (f_col s_looked)) /\
  none_stored s_looked [Look 9 "rp"; Wait; Ask 9 "im"; Ask 9 "rp"; Ask 9 "rp"] /\
  length (st_cfg (f_col s_looked)) = 3 /\
  map names (results moved id_order looked_first knows_ta)
  = Some [[("ta", "im"); ("im", "rp"); ("rp", "rp")]] :: repeat None (length looked_first - 1) /\
  map names (results moved id_order [Look 9 "rp"; Wait; Ask 9 "im"; Ask 9 "rp"; Ask 9 "rp"] s_looked)
  = [Some [[("ta", "ib"); ("ib", "rp"); ("rp", "rp")]]; None; Some [[("ta", "im"); ("im", "im")]];
     Some [[("ta", "ib"); ("ib", "rp"); ("rp", "rp")]]; Some [[("ta", "ib"); ("ib", "rp"); ("rp", "rp")]]].
Proof.
  rewrite looked_tick. split; [repeat split|]. split; [apply turn_forwards|]. split; [apply moved_clean|].
  split; [apply idle_clean; intros id [= <-]; reflexivity|]. split; [apply moved_over|]. split; [apply moved_over|].
  split; [intros fuel id _; vm_compute; reflexivity|]. split; [vm_compute; reflexivity|]. split; vm_compute; reflexivity.
Qed.

Print Assumptions C171_stored_refuted.
Print Assumptions C171_undated_refuted.
Print Assumptions C171_like_new_partial.
