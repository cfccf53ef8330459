(** Properties of the search for entities of a type (C110-C114). *)
From Coq Require Import Lia.
From Verif Require Import PyFacts CollectorProps ExampleKit VerifierFacts.
From Verif Require Export TrawlFacts.

(** ** A small federation: ta above im above op, with list endpoints *)

Definition superior_md (id : string) : metadata :=
  [("federation_fetch_endpoint", VStr (id ++ "/fetch")); ("federation_list_endpoint", VStr (id ++ "/list"))].

Definition conf_of (id : string) (k : key) (md : dict metadata) (hints : option (list string)) : stmt :=
  mkStmt id id (Some 1000%Z) (Some [k]) (Some md) None None hints.

Definition im_conf : stmt := conf_of "im" 2 [("federation_entity", superior_md "im")] (Some ["ta"]).
Definition op_conf : stmt :=
  conf_of "op" 3 [("federation_entity", []); ("openid_provider", [("issuer", VStr "op")])] (Some ["im"]).

Definition small : cenv := ex_env
  [("ta/wk", TJws 1 (conf_of "ta" 1 [("federation_entity", superior_md "ta")] None)); ("im/wk", TJws 2 im_conf);
   ("op/wk", TJws 3 op_conf)]
  [("ta/fetch im", TJws 1 (est "ta" "im" 900 [2])); ("im/fetch op", TJws 2 (est "im" "op" 900 [3]))] ["ta"].

(** [answers] of list endpoints: endpoint -> all, of any type, intermediates *)
Definition says (answers : dict (lresponse * lresponse * lresponse)) : lenv := mkLenv
  (fun _ u q => match dget u answers with
                | Some (a, t, i) => match q with LAll => a | LType _ => t | LIntermediate => i end
                | None => LNoConnection
                end) (fun _ _ => Ok tt) true.

Definition honest : lenv := says
  [("ta/list", (LList ["im"], LList [], LList ["im"])); ("im/list", (LList ["op"], LList ["op"], LList []))].

Definition keys_ta : keyjar := [("ta", [1])].
Definition new_state (kj : keyjar) : fstate := mkFed (mkState [] [] 0) kj [].
(** somebody who has looked at im *)
Definition knows_im (E : cenv) : fstate := fst (get_verified_trust_chains E id_order 9 "im" (new_state keys_ta)).

(** ** C110: where what is found comes from *)

Definition C110_full : Prop := forall E O fuel prio L n superior sub type s s' ids i,
  trawl E O fuel prio L n superior sub type s = (s', Ok ids) -> In i ids ->
  exists y, searched (fun y x => lists E O fuel prio L y LIntermediate x) sub y /\
    (lists E O fuel prio L y (LType type) i \/ is_of_type E L (f_col s) y type i).

(** the list endpoint of im is out of order *)
Definition broken : lenv := says [("im/list", (LError, LError, LList []))].

Theorem C110_listed_refuted : ~ C110_full.
Proof.
  intros H.
  assert (G : exists s', trawl small id_order 9 [] broken 5 "ta" "im" "openid_provider" (knows_im small)
                         = (s', Ok ["error"; "error_description"])) by (eexists; vm_compute; reflexivity).
  destruct G as (s' & G).
  destruct (H _ _ _ _ _ _ _ _ _ _ _ _ "error" G (or_introl eq_refl)) as (y & _ & [(u & n & l & _ & El & Hl)|D]).
  - unfold broken, says, l_net in El. destruct (dget u _) as [[[a t] i]|] eqn:Ed in El; [|discriminate El].
    apply dget_In in Ed. destruct Ed as [Ed|[]]. injection Ed as _ _ <- _. discriminate El.
  - assert (P : forall n u k p, e_net small n (QDoc u) = RText (Some (TJws k p)) -> s_sub p <> "error").
    { intros n u k p Hn. unfold small, ex_env, e_net, static_net in Hn. destruct (dget u _) as [t|] eqn:Ed in Hn; [|discriminate Hn].
      injection Hn as ->. apply dget_In in Ed. destruct Ed as [Ed|[Ed|[Ed|[]]]]; injection Ed as _ _ <-; discriminate. }
    destruct D as (p & m & md & [Ho|(n & a & k & _ & Hn & _)] & _ & _ & Hs); [|exact (P _ _ _ _ Hn Hs)].
    destruct Ho as [(t & n & _ & Hc & k & ks & -> & _)|(e & He & <-)].
    + destruct Hc as [Hc|Hc]; exact (P _ _ _ _ Hc Hs).
    + assert (Q : forall e', In e' (map snd (st_cfg (f_col (knows_im small)))) -> s_sub (ce_stmt e') <> "error").
      { intros e' He'. vm_compute in He'. repeat (destruct He' as [<-|He']; [discriminate|]). destruct He'. }
      apply dget_In in He. apply (in_map snd) in He. exact (Q _ He Hs).
Qed.
Print Assumptions C110_listed_refuted.

(** Missing: the words of an error message are taken for identifiers, and asked about in turn.  What holds: everything
    else was listed as being of the type by an entity of the search, or says of itself that it is, in a configuration found
    for an entity of the search.  The search goes from an entity to those it lists as intermediates. *)
Theorem C110_listed_partial : forall E O fuel prio L n superior sub type s s' ids i,
  trawl E O fuel prio L n superior sub type s = (s', Ok ids) -> In i ids ->
  exists y, searched (fun y x => lists E O fuel prio L y LIntermediate x \/ stray E O fuel prio L y LIntermediate x) sub y /\
    (lists E O fuel prio L y (LType type) i \/ stray E O fuel prio L y (LType type) i \/ is_of_type E L (f_col s) y type i).
Proof.
  intros E O fuel prio L n superior sub type s s' ids i H Hi.
  exact (trawl_sound E O fuel prio L (f_col s) n type _ _ _ _ _ (follows_refl E L _) H i Hi).
Qed.
Print Assumptions C110_listed_partial.

Example C110_ex : exists s',
  trawl small id_order 9 [] honest 5 "ta" "im" "openid_provider" (knows_im small) = (s', Ok ["op"]).
Proof. eexists. vm_compute. reflexivity. Qed.

(** ** C111: the search ends *)

(** with enough depth the outcome of the search is not that the depth is exceeded *)
Definition C111_full : Prop := forall E O fuel prio L superior sub type s,
  exists n, snd (trawl E O fuel prio L n superior sub type s) <> Err RecursionError.

(** im lists itself as one of its intermediates *)
Definition selfish : lenv := says [("im/list", (LList ["op"], LList ["op"], LList ["im"]))].

Definition at_tick (n : nat) (s : fstate) : fstate :=
  mkFed (mkState (st_cfg (f_col s)) (st_es (f_col s)) n) (f_keys s) (f_chains s).

Lemma selfish_forever n : forall t sup, exists s',
  trawl small id_order 9 [] selfish n sup "im" "openid_provider" (at_tick t (knows_im small)) = (s', Err RecursionError).
Proof.
  induction n as [|n IH]; intros t sup; [eexists; reflexivity|]. cbn [trawl].
  assert (C : configuration_of small "im" (introduce small selfish sup "im") (at_tick t (knows_im small))
              = (at_tick t (knows_im small), Ok im_conf)) by (vm_compute; reflexivity).
  unfold mbind at 1. rewrite C. cbn [im_conf conf_of s_metadata s_sub]. unfold mbind at 1, lift at 1. cbv zeta.
  unfold mbind at 1, lift at 1. cbn [dindex dget String.eqb Ascii.eqb Bool.eqb]. cbn [superior_md dmem dget negb].
  assert (L1 : forall t q, do_list small id_order 9 [] selfish "im" q (at_tick t (knows_im small))
             = (at_tick (S t) (knows_im small), Ok (match q with LIntermediate => ["im"] | _ => ["op"] end))).
  { intros t' q. destruct q; vm_compute; reflexivity. }
  change (dmem "federation_list_endpoint" (superior_md "im")) with true. cbn [negb].
  unfold mbind at 1. rewrite L1. unfold mbind at 1. rewrite L1. cbn [mfold]. unfold mbind at 1. unfold mbind at 1.
  destruct (IH (S (S t)) "im") as (s' & Hs). rewrite Hs. exists s'. reflexivity.
Qed.

Theorem C111_ends_refuted : ~ C111_full.
Proof.
  intros H. destruct (H small id_order 9 [] selfish "ta" "im" "openid_provider" (at_tick 0 (knows_im small))) as (n & Hn).
  destruct (selfish_forever n 0 "ta") as (s' & Hs). rewrite Hs in Hn. apply Hn. reflexivity.
Qed.
Print Assumptions C111_ends_refuted.

(** Missing: an intermediate that is listed below itself is searched again and again.  What holds: if the entities the
    search gets to can be ranked so that everybody lists intermediates of lower rank only, any depth greater than the rank
    of the first gives the same outcome. *)
Theorem C111_ends_partial : forall E O fuel prio L superior sub type s (rank : string -> nat) n n',
  (forall y x, searched (fun y x => lists E O fuel prio L y LIntermediate x \/ stray E O fuel prio L y LIntermediate x) sub y ->
     lists E O fuel prio L y LIntermediate x \/ stray E O fuel prio L y LIntermediate x -> rank x < rank y) ->
  rank sub < n -> rank sub < n' ->
  trawl E O fuel prio L n superior sub type s = trawl E O fuel prio L n' superior sub type s.
Proof.
  intros E O fuel prio L superior sub type s rank n n' HR H H'.
  exact (trawl_depth E O fuel prio L type rank n n' superior sub s HR H H').
Qed.
Print Assumptions C111_ends_partial.

Definition rank_small (e : string) : nat := if String.eqb e "im" then 0 else if String.eqb e "ta" then 2 else 1.

(** nobody below im, whatever the list endpoint of im is *)
Definition flat : lenv := says [("im/list", (LList ["op"], LList ["op"], LList []))].

Example C111_ex :
  (forall y x, searched (fun y x => lists small id_order 9 [] flat y LIntermediate x \/ stray small id_order 9 [] flat y LIntermediate x) "im" y ->
     lists small id_order 9 [] flat y LIntermediate x \/ stray small id_order 9 [] flat y LIntermediate x -> rank_small x < rank_small y) /\
  rank_small "im" < 1 /\
  exists s', trawl small id_order 9 [] flat 1 "ta" "im" "openid_provider" (knows_im small) = (s', Ok ["op"]).
Proof.
  split; [|split; [vm_compute; lia|eexists; vm_compute; reflexivity]].
  intros y x _ [(u & n & l & _ & El & Hx)|(u & n & _ & [(El & _)|(El & _)])];
    unfold flat, says, l_net in El; (destruct (dget u _) as [[[a t] i]|] eqn:Ed in El; [|discriminate El]);
    apply dget_In in Ed; destruct Ed as [Ed|[]]; injection Ed as _ _ _ <-; try discriminate El.
  injection El as <-. destruct Hx.
Qed.

(** ** C112: everybody is found *)

Lemma steady_below E O fuel prio L inv dom conf listed type :
  steady E O fuel prio L inv dom conf listed ->
  (forall y ids, below conf listed type y ids -> dom y ->
     exists n0, forall n superior s, n0 <= n -> inv s ->
       exists s', trawl E O fuel prio L n superior y type s = (s', Ok ids) /\ inv s') /\
  (forall ys ids, all_below conf listed type ys ids -> (forall y, In y ys -> dom y) ->
     exists n0, forall n superior s acc, n0 <= n -> inv s ->
       exists s', mfold (fun acc id => do l <- trawl E O fuel prio L n superior id type in ret (acc ++ l)) ys acc s
                  = (s', Ok (acc ++ ids)) /\ inv s').
Proof.
  intros SD. apply below_mut.
  - intros y m fe Hm Hf He D. exists 1. intros [|n] superior s Hn I; [lia|]. cbn [trawl].
    destruct (sd_conf _ _ _ _ _ _ _ _ _ SD superior y s D I) as (s1 & E1 & I1). unfold mbind at 1. rewrite E1, Hm.
    unfold mbind at 1, lift at 1. cbv zeta. unfold mbind at 1, lift at 1, dindex. rewrite Hf. unfold dmem at 1. rewrite He.
    exists s1. split; [reflexivity|exact I1].
  - intros y m fe ep ids Hm Hf He _ IH D. assert (HL : has_list (conf y)) by (exists m, fe, ep; auto). destruct IH as (n0 & IH).
    { intros x Hx. exact (sd_down _ _ _ _ _ _ _ _ _ SD y x D HL Hx). }
    exists (S n0). intros [|n] superior s Hn I; [lia|]. cbn [trawl].
    destruct (sd_conf _ _ _ _ _ _ _ _ _ SD superior y s D I) as (s1 & E1 & I1). unfold mbind at 1. rewrite E1, Hm.
    unfold mbind at 1, lift at 1. cbv zeta. unfold mbind at 1, lift at 1, dindex. rewrite Hf. unfold dmem at 1. rewrite He.
    cbn [negb].
    destruct (sd_list _ _ _ _ _ _ _ _ _ SD y (LType type) s1 D HL I1) as (s2 & E2 & I2). unfold mbind at 1. rewrite E2.
    destruct (sd_list _ _ _ _ _ _ _ _ _ SD y LIntermediate s2 D HL I2) as (s3 & E3 & I3). unfold mbind at 1. rewrite E3.
    destruct (IH n y s3 ((if dmem type m then [s_sub (conf y)] else []) ++ listed y (LType type))) as (s4 & E4 & I4);
      [lia|exact I3|]. exists s4. rewrite E4, <- app_assoc. split; [reflexivity|exact I4].
  - intros _. exists 0. intros n superior s acc _ I. exists s. cbn [mfold]. rewrite app_nil_r. split; [reflexivity|exact I].
  - intros y ys ids ids' _ IH1 _ IH2 D. destruct (IH1 (D y (or_introl eq_refl))) as (n1 & H1).
    destruct IH2 as (n2 & H2); [intros x Hx; apply D; right; exact Hx|].
    exists (n1 + n2). intros n superior s acc Hn I. cbn [mfold].
    destruct (H1 n superior s ltac:(lia) I) as (s1 & E1 & I1). unfold mbind at 1. unfold mbind at 1. rewrite E1. unfold ret at 1.
    destruct (H2 n superior s1 (acc ++ ids) ltac:(lia) I1) as (s2 & E2 & I2). exists s2. rewrite E2, <- app_assoc.
    split; [reflexivity|exact I2].
Qed.

(** in a federation whose members keep giving the same answers, what is listed below an entity is found; an entity
    without metadata as a federation entity has nobody below it *)
Inductive should_find (conf : string -> stmt) (listed : string -> lquery -> list string) (type : string)
  : string -> string -> Prop :=
| sf_self y m md : s_metadata (conf y) = Some m -> dget type m = Some md -> should_find conf listed type y (s_sub (conf y))
| sf_listed y m fe ep i : s_metadata (conf y) = Some m -> dget "federation_entity" m = Some fe ->
    dget "federation_list_endpoint" fe = Some ep -> In i (listed y (LType type)) -> should_find conf listed type y i
| sf_below y m fe ep x i : s_metadata (conf y) = Some m -> dget "federation_entity" m = Some fe ->
    dget "federation_list_endpoint" fe = Some ep -> In x (listed y LIntermediate) -> should_find conf listed type x i ->
    should_find conf listed type y i.

Definition C112_full : Prop := forall E O fuel prio L inv dom conf listed type y (rank : string -> nat),
  steady E O fuel prio L inv dom conf listed -> dom y ->
  (forall y x, dom y -> has_list (conf y) -> In x (listed y LIntermediate) -> rank x < rank y) ->
  exists n0, forall n superior s, n0 <= n -> inv s ->
    exists s' ids, trawl E O fuel prio L n superior y type s = (s', Ok ids) /\
                   forall i, In i ids <-> should_find conf listed type y i.

(** an OP that has no metadata as a federation entity *)
Definition bare_conf : stmt := conf_of "op" 3 [("openid_provider", [("issuer", VStr "op")])] (Some ["im"]).
Definition bare : cenv := ex_env [("op/wk", TJws 3 bare_conf)] [] ["ta"].
Definition bare_state (n : nat) : fstate := mkFed (mkState [("op", mkEntry bare_conf (Some (TJws 3 bare_conf)) CDict)] [] n) [] [].

Theorem C112_found_refuted : ~ C112_full.
Proof.
  intros H.
  destruct (H bare id_order 9 [] (says []) (fun s => exists n, s = bare_state n) (fun y => y = "op") (fun _ => bare_conf)
              (fun _ _ => []) "openid_provider" "op" (fun _ => 0)) as (n0 & G).
  - constructor.
    + intros superior y s -> (n & ->). exists (bare_state n). split; [vm_compute; reflexivity|exists n; reflexivity].
    + intros y q s _ (m & fe & ep & [= <-] & Hf & _). discriminate Hf.
    + intros y x _ _ [].
  - reflexivity.
  - intros y x _ _ [].
  - destruct (G (S n0) "im" (bare_state 0) ltac:(lia) (ex_intro _ 0 eq_refl)) as (s' & ids & G1 & _).
    vm_compute in G1. discriminate G1.
Qed.
Print Assumptions C112_found_refuted.

(** the members of the search have metadata as federation entities *)
Definition federation_entities (dom : string -> Prop) (conf : string -> stmt) : Prop :=
  forall y, dom y -> exists m fe, s_metadata (conf y) = Some m /\ dget "federation_entity" m = Some fe.

Lemma below_exists E O fuel prio L inv dom conf listed type (rank : string -> nat) :
  steady E O fuel prio L inv dom conf listed -> federation_entities dom conf ->
  (forall y x, dom y -> has_list (conf y) -> In x (listed y LIntermediate) -> rank x < rank y) ->
  forall k y, rank y < k -> dom y -> exists ids, below conf listed type y ids.
Proof.
  intros SD FE HR. induction k as [|k IH]; intros y Hk D; [lia|].
  destruct (FE y D) as (m & fe & Hm & Hf). destruct (dget "federation_list_endpoint" fe) as [ep|] eqn:He.
  - assert (HL : has_list (conf y)) by (exists m, fe, ep; auto).
    assert (A : forall ys, (forall x, In x ys -> In x (listed y LIntermediate)) -> exists ids, all_below conf listed type ys ids).
    { induction ys as [|x ys IHys]; intros Hin; [eexists; constructor|].
      assert (Hx := Hin x (or_introl eq_refl)).
      destruct (IH x) as (i1 & H1); [specialize (HR y x D HL Hx); lia|exact (sd_down _ _ _ _ _ _ _ _ _ SD y x D HL Hx)|].
      destruct IHys as (i2 & H2); [intros z Hz; apply Hin; right; exact Hz|].
      exists (i1 ++ i2). constructor; assumption. }
    destruct (A (listed y LIntermediate) (fun x H => H)) as (ids & HA). eexists. eapply below_more; eassumption.
  - eexists. eapply below_bottom; eassumption.
Qed.

Lemma below_sound conf listed type :
  (forall y ids, below conf listed type y ids -> forall i, In i ids -> should_find conf listed type y i) /\
  (forall ys ids, all_below conf listed type ys ids ->
     forall i, In i ids -> exists x, In x ys /\ should_find conf listed type x i).
Proof.
  assert (Own : forall y m i, s_metadata (conf y) = Some m -> In i (if dmem type m then [s_sub (conf y)] else []) ->
                 should_find conf listed type y i).
  { intros y m i Hm. unfold dmem. destruct (dget type m) as [md|] eqn:Ed; [|intros []]. intros [<-|[]].
    exact (sf_self _ _ _ y m md Hm Ed). }
  apply below_mut.
  - intros y m fe Hm _ _ i Hi. exact (Own y m i Hm Hi).
  - intros y m fe ep ids Hm Hf He _ IH i Hi. apply in_app_or in Hi. destruct Hi as [Hi|Hi]; [exact (Own y m i Hm Hi)|].
    apply in_app_or in Hi. destruct Hi as [Hi|Hi]; [exact (sf_listed _ _ _ y m fe ep i Hm Hf He Hi)|].
    destruct (IH i Hi) as (x & Hx & Hs). exact (sf_below _ _ _ y m fe ep x i Hm Hf He Hx Hs).
  - intros i [].
  - intros y ys ids ids' _ IH1 _ IH2 i Hi. apply in_app_or in Hi. destruct Hi as [Hi|Hi].
    + exists y. split; [left; reflexivity|exact (IH1 i Hi)].
    + destruct (IH2 i Hi) as (x & Hx & Hs). exists x. split; [right; exact Hx|exact Hs].
Qed.

Lemma all_below_In conf listed type ys ids : all_below conf listed type ys ids ->
  forall x, In x ys -> exists l, below conf listed type x l /\ incl l ids.
Proof.
  intros H. induction H as [|y ys ids ids' Hy _ IH]; intros x [].
  - subst y. exists ids. split; [exact Hy|]. apply incl_appl, incl_refl.
  - destruct (IH x H) as (l & Hl & Hi). exists l. split; [exact Hl|]. apply incl_appr, Hi.
Qed.

Lemma below_complete conf listed type y i : should_find conf listed type y i ->
  forall ids, below conf listed type y ids -> In i ids.
Proof.
  intros H. induction H as [y m md Hm Hd|y m fe ep i Hm Hf He Hi|y m fe ep x i Hm Hf He Hx Hs IH]; intros ids B.
  - assert (Own : forall m', s_metadata (conf y) = Some m' -> In (s_sub (conf y)) (if dmem type m' then [s_sub (conf y)] else [])).
    { intros m' Hm'. rewrite Hm in Hm'. injection Hm' as <-. unfold dmem. rewrite Hd. left. reflexivity. }
    inversion B; subst; [apply Own; assumption|]. apply in_or_app. left. apply Own. assumption.
  - inversion B as [y' m' fe' Hm' Hf' He'|y' m' fe' ep' l Hm' Hf' He' A]; subst.
    + rewrite Hm in Hm'. injection Hm' as <-. rewrite Hf in Hf'. injection Hf' as <-. rewrite He in He'. discriminate He'.
    + apply in_or_app. right. apply in_or_app. left. exact Hi.
  - inversion B as [y' m' fe' Hm' Hf' He'|y' m' fe' ep' l Hm' Hf' He' A]; subst.
    + rewrite Hm in Hm'. injection Hm' as <-. rewrite Hf in Hf'. injection Hf' as <-. rewrite He in He'. discriminate He'.
    + apply in_or_app. right. apply in_or_app. right. destruct (all_below_In _ _ _ _ _ A x Hx) as (l' & Hl & Hin).
      apply Hin, IH, Hl.
Qed.

(** Missing: an entity of the search without metadata as a federation entity ends the search with KeyError.  What holds:
    if all have such metadata, exactly those are found that should be. *)
Theorem C112_found_partial : forall E O fuel prio L inv dom conf listed type y (rank : string -> nat),
  steady E O fuel prio L inv dom conf listed -> dom y -> federation_entities dom conf ->
  (forall y x, dom y -> has_list (conf y) -> In x (listed y LIntermediate) -> rank x < rank y) ->
  exists n0, forall n superior s, n0 <= n -> inv s ->
    exists s' ids, trawl E O fuel prio L n superior y type s = (s', Ok ids) /\
                   forall i, In i ids <-> should_find conf listed type y i.
Proof.
  intros E O fuel prio L inv dom conf listed type y rank SD D FE HR.
  destruct (below_exists _ _ _ _ _ _ _ _ _ type rank SD FE HR (S (rank y)) y (Nat.lt_succ_diag_r _) D) as (ids & B).
  destruct (proj1 (steady_below E O fuel prio L inv dom conf listed type SD) y ids B D) as (n0 & H).
  exists n0. intros n superior s Hn I. destruct (H n superior s Hn I) as (s' & Hs & _). exists s', ids. split; [exact Hs|].
  intros i. split; intros Hi.
  - exact (proj1 (below_sound conf listed type) y ids B i Hi).
  - exact (below_complete conf listed type y i Hi ids B).
Qed.
Print Assumptions C112_found_partial.

(** ta lists im, im lists op and in; in lists oq *)
Definition in_conf : stmt := conf_of "in" 5 [("federation_entity", superior_md "in")] (Some ["im"]).
Definition deep : cenv := ex_env
  [("ta/wk", TJws 1 (conf_of "ta" 1 [("federation_entity", superior_md "ta")] None)); ("im/wk", TJws 2 im_conf);
   ("in/wk", TJws 5 in_conf)]
  [("ta/fetch im", TJws 1 (est "ta" "im" 900 [2])); ("im/fetch in", TJws 2 (est "im" "in" 900 [5]))] ["ta"].
Definition deep_lists : lenv := says
  [("im/list", (LList ["op"; "in"], LList ["op"], LList ["in"])); ("in/list", (LList ["oq"], LList ["oq"], LList []))].
Definition knows_in : fstate := fst (get_verified_trust_chains deep id_order 9 "in" (knows_im deep)).
Definition deep_conf (y : string) : stmt := if String.eqb y "im" then im_conf else in_conf.
Definition deep_listed (y : string) (q : lquery) : list string :=
  if String.eqb y "im" then match q with LAll => ["op"; "in"] | LType _ => ["op"] | LIntermediate => ["in"] end
  else match q with LIntermediate => [] | _ => ["oq"] end.

Example C112_ex :
  steady deep id_order 9 [] deep_lists (fun s => exists n, s = at_tick n knows_in) (fun y => In y ["im"; "in"]) deep_conf deep_listed /\
  federation_entities (fun y => In y ["im"; "in"]) deep_conf /\
  (forall y x, In y ["im"; "in"] -> has_list (deep_conf y) -> In x (deep_listed y LIntermediate) ->
     (if String.eqb x "im" then 1 else 0) < (if String.eqb y "im" then 1 else 0)) /\
  exists s', trawl deep id_order 9 [] deep_lists 2 "ta" "im" "openid_provider" (at_tick 0 knows_in) = (s', Ok ["op"; "oq"]).
Proof.
  split; [|split; [|split]].
  - constructor.
    + intros superior y s Hy (n & ->). exists (at_tick n knows_in). split; [|exists n; reflexivity].
      repeat destruct Hy as [<-|Hy]; try destruct Hy; vm_compute; reflexivity.
    + intros y q s Hy _ (n & ->). exists (at_tick (S n) knows_in). split; [|exists (S n); reflexivity].
      repeat destruct Hy as [<-|Hy]; try destruct Hy; destruct q; vm_compute; reflexivity.
    + intros y x [<-|[<-|[]]] _ Hx; vm_compute in Hx; [destruct Hx as [<-|[]]|destruct Hx].
      right. left. reflexivity.
  - intros y Hy. repeat destruct Hy as [<-|Hy]; try destruct Hy; eexists; eexists; split; reflexivity.
  - intros y x [<-|[<-|[]]] _ Hx; vm_compute in Hx; [destruct Hx as [<-|[]]|destruct Hx].
    vm_compute. lia.
  - eexists. vm_compute. reflexivity.
Qed.

(** ** C113: whose keys change *)

(** looking for the configuration of a subordinate only changes the keys of the subordinate *)
Definition C113_full : Prop := forall E L superior subordinate s s' r e,
  introduce E L superior subordinate s = (s', r) -> e <> subordinate -> dget e (f_keys s') = dget e (f_keys s).

(** im answers with a statement about ta *)
Definition liar : cenv := ex_env [("im/wk", TJws 2 im_conf); ("op/wk", TJws 3 op_conf)] [("im/fetch op", TJws 2 (est "im" "ta" 900 [6]))] ["ta"].

Theorem C113_keys_refuted : ~ C113_full.
Proof.
  intros H.
  assert (G : exists s' r, introduce liar honest "im" "op" (new_state [("ta", [1]); ("im", [2])]) = (s', r) /\
                dget "ta" (f_keys s') = Some [1; 6]) by (eexists; eexists; split; vm_compute; reflexivity).
  destruct G as (s' & r & G & Hk). assert (N : "ta" <> "op") by discriminate.
  specialize (H _ _ _ _ _ _ _ _ G N). rewrite Hk in H. discriminate H.
Qed.
Print Assumptions C113_keys_refuted.

Lemma configuration_keys E L id s s' r : configuration_of E id (request_configuration E L id) s = (s', r) -> f_keys s' = f_keys s.
Proof.
  unfold configuration_of, mbind at 1, StateM.get. destruct (cache_contains id (st_cfg (f_col s))); unfold mbind.
  - unfold on_col. destruct (cfg_getitem E id (f_col s)) as [c1 [[e|]|x]]; intros [= <- _]; reflexivity.
  - destruct (request_configuration E L id s) as [s1 r1] eqn:E1.
    destruct (request_configuration_follows E L _ _ _ _ E1) as (_ & Hk & _).
    destruct r1 as [[p|]|x]; intros [= <- _]; exact Hk.
Qed.

(** Missing: the subject of the statement is not compared with the subordinate.  What holds: keys are only added, those in
    an answer of the superior, for the subject it names; the answer is signed with a key known for its issuer. *)
Theorem C113_keys_partial : forall E L superior subordinate s s' r e,
  introduce E L superior subordinate s = (s', r) ->
  dget e (f_keys s') = dget e (f_keys s) \/
  exists n ep k p known ks,
    e_net E n (QFetch ep superior subordinate) = RText (Some (TJws k p)) /\ l_accepts L superior p = Ok tt /\
    dget (s_iss p) (f_keys s) = Some known /\ In k known /\
    s_sub p = e /\ s_jwks p = Some ks /\ dget e (f_keys s') = Some (keys_of (f_keys s) e ++ ks).
Proof.
  intros E L superior subordinate s s' r e H. unfold introduce, mbind at 1 in H.
  destruct (request_about E L superior subordinate s) as [s1 r1] eqn:E1.
  assert (A : f_keys s1 = f_keys s /\ forall p, r1 = Ok (Some p) -> exists n ep k known,
             e_net E n (QFetch ep superior subordinate) = RText (Some (TJws k p)) /\ l_accepts L superior p = Ok tt /\
             dget (s_iss p) (f_keys s) = Some known /\ In k known).
  { clear H. unfold request_about, mbind at 1 in E1.
    destruct (configuration_of E superior (request_configuration E L superior) s) as [s2 r2] eqn:E2.
    apply configuration_keys in E2. destruct r2 as [c|x]; [|injection E1 as <- <-; split; [exact E2|intros p [=]]].
    unfold mbind at 1, lift at 1 in E1.
    destruct (federation_metadata c) as [fe|x]; [|injection E1 as <- <-; split; [exact E2|intros p [=]]].
    unfold mbind at 1, lift at 1 in E1.
    match type of E1 with context [match ?b with Ok a => _ | Err e => _ end] => destruct b as [ep|x] end;
      [|injection E1 as <- <-; split; [exact E2|intros p [=]]].
    unfold mbind in E1. destruct (request_statement E L superior (QFetch ep superior subordinate) s2) as [s3 r3] eqn:E3.
    destruct (request_statement_follows E L _ _ _ _ _ E3) as (_ & _ & Hk & Hr).
    destruct r3 as [o|x]; injection E1 as <- <-; (split; [congruence|]); intros p Hp; [|discriminate Hp].
    destruct o as [[t p']|]; [|discriminate Hp]. injection Hp as ->.
    destruct (Hr t p eq_refl) as (k & known & -> & Hn & Hd & Hin & Ha). rewrite E2 in Hd. eauto 10. }
  destruct A as [Hk A]. destruct r1 as [[p|]|x]; [|injection H as <- _; left; rewrite Hk; reflexivity ..].
  destruct (s_jwks p) as [ks|] eqn:Ej; [|injection H as <- _; left; rewrite Hk; reflexivity].
  unfold mbind, modify in H. destruct (request_configuration_follows E L _ _ _ _ H) as (_ & Hk' & _). cbn [f_keys] in Hk'.
  rewrite Hk', Hk. destruct (string_dec e (s_sub p)) as [->|N].
  - right. destruct (A p eq_refl) as (n & ep & k & known & Hn & Ha & Hd & Hin). exists n, ep, k, p, known, ks.
    rewrite dget_dset_same. auto 10.
  - left. apply dget_dset_other. exact N.
Qed.
Print Assumptions C113_keys_partial.

Example C113_ex : exists s' r,
  introduce small honest "im" "op" (new_state [("ta", [1]); ("im", [2])]) = (s', r) /\
  f_keys s' = [("ta", [1]); ("im", [2]); ("op", [3])].
Proof. eexists. eexists. split; vm_compute; reflexivity. Qed.

