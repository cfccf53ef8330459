(** Properties of trust chain stores (C38-C43). *)
From Verif Require Import PyFacts ChainsSpec CollectorProps.
From Coq Require Import Lia.

(** ** C38 *)

Definition shorter (acc : dict tchain) (c : tchain) : dict tchain :=
  match dget (ch_anchor c) acc with
  | Some old =>
      if Nat.ltb (length (ch_verified c)) (length (ch_verified old))
      then dset (ch_anchor c) c acc else acc
  | None => dset (ch_anchor c) c acc
  end.

Lemma chains2dict_snoc cs c : chains2dict (cs ++ [c]) = shorter (chains2dict cs) c.
Proof. unfold chains2dict. rewrite fold_left_app. reflexivity. Qed.

Lemma shorter_other acc c a : a <> ch_anchor c -> dget a (shorter acc c) = dget a acc.
Proof.
  intros N. unfold shorter. destruct (dget (ch_anchor c) acc) as [old|].
  - destruct (Nat.ltb _ _); [apply dget_dset_other, N|reflexivity].
  - apply dget_dset_other, N.
Qed.

Lemma best_snoc_other cs c a c0 : ch_anchor c <> a -> best cs a c0 -> best (cs ++ [c]) a c0.
Proof.
  intros N (pre & post & -> & H1 & H2 & H3). exists pre, (post ++ [c]).
  split; [rewrite <- app_assoc; reflexivity|]. split; [exact H1|]. split; [exact H2|].
  intros c' Hin Ha. apply in_app_or in Hin. destruct Hin as [Hin|[<-|[]]]; [auto|contradiction].
Qed.

Lemma chains2dict_spec cs :
  NoDup (dkeys (chains2dict cs)) /\
  forall a, match dget a (chains2dict cs) with
            | Some c => best cs a c
            | None => no_chain cs a
            end.
Proof.
  induction cs as [|c cs IH] using rev_ind.
  - split; [constructor|]. intros a c [].
  - rewrite chains2dict_snoc. destruct IH as [IH1 IH2]. split.
    { unfold shorter. destruct (dget (ch_anchor c) (chains2dict cs)) as [old|].
      - destruct (Nat.ltb _ _); [apply NoDup_dset, IH1|exact IH1].
      - apply NoDup_dset, IH1. }
    intros a. specialize (IH2 a).
    destruct (String.eqb_spec a (ch_anchor c)) as [->|N].
    + unfold shorter. destruct (dget (ch_anchor c) (chains2dict cs)) as [old|] eqn:Eo.
      * destruct IH2 as (pre & post & E & H1 & H2 & H3).
        destruct (Nat.ltb_spec (length (ch_verified c)) (length (ch_verified old))) as [Hlt|Hge].
        -- rewrite dget_dset_same. exists cs, []. split; [reflexivity|]. split; [reflexivity|].
           split; [|intros c' []]. intros c' Hin Ha. unfold ch_len in *. rewrite E in Hin.
           apply in_app_or in Hin. destruct Hin as [Hin|[<-|Hin]]; [|lia|].
           ++ specialize (H2 c' Hin Ha). lia.
           ++ specialize (H3 c' Hin Ha). lia.
        -- rewrite Eo. exists pre, (post ++ [c]). split; [rewrite E, <- app_assoc; reflexivity|].
           split; [exact H1|]. split; [exact H2|]. intros c' Hin Ha. apply in_app_or in Hin.
           destruct Hin as [Hin|[<-|[]]]; [apply H3; assumption|unfold ch_len; lia].
      * rewrite dget_dset_same. exists cs, []. split; [reflexivity|]. split; [reflexivity|].
        split; [|intros c' []]. intros c' Hin Ha. exfalso. apply (IH2 c' Hin Ha).
    + rewrite (shorter_other _ _ _ N). destruct (dget a (chains2dict cs)) as [c0|].
      * apply best_snoc_other; [congruence|exact IH2].
      * intros c' Hin. apply in_app_or in Hin. destruct Hin as [Hin|[<-|[]]]; [apply IH2, Hin|congruence].
Qed.

Lemma best_in cs a c : best cs a c -> In c cs /\ ch_anchor c = a.
Proof.
  intros (pre & post & -> & H & _). split; [apply in_or_app; right; left; reflexivity|exact H].
Qed.

Lemma best_unique cs a c c' : best cs a c -> best cs a c' -> c = c'.
Proof.
  intros (p1 & q1 & E1 & A1 & L1 & R1) (p2 & q2 & E2 & A2 & L2 & R2). rewrite E1 in E2.
  revert p2 E2 L2. clear E1. induction p1 as [|x p1 IH]; intros p2 E2 L2.
  - destruct p2 as [|y p2]; injection E2 as E2 E3; [exact E2|]. subst y.
    assert (H1 := L2 c (or_introl eq_refl) A1). exfalso.
    assert (Hin : In c' q1) by (rewrite E3; apply in_or_app; right; left; reflexivity).
    specialize (R1 c' Hin A2). lia.
  - destruct p2 as [|y p2]; injection E2 as E2 E3.
    + subst x. assert (H1 := L1 c' (or_introl eq_refl) A2). exfalso.
      assert (Hin : In c q2) by (rewrite <- E3; apply in_or_app; right; left; reflexivity).
      specialize (R2 c Hin A1). lia.
    + subst y. apply (IH (fun z h => L1 z (or_intror h)) p2 E3 (fun z h => L2 z (or_intror h))).
Qed.

(** exactly one chain per anchor that occurs: the first of the shortest *)
Theorem C38_shortest_per_anchor : forall cs a c,
  (dget a (chains2dict cs) = Some c <-> best cs a c).
Proof.
  intros cs a c. destruct (chains2dict_spec cs) as [_ H]. specialize (H a). split.
  - intros E. rewrite E in H. exact H.
  - intros Hb. destruct (dget a (chains2dict cs)) as [c'|].
    + rewrite (best_unique _ _ _ _ Hb H). reflexivity.
    + destruct (best_in _ _ _ Hb) as [Hin Ha]. exfalso. exact (H c Hin Ha).
Qed.

Theorem C38_no_other_anchor : forall cs a,
  NoDup (dkeys (chains2dict cs)) /\
  (In a (dkeys (chains2dict cs)) <-> exists c, In c cs /\ ch_anchor c = a).
Proof.
  intros cs a. destruct (chains2dict_spec cs) as [H1 H]. split; [exact H1|]. specialize (H a). split.
  - intros Hin. apply key_In_dget in Hin. destruct Hin as [c E]. rewrite E in H.
    exists c. apply (best_in _ _ _ H).
  - intros (c & Hin & Ha). destruct (dget a (chains2dict cs)) as [c'|] eqn:E.
    + apply dget_In_key with c'. exact E.
    + exfalso. exact (H c Hin Ha).
Qed.

Definition chn (anchor : string) (path : list string) (n : nat) : tchain :=
  mkTChain (mkTC anchor [] 100 path (repeat (est "x" "y" 1 []) n)) (ByType []).

Example C38_ex :
  chains2dict [chn "ta" ["rp"] 3; chn "tb" ["rp"] 3; chn "ta" ["rp"; "q"] 2; chn "ta" ["rp"] 2]
  = [("ta", chn "ta" ["rp"; "q"] 2); ("tb", chn "tb" ["rp"] 3)].
Proof. reflexivity. Qed.

(** ** C39 *)

Definition C39_full : Prop := forall history d ent a c,
  save_all history = Ok (Some d) -> a <> "" ->
  (forall cs c', In cs history -> In c' cs -> exists e, about c' e) ->
  In c (concat history) -> about c ent -> ch_anchor c = a ->
  exists c', get_trust_chain d ent a = SOne c' /\ about c' ent /\ ch_anchor c' = a.

(** chains of two entities with the same anchor, saved together: one of them is lost *)
Theorem C39_saved_chains_retrievable_refuted : ~ C39_full.
Proof.
  intros H.
  destruct (H [[chn "ta" ["rp"] 3; chn "ta" ["op"] 3]]
              [("rp", [("ta", chn "ta" ["rp"] 3)])] "op" "ta" (chn "ta" ["op"] 3)) as (c & E & _).
  - reflexivity.
  - discriminate.
  - intros cs c' [<-|[]] [<-|[<-|[]]]; [exists "rp", []|exists "op", []]; reflexivity.
  - right; left; reflexivity.
  - exists []. reflexivity.
  - reflexivity.
  - discriminate.
Qed.

(** the entry for an entity and an anchor *)
Definition entry (d : chain_store) (ent a : string) : option tchain :=
  match dget ent d with Some m => dget a m | None => None end.

Definition save_step (d : chain_store) (p : string * tchain) : res chain_store :=
  match tc_iss_path (ch_tc (snd p)) with
  | [] => Err IndexError
  | ent :: _ =>
      Ok (match dget ent d with
          | None => dset ent [p] d
          | Some m => dset ent (dset (fst p) (snd p) m) d
          end)
  end.

Lemma save_step_entry d p d' ent l e a :
  tc_iss_path (ch_tc (snd p)) = ent :: l -> save_step d p = Ok d' ->
  entry d' e a = if String.eqb e ent && String.eqb a (fst p) then Some (snd p) else entry d e a.
Proof.
  intros Hp H. unfold save_step in H. rewrite Hp in H. injection H as <-. unfold entry.
  destruct (dget ent d) as [m|] eqn:Ed.
  - destruct (String.eqb_spec e ent) as [->|N].
    + rewrite dget_dset_same, Ed. cbn [andb]. destruct (String.eqb_spec a (fst p)) as [->|N].
      * apply dget_dset_same.
      * apply dget_dset_other, N.
    + rewrite dget_dset_other by exact N. reflexivity.
  - destruct (String.eqb_spec e ent) as [->|N].
    + rewrite dget_dset_same, Ed. destruct p as [k v]. cbn. destruct (String.eqb a k); reflexivity.
    + rewrite dget_dset_other by exact N. reflexivity.
Qed.

Definition filled (d : chain_store) : Prop := forall e m, dget e d = Some m -> m <> [].

Lemma save_step_filled d p d' : save_step d p = Ok d' -> filled d -> filled d'.
Proof.
  unfold save_step. destruct (tc_iss_path (ch_tc (snd p))) as [|ent l]; [discriminate|].
  intros [= <-] Hf e m. destruct (dget ent d) as [m0|] eqn:Ed.
  - rewrite dget_dset. destruct (String.eqb e ent).
    + intros [= <-] E. apply (f_equal (dget (fst p))) in E. rewrite dget_dset_same in E. discriminate.
    + apply Hf.
  - rewrite dget_dset. destruct (String.eqb e ent); [intros [= <-]; discriminate|apply Hf].
Qed.

Lemma save_fold_entry l : forall d d' ent,
  NoDup (map fst l) -> (forall p, In p l -> about (snd p) ent) ->
  foldM save_step l d = Ok d' ->
  (filled d -> filled d') /\
  forall e a, entry d' e a =
    match (if String.eqb e ent then dget a l else None) with Some c => Some c | None => entry d e a end.
Proof.
  induction l as [|p l IH]; intros d d' ent Hn Hab H; simpl in H.
  - injection H as <-. split; [auto|]. intros e a. destruct (String.eqb e ent); reflexivity.
  - inversion Hn as [|? ? Hnot Hn']; subst. destruct (save_step d p) as [d1|x] eqn:E1; [|discriminate].
    simpl in H. destruct (IH d1 d' ent Hn' (fun q h => Hab q (or_intror h)) H) as [I1 I2].
    split; [intros Hf; apply I1, (save_step_filled d p d1 E1 Hf)|]. intros e a. rewrite I2.
    destruct (Hab p (or_introl eq_refl)) as [path Hp].
    rewrite (save_step_entry d p d1 ent path e a Hp E1). destruct p as [k v]. cbn [fst snd dget].
    destruct (String.eqb_spec e ent) as [->|N]; [|reflexivity]. cbn [andb].
    destruct (String.eqb_spec a k) as [->|N]; [|reflexivity].
    assert (En : dget k l = None) by (apply dget_None_key; exact Hnot). rewrite En. reflexivity.
Qed.

Lemma about_unique c e e' : about c e -> about c e' -> e = e'.
Proof. intros [l E] [l' E']. rewrite E in E'. injection E' as -> _. reflexivity. Qed.

Lemma save_entry cs ctx d : one_entity cs -> save_trust_chains ctx cs = Ok d ->
  let d0 := match ctx with Some d0 => d0 | None => [] end in
  (filled d0 -> filled d) /\
  forall e a,
    (forall c, best cs a c -> about c e -> entry d e a = Some c) /\
    ((forall c, In c cs -> ch_anchor c = a -> ~ about c e) -> entry d e a = entry d0 e a).
Proof.
  intros [ent Hone] H d0. unfold save_trust_chains in H. fold d0 in H.
  change (foldM save_step (chains2dict cs) d0 = Ok d) in H.
  destruct (save_fold_entry (chains2dict cs) d0 d ent) as [F1 F2].
  - apply (proj1 (C38_no_other_anchor cs "")).
  - intros [k v] Hin. cbn. apply Hone.
    apply (In_dget_nodup _ _ _ _ (proj1 (C38_no_other_anchor cs ""))) in Hin.
    apply C38_shortest_per_anchor in Hin. apply (best_in _ _ _ Hin).
  - exact H.
  - split; [exact F1|]. intros e a. rewrite F2. split.
    + intros c Hb Hab. assert (He := about_unique c e ent Hab (Hone c (proj1 (best_in _ _ _ Hb)))).
      subst e. rewrite String.eqb_refl. apply C38_shortest_per_anchor in Hb. rewrite Hb. reflexivity.
    + intros Hno. destruct (String.eqb_spec e ent) as [->|N]; [|reflexivity].
      destruct (dget a (chains2dict cs)) as [c|] eqn:Ec; [|reflexivity].
      apply C38_shortest_per_anchor, best_in in Ec. destruct Ec as [Hin Ha].
      exfalso. apply (Hno c Hin Ha), Hone, Hin.
Qed.

(** what the last list with a chain of the entity and the anchor says *)
Definition latest (history : list (list tchain)) (ent a : string) (c : tchain) : Prop :=
  exists pre cs post, history = pre ++ cs :: post /\ best cs a c /\ about c ent /\
    forall cs' c', In cs' post -> In c' cs' -> ch_anchor c' = a -> ~ about c' ent.

Lemma save_all_snoc history cs : save_all (history ++ [cs])
  = let* ctx := save_all history in let* d := save_trust_chains ctx cs in Ok (Some d).
Proof.
  unfold save_all. rewrite foldM_app. destruct (foldM _ history None) as [ctx|x]; simpl; [|reflexivity].
  destruct (save_trust_chains ctx cs); reflexivity.
Qed.

Lemma best_exists cs a : (exists c, In c cs /\ ch_anchor c = a) -> exists c, best cs a c.
Proof.
  intros Hex. apply C38_no_other_anchor in Hex. apply key_In_dget in Hex. destruct Hex as [c E].
  exists c. apply C38_shortest_per_anchor, E.
Qed.

Lemma one_entity_dec cs a ent : one_entity cs ->
  (exists c, best cs a c /\ about c ent) \/ (forall c, In c cs -> ch_anchor c = a -> ~ about c ent).
Proof.
  intros [e Hone]. destruct (string_dec e ent) as [->|N].
  - destruct (dget a (chains2dict cs)) as [c|] eqn:E.
    + left. exists c. apply C38_shortest_per_anchor in E. split; [exact E|].
      apply Hone, (best_in _ _ _ E).
    + right. intros c Hin Ha. exfalso.
      assert (Hk : In a (dkeys (chains2dict cs))) by (apply C38_no_other_anchor; eauto).
      apply dget_None_key in E. contradiction.
  - right. intros c Hin _ Hab. apply N. apply (about_unique c); [apply Hone, Hin|exact Hab].
Qed.

Lemma save_all_entry history : forall ctx,
  (forall cs, In cs history -> one_entity cs) -> save_all history = Ok ctx ->
  let d := match ctx with Some d => d | None => [] end in
  filled d /\
  forall e a,
    match entry d e a with
    | Some c => latest history e a c
    | None => forall cs c, In cs history -> In c cs -> ch_anchor c = a -> ~ about c e
    end.
Proof.
  induction history as [|cs history IH] using rev_ind; intros ctx Hone H d.
  - injection H as <-. split; [intros e m; discriminate|]. intros e a cs c [].
  - rewrite save_all_snoc in H. destruct (save_all history) as [ctx0|x] eqn:E0; [|discriminate].
    simpl in H. destruct (save_trust_chains ctx0 cs) as [d1|x] eqn:E1; [|discriminate].
    simpl in H. injection H as <-. subst d.
    destruct (IH ctx0 (fun cs' h => Hone cs' (in_or_app _ _ _ (or_introl h))) eq_refl) as [F0 IH'].
    assert (Hcs : one_entity cs) by (apply Hone, in_or_app; right; left; reflexivity).
    destruct (save_entry cs ctx0 d1 Hcs E1) as [F1 F2].
    split; [apply F1, F0|]. intros e a. destruct (F2 e a) as [G1 G2].
    destruct (one_entity_dec cs a e Hcs) as [(c & Hb & Hab)|Hno].
    + rewrite (G1 c Hb Hab). exists history, cs, []. split; [reflexivity|]. split; [exact Hb|].
      split; [exact Hab|]. intros cs' c' [].
    + rewrite (G2 Hno). specialize (IH' e a).
      destruct (entry match ctx0 with Some d => d | None => [] end e a) as [c|].
      * destruct IH' as (pre & cs0 & post & -> & H1 & H2 & H3). exists pre, cs0, (post ++ [cs]).
        split; [rewrite <- app_assoc; reflexivity|]. split; [exact H1|]. split; [exact H2|].
        intros cs' c' Hin Hin' Ha. apply in_app_or in Hin.
        destruct Hin as [Hin|[<-|[]]]; [apply (H3 cs' c' Hin Hin' Ha)|apply (Hno c' Hin' Ha)].
      * intros cs' c' Hin Hin' Ha. apply in_app_or in Hin.
        destruct Hin as [Hin|[<-|[]]]; [apply (IH' cs' c' Hin Hin' Ha)|apply (Hno c' Hin' Ha)].
Qed.

Lemma get_entry d ent a : a <> "" ->
  get_trust_chain d ent a = match entry d ent a with Some c => SOne c | None => SNone end.
Proof.
  intros N. unfold get_trust_chain, entry. destruct (dget ent d) as [[|p m]|]; try reflexivity.
  destruct (String.eqb_spec a "") as [->|_]; [contradiction|reflexivity].
Qed.

(** Missing: lists with chains of several entities.  What holds: when each list is about one entity,
    after any history of saves the chain found for an entity and an anchor is the shortest of the last
    list that has one, and None is returned when none was ever saved. *)
Theorem C39_saved_chains_retrievable_partial : forall history d ent a,
  (forall cs, In cs history -> one_entity cs) -> save_all history = Ok (Some d) -> a <> "" ->
  match get_trust_chain d ent a with
  | SOne c => latest history ent a c
  | SNone => forall cs c, In cs history -> In c cs -> ch_anchor c = a -> ~ about c ent
  | SAll _ => False
  end.
Proof.
  intros history d ent a Hone H N. destruct (save_all_entry history (Some d) Hone H) as [_ He].
  rewrite (get_entry d ent a N). specialize (He ent a). cbn in He. destruct (entry d ent a); exact He.
Qed.

(** without an anchor: all chains of the entity, by anchor *)
Theorem C39_all_chains_of_entity : forall history d ent,
  (forall cs, In cs history -> one_entity cs) -> save_all history = Ok (Some d) ->
  match get_trust_chain d ent "" with
  | SAll m => forall a c, dget a m = Some c -> latest history ent a c
  | SNone => forall cs c, In cs history -> In c cs -> ~ about c ent
  | SOne _ => False
  end.
Proof.
  intros history d ent Hone H. destruct (save_all_entry history (Some d) Hone H) as [Hf He]. cbn in Hf, He.
  unfold get_trust_chain. destruct (dget ent d) as [m|] eqn:Ed.
  - destruct m as [|p m]; [exfalso; exact (Hf ent [] Ed eq_refl)|]. cbn [String.eqb].
    intros a c Hg. specialize (He ent a). unfold entry in He. rewrite Ed, Hg in He. exact He.
  - intros cs c Hin Hin' Hab. specialize (He ent (ch_anchor c)). unfold entry in He. rewrite Ed in He.
    exact (He cs c Hin Hin' eq_refl Hab).
Qed.

Example C39_ex : exists d,
  save_all [[chn "ta" ["rp"] 3; chn "tb" ["rp"] 2]; [chn "ta" ["op"] 3]; [chn "tb" ["rp"; "im"] 4]]
  = Ok (Some d) /\ get_trust_chain d "rp" "ta" = SOne (chn "ta" ["rp"] 3) /\
  get_trust_chain d "rp" "tb" = SOne (chn "tb" ["rp"; "im"] 4) /\
  get_trust_chain d "op" "ta" = SOne (chn "ta" ["op"] 3) /\ get_trust_chain d "im" "ta" = SNone /\
  (forall cs, In cs [[chn "ta" ["rp"] 3; chn "tb" ["rp"] 2]; [chn "ta" ["op"] 3]; [chn "tb" ["rp"; "im"] 4]]
              -> one_entity cs).
Proof.
  eexists. split; [reflexivity|]. split; [reflexivity|]. split; [reflexivity|]. split; [reflexivity|].
  split; [reflexivity|].
  intros cs [<-|[<-|[<-|[]]]]; [exists "rp"|exists "op"|exists "rp"];
    intros c Hin; simpl in Hin; decompose [or] Hin; subst; try contradiction; eexists; reflexivity.
Qed.

(** ** C40 *)

Lemma find_first_at cs fid :
  match find (fun c => String.eqb (ch_anchor c) fid) cs with
  | Some c => first_at cs fid c
  | None => no_chain cs fid
  end.
Proof.
  induction cs as [|c cs IH]; simpl; [intros c []|].
  destruct (String.eqb_spec (ch_anchor c) fid) as [E|N].
  - exists [], cs. split; [reflexivity|]. split; [exact E|intros c' []].
  - destruct (find _ cs) as [c'|].
    + destruct IH as (pre & post & -> & H1 & H2). exists (c :: pre), post. split; [reflexivity|].
      split; [exact H1|]. intros x [<-|Hin]; [exact N|apply H2, Hin].
    + intros x [<-|Hin]; [exact N|apply IH, Hin].
Qed.

Lemma pick_by_priority_spec prio cs :
  match pick_by_priority prio cs with
  | Some c => exists fid, preferred prio cs fid /\ first_at cs fid c
  | None => forall fid, In fid prio -> no_chain cs fid
  end.
Proof.
  induction prio as [|f prio IH]; simpl; [intros fid []|].
  assert (Hf := find_first_at cs f). destruct (find _ cs) as [c|].
  - exists f. split; [|exact Hf]. exists [], prio. split; [reflexivity|]. split; [intros x []|].
    destruct Hf as (pre & post & -> & H1 & _). exists c. split; [apply in_or_app; right; left; reflexivity|exact H1].
  - destruct (pick_by_priority prio cs) as [c|].
    + destruct IH as (fid & (pre & post & -> & H1 & H2) & H3). exists fid. split; [|exact H3].
      exists (f :: pre), post. split; [reflexivity|]. split; [|exact H2].
      intros x [<-|Hin]; [exact Hf|apply H1, Hin].
    + intros fid [<-|Hin]; [exact Hf|apply IH, Hin].
Qed.

Lemma preferred_unique prio cs f f' : preferred prio cs f -> preferred prio cs f' -> f = f'.
Proof.
  intros (p1 & q1 & E1 & N1 & c1 & H1 & A1) (p2 & q2 & E2 & N2 & c2 & H2 & A2). rewrite E1 in E2.
  clear E1. revert p2 E2 N2. induction p1 as [|x p1 IH]; intros p2 E2 N2.
  - destruct p2 as [|y p2]; injection E2 as E2 E3; [exact E2|]. subst y.
    exfalso. exact (N2 f (or_introl eq_refl) c1 H1 A1).
  - destruct p2 as [|y p2]; injection E2 as E2 E3.
    + subst x. exfalso. exact (N1 f' (or_introl eq_refl) c2 H2 A2).
    + apply (IH (fun z h => N1 z (or_intror h)) p2 E3 (fun z h => N2 z (or_intror h))).
Qed.

Lemma first_at_unique cs fid c c' : first_at cs fid c -> first_at cs fid c' -> c = c'.
Proof.
  intros (p1 & q1 & E1 & A1 & N1) (p2 & q2 & E2 & A2 & N2). rewrite E1 in E2. clear E1.
  revert p2 E2 N2. induction p1 as [|x p1 IH]; intros p2 E2 N2.
  - destruct p2 as [|y p2]; injection E2 as E2 E3; [exact E2|]. subst y.
    exfalso. exact (N2 c (or_introl eq_refl) A1).
  - destruct p2 as [|y p2]; injection E2 as E2 E3.
    + subst x. exfalso. exact (N1 c' (or_introl eq_refl) A2).
    + apply (IH (fun z h => N1 z (or_intror h)) p2 E3 (fun z h => N2 z (or_intror h))).
Qed.

(** with a chain for an anchor of the list, the first chain of the preferred anchor is picked *)
Theorem C40_by_priority : forall prio cs fid c,
  preferred prio cs fid -> (pick_trust_chain prio cs = Ok c <-> first_at cs fid c).
Proof.
  intros prio cs fid c Hp.
  assert (G : exists c0, pick_trust_chain prio cs = Ok c0 /\ first_at cs fid c0).
  { destruct cs as [|c0 [|c1 cs]].
    - destruct Hp as (_ & _ & _ & _ & c0 & [] & _).
    - exists c0. split; [reflexivity|]. exists [], []. split; [reflexivity|].
      destruct Hp as (_ & _ & _ & _ & c1 & [<-|[]] & A). split; [exact A|intros x []].
    - unfold pick_trust_chain. assert (H := pick_by_priority_spec prio (c0 :: c1 :: cs)).
      destruct (pick_by_priority prio (c0 :: c1 :: cs)) as [c2|].
      + destruct H as (f & Hf & H). exists c2. split; [reflexivity|].
        rewrite (preferred_unique _ _ _ _ Hp Hf). exact H.
      + destruct Hp as (pre & post & -> & _ & c2 & Hin & A). exfalso.
        apply (H fid (in_elt _ _ _) c2 Hin A). }
  destruct G as (c0 & G1 & G2). rewrite G1. split.
  - intros [= <-]. exact G2.
  - intros H. rewrite (first_at_unique _ _ _ _ H G2). reflexivity.
Qed.

(** otherwise the first chain of the list; an empty list raises *)
Theorem C40_otherwise_first : forall prio cs,
  (forall fid, In fid prio -> no_chain cs fid) ->
  pick_trust_chain prio cs = match cs with [] => Err IndexError | c :: _ => Ok c end.
Proof.
  intros prio cs H. destruct cs as [|c0 [|c1 cs]]; [reflexivity|reflexivity|].
  unfold pick_trust_chain. assert (H' := pick_by_priority_spec prio (c0 :: c1 :: cs)).
  destruct (pick_by_priority prio (c0 :: c1 :: cs)) as [c2|]; [|reflexivity].
  destruct H' as (f & (pre & post & -> & _ & c3 & Hin & A) & _). exfalso.
  apply (H f (in_elt _ _ _) c3 Hin A).
Qed.

Example C40_ex :
  preferred ["tx"; "tb"; "ta"] [chn "ta" ["rp"] 2; chn "tb" ["rp"] 3; chn "tb" ["rp"] 2] "tb" /\
  pick_trust_chain ["tx"; "tb"; "ta"] [chn "ta" ["rp"] 2; chn "tb" ["rp"] 3; chn "tb" ["rp"] 2]
  = Ok (chn "tb" ["rp"] 3) /\
  (forall fid, In fid ["tx"] -> no_chain [chn "ta" ["rp"] 2; chn "tb" ["rp"] 3] fid).
Proof.
  split; [|split; [reflexivity|]].
  - exists ["tx"], ["ta"]. split; [reflexivity|]. split.
    + intros f [<-|[]] c [<-|[<-|[<-|[]]]]; discriminate.
    + exists (chn "tb" ["rp"] 3). split; [right; left; reflexivity|reflexivity].
  - intros f [<-|[]] c [<-|[<-|[]]]; discriminate.
Qed.

(** ** C41 *)

(** the stored chain of the anchor with the best priority, if there is one *)
Definition C41_full : Prop := forall prio ctx id m pre fid post c,
  dget id ctx = Some m -> prio = pre ++ fid :: post ->
  (forall f, In f pre -> dget f m = None) -> dget fid m = Some c ->
  pick_from_stored_trust_chains prio ctx id = Ok c.

Theorem C41_stored_priority_refuted : ~ C41_full.
Proof.
  intros H.
  specialize (H ["tb"; "ta"] [("rp", [("ta", chn "ta" ["rp"] 2); ("tb", chn "tb" ["rp"] 2)])] "rp"
                [("ta", chn "ta" ["rp"] 2); ("tb", chn "tb" ["rp"] 2)] [] "tb" ["ta"] (chn "tb" ["rp"] 2)).
  assert (E : Ok (chn "ta" ["rp"] 2) = Ok (chn "tb" ["rp"] 2))
    by (apply H; [reflexivity|reflexivity|intros f []|reflexivity]).
  discriminate.
Qed.

(** Missing: the priority.  What holds: the chain stored first for the entity is returned, whatever the
    priority; so the priority is respected when there is only one chain or the first one is preferred. *)
Theorem C41_stored_priority_partial : forall prio ctx id,
  pick_from_stored_trust_chains prio ctx id
  = match dget id ctx with
    | None => Err KeyError
    | Some [] => Err IndexError
    | Some ((_, c) :: _) => Ok c
    end.
Proof.
  intros prio ctx id. unfold pick_from_stored_trust_chains, dindex at 1.
  destruct (dget id ctx) as [m|]; [|reflexivity]. cbn [bind].
  destruct m as [|[a c] [|[b d] m]]; [reflexivity| |]; cbn [dkeys map fst].
  - unfold dindex. simpl. rewrite String.eqb_refl. reflexivity.
  - destruct prio; simpl; unfold dindex; simpl; rewrite String.eqb_refl; reflexivity.
Qed.

Example C41_ex :
  dget "rp" [("rp", [("ta", chn "ta" ["rp"] 2); ("tb", chn "tb" ["rp"] 2)])]
  = Some [("ta", chn "ta" ["rp"] 2); ("tb", chn "tb" ["rp"] 2)] /\
  pick_from_stored_trust_chains ["tb"] [("rp", [("ta", chn "ta" ["rp"] 2); ("tb", chn "tb" ["rp"] 2)])] "rp"
  = Ok (chn "ta" ["rp"] 2).
Proof. split; reflexivity. Qed.

(** ** C42 *)

Definition time_of (E : cenv) (s : fstate) : Z := e_clock E (st_tick (f_col s)).

Definition C42_full : Prop := forall E O fuel id s s' cs c,
  get_trust_chains E O fuel id s = (s', Ok cs) -> In c cs -> (time_of E s <= tc_exp (ch_tc c))%Z.

Definition fed_start : fstate := mkFed (mkState [] [] 0) [("ta", [1])] [].
Definition fed_after : fstate := fst (get_trust_chains fed id_order 9 "rp" fed_start).

Lemma fed_after_gets : exists c,
  snd (get_trust_chains fed id_order 9 "rp" fed_start) = Ok [c] /\ tc_exp (ch_tc c) = 800%Z /\
  dget "rp" (f_chains fed_after) = Some [c].
Proof. eexists. split; [vm_compute; reflexivity|]. split; vm_compute; reflexivity. Qed.

(** the chain with exp 800 is still returned at time 10000 *)
Theorem C42_not_after_expiry_refuted : ~ C42_full.
Proof.
  intros H. destruct fed_after_gets as (c & _ & Ee & Ed).
  specialize (H (at_time fed 10000) id_order 9 "rp" fed_after fed_after [c] c).
  assert (G : get_trust_chains (at_time fed 10000) id_order 9 "rp" fed_after = (fed_after, Ok [c])).
  { unfold get_trust_chains, mbind, StateM.get. rewrite Ed. reflexivity. }
  specialize (H G (or_introl eq_refl)). rewrite Ee in H.
  change (time_of (at_time fed 10000) fed_after) with 10000%Z in H. lia.
Qed.

(** calls one after the other, each in its own environment (network and time) *)
Record call := mkCall { c_env : cenv; c_fuel : nat; c_id : string; c_what : bool }.

(** [c_what]: get_trust_chains or get_verified_metadata *)
Definition do_call (O : iter_order) (s : fstate) (q : call) : fstate :=
  if c_what q then fst (get_trust_chains (c_env q) O (c_fuel q) (c_id q) s)
  else fst (get_verified_metadata (c_env q) O (c_fuel q) (c_id q) s).

Definition after_gets (O : iter_order) (calls : list call) (s : fstate) : fstate :=
  fold_left (do_call O) calls s.

(** [cs] was verified for [id] by one of the calls *)
Definition verified_by (O : iter_order) (calls : list call) (s0 : fstate) (id : string)
    (cs : list tchain) : Prop :=
  exists pre q post, calls = pre ++ q :: post /\ c_id q = id /\
    snd (get_verified_trust_chains (c_env q) O (c_fuel q) id (after_gets O pre s0)) = Ok cs.

Lemma on_col_chains A (m : M cstate A) s : f_chains (fst (on_col m s)) = f_chains s.
Proof. unfold on_col. destruct (m (f_col s)). reflexivity. Qed.

Lemma on_keys_chains A (m : M keyjar A) s : f_chains (fst (on_keys m s)) = f_chains s.
Proof. unfold on_keys. destruct (m (f_keys s)). reflexivity. Qed.

Lemma collect_chains E fuel id stop s :
  f_chains (fst (collect_trust_chains E fuel id stop s)) = f_chains s.
Proof.
  unfold collect_trust_chains, mbind. assert (H := on_col_chains _ (collect E fuel stop id) s).
  destruct (on_col (collect E fuel stop id) s) as [s1 [[[tr t]|]|x]]; exact H.
Qed.

Lemma get_verified_chains E O fuel id s :
  f_chains (fst (get_verified_trust_chains E O fuel id s)) = f_chains s.
Proof.
  unfold get_verified_trust_chains, mbind at 1. assert (H := collect_chains E fuel id "" s).
  destruct (collect_trust_chains E fuel id "" s) as [s1 [[cs [leaf|]]|x]]; cbn [fst] in H.
  - destruct cs as [|c cs]; [exact H|]. unfold mbind.
    assert (H2 := on_keys_chains _ (verify_trust_chains E (c :: cs) [leaf]) s1).
    destruct (on_keys (verify_trust_chains E (c :: cs) [leaf]) s1) as [s2 [tcs|y]];
      cbn [fst lift] in H2 |- *; congruence.
  - destruct cs; exact H.
  - exact H.
Qed.

Lemma call_chains O s q id :
  dget id (f_chains (do_call O s q)) = dget id (f_chains s) \/
  (dget (c_id q) (f_chains s) = None /\ c_id q = id /\
   exists cs, cs <> [] /\ snd (get_verified_trust_chains (c_env q) O (c_fuel q) id s) = Ok cs /\
              dget id (f_chains (do_call O s q)) = Some cs).
Proof.
  unfold do_call, get_trust_chains, get_verified_metadata, mbind, StateM.get.
  destruct (dget (c_id q) (f_chains s)) as [cs|] eqn:Ed.
  { left. destruct (c_what q); [reflexivity|]. destruct cs; reflexivity. }
  assert (Hk := get_verified_chains (c_env q) O (c_fuel q) (c_id q) s).
  destruct (get_verified_trust_chains (c_env q) O (c_fuel q) (c_id q) s) as [s1 [cs|x]] eqn:Eg;
    cbn [fst] in Hk.
  2:{ left. destruct (c_what q); cbn [fst]; rewrite Hk; reflexivity. }
  destruct cs as [|c cs]; cbn [is_nil].
  { left. destruct (c_what q); cbn [fst ret]; rewrite Hk; reflexivity. }
  destruct (string_dec (c_id q) id) as [E|N].
  - right. split; [reflexivity|]. split; [exact E|]. exists (c :: cs). split; [discriminate|].
    rewrite <- E, Eg. split; [reflexivity|].
    destruct (c_what q); apply dget_dset_same.
  - left. destruct (c_what q); cbn; rewrite dget_dset_other by congruence; rewrite Hk; reflexivity.
Qed.

Lemma after_gets_snoc O calls q s : after_gets O (calls ++ [q]) s = do_call O (after_gets O calls s) q.
Proof. unfold after_gets. rewrite fold_left_app. reflexivity. Qed.

Lemma verified_by_snoc O calls q s0 id cs :
  verified_by O calls s0 id cs -> verified_by O (calls ++ [q]) s0 id cs.
Proof.
  intros (pre & q0 & post & -> & H1 & H2). exists pre, q0, (post ++ [q]).
  split; [rewrite <- app_assoc; reflexivity|]. split; assumption.
Qed.

Lemma store_history O calls s0 id cs :
  dget id (f_chains (after_gets O calls s0)) = Some cs ->
  dget id (f_chains s0) = Some cs \/ (cs <> [] /\ verified_by O calls s0 id cs).
Proof.
  revert id cs. induction calls as [|q calls IH] using rev_ind; intros id cs H; [left; exact H|].
  rewrite after_gets_snoc in H.
  destruct (call_chains O (after_gets O calls s0) q id) as [E|(E1 & E2 & cs' & Hne & Hv & Es)].
  - rewrite E in H. destruct (IH id cs H) as [H0|[Hne Hv]]; [left; exact H0|right].
    split; [exact Hne|apply verified_by_snoc, Hv].
  - rewrite Es in H. injection H as <-. right. split; [exact Hne|].
    exists calls, q, []. split; [reflexivity|]. split; [exact E2|exact Hv].
Qed.

Lemma stays_stored O calls s0 id cs :
  dget id (f_chains s0) = Some cs -> dget id (f_chains (after_gets O calls s0)) = Some cs.
Proof.
  intros H. induction calls as [|q calls IH] using rev_ind; [exact H|]. rewrite after_gets_snoc.
  destruct (call_chains O (after_gets O calls s0) q id) as [E|(E1 & E2 & _)].
  - rewrite E. exact IH.
  - exfalso. congruence.
Qed.

(** Missing: that chains are dropped when they expire.  What holds: over any history of calls of
    get_trust_chains and get_verified_metadata, what is returned for an entity was the outcome of
    verification for that entity, now or in an earlier call; it is never mixed up with another
    entity's. *)
Theorem C42_not_after_expiry_partial : forall O calls E fuel id s0 s' cs,
  f_chains s0 = [] ->
  get_trust_chains E O fuel id (after_gets O calls s0) = (s', Ok cs) ->
  verified_by O (calls ++ [mkCall E fuel id true]) s0 id cs.
Proof.
  intros O calls E fuel id s0 s' cs H0 H. unfold get_trust_chains, mbind, StateM.get in H.
  destruct (dget id (f_chains (after_gets O calls s0))) as [cs0|] eqn:Ed.
  - injection H as _ <-. apply verified_by_snoc.
    destruct (store_history _ _ _ _ _ Ed) as [H1|[_ Hv]]; [rewrite H0 in H1; discriminate|exact Hv].
  - exists calls, (mkCall E fuel id true), []. split; [reflexivity|]. split; [reflexivity|]. cbn [c_env c_fuel].
    destruct (get_verified_trust_chains E O fuel id (after_gets O calls s0)) as [s1 [cs1|x]];
      [|discriminate]. destruct cs1; injection H as _ <-; reflexivity.
Qed.

(** the same for metadata: it is that of the first chain *)
Theorem C42_metadata_partial : forall O calls E fuel id s0 s' md,
  f_chains s0 = [] ->
  get_verified_metadata E O fuel id (after_gets O calls s0) = (s', Ok (Some md)) ->
  exists c cs, verified_by O (calls ++ [mkCall E fuel id false]) s0 id (c :: cs) /\ ch_md c = md.
Proof.
  intros O calls E fuel id s0 s' md H0 H. unfold get_verified_metadata, mbind, StateM.get in H.
  destruct (dget id (f_chains (after_gets O calls s0))) as [cs0|] eqn:Ed.
  - destruct cs0 as [|c cs0]; [discriminate|]. injection H as _ <-. exists c, cs0. split; [|reflexivity].
    apply verified_by_snoc.
    destruct (store_history _ _ _ _ _ Ed) as [H1|[_ Hv]]; [rewrite H0 in H1; discriminate|exact Hv].
  - destruct (get_verified_trust_chains E O fuel id (after_gets O calls s0)) as [s1 [cs1|x]] eqn:Eg;
      [|discriminate].
    destruct cs1 as [|c cs1]; [discriminate|]. injection H as _ <-. exists c, cs1. split; [|reflexivity].
    exists calls, (mkCall E fuel id false), []. split; [reflexivity|]. split; [reflexivity|].
    cbn [c_env c_fuel]. rewrite Eg. reflexivity.
Qed.

(** once found, chains are returned for ever, whatever the network says and however late it is *)
Theorem C42_kept_for_ever : forall O calls E fuel E' fuel' id s s' cs,
  get_trust_chains E O fuel id s = (s', Ok cs) -> cs <> [] ->
  get_trust_chains E' O fuel' id (after_gets O calls s') = (after_gets O calls s', Ok cs).
Proof.
  intros O calls E fuel E' fuel' id s s' cs H Hne.
  assert (Hd : dget id (f_chains s') = Some cs).
  { unfold get_trust_chains, mbind, StateM.get in H.
    destruct (dget id (f_chains s)) as [cs0|] eqn:Ed; [injection H as <- <-; exact Ed|].
    destruct (get_verified_trust_chains E O fuel id s) as [s1 [cs1|x]]; [|discriminate].
    destruct cs1 as [|c cs1]; [injection H as _ <-; contradiction|]. injection H as <- <-.
    apply dget_dset_same. }
  unfold get_trust_chains, mbind, StateM.get. rewrite (stays_stored O calls s' id cs Hd). reflexivity.
Qed.

Example C42_ex :
  let calls := [mkCall fed 9 "im" true; mkCall fed 9 "rp" false] in
  f_chains fed_start = [] /\ length (f_chains (after_gets id_order calls fed_start)) = 2 /\
  is_ok (snd (get_trust_chains (at_time fed 10000) id_order 9 "rp" (after_gets id_order calls fed_start))) = true.
Proof. split; [reflexivity|]. split; vm_compute; reflexivity. Qed.

(** ** C43 *)

Fixpoint export_n (n : nat) (tc : trust_chain) : trust_chain :=
  match n with O => tc | S n' => fst (export_chain (export_n n' tc)) end.

(** the [n+1]-th export *)
Definition nth_export (n : nat) (tc : trust_chain) : list stmt := snd (export_chain (export_n n tc)).

Definition C43_full : Prop := forall n tc, nth_export n tc = rev (tc_verified tc).

Theorem C43_export_repeatable_refuted : ~ C43_full.
Proof.
  intros H. specialize (H 1 (mkTC "ta" [] 0 [] [est "ta" "rp" 1 []; est "rp" "rp" 1 []])). discriminate.
Qed.

(** Missing: the calls with even number.  What holds: calls alternate between leaf first and anchor
    first, and nothing else of the trust chain changes. *)
Theorem C43_export_repeatable_partial : forall n tc,
  nth_export n tc = (if Nat.even n then rev (tc_verified tc) else tc_verified tc) /\
  tc_verified (export_n n tc) = (if Nat.even n then tc_verified tc else rev (tc_verified tc)) /\
  (tc_anchor (export_n n tc), tc_chain (export_n n tc), tc_exp (export_n n tc), tc_iss_path (export_n n tc))
  = (tc_anchor tc, tc_chain tc, tc_exp tc, tc_iss_path tc).
Proof.
  intros n tc.
  assert (H : tc_verified (export_n n tc) = (if Nat.even n then tc_verified tc else rev (tc_verified tc))).
  { induction n as [|n IH]; [reflexivity|]. cbn [export_n]. unfold export_chain. cbn [fst tc_verified].
    rewrite IH, Nat.even_succ, <- Nat.negb_even. destruct (Nat.even n); cbn [negb];
      [reflexivity|apply rev_involutive]. }
  split; [|split; [exact H|]].
  - unfold nth_export, export_chain. cbn [snd]. rewrite H. destruct (Nat.even n);
      [reflexivity|apply rev_involutive].
  - clear H. induction n as [|n IH]; [reflexivity|]. cbn [export_n]. unfold export_chain.
    cbn [fst tc_anchor tc_chain tc_exp tc_iss_path]. exact IH.
Qed.

Example C43_ex :
  let tc := mkTC "ta" [] 0 [] [est "ta" "rp" 1 []; est "rp" "rp" 1 []] in
  nth_export 0 tc = [est "rp" "rp" 1 []; est "ta" "rp" 1 []] /\
  nth_export 1 tc = [est "ta" "rp" 1 []; est "rp" "rp" 1 []].
Proof. split; reflexivity. Qed.

Print Assumptions C38_shortest_per_anchor.
Print Assumptions C38_no_other_anchor.
Print Assumptions C39_saved_chains_retrievable_refuted.
Print Assumptions C39_saved_chains_retrievable_partial.
Print Assumptions C39_all_chains_of_entity.
Print Assumptions C40_by_priority.
Print Assumptions C40_otherwise_first.
Print Assumptions C41_stored_priority_refuted.
Print Assumptions C41_stored_priority_partial.
Print Assumptions C42_not_after_expiry_refuted.
Print Assumptions C42_not_after_expiry_partial.
Print Assumptions C42_metadata_partial.
Print Assumptions C42_kept_for_ever.
Print Assumptions C43_export_repeatable_refuted.
Print Assumptions C43_export_repeatable_partial.
