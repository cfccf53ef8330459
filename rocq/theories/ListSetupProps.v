(** What the list endpoint says after entities were registered with the commands (C166). *)
From Verif Require Import PyFacts PublishModel ScriptModel ScriptProps SetupProps ListModel ListProps.
From Coq Require Import Permutation.

(** [ids] are the registered entities with this quality *)
Definition registered_with (F : list member) (commands : list (string * string)) (sup : string) (Q : member -> Prop)
    (r : res ListModel.list_response) : Prop :=
  exists ids, r = Ok (LIds ids) /\
    forall x, In x ids <-> exists m, In m F /\ m_id m = x /\ In (sup, x) commands /\ Q m.

Definition of_published_type (t : string) (m : member) : Prop := In t (dkeys (says_of_itself m)).

Definition has_list_endpoint (m : member) : Prop :=
  exists fe, federation_part m fe /\ dmem "federation_list_endpoint" fe = true.

(** the entities had no subordinates before *)
Definition bare (F : list member) : Prop := forall m, In m F -> m_subs m = [].

Definition can_be_registered (F : list member) (commands : list (string * string)) : Prop :=
  forall c, In c commands -> exists m fe, In m F /\ m_id m = snd c /\ federation_part m fe.

Definition C166_full : Prop := forall jwks_of jwks_val E F n commands F' n' O V m' t,
  started jwks_of F E -> bare F -> can_be_registered F commands ->
  set_up jwks_of jwks_val E commands (F, n) = ((F', n'), Ok tt) -> In m' F' -> t <> "" ->
  registered_with F commands (m_id m') (of_published_type t) (process O V [("entity_type", VStr t)] (m_subs m')).

(** The registration says entity_types; the endpoint looks for entity_type.  So no list of subordinates of a type is ever
    had from an entity with subordinates. *)
Theorem C166_type_fails_partial : forall jwks_of jwks_val E F n commands F' n' O V m' x t,
  started jwks_of F E -> bare F -> can_be_registered F commands ->
  set_up jwks_of jwks_val E commands (F, n) = ((F', n'), Ok tt) -> In m' F' -> In (m_id m', x) commands ->
  process O V [("entity_type", t)] (m_subs m') = Err KeyError.
Proof.
  intros jwks_of jwks_val E F n commands F' n' O V m' x t L Hb Hc H Hm' Hx.
  destruct (set_up_fills jwks_of jwks_val E commands F n L Hc) as (F2 & n2 & H1 & _ & H3).
  rewrite H in H1. injection H1 as <- <-.
  destruct (Forall2_In_r _ _ _ _ _ _ H3 Hm') as (m & Hm & db & -> & _ & Y1 & Y2).
  cbn [put_subs m_subs]. change (m_id (put_subs m db)) with (m_id m) in Hx.
  destruct (Y1 x Hx) as (m2 & e2 & _ & _ & D & _). destruct db as [|[y e] db]; [discriminate D|].
  assert (Ee : dget "entity_type" e = None).
  { assert (Dy : dget y ((y, e) :: db) = Some e) by (cbn [dget]; rewrite String.eqb_refl; reflexivity).
    destruct (in_dec pair_dec (m_id m, y) commands) as [Hin|Hout].
    - destruct (Y1 y Hin) as (m3 & e3 & _ & _ & D3 & (ks & fe & _ & _ & _ & _ & _ & K & _)). rewrite Dy in D3. injection D3 as <-.
      destruct (dget "entity_type" e) as [v|] eqn:Ev; [|reflexivity]. exfalso. assert (G := K "entity_type"). rewrite Ev in G.
      simpl in G. intuition discriminate.
    - rewrite (Y2 y Hout), (Hb m Hm) in Dy. discriminate Dy. }
  cbn. unfold dindex. rewrite Ee. reflexivity.
Qed.
Print Assumptions C166_type_fails_partial.

Theorem C166_by_type_refuted : ~ C166_full.
Proof.
  intros H.
  destruct (H su_jwks su_val su_env su_fed 0 su_commands (fst (fst (set_up su_jwks su_val su_env su_commands (su_fed, 0))))
    (snd (fst (set_up su_jwks su_val su_env su_commands (su_fed, 0)))) id_order ex_env
    (nth 1 (fst (fst (set_up su_jwks su_val su_env su_commands (su_fed, 0)))) su_ta) "openid_provider" su_started) as (ids & Hids & _).
  - intros m Hm. su_members; reflexivity.
  - intros c Hc. rewrite <- (app_nil_r su_commands) in Hc. exact (su_known [] (fun c h => match h with end) c Hc).
  - vm_compute. reflexivity.
  - apply nth_In. vm_compute. auto.
  - discriminate.
  - vm_compute in Hids. discriminate Hids.
Qed.
Print Assumptions C166_by_type_refuted.

(** Missing: lists by type (see above).  A list of all subordinates is what was registered; a list of intermediates is
    those of them that have a list endpoint. *)
Theorem C166_lists_partial : forall jwks_of jwks_val E F n commands F' n' O V m',
  started jwks_of F E -> bare F -> can_be_registered F commands ->
  set_up jwks_of jwks_val E commands (F, n) = ((F', n'), Ok tt) -> In m' F' ->
  registered_with F commands (m_id m') (fun _ => True) (process O V [] (m_subs m')) /\
  registered_with F commands (m_id m') has_list_endpoint (process O V [("intermediate", VBool true)] (m_subs m')).
Proof.
  intros jwks_of jwks_val E F n commands F' n' O V m' L Hb Hc H Hm'.
  destruct (set_up_fills jwks_of jwks_val E commands F n L Hc) as (F2 & n2 & H1 & _ & H3).
  rewrite H in H1. injection H1 as <- <-.
  destruct (Forall2_In_r _ _ _ _ _ _ H3 Hm') as (m & Hm & db & -> & N & Y1 & Y2).
  cbn [put_subs m_subs]. change (m_id (put_subs m db)) with (m_id m).
  rewrite (Hb m Hm) in N, Y2. specialize (N (NoDup_nil _)).
  assert (B : forall x e, dget x db = Some e -> In (m_id m, x) commands /\ exists m2, In m2 F /\ m_id m2 = x /\ enrolled jwks_of jwks_val m2 e).
  { intros x e D. destruct (in_dec pair_dec (m_id m, x) commands) as [Hin|Hout]; [|rewrite (Y2 x Hout) in D; discriminate D].
    split; [exact Hin|]. destruct (Y1 x Hin) as (m3 & e3 & M1 & M2 & D3 & M4). exists m3. rewrite D in D3. injection D3 as <-. auto. }
  split.
  - exists (dkeys db). split; [reflexivity|]. intros x. split.
    + intros Hx. apply key_In_dget in Hx. destruct Hx as [e D]. destruct (B x e D) as (G1 & m2 & G2 & G3 & _). exists m2. auto.
    + intros (m2 & _ & <- & Hin & _). destruct (Y1 _ Hin) as (m3 & e & _ & _ & D & _). exact (dget_In_key _ _ _ _ D).
  - assert (K : exists s, foldM (known_match [("intermediate", VBool true)]) db [] = Ok s /\
                  forall x, In x s <-> exists e, In (x, e) db /\ set_and_true "intermediate" e = true).
    { assert (G : forall l acc, exists s, foldM (known_match [("intermediate", VBool true)]) l acc = Ok s /\
                  forall x, In x s <-> In x acc \/ exists e, In (x, e) l /\ set_and_true "intermediate" e = true).
      { induction l as [|[y e] l IH]; intros acc.
        - exists acc. split; [reflexivity|]. intros x. split; [auto|intros [G|(e & [] & _)]; exact G].
        - cbn [foldM]. unfold known_match at 1. cbn [set_and_true dget String.eqb].
          change (set_and_true "intermediate" [("intermediate", VBool true)]) with true. cbn [andb].
          change (dget "entity_type" [("intermediate", VBool true)]) with (@None val).
          destruct (set_and_true "intermediate" e) eqn:Es; cbn [bind].
          + destruct (IH (sadd y acc)) as (s & Hs & Hi). exists s. split; [exact Hs|]. intros x. rewrite Hi, sadd_In. split.
            * intros [[G|G]|(e' & G & G')]; [auto|right; exists e; subst x; simpl; auto|right; exists e'; simpl; auto].
            * intros [G|(e' & [G|G] & G')]; [auto|injection G as <- <-; auto|right; eauto].
          + destruct (IH acc) as (s & Hs & Hi). exists s. split; [exact Hs|]. intros x. rewrite Hi. split.
            * intros [G|(e' & G & G')]; [auto|right; exists e'; simpl; auto].
            * intros [G|(e' & [G|G] & G')]; [auto|injection G as <- <-; congruence|right; eauto]. }
      destruct (G db []) as (s & Hs & Hi). exists s. split; [exact Hs|]. intros x. rewrite Hi. split; [intros [[]|X]; exact X|auto]. }
    destruct K as (s & Hs & Hi).
    exists (ios O s). split.
    { unfold process. cbn [forallb dkeys map fst smem existsb].
      change (forallb _ _) with false. cbv iota. rewrite Hs. reflexivity. }
    intros x. assert (P : In x (ios O s) <-> In x s) by (split; apply Permutation_in; [|symmetry]; apply ios_perm). rewrite P, Hi. split.
    + intros (e & Hin & Ht). apply (In_dget_nodup _ _ _ _ N) in Hin.
      destruct (B x e Hin) as (G1 & m2 & G2 & G3 & (ks & fe & _ & E2 & _ & _ & E5 & _)). exists m2. split; [exact G2|]. split; [exact G3|].
      split; [exact G1|]. exists fe. split; [exact E2|]. unfold set_and_true in Ht. rewrite E5 in Ht.
      destruct (dmem "federation_list_endpoint" fe); [reflexivity|discriminate].
    + intros (m2 & Hm2 & <- & Hin & (fe & E2 & Ed)). destruct (Y1 _ Hin) as (m3 & e & M1 & M2 & D & (ks & fe3 & _ & E2' & _ & _ & E5 & _)).
      apply (sd_ids _ _ _ L) in M2; [subst m3|exact M1|exact Hm2].
      exists e. split; [exact (dget_In _ _ _ _ D)|]. unfold federation_part in *. rewrite E2 in E2'. injection E2' as <-.
      unfold set_and_true. rewrite E5, Ed. reflexivity.
Qed.
Print Assumptions C166_lists_partial.

Example C166_ex : started su_jwks su_fed su_env /\ bare su_fed /\ can_be_registered su_fed su_commands /\
  exists F' n' m', set_up su_jwks su_val su_env su_commands (su_fed, 0) = ((F', n'), Ok tt) /\ In m' F' /\ m_id m' = "ta" /\
    In (m_id m', "im") su_commands /\ process id_order ex_env [] (m_subs m') = Ok (LIds ["im"; "rp"]) /\
    process id_order ex_env [("intermediate", VBool true)] (m_subs m') = Ok (LIds ["im"]) /\
    process id_order ex_env [("entity_type", VStr "openid_relying_party")] (m_subs m') = Err KeyError.
Proof.
  split; [exact su_started|]. split; [intros m Hm; su_members; reflexivity|].
  split; [intros c Hc; rewrite <- (app_nil_r su_commands) in Hc; exact (su_known [] (fun c h => match h with end) c Hc)|].
  eexists _, _, _. split; [vm_compute; reflexivity|]. split; [left; reflexivity|]. split; [reflexivity|]. split; [simpl; auto|].
  split; [vm_compute; reflexivity|]. split; vm_compute; reflexivity.
Qed.
