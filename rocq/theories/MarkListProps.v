(** Who is in the lists of a trust mark issuer (C200). *)
From Verif Require Import PyFacts TrustMarkFacts.
From Verif Require Export MarkListModel ListingProps.
From Coq Require Import Sorted.

(** ** C200 *)

(** Whoever is in the list of the holders of a trust mark is also found when asked for. *)
Definition C200_full : Prop := forall I cfg h now id sub l,
  own_files cfg -> orderly h -> no_own_exp h -> id <> "" -> sub <> "" ->
  entity_list (run I (fresh cfg) h) now id "" = Ok (MSubs l) ->
  (In (VStr sub) l <-> entity_list (run I (fresh cfg) h) now id sub = Ok (MSubs [VStr sub])).

(** A mark that has expired keeps its holder in the list. *)
Theorem C200_expired_refuted : ~ C200_full.
Proof.
  intros H. assert (G : exists l, entity_list (run ex_issuer (fresh ex_cfg) ex_hist) 100000000 "sirtfi" "" = Ok (MSubs l) /\ In (VStr "rp1") l /\
      entity_list (run ex_issuer (fresh ex_cfg) ex_hist) 100000000 "sirtfi" "rp1" = Ok MNone).
  { eexists. split; [vm_compute; reflexivity|]. split; [left; reflexivity|vm_compute; reflexivity]. }
  destruct G as (l & G1 & G2 & G3).
  destruct (H ex_issuer ex_cfg ex_hist 100000000%Z "sirtfi" "rp1" l ex_own) as [X _]; try discriminate; [..|exact G1|].
  - exact (proj1 C44_ex).
  - exact (proj1 (proj2 C44_ex)).
  - rewrite (X G2) in G3. discriminate G3.
Qed.
Print Assumptions C200_expired_refuted.

(** the list without a subject *)
Lemma all_listed I cfg h now id : own_files cfg ->
  exists l, NoDup l /\ (forall sub, In sub l <-> issued_to I (fresh cfg) h id sub) /\
    StronglySorted (issued_later I (fresh cfg) h id) l /\
    entity_list (run I (fresh cfg) h) now id "" = Ok (MSubs (map VStr l)).
Proof.
  intros Hown. destruct (C46_listing I cfg h now id Hown) as (l & H1 & H2 & H3 & H4). exists l. do 3 (split; [assumption|]).
  unfold entity_list. cbn [String.eqb negb]. destruct (fresh_run I cfg h Hown) as (fs & E & _). rewrite E in H4 |- *. cbn [trust_mark_list] in H4.
  destruct (file_list cfg fs id "") as [l'|x]; cbn [bind] in H4 |- *; [|destruct l; discriminate H4].
  destruct l' as [|v l'], l as [|x l]; cbn [is_nil map] in H4 |- *; try discriminate H4; [reflexivity|]. injection H4 as -> ->. reflexivity.
Qed.

(** Whoever is found is in the list, which has each subject that ever received a mark with the id once, the one that received it last first;
    who is in the list is found exactly if one of the marks it received has not expired. Missing: those whose marks have expired are in the
    list, too. *)
Theorem C200_listed_partial : forall I cfg h now id, own_files cfg -> id <> "" ->
  exists l, entity_list (run I (fresh cfg) h) now id "" = Ok (MSubs (map VStr l)) /\
    NoDup l /\ (forall sub, In sub l <-> issued_to I (fresh cfg) h id sub) /\ StronglySorted (issued_later I (fresh cfg) h id) l /\
    forall sub, sub <> "" ->
      (entity_list (run I (fresh cfg) h) now id sub = Ok (MSubs [VStr sub]) -> In sub l) /\
      (orderly h -> no_own_exp h ->
       (entity_list (run I (fresh cfg) h) now id sub = Ok (MSubs [VStr sub]) <->
        exists t more mark, issued I (fresh cfg) h t id sub more mark /\ unexpired now (claims_of mark))).
Proof.
  intros I cfg h now id Hown Hid. destruct (all_listed I cfg h now id Hown) as (l & H1 & H2 & H3 & H4).
  exists l. split; [exact H4|]. split; [exact H1|]. split; [exact H2|]. split; [exact H3|]. intros sub Hs.
  assert (A : entity_list (run I (fresh cfg) h) now id sub = Ok (MSubs [VStr sub]) <->
              trust_mark_status no_keys (run I (fresh cfg) h) now (by_ids id sub) = Ok Active).
  { rewrite status_ids by exact Hid. unfold entity_list, found. apply String.eqb_neq in Hs. rewrite Hs. cbn [negb].
    destruct (store_find (run I (fresh cfg) h) now id sub 0) as [[|]|x]; cbn [bind]; split; intros H; first [reflexivity|discriminate H]. }
  split.
  - intros H. apply A in H. destruct (C44_active_was_issued _ _ _ _ _ _ _ Hown H) as (t & more & mark & Hi & _). apply H2.
    exists t, more, mark. exact Hi.
  - intros Ho Hn. rewrite A. apply C44_active_partial; assumption.
Qed.
Print Assumptions C200_listed_partial.

(** With a store in memory one subject is asked for by the dictionary that is listed. *)
Theorem C200_memory : forall I h now id sub, no_restart h -> sub <> "" ->
  (entity_list (run I (SSimple []) h) now id "" = Ok MNone /\ entity_list (run I (SSimple []) h) now id sub = Err KeyError /\
   forall sub', ~ issued_to I (SSimple []) h id sub') \/
  exists m, entity_list (run I (SSimple []) h) now id "" = Ok (MDict m) /\
    (issued_to I (SSimple []) h id sub -> dmem sub m = true /\ entity_list (run I (SSimple []) h) now id sub = Ok (MSubs [VStr sub])) /\
    (~ issued_to I (SSimple []) h id sub -> dmem sub m = false /\ entity_list (run I (SSimple []) h) now id sub = Ok MNone).
Proof.
  intros I h now id sub Hnr Hs. destruct (C188_memory I h now id Hnr) as (db & -> & [(H1 & H2 & H3)|(sub0 & c & H1 & H2 & _ & _ & H3 & H4)]).
  - left. specialize (H3 sub Hs). unfold simple_list in H3. apply String.eqb_neq in Hs. unfold entity_list, store_find, simple_find, simple_list.
    rewrite Hs in H3 |- *. cbn [negb String.eqb] in H3 |- *. unfold trust_mark_list, simple_list in H2. cbn [negb String.eqb] in H2.
    unfold dindex in *. destruct (dget id db) as [m|]; cbn [bind] in H3; [destruct (dget sub m) as [[|]|]; discriminate H3|]. auto.
  - right. unfold trust_mark_list, simple_list in H2. cbn [negb String.eqb] in H2.
    destruct (dget id db) as [m|] eqn:D; [|discriminate H2]. cbn [bind] in H2. destruct m as [|e m]; [discriminate H2|]. injection H2 as -> ->.
    exists [(sub0, c)]. unfold entity_list, store_find, simple_find, simple_list. cbn [negb String.eqb]. unfold dindex. rewrite D. cbn [bind].
    split; [reflexivity|].
    assert (Hs' := Hs). apply String.eqb_neq in Hs'. rewrite Hs'. cbn [negb dget dmem].
    destruct (String.eqb_spec sub sub0) as [->|N].
    + split; [intros _|intros X; destruct X; apply H1; reflexivity]. specialize (H3 Hs). unfold simple_list, dindex in H3. rewrite Hs', D in H3.
      cbn [negb bind dget] in H3. rewrite String.eqb_refl in H3. unfold dmem. cbn [dget]. rewrite String.eqb_refl. destruct c; [discriminate H3|].
      auto.
    + apply String.eqb_neq in N. unfold dmem. cbn [dget]. rewrite N. split; [|auto]. intros X. apply H1 in X. subst. rewrite String.eqb_refl in N. discriminate N.
Qed.
Print Assumptions C200_memory.

Example C200_ex : own_files ex_cfg /\ orderly ex_hist /\ no_own_exp ex_hist /\
  entity_list (run ex_issuer (fresh ex_cfg) ex_hist) 1100 "sirtfi" "" = Ok (MSubs [VStr "rp1"; VStr "rp2"]) /\
  entity_list (run ex_issuer (fresh ex_cfg) ex_hist) 1100 "sirtfi" "rp2" = Ok (MSubs [VStr "rp2"]) /\
  entity_list (run ex_issuer (fresh ex_cfg) ex_hist) 100000000 "sirtfi" "rp2" = Ok MNone /\
  let h := [Issue 1 "basic" "rp1" []; Issue 2 "sirtfi" "rp2" []; Issue 3 "basic" "rp2" []] in
  no_restart h /\ entity_list (run ex_issuer (SSimple []) h) 4 "basic" "rp1" = Ok (MSubs [VStr "rp1"]) /\
  entity_list (run ex_issuer (SSimple []) h) 4 "basic" "rp2" = Ok MNone /\ entity_list (run ex_issuer (SSimple []) h) 4 "other" "rp2" = Err KeyError.
Proof.
  split; [exact ex_own|]. split; [exact (proj1 C44_ex)|]. split; [exact (proj1 (proj2 C44_ex))|]. do 3 (split; [vm_compute; reflexivity|]).
  intros h. split; [intros [C|[C|[C|[]]]]; discriminate C|]. split; [vm_compute; reflexivity|]. split; vm_compute; reflexivity.
Qed.
