(** What a trust mark issuer says about one subject, and what it lists (C188). *)
From Verif Require Import PyFacts TrustMarkFacts.
From Verif Require Export TrustMarkSpec TrustMarkProps.

(** ** C188 *)

(** The list endpoint, asked about a subject, says what the status endpoint says. *)
Theorem C188_same_as_status : forall held s now id sub, id <> "" ->
  (trust_mark_list s now (Some sub) (Some id) = Ok (LFoo sub) <-> trust_mark_status held s now (by_ids id sub) = Ok Active) /\
  (trust_mark_list s now (Some sub) (Some id) = Ok LNotFound <-> trust_mark_status held s now (by_ids id sub) = Ok NotFound) /\
  (forall x, trust_mark_list s now (Some sub) (Some id) = Err x <-> trust_mark_status held s now (by_ids id sub) = Err x).
Proof.
  intros held s now id sub Hid. rewrite status_ids by exact Hid. unfold trust_mark_list, found.
  destruct (store_find s now id sub 0) as [[|]|x]; cbn [bind]; (split; [|split; [|intros y]]); (split; intros H; first [reflexivity|discriminate H|congruence]).
Qed.
Print Assumptions C188_same_as_status.

(** Without an id nothing is found. *)
Lemma no_id s now sub : trust_mark_list s now sub None = Ok LNotFound.
Proof. destruct sub; reflexivity. Qed.

(** a subject is in the list of the lines about it, once *)
Lemma list_lines_sub sub : sub <> "" -> forall ls subs acc,
  map (dget "sub") ls = map (fun s => Some (VStr s)) subs -> acc = [] \/ acc = [VStr sub] ->
  list_lines sub acc ls = (if is_nil acc then if in_dec string_dec sub subs then [VStr sub] else [] else acc).
Proof.
  intros Hs. apply String.eqb_neq in Hs. induction ls as [|t ls IH]; intros [|s subs] acc E A; try discriminate E.
  { cbn [list_lines]. destruct A as [-> | ->]; [|reflexivity]. cbn [is_nil]. destruct (in_dec string_dec sub []) as [[]|]; reflexivity. }
  injection E as Es E. cbn [list_lines]. rewrite Es. destruct A as [-> | ->].
  - cbn [vmem existsb]. rewrite Hs. cbn [orb py_eqb app]. destruct (String.eqb_spec s sub) as [->|N].
    + rewrite (IH subs [VStr sub] E (or_intror eq_refl)). cbn [is_nil].
      destruct (in_dec string_dec sub (sub :: subs)) as [|X]; [reflexivity|contradiction X; left; reflexivity].
    + rewrite (IH subs [] E (or_introl eq_refl)). cbn [is_nil].
      destruct (in_dec string_dec sub subs) as [X|X], (in_dec string_dec sub (s :: subs)) as [Y|Y]; try reflexivity.
      * contradiction Y. right. exact X.
      * destruct Y as [Y|Y]; [contradiction (N Y)|contradiction (X Y)].
  - destruct (vmem (VStr s) [VStr sub]) eqn:V; [rewrite (IH subs _ E (or_intror eq_refl)); reflexivity|].
    rewrite Hs. cbn [orb py_eqb]. destruct (String.eqb_spec s sub) as [->|N]; [|exact (IH subs _ E (or_intror eq_refl))].
    exfalso. cbn in V. rewrite String.eqb_refl in V. discriminate V.
Qed.

(** Asked for one subject, the listing of the files has it exactly if it received such a mark, expired or not. *)
Theorem C188_subject : forall I cfg h id sub fs, own_files cfg -> sub <> "" -> run I (fresh cfg) h = SFile cfg fs ->
  (issued_to I (fresh cfg) h id sub -> file_list cfg fs id sub = Ok [VStr sub]) /\
  (~ issued_to I (fresh cfg) h id sub -> file_list cfg fs id sub = Ok []).
Proof.
  intros I cfg h id sub fs Hown Hs Er. destruct (fresh_run I cfg h Hown) as (fs' & E & Hfs).
  rewrite Er in E. injection E as <-. unfold file_list. destruct (dget id cfg) as [fn|] eqn:Ef.
  - unfold read_file. rewrite (Hfs id fn Ef). cbn [bind]. destruct (contents_subs I h id) as [subs Es].
    assert (Hd : dmem id cfg = true) by (unfold dmem; rewrite Ef; reflexivity).
    destruct (listing_sorted I cfg (file_init cfg []) id Hd h subs Es) as [H1 _].
    assert (Es' : map (dget "sub") (rev (contents I h id)) = map (fun s => Some (VStr s)) (rev subs))
      by (rewrite !map_rev; unfold tmark in *; rewrite Es; reflexivity).
    rewrite (list_lines_sub sub Hs _ (rev subs) [] Es' (or_introl eq_refl)). cbn [is_nil].
    split; intros H; destruct (in_dec string_dec sub (rev subs)) as [X|X]; try reflexivity; exfalso.
    + apply X. apply in_rev. rewrite rev_involutive. apply H1. exact H.
    + apply H, H1. apply in_rev. exact X.
  - split; [|reflexivity]. intros H. apply issued_to_file in H. destruct H as [H _]. unfold dmem in H. rewrite Ef in H. discriminate H.
Qed.
Print Assumptions C188_subject.

(** The store in memory lists the mark that it has, and says whether it is the one of a subject. *)
Theorem C188_memory : forall I h now id, no_restart h ->
  exists db, run I (SSimple []) h = SSimple db /\
  ((forall sub, ~ issued_to I (SSimple []) h id sub) /\ trust_mark_list (SSimple db) now None (Some id) = Ok LNotFound /\
   (forall sub, sub <> "" -> simple_list db id sub = Err KeyError) \/
   exists sub c, (forall sub', issued_to I (SSimple []) h id sub' <-> sub' = sub) /\
     trust_mark_list (SSimple db) now None (Some id) = Ok (LDict [(sub, c)]) /\ dget "sub" c = Some (VStr sub) /\ dget "id" c = Some (VStr id) /\
     (sub <> "" -> simple_list db id sub = Ok (LSub sub)) /\
     (forall sub', sub' <> "" -> sub' <> sub -> simple_list db id sub' = Ok LNone)).
Proof.
  intros I h now id Hnr. assert (G : exists db, run I (SSimple []) h = SSimple db /\ forall id, match dget id db with
      | None => forall sub, ~ issued_to I (SSimple []) h id sub
      | Some m => exists sub c, m = [(sub, c)] /\ c <> [] /\ dget "sub" c = Some (VStr sub) /\ dget "id" c = Some (VStr id) /\
          forall sub', issued_to I (SSimple []) h id sub' <-> sub' = sub
      end).
  { destruct (simple_inv I h Hnr) as (db & E & Hinv). exists db. split; [exact E|].
    assert (X : forall db id m sub c, run I (SSimple []) h = SSimple db -> dget id db = Some m -> In (sub, c) m ->
                  dget "sub" c = Some (VStr sub) /\ dget "id" c = Some (VStr id)).
    { clear. induction h as [|e h IH] using rev_ind; intros db id m sub c E D Hin.
      - injection E as <-. discriminate D.
      - rewrite run_snoc in E. destruct (run I (SSimple []) h) as [cfg fs|db0] eqn:E0.
        { exfalso. destruct e as [t i s mo|]; cbn [step restart] in E; [|discriminate E]. rewrite create_eq in E.
          destruct (content_of I t i s mo); [|discriminate E]. unfold store_add, mbind in E. destruct (file_add _ _ _) as [? [?|?]] in E; discriminate E. }
        destruct e as [t i s mo|]; cbn [step restart] in E; [|injection E as <-; discriminate D].
        assert (Hc := create_simple I t i s mo db0). destruct (content_of I t i s mo) as [c0|x] eqn:Ec.
        2: { rewrite Hc in E. injection E as <-. exact (IH db0 id m sub c eq_refl D Hin). }
        destruct Hc as [_ Hc]. rewrite Hc in E. destruct (dmem i db0).
        { injection E as <-. exact (IH db0 id m sub c eq_refl D Hin). }
        injection E as <-. rewrite dget_dset in D. destruct (String.eqb_spec id i) as [->|N]; [|exact (IH db0 id m sub c eq_refl D Hin)].
        injection D as <-. destruct Hin as [[= <- <-]|[]]. destruct (content_ok _ _ _ _ _ _ Ec) as (_ & _ & _ & _ & _ & _ & _ & E1 & E2 & _). auto. }
    intros i. specialize (Hinv i). destruct (dget i db) as [m|] eqn:D; [|exact Hinv]. destruct Hinv as (sub & c & -> & Hne & Hi).
    destruct (X db i _ sub c E D (or_introl eq_refl)). exists sub, c. auto. }
  destruct G as (db & E & Hinv). exists db. split; [exact E|]. specialize (Hinv id). unfold trust_mark_list, simple_list, dindex.
  destruct (dget id db) as [m|].
  - right. destruct Hinv as (sub & c & -> & Hne & Es & Ei & Hi). exists sub, c. split; [exact Hi|]. split; [reflexivity|]. split; [exact Es|].
    split; [exact Ei|]. split.
    + intros Hs. apply String.eqb_neq in Hs. rewrite Hs. cbn [negb bind dget]. rewrite String.eqb_refl. destruct c; [contradiction|reflexivity].
    + intros sub' Hs N. apply String.eqb_neq in Hs. apply String.eqb_neq in N. rewrite Hs. cbn [negb bind dget]. rewrite N. reflexivity.
  - left. split; [exact Hinv|]. split; [reflexivity|]. intros sub Hs. apply String.eqb_neq in Hs. rewrite Hs. reflexivity.
Qed.
Print Assumptions C188_memory.

Example C188_ex :
  trust_mark_list (run ex_issuer (fresh ex_cfg) ex_hist) 1100 (Some "rp2") (Some "sirtfi") = Ok (LFoo "rp2") /\
  trust_mark_list (run ex_issuer (fresh ex_cfg) ex_hist) 1100 (Some "rp2") (Some "basic") = Ok LNotFound /\
  (exists fs, run ex_issuer (fresh ex_cfg) ex_hist = SFile ex_cfg fs /\
     file_list ex_cfg fs "sirtfi" "rp2" = Ok [VStr "rp2"] /\ file_list ex_cfg fs "basic" "rp2" = Ok []) /\
  let h := [Issue 1 "basic" "rp1" []; Issue 2 "sirtfi" "rp2" []; Issue 3 "basic" "rp2" []] in
  no_restart h /\ exists db c, run ex_issuer (SSimple []) h = SSimple db /\
    trust_mark_list (SSimple db) 4 None (Some "basic") = Ok (LDict [("rp1", c)]) /\
    simple_list db "basic" "rp1" = Ok (LSub "rp1") /\ simple_list db "basic" "rp2" = Ok LNone.
Proof.
  split; [vm_compute; reflexivity|]. split; [vm_compute; reflexivity|]. split; [eexists; split; [vm_compute; reflexivity|]; split; vm_compute; reflexivity|].
  intros h. split; [intros [C|[C|[C|[]]]]; discriminate C|]. eexists _, _. split; [vm_compute; reflexivity|].
  split; [vm_compute; reflexivity|]. split; vm_compute; reflexivity.
Qed.
