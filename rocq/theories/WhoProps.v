(** Properties of the who endpoint (C114-C117). *)
From Coq Require Import Lia.
From Verif Require Import PyFacts CollectorProps ExampleKit VerifierFacts ResolveFacts TrustMarkVerifierProps.
From Verif Require Export WhoFacts TrawlProps.

(** ** A federation with a credential issuer: ta above ci and tmi, who issues trust marks *)

Definition pid : val :=
  VDict [("credential_definition", VDict [("type", VList [VStr "PersonIdentificationData"])])].

Definition ci_conf : stmt := conf_of "ci" 3
  [("federation_entity", []); ("openid_credential_issuer", [("credentials_supported", VList [pid])])] (Some ["ta"]).

Definition who_world : cenv := ex_env
  [("tmi/wk", TJws 5 tmi_ec); ("ta/wk", TJws 1 (conf_of "ta" 1 [("federation_entity", superior_md "ta")] None));
   ("ci/wk", TJws 3 ci_conf)]
  [("ta/fetch tmi", TJws 1 (est "ta" "tmi" 900 [5])); ("ta/fetch ci", TJws 1 (est "ta" "ci" 900 [3]))] ["ta"].

Definition who_lists : lenv := says [("ta/list", (LList ["ci"], LList ["ci"], LList []))].

Definition says_active : string -> string -> string -> res (dict val) := fun _ _ _ => Ok [("active", VBool true)].

(** ci shows a mark about [sub] *)
Definition mark_about (sub : string) : tmark := [("iss", VStr "tmi"); ("sub", VStr sub); ("id", VStr "basic"); ("iat", VInt 0)].
Definition shows (sub : string) (p : stmt) : option (list tmtoken) :=
  if String.eqb (s_sub p) "ci" then Some [TMJws 5 (mark_about sub)] else None.

Definition ta_who : wconf := mkWconf "ta" "openid_credential_issuer" "PersonIdentificationData" "basic".
Definition plain_request : wreq := mkWreq None None None.

(** ** C114: who is named in an answer *)

Definition qualified (E : cenv) (O : iter_order) (fuel : nat) (prio : list string) (L : lenv) (V : tmenv)
    (ask : string -> string -> string -> res (dict val)) (marks_of : stmt -> option (list tmtoken))
    (credential mark : string) (about_it : tmark -> Prop) (s : fstate) (i : string) : Prop :=
  exists c cs, verified_for E O fuel prio L V ask s i (c :: cs) /\ credential_offered (ch_md c) credential /\
    (mark <> "" -> exists leaf rest ms t s1 s2 p, rev (ch_verified c) = leaf :: rest /\ marks_of leaf = Some ms /\ In t ms /\
       reach E O fuel prio L V ask s s1 /\ verify_trust_mark E O fuel V ask t true s1 = (s2, Ok (Some p)) /\
       dget "id" p = Some (VStr mark) /\ about_it p).

Definition C114_full : Prop := forall E O fuel prio L V ask marks_of n C q anchor s s' ids i,
  who E O fuel prio L V ask marks_of n C q anchor s = (s', Ok (Use ids)) -> In i ids ->
  qualified E O fuel prio L V ask marks_of (asked (wq_credential q) (wc_credential C)) (asked (wq_mark q) (wc_mark C))
    (fun p => dget "sub" p = Some (VStr i)) s i.

(** ci shows the mark of rp *)
Theorem C114_qualified_refuted : ~ C114_full.
Proof.
  intros H.
  assert (G : exists s', who who_world id_order 9 [] who_lists ex_tmenv says_active (shows "rp") 5 ta_who plain_request "ta"
                           (new_state keys_ta) = (s', Ok (Use ["ci"]))) by (eexists; vm_compute; reflexivity).
  destruct G as (s' & G).
  destruct (H _ _ _ _ _ _ _ _ _ _ _ _ _ _ _ "ci" G (or_introl eq_refl)) as (c & cs & _ & _ & Hm).
  destruct Hm as (leaf & rest & ms & t & s1 & s2 & p & _ & Hms & Ht & _ & Hv & _ & Hs); [discriminate|].
  unfold shows in Hms. destruct (String.eqb (s_sub leaf) "ci"); [|discriminate Hms]. injection Hms as <-.
  destruct Ht as [<-|[]]. destruct (C66_verify_trust_mark_partial _ _ _ _ _ _ _ _ _ _ Hv) as (k & iss & t1 & c1 & cs1 & calls & Et & _).
  injection Et as _ <-. discriminate Hs.
Qed.
Print Assumptions C114_qualified_refuted.

(** Missing: the subject of the mark is not compared with the entity.  What holds: an entity named in an answer has a
    verified trust chain whose metadata offers the credential, and, if a mark is asked for, a mark with that id among
    those in its configuration was verified, with its issuer, while the request was answered. *)
Theorem C114_qualified_partial : forall E O fuel prio L V ask marks_of n C q anchor s s' ids i,
  who E O fuel prio L V ask marks_of n C q anchor s = (s', Ok (Use ids)) -> In i ids ->
  qualified E O fuel prio L V ask marks_of (asked (wq_credential q) (wc_credential C)) (asked (wq_mark q) (wc_mark C))
    (fun p => True) s i.
Proof.
  intros E O fuel prio L V ask marks_of n C q anchor s s' ids i H Hi.
  destruct (who_ok _ _ _ _ _ _ _ _ _ _ _ _ _ _ _ H)
    as (ids' & s1 & s2 & s3 & listed & servers & srv & Hu & _ & _ & R3 & Hc0 & Hc & Hm0 & Hm). injection Hu as <-.
  assert (Hs : In i srv).
  { destruct (string_dec (asked (wq_mark q) (wc_mark C)) "") as [Em|Nm]; [rewrite <- (Hm0 Em); exact Hi|].
    exact (proj1 (Hm Nm i Hi)). }
  destruct (string_dec (asked (wq_credential q) (wc_credential C)) "") as [Ec|Nc]; [rewrite (Hc0 Ec) in Hs; destruct Hs|].
  destruct (proj1 (proj2 (Hc Nc) i) Hs) as (_ & c & cs & Hd & Ho). exists c, cs.
  split; [exact (reach_verified _ _ _ _ _ _ _ _ _ _ _ R3 Hd)|]. split; [exact Ho|]. intros Nm.
  destruct (Hm Nm i Hi) as (_ & c' & cs' & leaf & rest & ms & t & s4 & s5 & p & Hd' & H1 & H2 & H3 & H4 & H5 & H6).
  rewrite Hd in Hd'. injection Hd' as <- <-. exists leaf, rest, ms, t, s4, s5, p. auto 10.
Qed.
Print Assumptions C114_qualified_partial.

(** no other answer is given: that chains cannot be collected is never said; without a type of credential nobody is
    named *)
Theorem C114_answers : forall E O fuel prio L V ask marks_of n C q anchor s s' resp,
  who E O fuel prio L V ask marks_of n C q anchor s = (s', Ok resp) ->
  exists ids, resp = Use ids /\ (asked (wq_credential q) (wc_credential C) = "" -> ids = []) /\
              (asked (wq_mark q) (wc_mark C) = "" -> NoDup ids).
Proof.
  intros E O fuel prio L V ask marks_of n C q anchor s s' resp H.
  destruct (who_ok _ _ _ _ _ _ _ _ _ _ _ _ _ _ _ H)
    as (ids & s1 & s2 & s3 & listed & servers & srv & Hu & _ & _ & R3 & Hc0 & Hc & Hm0 & Hm). exists ids. split; [exact Hu|].
  split.
  - intros Ec. specialize (Hc0 Ec). subst srv.
    destruct (string_dec (asked (wq_mark q) (wc_mark C)) "") as [Em|Nm]; [exact (Hm0 Em)|].
    destruct ids as [|i ids]; [reflexivity|]. destruct (proj1 (Hm Nm i (or_introl eq_refl))).
  - intros Em. rewrite (Hm0 Em). destruct (string_dec (asked (wq_credential q) (wc_credential C)) "") as [Ec|Nc].
    + rewrite (Hc0 Ec). constructor.
    + exact (proj1 (Hc Nc)).
Qed.
Print Assumptions C114_answers.

Example C114_ex : exists s', who who_world id_order 9 [] who_lists ex_tmenv says_active (shows "ci") 5 ta_who plain_request "ta"
                               (new_state keys_ta) = (s', Ok (Use ["ci"])).
Proof. eexists. vm_compute. reflexivity. Qed.

(** ** C115: below which anchors *)

(** Requests without an anchor, or for an anchor that is not trusted, are refused and change nothing; everybody in an
    answer was found below an entity the anchor listed. *)
Theorem C115_anchor : forall E O fuel prio L V ask marks_of n C q anchor s,
  (anchor = "" \/ (anchor <> wc_me C /\ ~ In anchor (e_anchors E)) ->
     exists e, who E O fuel prio L V ask marks_of n C q anchor s = (s, Err e)) /\
  (forall s' ids i, who E O fuel prio L V ask marks_of n C q anchor s = (s', Ok (Use ids)) -> In i ids ->
     exists x, (lists E O fuel prio L anchor LAll x \/ stray E O fuel prio L anchor LAll x) /\
               may_find E O fuel prio L (f_col s) x (asked (wq_type q) (wc_type C)) i).
Proof.
  intros E O fuel prio L V ask marks_of n C q anchor s. split.
  - intros H. unfold who, mbind at 1, below_anchor. destruct (String.eqb_spec anchor "") as [->|Na].
    + exists AttributeError. reflexivity.
    + destruct H as [H|[Nm Nt]]; [contradiction|]. destruct (String.eqb_spec anchor (wc_me C)) as [Em|_]; [contradiction|].
      destruct (smem anchor (e_anchors E)) eqn:Es; [apply smem_In in Es; contradiction|]. cbn [negb]. exists OtherException. reflexivity.
  - intros s' ids i H Hi. destruct (who_ok _ _ _ _ _ _ _ _ _ _ _ _ _ _ _ H)
      as (ids' & s1 & s2 & s3 & listed & servers & srv & Hu & Hb & Hf & R3 & Hc0 & Hc & Hm0 & Hm). injection Hu as <-.
    assert (Hs : In i srv).
    { destruct (string_dec (asked (wq_mark q) (wc_mark C)) "") as [Em|Nm]; [rewrite <- (Hm0 Em); exact Hi|].
      exact (proj1 (Hm Nm i Hi)). }
    destruct (string_dec (asked (wq_credential q) (wc_credential C)) "") as [Ec|Nc]; [rewrite (Hc0 Ec) in Hs; destruct Hs|].
    destruct (proj1 (proj2 (Hc Nc) i) Hs) as (Hsv & _). clear Hs Hi Hc Hc0 Hm Hm0 R3.
    assert (Hb' : do_list E O fuel prio L anchor LAll s = (s1, Ok listed)).
    { unfold below_anchor in Hb. destruct (String.eqb anchor ""); [discriminate Hb|].
      destruct (String.eqb_spec anchor (wc_me C)) as [->|_]; [exact Hb|]. destruct (negb _); [discriminate Hb|exact Hb]. }
    unfold find_servers in Hf.
    destruct (mfold_trawl_ok E L (f_col s) (fun id => trawl E O fuel prio L n (wc_me C) id (asked (wq_type q) (wc_type C)))
                (fun x i => may_find E O fuel prio L (f_col s) x (asked (wq_type q) (wc_type C)) i) listed [] s1 s2 servers)
      with (i := i) as [[]|(x & Hx & HP)].
    + intros x t1 t2 t3 _ Ht. exact (trawl_follows E O fuel prio L n _ _ _ _ _ _ Ht).
    + intros x t1 t2 t3 i' _ Ft Ht Hi'. exact (trawl_sound E O fuel prio L (f_col s) n _ _ _ _ _ _ Ft Ht i' Hi').
    + exact (do_list_follows E O fuel prio L _ _ _ _ _ Hb').
    + exact Hf.
    + exact Hsv.
    + exists x. split; [exact (do_list_ok E O fuel prio L _ _ _ _ _ Hb' x Hx)|exact HP].
Qed.
Print Assumptions C115_anchor.

Example C115_ex :
  (exists e, who who_world id_order 9 [] who_lists ex_tmenv says_active (shows "ci") 5 ta_who plain_request "tb" (new_state keys_ta)
             = (new_state keys_ta, Err e)) /\
  lists who_world id_order 9 [] who_lists "ta" LAll "ci" /\
  may_find who_world id_order 9 [] who_lists (f_col (new_state keys_ta)) "ci" "openid_credential_issuer" "ci".
Proof.
  split; [eexists; vm_compute; reflexivity|]. split.
  - exists "ta/list", 0, ["ci"]. split; [|split; [reflexivity|left; reflexivity]].
    exists (new_state keys_ta). eexists. vm_compute. reflexivity.
  - exists "ci". split; [constructor|]. right. right. exists ci_conf. eexists. eexists.
    split; [|split; [reflexivity|split; reflexivity]].
    right. exists 0, "ci", 3. split; [cbn; lia|]. split; [reflexivity|]. split; [reflexivity|auto].
Qed.

(** ** C116: the answer is complete *)

(** the list endpoints as before, but [x] has joined *)
Definition joins (x : string) (L L' : lenv) : Prop :=
  l_accepts L' = l_accepts L /\ l_keeps L' = l_keeps L /\
  forall n u q, l_net L' n u q = match q, l_net L n u q with LAll, LList l => LList (l ++ [x]) | _, r => r end.

(** somebody who joins a federation does not keep others from being found *)
Definition C116_full : Prop := forall E O fuel prio L L' V ask marks_of n C q anchor s s' ids i x,
  who E O fuel prio L V ask marks_of n C q anchor s = (s', Ok (Use ids)) -> In i ids -> joins x L L' ->
  exists s'' ids', who E O fuel prio L' V ask marks_of n C q anchor s = (s'', Ok (Use ids')) /\ In i ids'.

(** x is listed, but cannot be reached *)
Theorem C116_complete_refuted : ~ C116_full.
Proof.
  intros H.
  assert (G : exists s', who who_world id_order 9 [] who_lists ex_tmenv says_active (shows "ci") 5 ta_who plain_request "ta"
                           (new_state keys_ta) = (s', Ok (Use ["ci"]))) by (eexists; vm_compute; reflexivity).
  destruct G as (s' & G).
  destruct (H _ _ _ _ _ (says [("ta/list", (LList ["ci"; "x"], LList ["ci"], LList []))]) _ _ _ _ _ _ _ _ _ _ "ci" "x" G
              (or_introl eq_refl)) as (s'' & ids' & G' & _).
  - split; [reflexivity|]. split; [reflexivity|]. intros n u q. unfold who_lists, says, l_net.
    cbn [dget]. destruct (String.eqb u "ta/list"); destruct q; reflexivity.
  - vm_compute in G'. discriminate G'.
Qed.
Print Assumptions C116_complete_refuted.

(** metadata that describes the credentials as it should *)
Definition describes (m : tc_metadata) : Prop :=
  exists ci l, type_entry m "openid_credential_issuer" (VDict ci) /\ dget "credentials_supported" ci = Some (VList l) /\
    forall v, In v l -> exists cred def t, v = VDict cred /\ dget "credential_definition" cred = Some (VDict def) /\
                                           dget "type" def = Some (VList t).

Lemma describes_offers m c : describes m -> exists b, offers m c = Ok b.
Proof.
  intros (ci & l & Ht & Hc & Hl). apply md_index_ok in Ht. unfold offers. rewrite Ht. cbn [bind vindex].
  unfold dindex at 1. rewrite Hc. cbn [bind elements]. clear Hc Ht. induction l as [|v l IH]; [exists false; reflexivity|].
  cbn [offers_one]. destruct (Hl v (or_introl eq_refl)) as (cred & def & t & -> & H1 & H2). cbn [vindex]. unfold dindex.
  rewrite H1. cbn [bind]. unfold vindex, dindex. rewrite H2. cbn [bind contains]. destruct (vmem (VStr c) t); [eauto|].
  destruct IH as (b & Hb); [intros v Hv; apply Hl; right; exact Hv|]. exists b. exact Hb.
Qed.

(** those that should be found below what the anchor lists *)
Definition candidate (conf : string -> stmt) (listed : string -> lquery -> list string) (type : string) (xs : list string)
    (i : string) : Prop := exists x, In x xs /\ should_find conf listed type x i.

(** a federation in which nothing changes, seen by somebody who answers requests about [anchor]; [md i] is the verified
    metadata of [i], [leaf i] its configuration, [verdict t] what is in a trust mark *)
Record steady_who (E : cenv) (O : iter_order) (fuel : nat) (prio : list string) (L : lenv) (V : tmenv)
    (ask : string -> string -> string -> res (dict val)) (marks_of : stmt -> option (list tmtoken))
    (me anchor type : string) (inv : fstate -> Prop) (dom : string -> Prop) (conf : string -> stmt)
    (listed : string -> lquery -> list string) (xs : list string) (md : string -> tc_metadata) (leaf : string -> stmt)
    (verdict : tmtoken -> tmark) : Prop := mkSteadyWho {
  sw_steady : steady E O fuel prio L inv dom conf listed;
  sw_entities : federation_entities dom conf;
  sw_dom : forall x, In x xs -> dom x;
  sw_anchor : forall s, inv s -> exists s', below_anchor E O fuel prio L me anchor s = (s', Ok xs) /\ inv s';
  sw_md : forall i s, candidate conf listed type xs i -> inv s ->
    exists s', get_verified_metadata E O fuel i s = (s', Ok (Some (md i))) /\ inv s';
  sw_describes : forall i, candidate conf listed type xs i -> describes (md i);
  sw_leaf : forall i s, candidate conf listed type xs i -> inv s ->
    exists s' c cs rest, get_trust_chains E O fuel i s = (s', Ok (c :: cs)) /\ rev (ch_verified c) = leaf i :: rest /\ inv s';
  sw_marks : forall i ms t s, candidate conf listed type xs i -> marks_of (leaf i) = Some ms -> In t ms -> inv s ->
    exists s', verify_trust_mark E O fuel V ask t true s = (s', Ok (Some (verdict t))) /\ inv s'
}.

Section Complete.
Context (E : cenv) (O : iter_order) (fuel : nat) (prio : list string) (L : lenv) (V : tmenv)
    (ask : string -> string -> string -> res (dict val)) (marks_of : stmt -> option (list tmtoken))
    (me anchor type : string) (inv : fstate -> Prop) (dom : string -> Prop) (conf : string -> stmt)
    (listed : string -> lquery -> list string) (xs : list string) (md : string -> tc_metadata) (leaf : string -> stmt)
    (verdict : tmtoken -> tmark)
    (SW : steady_who E O fuel prio L V ask marks_of me anchor type inv dom conf listed xs md leaf verdict).

Lemma find_servers_steady (rank : string -> nat) :
  (forall y x, dom y -> has_list (conf y) -> In x (listed y LIntermediate) -> rank x < rank y) ->
  exists n0, forall n s, n0 <= n -> inv s ->
    exists s' ids, find_servers E O fuel prio L n me xs type s = (s', Ok ids) /\ inv s' /\
                   forall i, In i ids <-> candidate conf listed type xs i.
Proof.
  intros HR. assert (SD := sw_steady _ _ _ _ _ _ _ _ _ _ _ _ _ _ _ _ _ _ _ SW).
  assert (A : forall l, (forall x, In x l -> dom x) -> exists ids, all_below conf listed type l ids).
  { induction l as [|x l IH]; intros D; [eexists; constructor|].
    destruct (below_exists _ _ _ _ _ _ _ _ _ type rank SD (sw_entities _ _ _ _ _ _ _ _ _ _ _ _ _ _ _ _ _ _ _ SW) HR (S (rank x)) x
                (Nat.lt_succ_diag_r _) (D x (or_introl eq_refl))) as (i1 & H1).
    destruct IH as (i2 & H2); [intros y Hy; apply D; right; exact Hy|]. exists (i1 ++ i2). constructor; assumption. }
  destruct (A xs (sw_dom _ _ _ _ _ _ _ _ _ _ _ _ _ _ _ _ _ _ _ SW)) as (ids & B).
  destruct (proj2 (steady_below E O fuel prio L inv dom conf listed type SD) xs ids B (sw_dom _ _ _ _ _ _ _ _ _ _ _ _ _ _ _ _ _ _ _ SW))
    as (n0 & H). exists n0. intros n s Hn I. destruct (H n me s [] Hn I) as (s' & Hs & I'). exists s', ids.
  split; [exact Hs|]. split; [exact I'|]. intros i. split; intros Hi.
  - exact (proj2 (below_sound conf listed type) xs ids B i Hi).
  - destruct Hi as (x & Hx & Hf). destruct (all_below_In _ _ _ _ _ B x Hx) as (l & Hl & Hin).
    apply Hin. exact (below_complete conf listed type x i Hf l Hl).
Qed.

Lemma with_credential_steady servers c s :
  (forall i, In i servers -> candidate conf listed type xs i) -> inv s ->
  exists s' ids, with_credential E O fuel servers c s = (s', Ok ids) /\ inv s' /\ NoDup ids /\
                 forall i, In i ids <-> In i servers /\ credential_offered (md i) c.
Proof.
  intros Hc. unfold with_credential.
  assert (G : forall l acc s, NoDup (acc ++ l) -> (forall i, In i l -> candidate conf listed type xs i) -> inv s ->
     exists s' ids, mfold (fun acc id =>
           do m <- get_verified_metadata E O fuel id in
           match m with
           | None => raise TypeError
           | Some m => do b <- lift (offers m c) in ret (if b : bool then acc ++ [id] else acc)
           end) l acc s = (s', Ok ids) /\ inv s' /\ NoDup ids /\
       forall i, In i ids <-> In i acc \/ (In i l /\ credential_offered (md i) c)).
  { induction l as [|x l IH]; intros acc t N D I; cbn [mfold].
    - exists t, acc. rewrite app_nil_r in N. split; [reflexivity|]. split; [exact I|]. split; [exact N|]. intros i. cbn [In]. tauto.
    - destruct (sw_md _ _ _ _ _ _ _ _ _ _ _ _ _ _ _ _ _ _ _ SW x t (D x (or_introl eq_refl)) I) as (t1 & H1 & I1).
      destruct (describes_offers _ c (sw_describes _ _ _ _ _ _ _ _ _ _ _ _ _ _ _ _ _ _ _ SW x (D x (or_introl eq_refl)))) as (b & Hb).
      unfold mbind at 1. unfold mbind at 1. rewrite H1. unfold mbind at 1, lift at 1. rewrite Hb. unfold ret at 1.
      assert (N' : NoDup ((if b : bool then acc ++ [x] else acc) ++ l)).
      { destruct b; [rewrite <- app_assoc; exact N|]. exact (NoDup_remove_1 _ _ _ N). }
      destruct (IH _ t1 N' (fun i Hi => D i (or_intror Hi)) I1) as (t2 & ids & H2 & I2 & Nd & Hi).
      exists t2, ids. split; [exact H2|]. split; [exact I2|]. split; [exact Nd|]. intros i. rewrite Hi. apply offers_ok in Hb.
      destruct b.
      + rewrite in_app_iff. cbn [In]. assert (Hx : credential_offered (md x) c) by (apply Hb; reflexivity). split.
        * intros [[Ha|[<-|[]]]|(Ha & Ho)]; auto.
        * intros [Ha|([<-|Ha] & Ho)]; auto.
      + cbn [In]. split; [intros [Ha|(Ha & Ho)]; auto|]. intros [Ha|([<-|Ha] & Ho)]; auto.
        apply Hb in Ho. discriminate Ho. }
  intros I. destruct (G (ios O (nodup string_dec servers)) [] s) as (s' & ids & H & I' & N & Hi).
  - cbn [app]. apply ios_NoDup, NoDup_nodup.
  - intros i Hi. apply Hc. apply ios_In, nodup_In in Hi. exact Hi.
  - exact I.
  - exists s', ids. split; [exact H|]. split; [exact I'|]. split; [exact N|]. intros i. rewrite Hi, ios_In, nodup_In. cbn [In]. tauto.
Qed.

(** the configuration of [i] has a mark with the id *)
Definition marked (mark i : string) : Prop :=
  exists ms t, marks_of (leaf i) = Some ms /\ In t ms /\ dget "id" (verdict t) = Some (VStr mark).

Lemma count_marks_steady id mark ms acc s : candidate conf listed type xs id -> inv s ->
  marks_of (leaf id) = Some ms ->
  exists s' l, count_marks E O fuel V ask id mark ms acc s = (s', Ok l) /\ inv s' /\
    forall i, In i l <-> In i acc \/ (i = id /\ exists t, In t ms /\ dget "id" (verdict t) = Some (VStr mark)).
Proof.
  intros D I Hms. unfold count_marks.
  assert (G : forall l acc s, inv s -> (forall t, In t l -> In t ms) ->
    exists s' l', mfold (fun acc t =>
           do v <- verify_trust_mark E O fuel V ask t true in
           match v with
           | None => raise AttributeError
           | Some p => ret (match dget "id" p with
                            | Some v => if py_eqb v (VStr mark) then acc ++ [id] else acc
                            | None => acc
                            end)
           end) l acc s = (s', Ok l') /\ inv s' /\
      forall i, In i l' <-> In i acc \/ (i = id /\ exists t, In t l /\ dget "id" (verdict t) = Some (VStr mark))).
  { induction l as [|t l IH]; intros a s0 I0 Hin; cbn [mfold].
    - exists s0, a. split; [reflexivity|]. split; [exact I0|]. intros i. split; [auto|]. intros [Hi|(_ & t & [] & _)]. exact Hi.
    - destruct (sw_marks _ _ _ _ _ _ _ _ _ _ _ _ _ _ _ _ _ _ _ SW id ms t s0 D Hms (Hin t (or_introl eq_refl)) I0) as (s1 & H1 & I1).
      unfold mbind at 1. unfold mbind at 1. rewrite H1. unfold ret at 1.
      destruct (IH (match dget "id" (verdict t) with Some v => if py_eqb v (VStr mark) then a ++ [id] else a | None => a end) s1 I1
                  (fun t' Ht => Hin t' (or_intror Ht))) as (s2 & l' & H2 & I2 & Hi).
      exists s2, l'. split; [exact H2|]. split; [exact I2|]. intros i. rewrite Hi.
      assert (X : In i (match dget "id" (verdict t) with Some v => if py_eqb v (VStr mark) then a ++ [id] else a | None => a end) <->
                  In i a \/ (i = id /\ dget "id" (verdict t) = Some (VStr mark))).
      { destruct (dget "id" (verdict t)) as [v|].
        - destruct (py_eqb v (VStr mark)) eqn:Ee.
          + destruct v as [| | |w| |]; try discriminate Ee. cbn in Ee. apply String.eqb_eq in Ee. subst w.
            rewrite in_app_iff. cbn [In]. split; [intros [Ha|[<-|[]]]; auto|]. intros [Ha|(-> & _)]; auto.
          + split; [auto|]. intros [Ha|(_ & [= ->])]; [exact Ha|]. cbn in Ee. rewrite String.eqb_refl in Ee. discriminate Ee.
        - split; [auto|]. intros [Ha|(_ & [=])]. exact Ha. }
      rewrite X. split.
      + intros [[Ha|(-> & Hd)]|(-> & t' & Ht & Hd)]; [auto| |].
        * right. split; [reflexivity|]. exists t. split; [left; reflexivity|exact Hd].
        * right. split; [reflexivity|]. exists t'. split; [right; exact Ht|exact Hd].
      + intros [Ha|(-> & t' & [<-|Ht] & Hd)]; [auto|auto|]. right. split; [reflexivity|]. eauto. }
  exact (G ms acc s I (fun t H => H)).
Qed.

Lemma with_mark_steady mark : forall ids acc s, (forall i, In i ids -> candidate conf listed type xs i) -> inv s ->
  exists s' l, with_mark E O fuel V ask marks_of ids mark acc s = (s', Ok (Some l)) /\ inv s' /\
               forall i, In i l <-> In i acc \/ (In i ids /\ marked mark i).
Proof.
  induction ids as [|x ids IH]; intros acc s D I; cbn [with_mark].
  - exists s, acc. split; [reflexivity|]. split; [exact I|]. intros i. cbn [In]. tauto.
  - destruct (sw_leaf _ _ _ _ _ _ _ _ _ _ _ _ _ _ _ _ _ _ _ SW x s (D x (or_introl eq_refl)) I) as (s1 & c & cs & rest & H1 & Hr & I1).
    unfold mbind at 1. rewrite H1, Hr.
    assert (G : exists s2 acc', (match marks_of (leaf x) with Some ms => count_marks E O fuel V ask x mark ms acc | None => ret acc end) s1
                = (s2, Ok acc') /\ inv s2 /\ forall i, In i acc' <-> In i acc \/ (i = x /\ marked mark x)).
    { destruct (marks_of (leaf x)) as [ms|] eqn:Em.
      - destruct (count_marks_steady x mark ms acc s1 (D x (or_introl eq_refl)) I1 Em) as (s2 & l & H2 & I2 & Hi).
        exists s2, l. split; [exact H2|]. split; [exact I2|]. intros i. rewrite Hi. unfold marked. split.
        + intros [Ha|(-> & t & Ht)]; [auto|]. right. split; [reflexivity|]. exists ms, t. tauto.
        + intros [Ha|(-> & ms' & t & Hm & Ht)]; [auto|]. right. split; [reflexivity|]. rewrite Em in Hm. injection Hm as <-. eauto.
      - exists s1, acc. split; [reflexivity|]. split; [exact I1|]. intros i. split; [auto|].
        intros [Ha|(_ & ms' & t & Hm & _)]; [exact Ha|]. rewrite Em in Hm. discriminate Hm. }
    destruct G as (s2 & acc' & H2 & I2 & Ha). unfold mbind. rewrite H2.
    destruct (IH acc' s2 (fun i Hi => D i (or_intror Hi)) I2) as (s3 & l & H3 & I3 & Hi).
    exists s3, l. split; [exact H3|]. split; [exact I3|]. intros i. rewrite Hi, Ha. cbn [In]. split.
    + intros [[Hx|(-> & Hm)]|(Hx & Hm)]; auto.
    + intros [Hx|([<-|Hx] & Hm)]; auto.
Qed.

End Complete.

(** Missing: one entity whose configuration or metadata cannot be had makes the whole request fail.  What holds: in a
    federation in which all entities can be reached, have metadata as federation entities and describe their credentials,
    and all marks are valid, the answer names exactly those below the anchor that are of the type, offer the credential
    and have the mark. *)
Theorem C116_complete_partial : forall E O fuel prio L V ask marks_of C q anchor inv dom conf listed xs md leaf verdict
    (rank : string -> nat),
  let type := asked (wq_type q) (wc_type C) in
  let credential := asked (wq_credential q) (wc_credential C) in
  let mark := asked (wq_mark q) (wc_mark C) in
  steady_who E O fuel prio L V ask marks_of (wc_me C) anchor type inv dom conf listed xs md leaf verdict ->
  (forall y x, dom y -> has_list (conf y) -> In x (listed y LIntermediate) -> rank x < rank y) ->
  credential <> "" ->
  exists n0, forall n s, n0 <= n -> inv s ->
    exists s' ids, who E O fuel prio L V ask marks_of n C q anchor s = (s', Ok (Use ids)) /\
      forall i, In i ids <-> candidate conf listed type xs i /\ credential_offered (md i) credential /\
                             (mark = "" \/ marked marks_of leaf verdict mark i).
Proof.
  intros E O fuel prio L V ask marks_of C q anchor inv dom conf listed xs md leaf verdict rank type credential mark SW HR Nc.
  destruct (find_servers_steady _ _ _ _ _ _ _ _ _ _ _ _ _ _ _ _ _ _ _ SW rank HR) as (n0 & H). exists n0. intros n s Hn I.
  destruct (sw_anchor _ _ _ _ _ _ _ _ _ _ _ _ _ _ _ _ _ _ _ SW s I) as (s1 & H1 & I1).
  destruct (H n s1 Hn I1) as (s2 & servers & H2 & I2 & Hs).
  destruct (with_credential_steady _ _ _ _ _ _ _ _ _ _ _ _ _ _ _ _ _ _ _ SW servers credential s2 (fun i Hi => proj1 (Hs i) Hi) I2)
    as (s3 & srv & H3 & I3 & N & Hc).
  unfold who. unfold mbind at 1. rewrite H1. unfold mbind at 1. fold type. rewrite H2. cbv zeta. fold credential mark.
  destruct (String.eqb_spec credential "") as [X|_]; [contradiction|]. unfold mbind at 1. rewrite H3.
  destruct (String.eqb_spec mark "") as [Em|Nm].
  - exists s3, srv. split; [reflexivity|]. intros i. rewrite Hc, Hs. tauto.
  - destruct (with_mark_steady _ _ _ _ _ _ _ _ _ _ _ _ _ _ _ _ _ _ _ SW mark srv [] s3) as (s4 & l & H4 & _ & Hl).
    + intros i Hi. apply Hs. apply Hc in Hi. tauto.
    + exact I3.
    + exists s4, l. unfold mbind. rewrite H4. split; [reflexivity|]. intros i. rewrite Hl, Hc, Hs. cbn [In]. tauto.
Qed.
Print Assumptions C116_complete_partial.

(** ta, after it has answered such a request *)
Definition knows_ci : fstate :=
  fst (who who_world id_order 9 [] who_lists ex_tmenv says_active (shows "ci") 5 ta_who plain_request "ta" (new_state keys_ta)).
Definition ci_chain : option tchain := match dget "ci" (f_chains knows_ci) with Some (c :: _) => Some c | _ => None end.
Definition ci_md (_ : string) : tc_metadata := match ci_chain with Some c => ch_md c | None => Flat [] end.
Definition ci_leaf (_ : string) : stmt :=
  match ci_chain with Some c => match rev (ch_verified c) with l :: _ => l | [] => ci_conf end | None => ci_conf end.
Definition ci_verdict (t : tmtoken) : tmark := match t with TMJws _ p => p | TMJunk => [] end.

Example C116_ex :
  let inv := fun s => exists n, s = at_tick n knows_ci in
  steady_who who_world id_order 9 [] who_lists ex_tmenv says_active (shows "ci") "ta" "ta" "openid_credential_issuer" inv
    (fun y => y = "ci") (fun _ => ci_conf) (fun _ _ => []) ["ci"] ci_md ci_leaf ci_verdict /\
  candidate (fun _ => ci_conf) (fun _ _ => []) "openid_credential_issuer" ["ci"] "ci" /\
  credential_offered (ci_md "ci") "PersonIdentificationData" /\ marked (shows "ci") ci_leaf ci_verdict "basic" "ci".
Proof.
  cbv zeta.
  assert (Only : forall i, candidate (fun _ => ci_conf) (fun _ _ => []) "openid_credential_issuer" ["ci"] i -> i = "ci").
  { intros i (x & [<-|[]] & Hf). inversion Hf; subst; [reflexivity| |]; match goal with H : In _ [] |- _ => destruct H end. }
  split; [|split; [|split]].
  - constructor.
    + constructor.
      * intros superior y s -> (n & ->). exists (at_tick n knows_ci). split; [vm_compute; reflexivity|exists n; reflexivity].
      * intros y q s _ (m & fe & ep & [= <-] & [= <-] & [=]).
      * intros y x _ _ [].
    + intros y ->. eexists. eexists. split; reflexivity.
    + intros x [<-|[]]. reflexivity.
    + intros s (n & ->). exists (at_tick (S (S n)) knows_ci). split; [vm_compute; reflexivity|eexists; reflexivity].
    + intros i s Hi (n & ->). apply Only in Hi. subst i. exists (at_tick n knows_ci). split; [vm_compute; reflexivity|eexists; reflexivity].
    + intros i _. exists [("credentials_supported", VList [pid])], [pid]. split; [|split; [reflexivity|]].
      * vm_compute. eexists. split; reflexivity.
      * intros v [<-|[]]. eexists _, _, _. split; [reflexivity|]. split; reflexivity.
    + intros i s Hi (n & ->). apply Only in Hi. subst i. eexists _, _, _, _. split; [vm_compute; reflexivity|].
      split; [vm_compute; reflexivity|]. exists n. reflexivity.
    + intros i ms t s Hi Hm Ht (n & ->). vm_compute in Hm. injection Hm as <-. destruct Ht as [<-|[]].
      eexists. split; [vm_compute; reflexivity|]. eexists. vm_compute. reflexivity.
  - exists "ci". split; [left; reflexivity|]. exact (sf_self (fun _ => ci_conf) (fun _ _ => []) "openid_credential_issuer" "ci" _ _ eq_refl eq_refl).
  - exists [("credentials_supported", VList [pid])]. eexists _, _, _, _. split; [vm_compute; eexists; split; reflexivity|]. split; [reflexivity|].
    split; [left; reflexivity|]. split; [reflexivity|]. split; [reflexivity|]. left. reflexivity.
  - exists [TMJws 5 (mark_about "ci")], (TMJws 5 (mark_about "ci")). split; [vm_compute; reflexivity|]. split; [left; reflexivity|reflexivity].
Qed.

(** ** C117: the answer does not depend on who gives it *)

Definition as_asked_of (me : string) (C : wconf) : wconf := mkWconf me (wc_type C) (wc_credential C) (wc_mark C).

Definition C117_full : Prop := forall E O fuel prio L V ask marks_of n C me q anchor s,
  In anchor (e_anchors E) ->
  snd (who E O fuel prio L V ask marks_of n C q anchor s) =
  snd (who E O fuel prio L V ask marks_of n (as_asked_of me C) q anchor s).

(** rp, who is no superior of ci, cannot find it *)
Theorem C117_who_asks_refuted : ~ C117_full.
Proof.
  intros H. specialize (H who_world id_order 9 [] who_lists ex_tmenv says_active (shows "ci") 5 ta_who "rp" plain_request "ta"
                          (new_state keys_ta) (or_introl eq_refl)). vm_compute in H. discriminate H.
Qed.
Print Assumptions C117_who_asks_refuted.

Lemma mbind_eq S A B (m m' : M S A) (f : A -> M S B) s : m s = m' s -> mbind m f s = mbind m' f s.
Proof. intros H. unfold mbind. rewrite H. reflexivity. Qed.

Lemma trawl_superior E O fuel prio L n sup sup' sub type s :
  cache_contains sub (st_cfg (f_col s)) = true ->
  trawl E O fuel prio L n sup sub type s = trawl E O fuel prio L n sup' sub type s.
Proof.
  intros H. destruct n as [|n]; [reflexivity|]. cbn [trawl].
  assert (X : configuration_of E sub (introduce E L sup sub) s = configuration_of E sub (introduce E L sup' sub) s).
  { unfold configuration_of, mbind, StateM.get. rewrite H. reflexivity. }
  apply mbind_eq. exact X.
Qed.

(** Missing: entities the anchor lists are looked for below whoever answers the request.  What holds: if their
    configurations are known, and stay so while the search goes on, it does not matter who that is. *)
Theorem C117_who_asks_partial : forall E O fuel prio L V ask marks_of n C me q anchor s (inv : fstate -> Prop),
  In anchor (e_anchors E) ->
  (forall s1 ids, do_list E O fuel prio L anchor LAll s = (s1, Ok ids) -> inv s1) ->
  (forall x s1, lists E O fuel prio L anchor LAll x \/ stray E O fuel prio L anchor LAll x -> inv s1 ->
     dmem x (st_cfg (f_col s1)) = true /\
     inv (fst (trawl E O fuel prio L n me x (asked (wq_type q) (wc_type C)) s1))) ->
  who E O fuel prio L V ask marks_of n C q anchor s = who E O fuel prio L V ask marks_of n (as_asked_of me C) q anchor s.
Proof.
  intros E O fuel prio L V ask marks_of n C me q anchor s inv Ha Hinv Hk. unfold who, as_asked_of. cbn [wc_me wc_type wc_credential wc_mark].
  assert (B : forall me, below_anchor E O fuel prio L me anchor s =
                         if String.eqb anchor "" then (s, Err AttributeError) else do_list E O fuel prio L anchor LAll s).
  { intros me'. unfold below_anchor. destruct (String.eqb anchor ""); [reflexivity|].
    destruct (String.eqb_spec anchor me') as [->|_]; [reflexivity|]. apply smem_In in Ha. rewrite Ha. reflexivity. }
  rewrite (mbind_eq _ _ _ _ (below_anchor E O fuel prio L me anchor)) by (rewrite !B; reflexivity).
  apply mbind_ext. intros s1 ids E1. rewrite B in E1. destruct (String.eqb anchor ""); [discriminate E1|].
  assert (F : forall l acc t, (forall x, In x l -> In x ids) -> inv t ->
     mfold (fun acc id => do l <- trawl E O fuel prio L n (wc_me C) id (asked (wq_type q) (wc_type C)) in ret (acc ++ l)) l acc t =
     mfold (fun acc id => do l <- trawl E O fuel prio L n me id (asked (wq_type q) (wc_type C)) in ret (acc ++ l)) l acc t).
  { induction l as [|x l IH]; intros acc t Hin I; [reflexivity|]. cbn [mfold].
    assert (Hx := do_list_ok E O fuel prio L _ _ _ _ _ E1 x (Hin x (or_introl eq_refl))).
    destruct (Hk x t Hx I) as [Hc I1]. unfold mbind.
    rewrite (trawl_superior E O fuel prio L n (wc_me C) me x (asked (wq_type q) (wc_type C)) t Hc).
    destruct (trawl E O fuel prio L n me x (asked (wq_type q) (wc_type C)) t) as [t1 [l1|e]] eqn:Et; [|reflexivity].
    unfold ret. apply IH; [intros y Hy; apply Hin; right; exact Hy|exact I1]. }
  apply mbind_eq. unfold find_servers. apply F; [auto|exact (Hinv s1 ids E1)].
Qed.
Print Assumptions C117_who_asks_partial.

(** once ci is known, rp finds it as well *)
Example C117_ex :
  let inv := fun s => exists n, s = at_tick n knows_ci in
  (forall s1 ids, do_list who_world id_order 9 [] who_lists "ta" LAll knows_ci = (s1, Ok ids) -> inv s1) /\
  (forall x s1, lists who_world id_order 9 [] who_lists "ta" LAll x \/ stray who_world id_order 9 [] who_lists "ta" LAll x -> inv s1 ->
     dmem x (st_cfg (f_col s1)) = true /\
     inv (fst (trawl who_world id_order 9 [] who_lists 5 "rp" x "openid_credential_issuer" s1))) /\
  exists s', who who_world id_order 9 [] who_lists ex_tmenv says_active (shows "ci") 5 (as_asked_of "rp" ta_who) plain_request "ta"
               knows_ci = (s', Ok (Use ["ci"])).
Proof.
  cbv zeta. split; [|split].
  - intros s1 ids H. vm_compute in H. injection H as <- _. eexists. vm_compute. reflexivity.
  - intros x s1 Hx (n & ->).
    assert (X : x = "ci").
    { destruct Hx as [(u & k & l & _ & El & Hl)|(u & k & _ & [(El & _)|(El & _)])];
        unfold who_lists, says, l_net in El; (destruct (dget u _) as [[[a t] i]|] eqn:Ed in El; [|discriminate El]);
        apply dget_In in Ed; destruct Ed as [Ed|[]]; injection Ed as _ <- _ _; try discriminate El.
      injection El as <-. destruct Hl as [<-|[]]. reflexivity. }
    subst x. split; [vm_compute; reflexivity|]. eexists. vm_compute. reflexivity.
  - eexists. vm_compute. reflexivity.
Qed.
