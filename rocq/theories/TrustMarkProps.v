(** The trust mark issuer (C44-C48, C64). *)
From Verif Require Import PyFacts TrustMarkFacts.
From Coq Require Import Lia Sorted.

(** ** An issuer for the examples: marks "sirtfi" live 100 seconds, marks "basic" for ever *)
Definition ex_issuer : issuer := make_issuer "tmi" 5
  [("sirtfi", [("ref", VStr "https://refeds.org/sirtfi"); ("lifetime", VInt 100)]);
   ("basic", [("logo_uri", VStr "https://logo")])].

Definition ex_cfg : fconfig := [("sirtfi", "f1"); ("basic", "f2")].

Lemma ex_own : own_files ex_cfg.
Proof.
  intros id id' fn. simpl.
  destruct (String.eqb_spec id "sirtfi") as [->|N]; destruct (String.eqb_spec id' "sirtfi") as [->|N'].
  - reflexivity.
  - destruct (String.eqb_spec id' "basic") as [->|]; [|discriminate]. congruence.
  - destruct (String.eqb_spec id "basic") as [->|]; [|discriminate]. congruence.
  - destruct (String.eqb_spec id "basic") as [->|]; [|discriminate].
    destruct (String.eqb_spec id' "basic") as [->|]; [|discriminate]. reflexivity.
Qed.

Definition ex_hist : list event :=
  [Issue 1000 "sirtfi" "rp1" []; Issue 1010 "basic" "rp1" []; Restart; Issue 1050 "sirtfi" "rp2" [];
   Issue 1060 "unknown" "rp3" []; Issue 1090 "sirtfi" "rp1" [("level", VInt 2)]].

(** ** C44 *)

(** the library takes a mark for 15 seconds after it expired *)
Definition mark_within_skew (n : Z) (p : tmark) : bool :=
  match dget "exp" p with Some (VInt z) => Z.ltb n (z + 15) | _ => true end.

Definition no_keys : unpacker := mkUnpack (fun _ => []) mark_within_skew.

Definition C44_full : Prop := forall I cfg h held now id sub,
  own_files cfg -> dmem id cfg = true ->
  (trust_mark_status held (run I (fresh cfg) h) now (by_ids id sub) = Ok Active <->
   exists t more mark, issued I (fresh cfg) h t id sub more mark /\ unexpired now (claims_of mark)).

(** the short-lived mark of rp2, issued later, hides that of rp1 *)
Theorem C44_active_refuted : ~ C44_full.
Proof.
  intros H.
  destruct (H ex_issuer ex_cfg
              [Issue 1000 "sirtfi" "rp1" []; Issue 1010 "sirtfi" "rp2" [("exp", VInt 1020)]]
              no_keys 1050%Z "sirtfi" "rp1" ex_own eq_refl) as [_ H2].
  assert (G : trust_mark_status no_keys
                (run ex_issuer (fresh ex_cfg)
                   [Issue 1000 "sirtfi" "rp1" []; Issue 1010 "sirtfi" "rp2" [("exp", VInt 1020)]])
                1050 (by_ids "sirtfi" "rp1") = Ok NotFound) by (vm_compute; reflexivity).
  rewrite G in H2. assert (X : Ok NotFound = Ok Active); [|discriminate].
  apply H2. exists 1000%Z, []. eexists. split.
  - exists [], [Issue 1010 "sirtfi" "rp2" [("exp", VInt 1020)]]. split; [reflexivity|].
    vm_compute. reflexivity.
  - unfold unexpired. simpl. eexists. split; [reflexivity|lia].
Qed.

Lemma status_ids held s now id sub :
  id <> "" -> trust_mark_status held s now (by_ids id sub) = found (store_find s now id sub 0).
Proof.
  intros H. unfold trust_mark_status. simpl. apply String.eqb_neq in H. rewrite H. reflexivity.
Qed.

Lemma claims_pack_exp I t c : dget "exp" (claims_of (pack I t c)) = dget "exp" c.
Proof. simpl. rewrite !dget_dset_other by discriminate. reflexivity. Qed.

Lemma unexpired_pack I t now c : unexpired now (claims_of (pack I t c)) <-> unexpired now c.
Proof. unfold unexpired. rewrite claims_pack_exp. reflexivity. Qed.

(** whatever the history: what is reported active was issued to the subject and has not expired *)
Theorem C44_active_was_issued : forall I cfg h held now id sub,
  own_files cfg ->
  trust_mark_status held (run I (fresh cfg) h) now (by_ids id sub) = Ok Active ->
  exists t more mark, issued I (fresh cfg) h t id sub more mark /\ unexpired now (claims_of mark).
Proof.
  intros I cfg h held now id sub Hown H. unfold trust_mark_status in H. simpl in H.
  destruct (String.eqb id ""); [discriminate|]. unfold found in H. apply bind_ok in H.
  destruct H as (b & Hf & H). destruct b; [|discriminate].
  destruct (fresh_run I cfg h Hown) as (fs & E & Hfs). rewrite E in Hf. simpl in Hf.
  unfold file_find in Hf. apply bind_ok in Hf. destruct Hf as (fn & Hfn & Hf). apply dindex_ok in Hfn.
  unfold read_file in Hf. rewrite (Hfs _ _ Hfn) in Hf. cbn [bind] in Hf.
  apply find_true in Hf. destruct Hf as (l1 & c & l2 & El & _ & Hu & Hs & _).
  assert (Hin : In c (contents I h id)) by (apply in_rev; rewrite El; apply in_elt).
  apply contents_In in Hin. destruct Hin as (t & sub' & more & Hin & Hc).
  destruct (content_ok _ _ _ _ _ _ Hc) as (_ & _ & _ & _ & _ & _ & _ & _ & Es & _).
  rewrite Es in Hs. injection Hs as ->. exists t, more, (pack I t c). split.
  - apply issued_file. exists c. split; [exact Hin|]. split; [exact Hc|]. split; [reflexivity|].
    unfold dmem. rewrite Hfn. reflexivity.
  - apply unexpired_pack. exact Hu.
Qed.

Lemma times_later h : forall t0, times_from t0 h -> forall t i s m, In (Issue t i s m) h -> (t0 <= t)%Z.
Proof.
  induction h as [|[t' i' s' m'|] h IH]; simpl; intros t0 H t i s m Hin.
  - destruct Hin.
  - destruct H as [H1 H2]. destruct Hin as [[= <- <- <- <-]|Hin]; [exact H1|].
    specialize (IH _ H2 _ _ _ _ Hin). lia.
  - destruct Hin as [Hin|Hin]; [discriminate|]. exact (IH _ H _ _ _ _ Hin).
Qed.

Lemma times_app h1 h2 : forall t0 t i s m, times_from t0 (h1 ++ Issue t i s m :: h2) ->
  forall t' i' s' m', In (Issue t' i' s' m') h2 -> (t <= t')%Z.
Proof.
  induction h1 as [|[t1 i1 s1 m1|] h1 IH]; simpl; intros t0 t i s m H.
  - destruct H as [_ H]. exact (times_later _ _ H).
  - destruct H as [_ H]. exact (IH _ _ _ _ _ H).
  - exact (IH _ _ _ _ _ H).
Qed.

(** without own expiry times later marks expire later *)
Lemma exp_monotone I now id t s m c t' s' m' c' :
  content_of I t id s m = Ok c -> content_of I t' id s' m' = Ok c' ->
  dget "exp" m = None -> dget "exp" m' = None -> (t <= t')%Z -> unexpired now c -> unexpired now c'.
Proof.
  intros H H' Hm Hm' Ht Hu.
  destruct (content_ok _ _ _ _ _ _ H) as (add & spec & Hb & Esp & _ & _ & _ & _ & _ & G).
  destruct (content_ok _ _ _ _ _ _ H') as (add' & spec' & Hb' & Esp' & _ & _ & _ & _ & _ & G').
  rewrite Esp in Esp'. injection Esp' as <-.
  unfold unexpired in *. rewrite (G _ Hm) in Hu. rewrite (G' _ Hm').
  destruct (base_claims_ok _ _ _ _ _ Hb) as (_ & _ & _ & _ & _ & Ex).
  destruct (base_claims_ok _ _ _ _ _ Hb') as (_ & _ & _ & _ & _ & Ex').
  destruct Ex as [[Ex Hl]|(v & z & El & Ev & Ez & Ex)];
    destruct Ex' as [[Ex' Hl']|(v' & z' & El' & Ev' & Ez' & Ex')].
  - rewrite Ex'. rewrite Ex in Hu. exact Hu.
  - exfalso. rewrite El' in Hl. destruct Hl as [C|(w & C & Cv)]; [discriminate|].
    injection C as <-. congruence.
  - exfalso. rewrite El in Hl'. destruct Hl' as [C|(w & C & Cv)]; [discriminate|].
    injection C as <-. congruence.
  - rewrite El in El'. injection El' as <-. rewrite Ez in Ez'. injection Ez' as <-.
    rewrite Ex in Hu. rewrite Ex'. destruct Hu as (e & He & Hn). simpl in He. injection He as <-.
    exists (t' + z)%Z. split; [reflexivity|lia].
Qed.

Lemma contents_app I h1 h2 id : contents I (h1 ++ h2) id = contents I h1 id ++ contents I h2 id.
Proof. apply flat_map_app. Qed.

(** lookups in a file store when no mark has an expiry time of its own *)
Lemma find_issued I cfg h now t id sub more mark :
  own_files cfg -> orderly h -> no_own_exp h ->
  issued I (fresh cfg) h t id sub more mark -> unexpired now (claims_of mark) ->
  store_find (run I (fresh cfg) h) now id sub 0 = Ok true.
Proof.
  intros Hown [t0 Ht] Hno Hi Hu.
  apply issued_file in Hi. destruct Hi as (c & Hin & Hc & -> & Hd).
  apply unexpired_pack in Hu. apply dmem_some in Hd. destruct Hd as [fn Hfn].
  destruct (fresh_run I cfg h Hown) as (fs & E & Hfs). rewrite E. simpl.
  rewrite (file_find_eq cfg fs now id sub 0 fn _ Hfn (Hfs _ _ Hfn)).
  apply in_split in Hin. destruct Hin as (h1 & h2 & ->).
  rewrite contents_app. change (Issue t id sub more :: h2) with ([Issue t id sub more] ++ h2).
  rewrite contents_app. unfold contents at 2. simpl. rewrite String.eqb_refl, Hc. simpl.
  rewrite rev_app_distr. cbn [rev]. rewrite <- app_assoc. cbn [app].
  destruct (content_ok _ _ _ _ _ _ Hc) as (_ & _ & _ & _ & _ & _ & _ & _ & Es & _).
  apply find_reaches; [|exact Hu|exact Es].
  intros x Hx. apply in_rev in Hx. apply contents_In in Hx. destruct Hx as (t' & s' & m' & Hin & Hc').
  split.
  - apply (exp_monotone I now id t sub more c t' s' m' x Hc Hc').
    + apply (Hno t id sub). apply in_elt.
    + apply (Hno t' id s'). apply in_or_app. right. right. exact Hin.
    + exact (times_app _ _ _ _ _ _ _ Ht _ _ _ _ Hin).
    + exact Hu.
  - destruct (content_ok _ _ _ _ _ _ Hc') as (_ & _ & _ & _ & _ & _ & _ & _ & Es' & _). eauto.
Qed.

(** Missing: marks issued with an expiry time of their own.  What holds: without these, and if the clock
    does not go back, a mark is active exactly if it was issued to the subject and has not expired. *)
Theorem C44_active_partial : forall I cfg h held now id sub,
  own_files cfg -> id <> "" -> orderly h -> no_own_exp h ->
  (trust_mark_status held (run I (fresh cfg) h) now (by_ids id sub) = Ok Active <->
   exists t more mark, issued I (fresh cfg) h t id sub more mark /\ unexpired now (claims_of mark)).
Proof.
  intros I cfg h held now id sub Hown Hid Ho Hno. split; [apply C44_active_was_issued, Hown|].
  intros (t & more & mark & Hi & Hu). rewrite status_ids by exact Hid.
  rewrite (find_issued I cfg h now t id sub more mark Hown Ho Hno Hi Hu). reflexivity.
Qed.

Example C44_ex : orderly ex_hist /\ no_own_exp ex_hist /\
  trust_mark_status no_keys (run ex_issuer (fresh ex_cfg) ex_hist) 1120 (by_ids "sirtfi" "rp1") = Ok Active /\
  trust_mark_status no_keys (run ex_issuer (fresh ex_cfg) ex_hist) 1120 (by_ids "sirtfi" "rp2") = Ok Active /\
  trust_mark_status no_keys (run ex_issuer (fresh ex_cfg) ex_hist) 1160 (by_ids "sirtfi" "rp2") = Ok NotFound /\
  trust_mark_status no_keys (run ex_issuer (fresh ex_cfg) ex_hist) 5000 (by_ids "basic" "rp1") = Ok Active /\
  trust_mark_status no_keys (run ex_issuer (fresh ex_cfg) ex_hist) 1120 (by_ids "sirtfi" "rp3") = Ok NotFound.
Proof.
  split; [exists 0%Z; simpl; lia|].
  split.
  { intros t id sub more H. simpl in H.
    repeat (destruct H as [H|H]; [first [discriminate|injection H as _ _ _ <-; reflexivity]|]). destruct H. }
  vm_compute. auto.
Qed.

(** ** C64: the status of a mark that is sent along *)

(** the library refuses a mark that expired more than [g] seconds ago *)
Definition checks_marks (g : Z) (held : unpacker) : Prop :=
  forall n p z, up_valid held n p = true -> dget "exp" p = Some (VInt z) -> (n < z + g)%Z.

Lemma mark_skew_checks keys : checks_marks 15 (mkUnpack keys mark_within_skew).
Proof. intros n p z H Hz. cbn in H. unfold mark_within_skew in H. rewrite Hz in H. apply Z.ltb_lt. exact H. Qed.

Definition C64_full : Prop := forall I cfg h held now k p,
  own_files cfg -> checks_marks 15 held ->
  trust_mark_status held (run I (fresh cfg) h) now (by_mark (TMJws k p)) = Ok Active ->
  unexpired now p /\
  exists t id sub more, issued I (fresh cfg) h t id sub more (TMJws k p).

(** the first mark of rp1 has expired, but rp1 got another one *)
Theorem C64_this_very_mark_refuted : ~ C64_full.
Proof.
  intros H.
  destruct (H ex_issuer ex_cfg ex_hist (mkUnpack (fun e => if String.eqb e "tmi" then [5] else []) mark_within_skew) 1105%Z 5
              (claims_of (match snd (create_trust_mark ex_issuer 1000 "sirtfi" "rp1" [] (fresh ex_cfg)) with
                          | Ok m => m | Err _ => TMJunk end)) ex_own (mark_skew_checks _)) as [Hu _].
  - vm_compute. reflexivity.
  - unfold unexpired in Hu. simpl in Hu. destruct Hu as (e & [= <-] & Hl). lia.
Qed.

(** not even the issuing part: a mark of another issuer, for an id and a subject known here, is active *)
Theorem C64_issued_here_refuted : ~ (forall I cfg h held now k p,
  own_files cfg -> checks_marks 15 held ->
  trust_mark_status held (run I (fresh cfg) h) now (by_mark (TMJws k p)) = Ok Active ->
  exists t id sub more, issued I (fresh cfg) h t id sub more (TMJws k p)).
Proof.
  intros H.
  destruct (H ex_issuer ex_cfg ex_hist (mkUnpack (fun e => if String.eqb e "other" then [9] else [5]) mark_within_skew) 1150%Z 9
              [("iss", VStr "other"); ("sub", VStr "rp1"); ("iat", VInt 1000); ("id", VStr "basic")] ex_own (mark_skew_checks _))
    as (t & id & sub & more & Hi).
  - vm_compute. reflexivity.
  - apply issued_file in Hi. destruct Hi as (c & _ & _ & Hc & _). discriminate.
Qed.

Lemma schema_strings p : tm_schema p = true ->
  exists id sub iss, dget "id" p = Some (VStr id) /\ dget "sub" p = Some (VStr sub) /\
                     dget "iss" p = Some (VStr iss) /\ id <> "".
Proof.
  unfold tm_schema. intros H. repeat (apply andb_true_iff in H; destruct H as [H ?]).
  unfold has_str in *. destruct (dget "id" p) as [[| | |id| |]|]; try discriminate.
  destruct (dget "sub" p) as [[| | |sub| |]|]; try discriminate.
  destruct (dget "iss" p) as [[| | |iss| |]|]; try discriminate.
  exists id, sub, iss. split; [reflexivity|]. split; [reflexivity|]. split; [reflexivity|].
  intros ->. discriminate.
Qed.

Lemma unpack_ok held now t e p : unpack_trust_mark held now t e = Ok p <->
  exists k iss, t = TMJws k p /\ dget "iss" p = Some (VStr iss) /\ In k (up_keys held iss) /\ tm_schema p = true /\
                up_valid held now p = true /\ (e <> "" -> dget "sub" p = Some (VStr e)).
Proof.
  unfold unpack_trust_mark. split.
  - destruct t as [|k q]; [discriminate|]. destruct (dget "iss" q) as [[| | |iss| |]|] eqn:Ei; try discriminate.
    destruct (existsb (Nat.eqb k) (up_keys held iss)) eqn:Ek; [|discriminate].
    destruct (up_valid held now q) eqn:Eu; [|discriminate]. intros H. apply bind_ok in H. destruct H as (u & Hv & [= ->]). exists k, iss.
    split; [reflexivity|]. split; [exact Ei|]. apply existsb_exists in Ek. destruct Ek as (k' & Hk & Ek).
    apply Nat.eqb_eq in Ek. subst k'. split; [exact Hk|]. unfold tm_verify in Hv.
    destruct (tm_schema p) eqn:Es; [|discriminate]. split; [reflexivity|]. split; [exact Eu|]. intros Hne.
    apply String.eqb_neq in Hne. rewrite Hne in Hv. destruct (dget "sub" p) as [[| | |s| |]|]; try discriminate Hv.
    cbn [py_eqb] in Hv. destruct (String.eqb_spec e s) as [->|]; [reflexivity|discriminate].
  - intros (k & iss & -> & Ei & Hk & Hs & Hu & He). rewrite Ei.
    assert (Ek : existsb (Nat.eqb k) (up_keys held iss) = true)
      by (apply existsb_exists; exists k; split; [exact Hk|apply Nat.eqb_refl]).
    rewrite Ek, Hu. unfold tm_verify. rewrite Hs. destruct (String.eqb_spec e "") as [->|Hne]; [reflexivity|].
    rewrite (He Hne). cbn [py_eqb]. rewrite String.eqb_refl. reflexivity.
Qed.

(** Missing: that it is this mark which is active.  What holds: the mark is signed with a key held for the
    issuer it names and did not expire longer ago than the library tolerates, and a mark with its id was issued to its
    subject and has not expired. *)
Theorem C64_this_very_mark_partial : forall I cfg h held now t g,
  own_files cfg -> checks_marks g held ->
  trust_mark_status held (run I (fresh cfg) h) now (by_mark t) = Ok Active ->
  exists k p id sub iss, t = TMJws k p /\ dget "iss" p = Some (VStr iss) /\ In k (up_keys held iss) /\
    (forall z, dget "exp" p = Some (VInt z) -> (now < z + g)%Z) /\
    dget "id" p = Some (VStr id) /\ dget "sub" p = Some (VStr sub) /\
    exists t0 more mark, issued I (fresh cfg) h t0 id sub more mark /\ unexpired now (claims_of mark).
Proof.
  intros I cfg h held now t g Hown Hg H. unfold trust_mark_status in H. cbn [sr_mark by_mark] in H.
  apply bind_ok in H. destruct H as (p & Hp & H). apply unpack_ok in Hp.
  destruct Hp as (k & iss & -> & Ei & Hk & Hs & Hu & _).
  destruct (schema_strings p Hs) as (id & sub & iss' & E1 & E2 & _ & Hid).
  rewrite E1, E2 in H. exists k, p, id, sub, iss.
  split; [reflexivity|]. split; [exact Ei|]. split; [exact Hk|]. split; [intros z; exact (Hg _ _ _ Hu)|].
  split; [exact E1|]. split; [exact E2|].
  apply (C44_active_was_issued I cfg h held now id sub Hown). rewrite status_ids by exact Hid. exact H.
Qed.

Lemma pack_schema I t id sub more c :
  content_of I t id sub more = Ok c -> tm_schema (claims_of (pack I t c)) = true ->
  dget "id" (claims_of (pack I t c)) = Some (VStr id) /\ dget "sub" (claims_of (pack I t c)) = Some (VStr sub).
Proof.
  intros H _. destruct (content_ok _ _ _ _ _ _ H) as (_ & _ & _ & _ & _ & _ & _ & E1 & E2 & _). simpl.
  rewrite !dget_dset_other by discriminate. auto.
Qed.

(** a mark of this issuer that has not expired is reported active when it is sent along and the library takes its times
    to be right *)
Theorem C64_own_mark_active : forall I cfg h held now t id sub more mark,
  own_files cfg -> orderly h -> no_own_exp h ->
  issued I (fresh cfg) h t id sub more mark -> unexpired now (claims_of mark) ->
  tm_schema (claims_of mark) = true -> In (i_key I) (up_keys held (i_id I)) -> up_valid held now (claims_of mark) = true ->
  trust_mark_status held (run I (fresh cfg) h) now (by_mark mark) = Ok Active.
Proof.
  intros I cfg h held now t id sub more mark Hown Ho Hno Hi Hu Hs Hk Hv.
  assert (Hf := find_issued I cfg h now t id sub more mark Hown Ho Hno Hi Hu).
  apply issued_file in Hi. destruct Hi as (c & _ & Hc & -> & _).
  destruct (pack_schema _ _ _ _ _ _ Hc Hs) as [E1 E2].
  unfold trust_mark_status. cbn [sr_mark by_mark].
  assert (Hp : unpack_trust_mark held now (pack I t c) "" = Ok (claims_of (pack I t c))).
  { apply unpack_ok. exists (i_key I), (i_id I). split; [reflexivity|].
    split; [cbn [claims_of pack]; rewrite dget_dset_other by discriminate; apply dget_dset_same|].
    split; [exact Hk|]. split; [exact Hs|]. split; [exact Hv|]. intros C. congruence. }
  rewrite Hp. cbn [bind]. rewrite E1, E2, Hf. reflexivity.
Qed.

Example C64_ex : exists mark,
  issued ex_issuer (fresh ex_cfg) ex_hist 1090 "sirtfi" "rp1" [("level", VInt 2)] mark /\
  unexpired 1150 (claims_of mark) /\ tm_schema (claims_of mark) = true /\
  trust_mark_status (mkUnpack (fun e => if String.eqb e "tmi" then [5] else []) mark_within_skew)
    (run ex_issuer (fresh ex_cfg) ex_hist) 1150 (by_mark mark) = Ok Active.
Proof.
  eexists. split.
  - exists [Issue 1000 "sirtfi" "rp1" []; Issue 1010 "basic" "rp1" []; Restart; Issue 1050 "sirtfi" "rp2" [];
            Issue 1060 "unknown" "rp3" []], []. split; [reflexivity|]. vm_compute. reflexivity.
  - split; [unfold unexpired; simpl; eexists; split; [reflexivity|lia]|]. split; vm_compute; reflexivity.
Qed.

(** ** C45 *)

Definition no_restart (h : list event) : Prop := ~ In Restart h.

(** every mark of a history of plain issues can be looked up in the store in memory *)
Definition C45_full : Prop := forall I h held now id sub,
  i_lifetime I = [] -> no_restart h ->
  (forall t i s m, In (Issue t i s m) h -> dmem i (i_spec I) = true /\ m = []) ->
  (trust_mark_status held (run I (SSimple []) h) now (by_ids id sub) = Ok Active <->
   exists t m, In (Issue t id sub m) h).

(** the second mark with the same id is lost *)
Theorem C45_memory_store_refuted : ~ C45_full.
Proof.
  intros H.
  destruct (H (mkIssuer "tmi" 5 [("basic", [])] []) [Issue 1 "basic" "rp1" []; Issue 2 "basic" "rp2" []]
              no_keys 3%Z "basic" "rp2" eq_refl) as [_ H2].
  - intros [C|[C|[]]]; discriminate.
  - intros t i s m [[= <- <- <- <-]|[[= <- <- <- <-]|[]]]; split; reflexivity.
  - assert (X : Ok NotFound = Ok Active); [|discriminate]. apply H2. exists 2%Z, []. simpl. auto.
Qed.

Lemma issued_to_snoc I s h e id sub : issued_to I s (h ++ [e]) id sub <->
  issued_to I s h id sub \/
  exists t m mark, e = Issue t id sub m /\ snd (create_trust_mark I t id sub m (run I s h)) = Ok mark.
Proof.
  split.
  - intros (t & m & mark & h1 & h2 & E & H). destruct h2 as [|e2 h2'] using rev_ind.
    + apply app_inj_tail in E. destruct E as [-> ->]. right. eauto 6.
    + clear IHh2'. rewrite app_comm_cons, app_assoc in E. apply app_inj_tail in E. destruct E as [-> ->].
      left. exists t, m, mark, h1, h2'. auto.
  - intros [(t & m & mark & h1 & h2 & -> & H)|(t & m & mark & -> & H)].
    + exists t, m, mark, h1, (h2 ++ [e]). split; [rewrite <- app_assoc; reflexivity|exact H].
    + exists t, m, mark, h, []. auto.
Qed.

Lemma create_simple I t id sub m db : 
  match content_of I t id sub m with
  | Err e => create_trust_mark I t id sub m (SSimple db) = (SSimple db, Err e)
  | Ok c => c <> [] /\
      create_trust_mark I t id sub m (SSimple db)
      = if dmem id db then (SSimple db, Err AttributeError)
        else (SSimple (@dset (dict tmark) id [(sub, c)] db), Ok (pack I t c))
  end.
Proof.
  rewrite create_eq. destruct (content_of I t id sub m) as [c|e] eqn:Ec; [|reflexivity].
  destruct (content_ok _ _ _ _ _ _ Ec) as (_ & _ & _ & _ & _ & _ & _ & E1 & E2 & _).
  split; [intros ->; discriminate|].
  unfold store_add, simple_add, mbind, lift, StateM.get. unfold dindex at 1. rewrite E1.
  unfold dindex. rewrite E2. unfold dmem. destruct (dget id db) as [m0|] eqn:Ed.
  - change (dget id db) with (@dget (list (string * tmark)) id db) in Ed. rewrite Ed. reflexivity.
  - change (dget id db) with (@dget (list (string * tmark)) id db) in Ed. rewrite Ed. reflexivity.
Qed.

(** the store holds the first mark with each id *)
Lemma simple_inv I h : no_restart h -> exists db, run I (SSimple []) h = SSimple db /\
  forall id, match dget id db with
             | None => forall sub, ~ issued_to I (SSimple []) h id sub
             | Some m => exists sub c, m = [(sub, c)] /\ c <> [] /\
                           forall sub', issued_to I (SSimple []) h id sub' <-> sub' = sub
             end.
Proof.
  induction h as [|e h IH] using rev_ind; intros Hnr.
  - exists []. split; [reflexivity|]. intros id sub (t & m & mark & h1 & h2 & E & _). destruct h1; discriminate.
  - destruct IH as (db & E & Hinv). { intros C. apply Hnr, in_or_app. left. exact C. }
    destruct e as [t i s m|]; [|exfalso; apply Hnr, in_or_app; right; left; reflexivity].
    rewrite run_snoc. unfold step. rewrite E.
    assert (Hc := create_simple I t i s m db).
    destruct (content_of I t i s m) as [c|x].
    + destruct Hc as [Hne Hc]. rewrite Hc. destruct (dmem i db) eqn:Ed.
      * exists db. split; [reflexivity|]. intros id. specialize (Hinv id).
        assert (G : forall sub, issued_to I (SSimple []) (h ++ [Issue t i s m]) id sub <->
                                issued_to I (SSimple []) h id sub).
        { intros sub. rewrite issued_to_snoc. split; [|auto].
          intros [H|(t' & m' & mark & [= <- <- <- <-] & H)]; [exact H|]. rewrite E, Hc in H. discriminate. }
        destruct (dget id db) as [mm|]; [|intros sub C; apply (Hinv sub), G, C].
        destruct Hinv as (sub & c' & H1 & H2 & H3). exists sub, c'. split; [exact H1|]. split; [exact H2|].
        intros sub'. rewrite G. apply H3.
      * exists (@dset (dict tmark) i [(s, c)] db). split; [reflexivity|]. intros id. specialize (Hinv id).
        rewrite dget_dset. destruct (String.eqb_spec id i) as [->|N].
        -- apply dmem_false in Ed. rewrite Ed in Hinv. exists s, c. split; [reflexivity|]. split; [exact Hne|].
           intros sub'. rewrite issued_to_snoc. split.
           ++ intros [H|(t' & m' & mark & Ei & _)]; [destruct (Hinv _ H)|congruence].
           ++ intros ->. right. exists t, m, (pack I t c). rewrite E, Hc. auto.
        -- assert (G : forall sub, issued_to I (SSimple []) (h ++ [Issue t i s m]) id sub <->
                                issued_to I (SSimple []) h id sub).
           { intros sub. rewrite issued_to_snoc. split; [|auto].
             intros [H|(t' & m' & mark & Ei & H)]; [exact H|congruence]. }
           destruct (dget id db) as [mm|]; [|intros sub C; apply (Hinv sub), G, C].
           destruct Hinv as (sub & c' & H1 & H2 & H3). exists sub, c'. split; [exact H1|]. split; [exact H2|].
           intros sub'. rewrite G. apply H3.
    + rewrite Hc. exists db. split; [reflexivity|]. intros id. specialize (Hinv id).
      assert (G : forall sub, issued_to I (SSimple []) (h ++ [Issue t i s m]) id sub <->
                              issued_to I (SSimple []) h id sub).
      { intros sub. rewrite issued_to_snoc. split; [|auto].
        intros [H|(t' & m' & mark & [= <- <- <- <-] & H)]; [exact H|]. rewrite E, Hc in H. discriminate. }
      destruct (dget id db) as [mm|]; [|intros sub C; apply (Hinv sub), G, C].
      destruct Hinv as (sub & c' & H1 & H2 & H3). exists sub, c'. split; [exact H1|]. split; [exact H2|].
      intros sub'. rewrite G. apply H3.
Qed.

(** Missing: more than one mark with the same id, restarts and expiry.  What holds: lookups find exactly
    the marks whose issue succeeded, KeyError is raised for ids without one, and an issue succeeds exactly
    if no mark with the id was issued before (and its claims can be made at all). *)
Theorem C45_memory_store_partial : forall I h held now id sub,
  no_restart h -> id <> "" ->
  (trust_mark_status held (run I (SSimple []) h) now (by_ids id sub) = Ok Active <->
   issued_to I (SSimple []) h id sub) /\
  (trust_mark_status held (run I (SSimple []) h) now (by_ids id sub) = Err KeyError <->
   forall sub', ~ issued_to I (SSimple []) h id sub').
Proof.
  intros I h held now id sub Hnr Hid. rewrite status_ids by exact Hid.
  destruct (simple_inv I h Hnr) as (db & E & Hinv). rewrite E. specialize (Hinv id).
  unfold store_find, simple_find, dindex. destruct (dget id db) as [m|].
  - destruct Hinv as (s & c & -> & Hne & Hiff). cbn [bind dget].
    assert (X : exists sub', issued_to I (SSimple []) h id sub') by (exists s; apply Hiff; reflexivity).
    destruct (String.eqb_spec sub s) as [->|N].
    + destruct c as [|x c]; [contradiction|]. split.
      * split; [intros _; apply Hiff; reflexivity|reflexivity].
      * split; [discriminate|]. intros C. destruct X as [s' X]. destruct (C s' X).
    + split.
      * split; [discriminate|]. intros H. apply Hiff in H. contradiction.
      * split; [discriminate|]. intros C. destruct X as [s' X]. destruct (C s' X).
  - split.
    + split; [discriminate|]. intros H. destruct (Hinv sub H).
    + split; [intros _; exact Hinv|reflexivity].
Qed.

Theorem C45_one_mark_per_id : forall I h t id sub m,
  no_restart h ->
  ((exists mark, snd (create_trust_mark I t id sub m (run I (SSimple []) h)) = Ok mark) <->
   (forall sub', ~ issued_to I (SSimple []) h id sub') /\
   exists mark, snd (create_trust_mark I t id sub m (SSimple [])) = Ok mark).
Proof.
  intros I h t id sub m Hnr. destruct (simple_inv I h Hnr) as (db & E & Hinv). rewrite E. specialize (Hinv id).
  assert (Hc := create_simple I t id sub m db). assert (Hc0 := create_simple I t id sub m []).
  destruct (content_of I t id sub m) as [c|x].
  - destruct Hc as [_ ->]. destruct Hc0 as [_ ->]. unfold dmem. destruct (dget id db) as [mm|].
    + split; [intros (mark & C); discriminate|]. intros [C _].
      destruct Hinv as (s & c' & _ & _ & Hiff). destruct (C s). apply Hiff. reflexivity.
    + simpl. split; [|eauto]. intros _. split; [exact Hinv|eauto].
  - rewrite Hc, Hc0. simpl. split; [intros (mark & C); discriminate|]. intros [_ (mark & C)]. discriminate.
Qed.

Example C45_ex : let h := [Issue 1 "basic" "rp1" []; Issue 2 "sirtfi" "rp2" []] in
  no_restart h /\
  trust_mark_status no_keys (run ex_issuer (SSimple []) h) 3 (by_ids "basic" "rp1") = Ok Active /\
  trust_mark_status no_keys (run ex_issuer (SSimple []) h) 3 (by_ids "basic" "rp2") = Ok NotFound /\
  trust_mark_status no_keys (run ex_issuer (SSimple []) h) 3 (by_ids "sirtfi" "rp2") = Ok Active /\
  trust_mark_status no_keys (run ex_issuer (SSimple []) h) 3 (by_ids "other" "rp2") = Err KeyError /\
  snd (create_trust_mark ex_issuer 3 "basic" "rp3" [] (run ex_issuer (SSimple []) h)) = Err AttributeError.
Proof.
  split; [intros [C|[C|[]]]; discriminate|]. vm_compute. auto 6.
Qed.

(** ** C46 *)

(** each string once, in order of first occurrence *)
Fixpoint firsts (l : list string) : list string :=
  match l with [] => [] | x :: l' => x :: filter (fun y => negb (String.eqb y x)) (firsts l') end.

Lemma vmem_strs s l : vmem (VStr s) (map VStr l) = smem s l.
Proof.
  unfold vmem, smem. induction l as [|x l IH]; [reflexivity|]. cbn [map existsb]. rewrite IH. reflexivity.
Qed.

Lemma filter_filter_in s acc l : smem s acc = true ->
  filter (fun y => negb (smem y acc)) (filter (fun y => negb (String.eqb y s)) l)
  = filter (fun y => negb (smem y acc)) l.
Proof.
  intros H. induction l as [|y l IH]; [reflexivity|]. simpl.
  destruct (String.eqb_spec y s) as [->|N]; simpl; [rewrite H; exact IH|].
  destruct (smem y acc); simpl; rewrite IH; reflexivity.
Qed.

Lemma filter_filter_snoc s acc l :
  filter (fun y => negb (smem y acc)) (filter (fun y => negb (String.eqb y s)) l)
  = filter (fun y => negb (smem y (acc ++ [s]))) l.
Proof.
  assert (G : forall y, smem y (acc ++ [s]) = smem y acc || String.eqb y s).
  { intros y. unfold smem. rewrite existsb_app. simpl. rewrite orb_false_r. reflexivity. }
  induction l as [|y l IH]; [reflexivity|]. simpl. rewrite G.
  destruct (String.eqb y s); simpl; [rewrite orb_true_r; exact IH|]. rewrite orb_false_r.
  destruct (smem y acc); simpl; rewrite IH; reflexivity.
Qed.

Lemma list_lines_firsts : forall ls subs acc,
  map (dget "sub") ls = map (fun s => Some (VStr s)) subs ->
  list_lines "" (map VStr acc) ls
  = map VStr (acc ++ filter (fun s => negb (smem s acc)) (firsts subs)).
Proof.
  induction ls as [|t ls IH]; intros [|s subs] acc E; try discriminate; simpl.
  - rewrite app_nil_r. reflexivity.
  - injection E as Es E. rewrite Es, vmem_strs. cbn [orb]. destruct (smem s acc) eqn:Em; cbn [negb].
    + rewrite (IH subs acc E), filter_filter_in by exact Em. reflexivity.
    + change [VStr s] with (map VStr [s]). rewrite <- map_app, (IH subs (acc ++ [s]) E).
      rewrite filter_filter_snoc, <- app_assoc. reflexivity.
Qed.

Lemma firsts_In x l : In x (firsts l) <-> In x l.
Proof.
  induction l as [|y l IH]; [reflexivity|]. simpl. rewrite filter_In, IH. split.
  - intros [H|[H _]]; auto.
  - intros [H|H]; [left; exact H|]. destruct (String.eqb_spec x y) as [->|N]; [left; reflexivity|].
    right. split; [exact H|reflexivity].
Qed.

Lemma firsts_NoDup l : NoDup (firsts l).
Proof.
  induction l as [|y l IH]; [constructor|]. simpl. constructor; [|apply NoDup_filter, IH].
  rewrite filter_In, String.eqb_refl. intros [_ C]. discriminate.
Qed.

Lemma contents_subs I h id : exists subs,
  map (dget "sub") (contents I h id) = map (fun s => Some (VStr s)) subs.
Proof.
  assert (G : forall l, (forall c, In c l -> exists s, dget "sub" c = Some (VStr s)) ->
    exists subs, map (dget "sub") l = map (fun s => Some (VStr s)) subs).
  { induction l as [|c l IH]; intros H; [exists []; reflexivity|].
    destruct (H c (or_introl eq_refl)) as [s Es].
    destruct IH as [subs E]; [intros x Hx; apply H; right; exact Hx|].
    exists (s :: subs). simpl. rewrite Es, E. reflexivity. }
  apply G. intros c Hc. apply contents_In in Hc. destruct Hc as (t & sub & more & _ & Hc).
  destruct (content_ok _ _ _ _ _ _ Hc) as (_ & _ & _ & _ & _ & _ & _ & _ & Es & _). eauto.
Qed.

Lemma StronglySorted_filter A (R : A -> A -> Prop) f l : StronglySorted R l -> StronglySorted R (filter f l).
Proof.
  induction 1 as [|x l H IH Hx]; simpl; [constructor|]. destruct (f x); [|exact IH].
  constructor; [exact IH|]. rewrite Forall_forall in *. intros y Hy. apply filter_In in Hy. apply Hx, Hy.
Qed.

Lemma StronglySorted_weaken A (R R' : A -> A -> Prop) l :
  (forall x y, In x l -> In y l -> R x y -> R' x y) -> StronglySorted R l -> StronglySorted R' l.
Proof.
  induction l as [|x l IH]; intros H Hs; [constructor|]. inversion Hs as [|? ? H1 H2]; subst.
  constructor.
  - apply IH; [|exact H1]. intros a b Ha Hb. apply H; right; assumption.
  - rewrite Forall_forall in *. intros y Hy. apply H; [left; reflexivity|right; exact Hy|]. apply H2, Hy.
Qed.

Lemma issued_to_file I cfg fs h id sub : issued_to I (SFile cfg fs) h id sub <->
  dmem id cfg = true /\ exists t m c, In (Issue t id sub m) h /\ content_of I t id sub m = Ok c.
Proof.
  split.
  - intros (t & m & mark & H). apply issued_file in H. destruct H as (c & H1 & H2 & _ & H3).
    split; [exact H3|]. eauto 6.
  - intros (Hd & t & m & c & H1 & H2). exists t, m, (pack I t c). apply issued_file. exists c. auto.
Qed.

Lemma issued_to_run I cfg fs h1 h2 id sub :
  issued_to I (run I (SFile cfg fs) h1) h2 id sub <-> issued_to I (SFile cfg fs) h2 id sub.
Proof.
  destruct (run_is_file I cfg fs h1) as [fs' E]. rewrite E, !issued_to_file. reflexivity.
Qed.

Lemma listing_sorted I cfg fs id : dmem id cfg = true -> forall h subs,
  map (dget "sub") (contents I h id) = map (fun s => Some (VStr s)) subs ->
  (forall s, In s subs <-> issued_to I (SFile cfg fs) h id s) /\
  StronglySorted (issued_later I (SFile cfg fs) h id) (firsts (rev subs)).
Proof.
  intros Hd. induction h as [|e h IH] using rev_ind; intros subs E.
  - destruct subs; [|discriminate]. split; [|constructor]. intros s. split; [intros []|].
    intros H. apply issued_to_file in H. destruct H as (_ & t & m & c & [] & _).
  - rewrite contents_app in E. destruct (contents_subs I h id) as [subs0 E0].
    destruct (IH subs0 E0) as [H1 H2]. rewrite map_app in E. unfold tmark in E. rewrite E0 in E.
    unfold contents in E. simpl in E. rewrite app_nil_r in E.
    assert (G : (contents1 I id e = [] /\
                 forall s, issued_to I (SFile cfg fs) [e] id s -> False) \/
                exists s c, contents1 I id e = [c] /\ dget "sub" c = Some (VStr s) /\
                  forall s', issued_to I (SFile cfg fs) [e] id s' <-> s' = s).
    { destruct e as [t i s m|].
      - simpl. destruct (String.eqb_spec i id) as [->|N].
        + destruct (content_of I t id s m) as [c|x] eqn:Ec.
          * right. exists s, c. split; [reflexivity|].
            destruct (content_ok _ _ _ _ _ _ Ec) as (_ & _ & _ & _ & _ & _ & _ & _ & Es & _).
            split; [exact Es|]. intros s'. rewrite issued_to_file. split.
            -- intros (_ & t' & m' & c' & [Es'|[]] & _). congruence.
            -- intros ->. split; [exact Hd|]. exists t, m, c. split; [left; reflexivity|exact Ec].
          * left. split; [reflexivity|]. intros s' H. apply issued_to_file in H.
            destruct H as (_ & t' & m' & c' & [[= <- <- <-]|[]] & H). congruence.
        + left. split; [reflexivity|]. intros s' H. apply issued_to_file in H.
          destruct H as (_ & t' & m' & c' & [C|[]] & H). congruence.
      - left. split; [reflexivity|]. intros s' H. apply issued_to_file in H.
        destruct H as (_ & t' & m' & c' & [C|[]] & _). discriminate. }
    assert (Gi : forall s, issued_to I (SFile cfg fs) (h ++ [e]) id s <->
                           issued_to I (SFile cfg fs) h id s \/ issued_to I (SFile cfg fs) [e] id s).
    { intros s. rewrite !issued_to_file. split.
      - intros (_ & t & m & c & Hin & Hc). apply in_app_or in Hin. destruct Hin as [Hin|Hin]; [left|right];
          (split; [exact Hd|]; exists t, m, c; auto).
      - intros [(_ & t & m & c & Hin & Hc)|(_ & t & m & c & Hin & Hc)]; (split; [exact Hd|]);
          exists t, m, c; (split; [apply in_or_app|exact Hc]); auto. }
    assert (Gl : forall a b, issued_later I (SFile cfg fs) h id a b ->
                   ~ issued_to I (SFile cfg fs) [e] id b ->
                   issued_later I (SFile cfg fs) (h ++ [e]) id a b).
    { intros a b (h1 & h2 & -> & Ha & Hb) He. exists h1, (h2 ++ [e]).
      split; [rewrite <- app_assoc; reflexivity|]. rewrite issued_to_run in Ha, Hb.
      rewrite !issued_to_run. split.
      - apply issued_to_file in Ha. apply issued_to_file. destruct Ha as (Ha1 & t & m & c & Ha2 & Ha3).
        split; [exact Ha1|]. exists t, m, c. split; [apply in_or_app; left; exact Ha2|exact Ha3].
      - intros C. apply issued_to_file in C. destruct C as (_ & t & m & c & C & Cc).
        apply in_app_or in C. destruct C as [C|C]; [apply Hb|apply He]; apply issued_to_file;
          (split; [exact Hd|]; exists t, m, c; auto). }
    destruct G as [[Ee Hno]|(s & c & Ee & Es & Hs)].
    + rewrite Ee in E. simpl in E. rewrite app_nil_r in E.
      assert (Esub : subs = subs0).
      { clear - E. revert subs0 E. induction subs as [|x subs IH]; intros [|y subs0] E; try discriminate; [reflexivity|].
        injection E as -> E. f_equal. apply IH, E. }
      subst subs0. split.
      * intros s. rewrite H1, Gi. split; [auto|]. intros [H|H]; [exact H|destruct (Hno s H)].
      * revert H2. apply StronglySorted_weaken. intros a b _ _ Hab. apply Gl; [exact Hab|].
        intros C. exact (Hno b C).
    + rewrite Ee in E. simpl in E. rewrite Es in E.
      assert (Esub : subs = subs0 ++ [s]).
      { clear - E. revert subs0 E. induction subs as [|x subs IH]; intros [|y subs0] E; try discriminate.
        - injection E as <- E. destruct subs; [reflexivity|discriminate].
        - injection E as -> E. simpl. f_equal. apply IH, E. }
      subst subs. split.
      * intros s'. rewrite in_app_iff, H1, Gi, Hs. simpl. intuition congruence.
      * rewrite rev_app_distr. cbn [rev app firsts]. constructor.
        -- apply (StronglySorted_filter _ _ (fun y => negb (String.eqb y s))) in H2. revert H2. apply StronglySorted_weaken.
           intros a b Ha Hb Hab. apply Gl; [exact Hab|]. intros C. apply Hs in C. subst b.
           apply filter_In in Hb. destruct Hb as [_ Hb]. rewrite String.eqb_refl in Hb. discriminate.
        -- rewrite Forall_forall. intros b Hb. apply filter_In in Hb. destruct Hb as [_ Hb].
           exists h, [e]. split; [reflexivity|]. rewrite !issued_to_run. split; [apply Hs; reflexivity|].
           intros C. apply Hs in C. subst b. rewrite String.eqb_refl in Hb. discriminate.
Qed.

(** after any history the listing for an id has each subject that received a mark with the id once, the
    one that received it last first; it is not found if there is none *)
Theorem C46_listing : forall I cfg h now id,
  own_files cfg ->
  exists l, NoDup l /\ (forall sub, In sub l <-> issued_to I (fresh cfg) h id sub) /\
    StronglySorted (issued_later I (fresh cfg) h id) l /\
    trust_mark_list (run I (fresh cfg) h) now None (Some id)
    = Ok (if is_nil l then LNotFound else LList (map VStr l)).
Proof.
  intros I cfg h now id Hown. destruct (fresh_run I cfg h Hown) as (fs & E & Hfs).
  rewrite E. unfold trust_mark_list, file_list. destruct (dget id cfg) as [fn|] eqn:Ef.
  - unfold read_file. rewrite (Hfs id fn Ef). cbn [bind].
    destruct (contents_subs I h id) as [subs Es].
    assert (Hd : dmem id cfg = true) by (unfold dmem; rewrite Ef; reflexivity).
    destruct (listing_sorted I cfg (file_init cfg []) id Hd h subs Es) as [H1 H2].
    exists (firsts (rev subs)). split; [apply firsts_NoDup|]. split.
    { intros sub. rewrite firsts_In, <- in_rev. apply H1. }
    split; [exact H2|].
    assert (X : list_lines "" [] (rev (contents I h id)) = map VStr (firsts (rev subs))).
    { change ([] : list val) with (map VStr []). rewrite (list_lines_firsts _ (rev subs)).
      - simpl. f_equal. clear. induction (firsts (rev subs)) as [|x l IH]; simpl; [reflexivity|]. rewrite IH. reflexivity.
      - rewrite !map_rev. unfold tmark in *. rewrite Es. reflexivity. }
    rewrite X. destruct (firsts (rev subs)); reflexivity.
  - exists []. split; [constructor|]. split; [|split; [constructor|reflexivity]].
    intros sub. split; [intros []|]. intros H. apply issued_to_file in H. destruct H as [H _].
    unfold dmem in H. rewrite Ef in H. discriminate.
Qed.

Example C46_ex :
  trust_mark_list (run ex_issuer (fresh ex_cfg) ex_hist) 1100 None (Some "sirtfi")
  = Ok (LList [VStr "rp1"; VStr "rp2"]) /\
  trust_mark_list (run ex_issuer (fresh ex_cfg) (ex_hist ++ [Issue 1095 "sirtfi" "rp2" []])) 1100 None (Some "sirtfi")
  = Ok (LList [VStr "rp2"; VStr "rp1"]) /\
  trust_mark_list (run ex_issuer (fresh ex_cfg) ex_hist) 1100 None (Some "unknown") = Ok LNotFound.
Proof. vm_compute. auto. Qed.

(** ** C47 *)

(** every trust mark id has a file *)
Definition all_there (cfg : fconfig) (fs : files) : Prop :=
  forall id fn, dget id cfg = Some fn -> exists l, dget fn fs = Some l.

(** the subject of every mark is a string *)
Definition string_subs (cfg : fconfig) (fs : files) : Prop :=
  forall id fn l c, dget id cfg = Some fn -> dget fn fs = Some l -> In c l ->
    exists s, dget "sub" c = Some (VStr s).

Lemma dump_ok cfg fs d : file_dump cfg fs = Ok d ->
  forall id fn, dget id cfg = Some fn -> exists l, dget fn fs = Some l /\ dget id d = Some l.
Proof.
  unfold file_dump. intros H id fn Hid.
  assert (G : forall ks acc d, foldM (fun acc id => let* fn := dindex id cfg in
                let* ls := read_file fn fs in Ok (dset id ls acc)) ks acc = Ok d ->
     (In id ks \/ exists l, dget fn fs = Some l /\ dget id acc = Some l) ->
     exists l, dget fn fs = Some l /\ dget id d = Some l).
  { clear d H. induction ks as [|k ks IH]; intros acc d H Hor; simpl in H.
    - injection H as <-. destruct Hor as [[]|Hor]. exact Hor.
    - destruct (dindex k cfg) as [fn'|e] eqn:Ek; [|discriminate]. cbn [bind] in H.
      destruct (read_file fn' fs) as [ls|e] eqn:Er; [|discriminate]. cbn [bind] in H.
      apply dindex_ok in Ek.
      assert (Er' : dget fn' fs = Some ls) by (unfold read_file in Er; destruct (dget fn' fs); congruence).
      destruct (string_dec id k) as [->|N].
      + apply (IH _ _ H). right. exists ls. rewrite Hid in Ek. injection Ek as ->.
        split; [exact Er'|]. apply dget_dset_same.
      + apply (IH _ _ H). destruct Hor as [[C|Hor]|(l & H1 & H2)]; [congruence|left; exact Hor|right].
        exists l. split; [exact H1|]. rewrite dget_dset_other by exact N. exact H2. }
  apply (G _ _ _ H). left. exact (dget_In_key _ _ _ _ Hid).
Qed.

Lemma dump_total cfg fs : all_there cfg fs -> exists d, file_dump cfg fs = Ok d.
Proof.
  intros Ha. unfold file_dump.
  assert (G : forall ks acc, (forall k, In k ks -> In k (dkeys cfg)) -> exists d,
    foldM (fun acc id => let* fn := dindex id cfg in
                let* ls := read_file fn fs in Ok (dset id ls acc)) ks acc = Ok d).
  { induction ks as [|k ks IH]; intros acc Hk; simpl; [eauto|].
    destruct (key_In_dget _ _ _ (Hk k (or_introl eq_refl))) as [fn Hfn].
    unfold dindex at 1. rewrite Hfn. cbn [bind]. destruct (Ha k fn Hfn) as [l Hl].
    unfold read_file at 1. rewrite Hl. cbn [bind]. apply IH. intros k' H. apply Hk. right. exact H. }
  apply G. auto.
Qed.

Lemma append_all fn ls : forall fs,
  dget fn (fold_left (fun fs t => append_line fn t fs) ls (dset fn (file_lines fn fs) fs))
  = Some (file_lines fn fs ++ ls) /\
  forall fn', fn' <> fn ->
    dget fn' (fold_left (fun fs t => append_line fn t fs) ls (dset fn (file_lines fn fs) fs)) = dget fn' fs.
Proof.
  assert (G : forall ls fs base, dget fn fs = Some base ->
    dget fn (fold_left (fun fs t => append_line fn t fs) ls fs) = Some (base ++ ls) /\
    forall fn', fn' <> fn -> dget fn' (fold_left (fun fs t => append_line fn t fs) ls fs) = dget fn' fs).
  { clear. induction ls as [|t ls IH]; intros fs base H; simpl; [rewrite app_nil_r; auto|].
    assert (X : dget fn (append_line fn t fs) = Some (base ++ [t])).
    { unfold append_line, file_lines. rewrite H. apply dget_dset_same. }
    destruct (IH _ _ X) as [I1 I2]. split.
    - rewrite I1, <- app_assoc. reflexivity.
    - intros fn' N. rewrite I2 by exact N. unfold append_line. apply dget_dset_other. exact N. }
  intros fs. destruct (G ls (dset fn (file_lines fn fs) fs) (file_lines fn fs) (dget_dset_same _ _ _ _)) as [G1 G2].
  split; [exact G1|]. intros fn' N. rewrite G2 by exact N. apply dget_dset_other. exact N.
Qed.

Lemma load_ok cfg info : own_files cfg -> NoDup (dkeys cfg) ->
  forall fs, (forall id, In id (dkeys cfg) -> exists l, dget id info = Some l) ->
  exists fs', file_load cfg info fs = (fs', Ok tt) /\
    forall id fn l, dget id cfg = Some fn -> dget id info = Some l -> dget fn fs' = Some (file_lines fn fs ++ l).
Proof.
  intros Hown Hnd fs Hinfo. unfold file_load.
  set (body := fun (_ : unit) id =>
           do fn <- lift (dindex id cfg) in
           do _ <- modify (fun fs => dset fn (file_lines fn fs) fs) in
           do ls <- lift (dindex id info) in
           modify (fun fs => fold_left (fun fs t => append_line fn t fs) ls fs)).
  assert (G : forall ks fs, NoDup ks -> (forall k, In k ks -> In k (dkeys cfg)) ->
    exists fs', mfold body ks tt fs = (fs', Ok tt) /\
      (forall id fn l, dget id cfg = Some fn -> dget id info = Some l -> In id ks ->
         dget fn fs' = Some (file_lines fn fs ++ l)) /\
      (forall id fn, dget id cfg = Some fn -> ~ In id ks -> dget fn fs' = dget fn fs)).
  { induction ks as [|k ks IH]; intros fs0 Hn Hk.
    - exists fs0. split; [reflexivity|]. split; [intros id fn l _ _ []|reflexivity].
    - inversion Hn as [|? ? Hnk Hn']; subst.
      destruct (key_In_dget _ _ _ (Hk k (or_introl eq_refl))) as [fn Hfn].
      destruct (Hinfo k (Hk k (or_introl eq_refl))) as [ls Hls].
      destruct (append_all fn ls fs0) as [A1 A2].
      set (fs1 := fold_left (fun fs t => append_line fn t fs) ls (dset fn (file_lines fn fs0) fs0)) in *.
      assert (Eb : body tt k fs0 = (fs1, Ok tt)).
      { unfold body, mbind, lift, modify. unfold dindex at 1. rewrite Hfn. unfold dindex. rewrite Hls. reflexivity. }
      destruct (IH fs1 Hn') as (fs' & E & I1 & I2). { intros k' H. apply Hk. right. exact H. }
      exists fs'. split; [cbn [mfold]; unfold mbind at 1; rewrite Eb; exact E|]. split.
      + intros id fn' l H1 H2 [<-|Hin].
        * rewrite Hfn in H1. injection H1 as <-. rewrite Hls in H2. injection H2 as <-.
          rewrite (I2 k fn Hfn Hnk). exact A1.
        * rewrite (I1 id fn' l H1 H2 Hin). f_equal. f_equal. unfold file_lines. rewrite A2; [reflexivity|].
          intros ->. apply Hnk. rewrite (Hown _ _ _ Hfn H1). exact Hin.
      + intros id fn' H1 Hni. rewrite (I2 id fn' H1) by (intros C; apply Hni; right; exact C).
        apply A2. intros ->. apply Hni. left. exact (Hown _ _ _ Hfn H1). }
  destruct (G (dkeys cfg) fs Hnd (fun k H => H)) as (fs' & E & I1 & _). exists fs'. split; [exact E|].
  intros id fn l H1 H2. apply (I1 id fn l H1 H2). exact (dget_In_key _ _ _ _ H1).
Qed.

(** loading a dump into a new store gives a store with the same lookups and listings *)
Theorem C47_round_trip : forall cfg fs,
  own_files cfg -> NoDup (dkeys cfg) -> all_there cfg fs ->
  exists d fs', file_dump cfg fs = Ok d /\ file_load cfg d (file_init cfg []) = (fs', Ok tt) /\
    (forall now id sub iat, file_find cfg fs' now id sub iat = file_find cfg fs now id sub iat) /\
    (forall id sub, file_list cfg fs' id sub = file_list cfg fs id sub) /\ file_dump cfg fs' = Ok d.
Proof.
  intros cfg fs Hown Hnd Ha. destruct (dump_total cfg fs Ha) as [d Hd].
  assert (Hi : forall id, In id (dkeys cfg) -> exists l, dget id d = Some l).
  { intros id H. destruct (key_In_dget _ _ _ H) as [fn Hfn].
    destruct (dump_ok cfg fs d Hd id fn Hfn) as (l & _ & Hl). eauto. }
  destruct (load_ok cfg d Hown Hnd (file_init cfg []) Hi) as (fs' & El & Hl).
  assert (G : forall id fn, dget id cfg = Some fn -> dget fn fs' = dget fn fs).
  { intros id fn Hfn. destruct (dump_ok cfg fs d Hd id fn Hfn) as (l & H1 & H2).
    rewrite (Hl id fn l Hfn H2), H1. unfold file_lines at 1. rewrite (init_creates cfg [] id fn Hfn). reflexivity. }
  exists d, fs'. split; [exact Hd|]. split; [exact El|]. split; [|split].
  - intros now id sub iat. unfold file_find, dindex. destruct (dget id cfg) as [fn|] eqn:Ef; [|reflexivity].
    cbn [bind]. unfold read_file. rewrite (G id fn Ef). reflexivity.
  - intros id sub. unfold file_list. destruct (dget id cfg) as [fn|] eqn:Ef; [|reflexivity].
    unfold read_file. rewrite (G id fn Ef). reflexivity.
  - rewrite <- Hd. unfold file_dump. assert (Hk : forall k, In k (dkeys cfg) -> In k (dkeys cfg)) by auto.
    revert Hk. generalize (dkeys cfg) at 1 3 4. generalize ([] : dict (list tmark)).
    intros acc ks. revert acc. induction ks as [|k ks IH]; intros acc Hk; simpl; [reflexivity|].
    destruct (key_In_dget _ _ _ (Hk k (or_introl eq_refl))) as [fn Hfn].
    unfold dindex at 1 3. rewrite Hfn. cbn [bind]. unfold read_file at 1 3. rewrite (G k fn Hfn).
    destruct (dget fn fs) as [ls|]; [|reflexivity]. cbn [bind]. apply IH. intros k' H. apply Hk. right. exact H.
Qed.

(** the outcome of a lookup on some lines, None if they do not settle it *)
Fixpoint scan (now : Z) (sub : string) (iat : Z) (ls : list tmark) : option (res bool) :=
  match ls with
  | [] => None
  | t :: ls' =>
      match (let* expired := match dget "exp" t with
                      | None => Ok false
                      | Some v => let* e := as_int v in Ok (Z.ltb e now)
                      end in
             if expired then Ok None else let* m := match_line sub iat t in Ok (Some m)) with
      | Err e => Some (Err e)
      | Ok None => Some (Ok false)
      | Ok (Some true) => Some (Ok true)
      | Ok (Some false) => scan now sub iat ls'
      end
  end.

Lemma find_scan now sub iat a b :
  find_lines now sub iat (a ++ b) = match scan now sub iat a with Some r => r | None => find_lines now sub iat b end.
Proof.
  induction a as [|t a IH]; [reflexivity|]. cbn [app find_lines scan].
  destruct (match dget "exp" t with
            | None => Ok false
            | Some v => let* e := as_int v in Ok (Z.ltb e now)
            end) as [[|]|e]; cbn [bind]; try reflexivity.
  destruct (match_line sub iat t) as [[|]|e]; cbn [bind]; try reflexivity. exact IH.
Qed.

(** loading a dump into a store in use keeps what was found in the dumped one; loading it again does not
    change any lookup *)
Theorem C47_load_into_used_store : forall cfg fs d fs1,
  own_files cfg -> NoDup (dkeys cfg) -> file_dump cfg fs = Ok d ->
  exists fs2 fs3, file_load cfg d fs1 = (fs2, Ok tt) /\ file_load cfg d fs2 = (fs3, Ok tt) /\
    (forall now id sub iat, file_find cfg fs now id sub iat = Ok true -> file_find cfg fs2 now id sub iat = Ok true) /\
    (forall now id sub iat, file_find cfg fs3 now id sub iat = file_find cfg fs2 now id sub iat).
Proof.
  intros cfg fs d fs1 Hown Hnd Hd.
  assert (Hi : forall id, In id (dkeys cfg) -> exists l, dget id d = Some l).
  { intros id H. destruct (key_In_dget _ _ _ H) as [fn Hfn].
    destruct (dump_ok cfg fs d Hd id fn Hfn) as (l & _ & Hl). eauto. }
  destruct (load_ok cfg d Hown Hnd fs1 Hi) as (fs2 & E2 & H2).
  destruct (load_ok cfg d Hown Hnd fs2 Hi) as (fs3 & E3 & H3).
  exists fs2, fs3. split; [exact E2|]. split; [exact E3|]. split.
  - intros now id sub iat H. unfold file_find in *. apply bind_ok in H. destruct H as (fn & Hfn & H).
    rewrite Hfn. cbn [bind]. apply dindex_ok in Hfn.
    destruct (dump_ok cfg fs d Hd id fn Hfn) as (l & Hl1 & Hl2).
    unfold read_file in *. rewrite Hl1 in H. cbn [bind] in H. rewrite (H2 id fn l Hfn Hl2). cbn [bind].
    rewrite rev_app_distr, find_scan. rewrite <- (app_nil_r (rev l)), find_scan in H.
    destruct (scan now sub iat (rev l)); [exact H|discriminate].
  - intros now id sub iat. unfold file_find, dindex. destruct (dget id cfg) as [fn|] eqn:Hfn; [|reflexivity].
    cbn [bind]. destruct (dump_ok cfg fs d Hd id fn Hfn) as (l & Hl1 & Hl2). unfold read_file.
    rewrite (H2 id fn l Hfn Hl2), (H3 id fn l Hfn Hl2). cbn [bind]. unfold file_lines at 1.
    rewrite (H2 id fn l Hfn Hl2), !rev_app_distr, !find_scan. destruct (scan now sub iat (rev l)); reflexivity.
Qed.

Lemma firsts_app a b : firsts (a ++ b) = firsts a ++ filter (fun y => negb (smem y a)) (firsts b).
Proof.
  induction a as [|x a IH]; cbn [app firsts].
  - symmetry. induction (firsts b) as [|y l IHl]; [reflexivity|]. cbn [filter smem existsb negb]. f_equal. exact IHl.
  - rewrite IH, filter_app. f_equal. f_equal. clear. induction (firsts b) as [|y l IHl]; [reflexivity|].
    cbn [filter smem existsb]. unfold smem in *. cbn [existsb].
    destruct (String.eqb y x) eqn:E; cbn [orb negb];
      destruct (existsb (String.eqb y) a); cbn [negb filter]; rewrite ?E; cbn [negb]; rewrite ?IHl; reflexivity.
Qed.

Lemma firsts_app_in a b : (forall x, In x b -> In x a) -> firsts (a ++ b) = firsts a.
Proof.
  intros H. rewrite firsts_app. rewrite <- (app_nil_r (firsts a)) at 2. f_equal.
  assert (H' : forall x, In x (firsts b) -> In x a) by (intros x Hx; apply H, firsts_In, Hx). clear H.
  induction (firsts b) as [|y l IH]; [reflexivity|]. simpl.
  assert (E : smem y a = true) by (apply smem_In, H'; left; reflexivity).
  rewrite E. simpl. apply IH. intros x Hx. apply H'. right. exact Hx.
Qed.

(** listings are not changed by loading twice either *)
Theorem C47_listing_twice : forall cfg fs d id,
  own_files cfg -> NoDup (dkeys cfg) -> file_dump cfg fs = Ok d -> string_subs cfg fs ->
  exists fs2 fs3, file_load cfg d (file_init cfg []) = (fs2, Ok tt) /\ file_load cfg d fs2 = (fs3, Ok tt) /\
    file_list cfg fs3 id "" = file_list cfg fs id "".
Proof.
  intros cfg fs d id Hown Hnd Hd Hs.
  assert (Hi : forall id, In id (dkeys cfg) -> exists l, dget id d = Some l).
  { intros i H. destruct (key_In_dget _ _ _ H) as [fn Hfn].
    destruct (dump_ok cfg fs d Hd i fn Hfn) as (l & _ & Hl). eauto. }
  destruct (load_ok cfg d Hown Hnd (file_init cfg []) Hi) as (fs2 & E2 & H2).
  destruct (load_ok cfg d Hown Hnd fs2 Hi) as (fs3 & E3 & H3).
  exists fs2, fs3. split; [exact E2|]. split; [exact E3|].
  unfold file_list. destruct (dget id cfg) as [fn|] eqn:Hfn; [|reflexivity].
  destruct (dump_ok cfg fs d Hd id fn Hfn) as (l & Hl1 & Hl2). unfold read_file.
  rewrite (H3 id fn l Hfn Hl2), Hl1. cbn [bind]. f_equal. unfold file_lines at 1.
  rewrite (H2 id fn l Hfn Hl2). unfold file_lines. rewrite (init_creates cfg [] id fn Hfn). cbn [app].
  assert (Hl : forall c, In c l -> exists s, dget "sub" c = Some (VStr s)) by (intros c; apply (Hs id fn l c Hfn Hl1)).
  assert (X : exists subs, map (dget "sub") l = map (fun s => Some (VStr s)) subs).
  { clear - Hl. induction l as [|c l IH]; [exists []; reflexivity|].
    destruct (Hl c (or_introl eq_refl)) as [s Es]. destruct IH as [subs E]; [intros x Hx; apply Hl; right; exact Hx|].
    exists (s :: subs). simpl. rewrite Es, E. reflexivity. }
  destruct X as [subs Es].
  pose proof (list_lines_firsts (rev l) (rev subs) []) as L1.
  pose proof (list_lines_firsts (rev (l ++ l)) (rev (subs ++ subs)) []) as L2.
  cbn [map app] in L1, L2. unfold tmark in *. rewrite L1 by (rewrite !map_rev, Es; reflexivity).
  change (file_lines fn [] ++ l) with l.
  rewrite L2 by (rewrite !map_rev, !map_app, Es; reflexivity).
  rewrite rev_app_distr.
  rewrite firsts_app_in by auto. reflexivity.
Qed.

Example C47_ex : exists fs d,
  run ex_issuer (fresh ex_cfg) ex_hist = SFile ex_cfg fs /\ NoDup (dkeys ex_cfg) /\ all_there ex_cfg fs /\
  string_subs ex_cfg fs /\ file_dump ex_cfg fs = Ok d /\ length d = 2.
Proof.
  eexists. eexists. split; [vm_compute; reflexivity|].
  split; [repeat constructor; simpl; intuition discriminate|].
  split; [|split; [|split; [vm_compute; reflexivity|reflexivity]]].
  - intros id fn H. simpl in H.
    destruct (String.eqb id "sirtfi"); [injection H as <-; eexists; reflexivity|].
    destruct (String.eqb id "basic"); [injection H as <-; eexists; reflexivity|discriminate].
  - intros id fn l c H Hl Hc. simpl in H.
    destruct (String.eqb id "sirtfi"); [injection H as <-|
      destruct (String.eqb id "basic"); [injection H as <-|discriminate]];
      simpl in Hl; injection Hl as <-; simpl in Hc;
      repeat (destruct Hc as [<-|Hc]; [eexists; reflexivity|]); destruct Hc.
Qed.

(** ** C48 *)

(** the claims a mark must have: iss and iat are the issuer and the time; for the others what was asked for goes first,
    then the standard claims, then the specification *)
Definition right_claims (I : issuer) (now : Z) (id sub : string) (more : tmark) (p : tmark) : Prop :=
  dget "iss" p = Some (VStr (i_id I)) /\ dget "id" p = Some (VStr id) /\ dget "sub" p = Some (VStr sub) /\
  dget "iat" p = Some (VInt now) /\
  (forall z, dget id (i_lifetime I) = Some (VInt z) -> z <> 0%Z -> dget "exp" more = None ->
     dget "exp" p = Some (VInt (now + z))) /\
  (NoDup (dkeys more) -> forall k v, k <> "iss" -> k <> "iat" -> dget k more = Some v -> dget k p = Some v) /\
  (forall spec k v, dget id (i_spec I) = Some spec -> dget k spec = Some v ->
     ~ In k ["iss"; "id"; "sub"; "iat"; "exp"] -> dget k more = None -> dget k p = Some v) /\
  (forall k, k <> "iss" -> dget k more = None -> ~ In k ["id"; "sub"; "iat"; "exp"] ->
     dget k p = match dget id (i_spec I) with Some spec => dget k spec | None => None end).

Definition numeric_lifetime (I : issuer) (id : string) : Prop :=
  match dget id (i_lifetime I) with Some (VInt _) | None => True | _ => False end.

Definition C48_full : Prop := forall I s now id sub more,
  (exists spec, dget id (i_spec I) = Some spec) -> numeric_lifetime I id ->
  dget "id" more = None -> dget "sub" more = None ->
  exists p, snd (create_trust_mark I now id sub more s) = Ok (TMJws (i_key I) p) /\
            right_claims I now id sub more p /\
            (unexpired now p -> store_find (fst (create_trust_mark I now id sub more s)) now id sub 0 = Ok true).

(** the second mark of an id cannot be issued with the store in memory *)
Theorem C48_claims_refuted : ~ C48_full.
Proof.
  intros H.
  destruct (H ex_issuer (run ex_issuer (SSimple []) [Issue 5 "sirtfi" "rp1" []]) 10%Z "sirtfi" "rp2" []
              (ex_intro _ _ eq_refl) I eq_refl eq_refl) as (p & Hp & _).
  vm_compute in Hp. discriminate.
Qed.

Lemma content_right I now id sub more c : content_of I now id sub more = Ok c ->
  right_claims I now id sub more (claims_of (pack I now c)).
Proof.
  intros H. destruct (content_ok _ _ _ _ _ _ H) as (add & spec & Hb & Hs & M1 & M2 & Ec & C1 & C2 & G).
  destruct (base_claims_ok _ _ _ _ _ Hb) as (B1 & B2 & B3 & B4 & B5 & B6).
  assert (D : forall k, k <> "iss" -> k <> "iat" -> dget k (claims_of (pack I now c)) = dget k c).
  { intros k N1 N2. cbn [claims_of pack]. rewrite !dget_dset_other by assumption. reflexivity. }
  unfold right_claims.
  split; [cbn [claims_of pack]; rewrite dget_dset_other by discriminate; apply dget_dset_same|].
  split; [rewrite D by discriminate; exact C1|].
  split; [rewrite D by discriminate; exact C2|].
  split; [apply dget_dset_same|].
  split; [|split; [|split]].
  - intros z Hz Hz0 Hm. rewrite D by discriminate. rewrite (G "exp" Hm).
    destruct B6 as [[_ [B6|(v & B6 & B7)]]|(v & z' & B6 & B7 & B8 & B9)]; rewrite Hz in B6; try discriminate.
    + injection B6 as <-. simpl in B7. destruct z; [congruence|discriminate|discriminate].
    + injection B6 as <-. simpl in B8. injection B8 as <-. rewrite B9. reflexivity.
  - intros Hn k v Hk Hk' Hv. rewrite D by assumption. rewrite Ec, dget_dupdate by exact Hn.
    rewrite Hv. reflexivity.
  - intros spec' k v Hs' Hv Hk Hm. rewrite Hs in Hs'. injection Hs' as <-.
    rewrite D by (intros ->; apply Hk; simpl; tauto).
    rewrite (G k Hm), B5; [exact Hv|]. intros C. apply Hk. right. exact C.
  - intros k Hk Hm Hout. rewrite D by first [exact Hk|intros ->; apply Hout; simpl; tauto].
    rewrite (G k Hm), (B5 k Hout), Hs. reflexivity.
Qed.

(** missing: with the store in memory only the first mark of an id can be issued, and the file store raises
    KeyError for an id that has no file.  Otherwise the mark is issued; it has the right claims, it is signed
    with the key of the issuer and it is recorded. *)
Theorem C48_claims_partial : forall I s now id sub more,
  (exists spec, dget id (i_spec I) = Some spec) -> numeric_lifetime I id ->
  dget "id" more = None -> dget "sub" more = None ->
  match s with SFile cfg _ => dmem id cfg = true | SSimple db => dmem id db = false end ->
  exists p, snd (create_trust_mark I now id sub more s) = Ok (TMJws (i_key I) p) /\
            right_claims I now id sub more p /\
            (unexpired now p -> store_find (fst (create_trust_mark I now id sub more s)) now id sub 0 = Ok true).
Proof.
  intros I s now id sub more [spec Hspec] Hl Hm1 Hm2 Hs.
  assert (Hc : exists c, content_of I now id sub more = Ok c).
  { unfold content_of, dmem. rewrite Hm1, Hm2, Hspec. simpl. unfold numeric_lifetime in Hl.
    destruct (dget id (i_lifetime I)) as [[| |z| | | ]|]; try destruct Hl; unfold base_claims; try (cbn [bind]; eauto; fail).
    destruct (truthy (VInt z)); cbn [as_int bind]; eauto. }
  destruct Hc as [c Hc]. rewrite create_eq, Hc.
  destruct (content_ok _ _ _ _ _ _ Hc) as (add & spec' & _ & _ & _ & _ & _ & C1 & C2 & _).
  exists (claims_of (pack I now c)).
  assert (E : exists s', store_add c s = (s', Ok tt) /\
              (unexpired now (claims_of (pack I now c)) -> store_find s' now id sub 0 = Ok true)).
  { destruct s as [cfg fs|db].
    - destruct (dget id cfg) as [fn|] eqn:Hfn; [|unfold dmem in Hs; rewrite Hfn in Hs; discriminate].
      exists (SFile cfg (append_line fn c fs)). split.
      + unfold store_add, file_add, mbind, lift, config_index. unfold dindex at 1. rewrite C1.
        unfold dindex. rewrite Hfn. reflexivity.
      + intros Hu. unfold store_find, file_find, dindex. rewrite Hfn. cbn [bind].
        unfold read_file, append_line. rewrite dget_dset_same. cbn [bind]. rewrite rev_app_distr. cbn [rev app find_lines].
        unfold unexpired in Hu. rewrite claims_pack_exp in Hu.
        assert (Em : match_line sub 0 c = Ok true).
        { unfold match_line, dindex. rewrite C2. simpl. rewrite ?String.eqb_refl. reflexivity. }
        destruct (dget "exp" c) as [v|]; cbn [bind].
        * destruct Hu as (e & -> & Hle). cbn [bind]. destruct (Z.ltb_spec e now); [lia|]. rewrite Em. reflexivity.
        * rewrite Em. reflexivity.
    - exists (SSimple (dset id [(sub, c)] db)). split.
      + unfold store_add, simple_add, mbind, lift. unfold dindex at 1. rewrite C1. unfold StateM.get. assert (Hs2 : @dmem (list (string * tmark)) id db = false) by exact Hs. cbn beta iota. rewrite Hs2.
        unfold dindex. rewrite C2. reflexivity.
      + intros _. unfold store_find, simple_find, dindex. rewrite dget_dset_same. cbn [bind dget].
        rewrite String.eqb_refl. destruct c as [|x c]; [discriminate C1|]. reflexivity. }
  destruct E as (s' & E & Hf). rewrite E. split; [reflexivity|]. split; [apply content_right, Hc|]. exact Hf.
Qed.

(** an unknown id: nothing is recorded *)
Theorem C48_unknown_id : forall id spec0 k I now i sub more s,
  I = make_issuer id k spec0 -> dget i spec0 = None ->
  dget "id" more = None -> dget "sub" more = None ->
  create_trust_mark I now i sub more s = (s, Err ValueError).
Proof.
  intros id spec0 k I now i sub more s -> Hi Hm1 Hm2.
  unfold create_trust_mark, dmem. rewrite Hm1, Hm2. cbn [orb make_issuer i_lifetime i_spec].
  assert (L : dget i (flat_map (fun e => match dget "lifetime" (snd e) with Some v => [(fst e, v)] | None => [] end)
                        spec0) = None).
  { induction spec0 as [|[j d] spec0 IH]; [reflexivity|]. simpl in Hi. simpl.
    destruct (String.eqb i j) eqn:E; [discriminate|].
    destruct (dget "lifetime" d); simpl; rewrite ?E; apply IH, Hi. }
  assert (S : dget i (map (fun e => (fst e, ddel "lifetime" (snd e))) spec0) = None).
  { clear L. induction spec0 as [|[j d] spec0 IH]; [reflexivity|]. simpl in Hi. simpl.
    destruct (String.eqb i j) eqn:E; [discriminate|]. apply IH, Hi. }
  rewrite L, S. reflexivity.
Qed.

(** a mark an entity makes about itself *)
Theorem C48_self_signed : forall I now id more spec st,
  dget id (i_spec I) = Some spec -> dget "id" more = None ->
  exists c p, self_signed_mark I now id more st = ((fst st ++ [c], snd st ++ [TMJws (i_key I) p]), Ok (TMJws (i_key I) p)) /\
    (forall k, k <> "iss" -> k <> "iat" -> dget k p = dget k c) /\
    dget "iss" p = Some (VStr (i_id I)) /\ dget "id" p = Some (VStr id) /\
    (dget "sub" more = None -> dget "sub" p = Some (VStr (i_id I))) /\
    dget "iat" p = Some (VInt now) /\
    (dget "exp" more = None -> exists e, dget "exp" p = Some (VInt e) /\ (now < e)%Z) /\
    (forall k v, dget k spec = Some v -> ~ In k ["iss"; "id"; "sub"; "iat"; "exp"] -> dget k more = None ->
       dget k p = Some v).
Proof.
  intros I now id more spec st Hs Hm. unfold self_signed_mark. unfold dmem. rewrite Hm, Hs.
  set (add := [("iat", VInt now); ("id", VStr id); ("sub", VStr (i_id I)); ("exp", VInt (now + 2592000)%Z)]).
  assert (Hn : NoDup (dkeys add)) by (repeat constructor; simpl; intuition discriminate).
  exists (dupdate (dupdate spec add) more), (claims_of (pack I now (dupdate (dupdate spec add) more))).
  assert (D : forall k c, k <> "iss" -> k <> "iat" -> dget k (claims_of (pack I now c)) = dget k c).
  { intros k c N1 N2. cbn [claims_of pack]. rewrite !dget_dset_other by assumption. reflexivity. }
  assert (G : forall k, k <> "iss" -> k <> "iat" -> dget k more = None ->
    dget k (claims_of (pack I now (dupdate (dupdate spec add) more))) =
    match dget k add with Some v => Some v | None => dget k spec end).
  { intros k Hk Hk' Hmk. rewrite D by assumption.
    rewrite dget_dupdate_out by (apply dget_None_out, Hmk). apply dget_dupdate. exact Hn. }
  split; [reflexivity|]. split; [intros k N1 N2; apply D; assumption|].
  split; [cbn [claims_of pack]; rewrite dget_dset_other by discriminate; apply dget_dset_same|].
  split; [rewrite G by (exact Hm || discriminate); reflexivity|].
  split; [intros H; rewrite G by (exact H || discriminate); reflexivity|].
  split; [apply dget_dset_same|].
  split; [intros H; exists (now + 2592000)%Z; rewrite G by (exact H || discriminate); split; [reflexivity|lia]|].
  intros k v Hv Hk H. rewrite G; [|intros ->; apply Hk; simpl; auto|intros ->; apply Hk; simpl; auto|exact H].
  assert (E : dget k add = None).
  { apply dget_None_key. intros C. apply Hk. simpl in C. simpl. intuition auto. }
  rewrite E. exact Hv.
Qed.

Example C48_ex : exists p,
  snd (create_trust_mark ex_issuer 1200 "sirtfi" "rp9" [("ref", VStr "doc")]
         (run ex_issuer (fresh ex_cfg) ex_hist)) = Ok (TMJws (i_key ex_issuer) p) /\
  dget "ref" p = Some (VStr "doc") /\ dget "iat" p = Some (VInt 1200) /\ unexpired 1200 p /\
  dmem "sirtfi" (i_spec ex_issuer) = true.
Proof.
  eexists. split; [vm_compute; reflexivity|].
  split; [reflexivity|]. split; [reflexivity|]. split; [|reflexivity].
  vm_compute. try exact I. try (eexists; split; [reflexivity|discriminate]).
Qed.

Print Assumptions C44_active_refuted.
Print Assumptions C44_active_was_issued.
Print Assumptions C44_active_partial.
Print Assumptions C64_this_very_mark_refuted.
Print Assumptions C64_issued_here_refuted.
Print Assumptions C64_this_very_mark_partial.
Print Assumptions C64_own_mark_active.
Print Assumptions C45_memory_store_refuted.
Print Assumptions C45_memory_store_partial.
Print Assumptions C45_one_mark_per_id.
Print Assumptions C46_listing.
Print Assumptions C47_round_trip.
Print Assumptions C47_load_into_used_store.
Print Assumptions C47_listing_twice.
Print Assumptions C48_claims_refuted.
Print Assumptions C48_claims_partial.
Print Assumptions C48_unknown_id.
Print Assumptions C48_self_signed.
