(** Lemmas about the trust mark stores. *)
From Verif Require Export TrustMarkSpec.
From Verif Require Import PyFacts.
From Coq Require Import Lia Sorted.

Lemma dget_dupdate_out A k (e : dict A) : forall d, ~ In k (dkeys e) -> dget k (dupdate d e) = dget k d.
Proof.
  unfold dupdate. induction e as [|[k' v'] e IH]; intros d H; [reflexivity|]. simpl.
  rewrite IH by (intros C; apply H; right; exact C). apply dget_dset_other. intros ->. apply H. left. reflexivity.
Qed.

Lemma dget_None_out A k (d : dict A) : dget k d = None -> ~ In k (dkeys d).
Proof. apply dget_None_key. Qed.

(** ** The content of a mark does not depend on the store *)

Definition content_of (I : issuer) (now : Z) (id sub : string) (more : tmark) : res tmark :=
  if dmem "id" more || dmem "sub" more then Err TypeError
  else let* add := base_claims now id sub (dget id (i_lifetime I)) in
       match dget id (i_spec I) with
       | None => Err ValueError
       | Some spec => Ok (dupdate (dupdate spec add) more)
       end.

Lemma create_eq I now id sub more s :
  create_trust_mark I now id sub more s =
  match content_of I now id sub more with
  | Err e => (s, Err e)
  | Ok c => let (s', r) := store_add c s in
            (s', match r with Ok _ => Ok (pack I now c) | Err e => Err e end)
  end.
Proof.
  unfold create_trust_mark, content_of.
  destruct (dmem "id" more || dmem "sub" more); [reflexivity|].
  unfold mbind, lift. destruct (base_claims now id sub (dget id (i_lifetime I))) as [add|e]; [|reflexivity].
  cbn [bind]. destruct (dget id (i_spec I)) as [spec|]; [|reflexivity].
  destruct (store_add (dupdate (dupdate spec add) more) s) as [s' [[]|e]]; reflexivity.
Qed.

Lemma base_claims_ok now id sub l add : base_claims now id sub l = Ok add ->
  dget "id" add = Some (VStr id) /\ dget "sub" add = Some (VStr sub) /\ dget "iat" add = Some (VInt now) /\
  NoDup (dkeys add) /\
  (forall k, ~ In k ["id"; "sub"; "iat"; "exp"] -> dget k add = None) /\
  ((dget "exp" add = None /\ (l = None \/ exists v, l = Some v /\ truthy v = false)) \/
   exists v z, l = Some v /\ truthy v = true /\ as_int v = Ok z /\ dget "exp" add = Some (VInt (now + z))).
Proof.
  assert (A1 : forall k : string, ~ In k ["id"; "sub"; "iat"; "exp"] ->
    String.eqb k "iat" = false /\ String.eqb k "id" = false /\ String.eqb k "sub" = false /\
    String.eqb k "exp" = false).
  { intros k H. rewrite !String.eqb_neq. split; [|split; [|split]]; intros ->; apply H; simpl; auto. }
  unfold base_claims. destruct l as [v|].
  - destruct (truthy v) eqn:Ev.
    + destruct (as_int v) as [z|e] eqn:Ez; [|discriminate]. cbn [bind]. intros [= <-].
      split; [reflexivity|]. split; [reflexivity|]. split; [reflexivity|].
      split; [repeat constructor; simpl; intuition discriminate|].
      split; [|right; exists v, z; auto].
      intros k H. destruct (A1 k H) as (E1 & E2 & E3 & E4). simpl. rewrite E1, E2, E3, E4. reflexivity.
    + intros [= <-]. split; [reflexivity|]. split; [reflexivity|]. split; [reflexivity|].
      split; [repeat constructor; simpl; intuition discriminate|].
      split; [|left; split; [reflexivity|right; eauto]].
      intros k H. destruct (A1 k H) as (E1 & E2 & E3 & E4). simpl. rewrite E1, E2, E3. reflexivity.
  - intros [= <-]. split; [reflexivity|]. split; [reflexivity|]. split; [reflexivity|].
    split; [repeat constructor; simpl; intuition discriminate|].
    split; [|left; split; [reflexivity|left; reflexivity]].
    intros k H. destruct (A1 k H) as (E1 & E2 & E3 & E4). simpl. rewrite E1, E2, E3. reflexivity.
Qed.

Lemma content_ok I now id sub more c : content_of I now id sub more = Ok c ->
  exists add spec, base_claims now id sub (dget id (i_lifetime I)) = Ok add /\
    dget id (i_spec I) = Some spec /\ dget "id" more = None /\ dget "sub" more = None /\
    c = dupdate (dupdate spec add) more /\
    dget "id" c = Some (VStr id) /\ dget "sub" c = Some (VStr sub) /\
    (forall k, dget k more = None ->
       dget k c = match dget k add with Some v => Some v | None => dget k spec end).
Proof.
  unfold content_of. destruct (dmem "id" more || dmem "sub" more) eqn:Ed; [discriminate|].
  apply orb_false_iff in Ed. destruct Ed as [Ed1 Ed2]. apply dmem_false in Ed1, Ed2.
  intros H. apply bind_ok in H. destruct H as (add & Hb & H).
  destruct (dget id (i_spec I)) as [spec|]; [|discriminate]. injection H as <-.
  destruct (base_claims_ok _ _ _ _ _ Hb) as (B1 & B2 & B3 & B4 & _).
  exists add, spec. split; [exact Hb|]. split; [reflexivity|]. split; [exact Ed1|]. split; [exact Ed2|].
  split; [reflexivity|].
  assert (G : forall k, dget k more = None ->
     dget k (dupdate (dupdate spec add) more)
     = match dget k add with Some v => Some v | None => dget k spec end).
  { intros k Hk. rewrite dget_dupdate_out by (apply dget_None_out, Hk). apply dget_dupdate. exact B4. }
  split; [rewrite G, B1 by exact Ed1; reflexivity|]. split; [rewrite G, B2 by exact Ed2; reflexivity|].
  exact G.
Qed.

(** ** The file store after a history *)

Definition contents1 (I : issuer) (id : string) (e : event) : list tmark :=
  match e with
  | Issue t i s m => if String.eqb i id then match content_of I t i s m with Ok c => [c] | Err _ => [] end else []
  | Restart => []
  end.

Definition contents (I : issuer) (h : list event) (id : string) : list tmark := flat_map (contents1 I id) h.

Lemma init_keeps cfg : forall fs fn l, dget fn fs = Some l -> dget fn (file_init cfg fs) = Some l.
Proof.
  unfold file_init. induction cfg as [|[i f] cfg IH]; intros fs fn l H; [exact H|]. simpl. apply IH.
  destruct (dmem f fs) eqn:Ef; [exact H|]. rewrite dget_dset_other; [exact H|].
  intros ->. unfold dmem in Ef. rewrite H in Ef. discriminate.
Qed.

Lemma init_creates cfg : forall fs id fn, dget id cfg = Some fn ->
  dget fn (file_init cfg fs) = Some (file_lines fn fs).
Proof.
  unfold file_init. induction cfg as [|[i f] cfg IH]; intros fs id fn H; [discriminate|]. simpl in *.
  destruct (String.eqb id i).
  - injection H as ->. unfold file_lines. destruct (dmem fn fs) eqn:Ef.
    + apply dmem_some in Ef. destruct Ef as [l El]. rewrite El. apply (init_keeps cfg fs fn l El).
    + apply dmem_false in Ef. rewrite Ef. apply (init_keeps cfg (dset fn [] fs) fn []). apply dget_dset_same.
  - destruct (dmem f fs) eqn:Ef; [apply (IH _ id), H|].
    rewrite (IH _ id _ H). unfold file_lines. rewrite dget_dset.
    destruct (String.eqb_spec fn f) as [->|N]; [|reflexivity].
    apply dmem_false in Ef. rewrite Ef. reflexivity.
Qed.

Lemma restart_file cfg fs id fn l : dget id cfg = Some fn -> dget fn fs = Some l ->
  dget fn (file_init cfg fs) = Some l.
Proof. intros _. apply init_keeps. Qed.

Lemma run_snoc I s h e : run I s (h ++ [e]) = step I (run I s h) e.
Proof. unfold run. rewrite fold_left_app. reflexivity. Qed.

Lemma run_app I s h1 h2 : run I s (h1 ++ h2) = run I (run I s h1) h2.
Proof. unfold run. apply fold_left_app. Qed.

(** a store over [cfg] whose files are there and hold [base] *)
Definition file_store (cfg : fconfig) (base : string -> list tmark) (s : store) : Prop :=
  exists fs, s = SFile cfg fs /\ forall id fn, dget id cfg = Some fn -> dget fn fs = Some (base id).

Lemma fresh_store cfg : file_store cfg (fun _ => []) (fresh cfg).
Proof.
  exists (file_init cfg []). split; [reflexivity|]. intros id fn H. rewrite (init_creates cfg [] id fn H).
  reflexivity.
Qed.

Lemma step_store I cfg base s e : own_files cfg -> file_store cfg base s ->
  file_store cfg (fun id => base id ++ contents1 I id e) (step I s e).
Proof.
  intros Hown (fs & -> & Hfs). destruct e as [t i u m|].
  - unfold step. rewrite create_eq. destruct (content_of I t i u m) as [c|x] eqn:Ec.
    + destruct (content_ok _ _ _ _ _ _ Ec) as (add & spec & _ & _ & _ & _ & _ & Eid & _ & _).
      unfold store_add, file_add, mbind, lift, modify. unfold dindex at 1. rewrite Eid.
      unfold config_index, dindex. destruct (dget i cfg) as [fn|] eqn:Ei.
      * cbn [fst]. exists (append_line fn c fs). split; [reflexivity|]. intros id fn' H.
        unfold append_line, contents1. rewrite dget_dset.
        destruct (String.eqb_spec fn' fn) as [->|N].
        -- rewrite (Hown _ _ _ H Ei). rewrite String.eqb_refl, Ec. unfold file_lines.
           rewrite (Hfs i fn Ei). reflexivity.
        -- destruct (String.eqb_spec i id) as [->|N']; [congruence|]. rewrite app_nil_r. apply Hfs, H.
      * cbn [fst]. exists fs. split; [reflexivity|]. intros id fn' H. unfold contents1.
        destruct (String.eqb_spec i id) as [->|N']; [congruence|]. rewrite app_nil_r. apply Hfs, H.
    + cbn [fst]. exists fs. split; [reflexivity|]. intros id fn' H. unfold contents1. rewrite Ec.
      destruct (String.eqb i id); rewrite app_nil_r; apply Hfs, H.
  - simpl. exists (file_init cfg fs). split; [reflexivity|]. intros id fn H. rewrite app_nil_r.
    apply init_keeps, Hfs, H.
Qed.

Lemma run_store I cfg h : own_files cfg -> forall base s, file_store cfg base s ->
  file_store cfg (fun id => base id ++ contents I h id) (run I s h).
Proof.
  intros Hown. induction h as [|e h IH]; intros base s Hs.
  - destruct Hs as (fs & -> & Hfs). exists fs. split; [reflexivity|]. intros id fn H.
    unfold contents. simpl. rewrite app_nil_r. apply Hfs, H.
  - change (run I s (e :: h)) with (run I (step I s e) h).
    destruct (IH _ _ (step_store I cfg base s e Hown Hs)) as (fs & E & Hfs).
    exists fs. split; [exact E|]. intros id fn H. rewrite (Hfs id fn H). unfold contents. simpl.
    rewrite app_assoc. reflexivity.
Qed.

Lemma fresh_run I cfg h : own_files cfg ->
  exists fs, run I (fresh cfg) h = SFile cfg fs /\
             forall id fn, dget id cfg = Some fn -> dget fn fs = Some (contents I h id).
Proof. intros Hown. exact (run_store I cfg h Hown _ _ (fresh_store cfg)). Qed.

(** ** Issues and contents *)

Lemma create_file I t id sub more cfg fs mark :
  snd (create_trust_mark I t id sub more (SFile cfg fs)) = Ok mark <->
  exists c, content_of I t id sub more = Ok c /\ mark = pack I t c /\ dmem id cfg = true.
Proof.
  rewrite create_eq. destruct (content_of I t id sub more) as [c|x] eqn:Ec.
  - destruct (content_ok _ _ _ _ _ _ Ec) as (add & spec & _ & _ & _ & _ & _ & Eid & _ & _).
    unfold store_add, file_add, mbind, lift, modify. unfold dindex at 1. rewrite Eid.
    unfold config_index, dindex, dmem. destruct (dget id cfg) as [fn|]; cbn [snd]; split.
    + intros [= <-]. exists c. auto.
    + intros (c' & [= <-] & -> & _). reflexivity.
    + discriminate.
    + intros (c' & _ & _ & C). discriminate.
  - cbn [snd]. split; [discriminate|]. intros (c & C & _). discriminate.
Qed.

Lemma run_is_file I cfg fs h : exists fs', run I (SFile cfg fs) h = SFile cfg fs'.
Proof.
  revert fs. induction h as [|e h IH]; intros fs; [exists fs; reflexivity|].
  change (run I (SFile cfg fs) (e :: h)) with (run I (step I (SFile cfg fs) e) h).
  destruct e as [t i u m|]; [|apply IH].
  unfold step. rewrite create_eq. destruct (content_of I t i u m) as [c|x]; [|apply IH].
  unfold store_add. destruct (file_add cfg c fs) as [fs' r]. apply IH.
Qed.

Lemma issued_file I cfg fs h t id sub more mark :
  issued I (SFile cfg fs) h t id sub more mark <->
  exists c, In (Issue t id sub more) h /\ content_of I t id sub more = Ok c /\ mark = pack I t c /\ dmem id cfg = true.
Proof.
  unfold issued. split.
  - intros (h1 & h2 & -> & H). destruct (run_is_file I cfg fs h1) as [fs' E]. rewrite E in H.
    apply create_file in H. destruct H as (c & H1 & H2 & H3). exists c.
    split; [apply in_elt|]. auto.
  - intros (c & Hin & H). apply in_split in Hin. destruct Hin as (h1 & h2 & ->). exists h1, h2.
    split; [reflexivity|]. destruct (run_is_file I cfg fs h1) as [fs' E]. rewrite E. apply create_file.
    exists c. exact H.
Qed.

Lemma contents_In I h id c : In c (contents I h id) <->
  exists t sub more, In (Issue t id sub more) h /\ content_of I t id sub more = Ok c.
Proof.
  unfold contents. rewrite in_flat_map. split.
  - intros (e & He & Hc). destruct e as [t i s m|]; [|destruct Hc]. simpl in Hc.
    destruct (String.eqb_spec i id) as [->|N]; [|destruct Hc].
    destruct (content_of I t id s m) as [c'|x] eqn:Ec; [|destruct Hc]. destruct Hc as [<-|[]]. eauto.
  - intros (t & sub & more & He & Hc). exists (Issue t id sub more). split; [exact He|]. simpl.
    rewrite String.eqb_refl, Hc. left. reflexivity.
Qed.

(** ** Lookups *)

Definition expiry (t : tmark) : res (option Z) :=
  match dget "exp" t with None => Ok None | Some v => let* e := as_int v in Ok (Some e) end.

Lemma unexpired_step now c :
  (match dget "exp" c with
   | None => Ok false
   | Some v => let* e := as_int v in Ok (Z.ltb e now)
   end = Ok false) <-> unexpired now c.
Proof.
  unfold unexpired. destruct (dget "exp" c) as [v|]; [|tauto]. split.
  - intros H. apply bind_ok in H. destruct H as (e & He & [= Hl]). exists e. split; [exact He|].
    apply Z.ltb_ge in Hl. exact Hl.
  - intros (e & He & Hl). rewrite He. cbn [bind]. apply Z.ltb_ge in Hl. rewrite Hl. reflexivity.
Qed.

(** what a successful lookup means *)
Lemma find_true now sub iat ls : find_lines now sub iat ls = Ok true ->
  exists l1 c l2, ls = l1 ++ c :: l2 /\ (forall x, In x l1 -> unexpired now x) /\ unexpired now c /\
                  dget "sub" c = Some (VStr sub) /\
                  (iat = 0%Z \/ exists i, dget "iat" c = Some i /\ py_eqb (VInt iat) i = true).
Proof.
  induction ls as [|t ls IH]; intros H; [discriminate|]. cbn [find_lines] in H.
  apply bind_ok in H. destruct H as (b & Hb & H). destruct b; [discriminate|].
  apply unexpired_step in Hb. apply bind_ok in H. destruct H as (m & Hm & H). destruct m.
  - exists [], t, ls. split; [reflexivity|]. split; [intros x []|]. split; [exact Hb|].
    unfold match_line in Hm. apply bind_ok in Hm. destruct Hm as (s & Hs & Hm). apply dindex_ok in Hs.
    destruct (py_eqb (VStr sub) s) eqn:Es; [|discriminate].
    destruct s as [| | |s| |]; try discriminate Es. apply String.eqb_eq in Es. subst s.
    split; [exact Hs|]. destruct (Z.eqb_spec iat 0) as [->|N]; [left; reflexivity|].
    apply bind_ok in Hm. destruct Hm as (i & Hi & [= Hm]). apply dindex_ok in Hi. right. eauto.
  - destruct (IH H) as (l1 & c & l2 & -> & H1 & H2). exists (t :: l1), c, l2. split; [reflexivity|].
    split; [|exact H2]. intros x [<-|Hx]; auto.
Qed.

Lemma find_reaches now sub : forall l1 c l2,
  (forall x, In x l1 -> unexpired now x /\ exists s, dget "sub" x = Some s) ->
  unexpired now c -> dget "sub" c = Some (VStr sub) ->
  find_lines now sub 0 (l1 ++ c :: l2) = Ok true.
Proof.
  induction l1 as [|x l1 IH]; intros c l2 H1 Hc Hs.
  - cbn [app find_lines]. rewrite (proj2 (unexpired_step now c) Hc). cbn [bind].
    unfold match_line, dindex. rewrite Hs. cbn [bind py_eqb]. rewrite String.eqb_refl. reflexivity.
  - cbn [app find_lines]. destruct (H1 x (or_introl eq_refl)) as [Hu [s Ex]].
    rewrite (proj2 (unexpired_step now x) Hu). cbn [bind]. unfold match_line, dindex. rewrite Ex. cbn [bind].
    destruct (py_eqb (VStr sub) s); [reflexivity|]. cbn [bind]. apply IH; [|exact Hc|exact Hs].
    intros y Hy. apply H1. right. exact Hy.
Qed.

Lemma file_find_eq cfg fs now id sub iat fn ls : dget id cfg = Some fn -> dget fn fs = Some ls ->
  file_find cfg fs now id sub iat = find_lines now sub iat (rev ls).
Proof. intros H1 H2. unfold file_find, dindex, read_file. rewrite H1. cbn [bind]. rewrite H2. reflexivity. Qed.
