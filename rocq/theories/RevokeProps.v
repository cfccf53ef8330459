(** The end of a membership (C169). *)
From Verif Require Import PyFacts CollectorProps TreeProps VerifierFacts FederationProps ChainsProps.
From Verif Require Export RevokeFacts.
From Coq Require Import Lia.

(** ** C169 *)

(** [a] has stopped vouching for [e], and everything it ever said about [e] has expired: no chain that is
    returned from then on contains a statement of [a] about [e]. *)
Definition C169_full : Prop := forall E O steps s0 fuel id s' cs c a e z,
  newborn s0 -> forwards E -> (0 <= e_delta E)%Z -> a <> e ->
  let s := after_steps E O steps s0 in
  let_go E a e (st_tick (f_col s)) -> over_at E a e z -> (z < e_clock E (st_tick (f_col s)))%Z ->
  get_verified_trust_chains E O fuel id s = (s', Ok cs) -> In c cs ->
  ~ In (a, e) (map between (ch_verified c)).

(** documents by URL, statements by issuer and subject *)
Definition says (docs : dict token) (sts : list (string * string * token)) (q : request) : response :=
  match q with
  | QDoc u => match dget u docs with Some t => RText (Some t) | None => R404 end
  | QFetch _ i x =>
      match find (fun st => String.eqb (fst (fst st)) i && String.eqb (snd (fst st)) x) sts with
      | Some st => RText (Some (snd st))
      | None => R404
      end
  end.

Definition env_of (net : nat -> request -> response) (clock : nat -> Z) : cenv :=
  mkEnv 300 ["ta"] net clock all_keys wk_url tenant_url.

Lemma says_doc docs sts u t : says docs sts (QDoc u) = RText (Some t) -> In (u, t) docs.
Proof.
  cbn [says]. destruct (dget u docs) as [t'|] eqn:Ed; [|discriminate]. intros [= <-]. apply dget_In, Ed.
Qed.

Lemma says_fetch docs sts ep i x t : says docs sts (QFetch ep i x) = RText (Some t) -> In (i, x, t) sts.
Proof.
  cbn [says]. destruct (find _ sts) as [[[i' x'] t']|] eqn:Ef; [|discriminate]. intros [= <-].
  apply find_some in Ef. destruct Ef as [H1 H2]. apply andb_prop in H2. destruct H2 as [H2 H3].
  cbn [fst snd] in *. apply String.eqb_eq in H2, H3. subst. exact H1.
Qed.

(** The trust anchor no longer answers about rp.  rp names as its superior a host of its own, evil, and
    evil hands out the last statement that ta made, which expired at 800.  It is now 5000. *)
Definition replaying : cenv := env_of (fun _ => says
  [("rp/wk", TJws 3 (ec "rp" 3 9000 (Some ["evil"]))); ("evil/wk", TJws 7 (ec "evil" 7 9000 None));
   ("ta/wk", TJws 1 (ec "ta" 1 9000 None))]
  [("evil", "rp", TJws 1 (est "ta" "rp" 800 [3]))]) (fun _ => 5000%Z).

Definition knows_ta : fstate := mkFed (mkState [] [] 0) [("ta", [1])] [].

Lemma replay_accepted : exists s' c,
  get_verified_trust_chains replaying id_order 9 "rp" knows_ta = (s', Ok [c]) /\
  map between (ch_verified c) = [("ta", "rp"); ("rp", "rp")] /\ tc_exp (ch_tc c) = 800%Z.
Proof. eexists. eexists. split; [vm_compute; reflexivity|]. split; vm_compute; reflexivity. Qed.

Theorem C169_removed_refuted : ~ C169_full.
Proof.
  intros H. destruct replay_accepted as (s' & c & Hg & Hb & _).
  refine (H replaying id_order [] knows_ta 9 "rp" s' [c] c "ta" "rp" 800%Z _ _ _ _ _ _ _ Hg (or_introl eq_refl) _).
  - repeat split.
  - intros n m _. cbn. lia.
  - cbn. lia.
  - discriminate.
  - intros n ep t _ Ht. cbn [replaying env_of e_net] in Ht. apply says_fetch in Ht. destruct Ht as [Ht|[]]. discriminate.
  - intros n q k p Hn Hi Hs. cbn [replaying env_of e_net] in Hn. destruct q as [u|ep i x].
    + apply says_doc in Hn. destruct Hn as [[= _ _ <-]|[[= _ _ <-]|[[= _ _ <-]|[]]]]; discriminate.
    + apply says_fetch in Hn. destruct Hn as [[= _ _ _ <-]|[]]. exists 800%Z. split; [reflexivity|lia].
  - cbn. lia.
  - rewrite Hb. left. reflexivity.
Qed.

(** nor is there any other time at which an expired statement is refused *)
Definition C169_in_time : Prop := forall E O fuel id s s' cs c,
  get_verified_trust_chains E O fuel id s = (s', Ok cs) -> In c cs ->
  (e_clock E (st_tick (f_col s)) <= tc_exp (ch_tc c))%Z.

Theorem C169_in_time_refuted : ~ C169_in_time.
Proof.
  intros H. destruct replay_accepted as (s' & c & Hg & _ & He).
  specialize (H _ _ _ _ _ _ _ c Hg (or_introl eq_refl)). rewrite He in H. cbn in H. lia.
Qed.

(** Missing: an entity that was let go and has a host of its own can go on.  What holds: where everybody
    hands out only what they say themselves, after any history, a superior that stops vouching for a
    subordinate is out of all chains to it as soon as what it said before is about to expire. *)
Theorem C169_removed_partial : forall E O steps s0 fuel id s' cs c a e z,
  newborn s0 -> forwards E -> a <> e -> own_words E -> clean_net E -> clean_steps steps -> clean id ->
  let s := after_steps E O steps s0 in
  let_go E a e (st_tick (f_col s)) -> over_at E a e z ->
  (z - e_delta E < e_clock E (st_tick (f_col s)))%Z ->
  get_verified_trust_chains E O fuel id s = (s', Ok cs) -> In c cs ->
  ~ In (a, e) (map between (ch_verified c)).
Proof.
  intros E O steps s0 fuel id s' cs c a e z Hn Hf Hae [Hw1 Hw2] HC Hst Hid s Hgo Hz Hnow H Hin Hp.
  destruct (rests_on E O steps s0 fuel id s' cs c Hn HC Hst Hid H Hin)
    as (ts & leaf & _ & Hb & (n0 & u & k0 & p0 & Hu & ->) & Hr).
  fold s in Hr. rewrite Hb, jws_app, !map_app in Hp. apply in_app_iff in Hp.
  destruct Hp as [Hp|[[= E1 E2]|[]]].
  2:{ apply Hae. specialize (Hw2 _ _ _ _ Hu). congruence. }
  apply in_map_iff in Hp. destruct Hp as (p & Ep & Hp). apply in_map_iff in Hp. destruct Hp as ([k q] & Eq & Hp).
  cbn [snd] in Eq. subst q. unfold between in Ep. injection Ep as Ei Es.
  assert (Ht : In (TJws k p) ts).
  { clear -Hp. induction ts as [|[|k' p'] ts IH]; cbn [jws] in Hp; [destruct Hp| |].
    - right. apply IH, Hp.
    - destruct Hp as [[= -> ->]|Hp]; [left; reflexivity|right; apply IH, Hp]. }
  destruct (Hr _ Ht) as (a' & e' & n & ep & k' & p' & x & Hnet & [= <- <-] & Hx & Hwhen).
  destruct (Hw1 _ _ _ _ _ _ Hnet) as [I1 I2]. rewrite I1 in Ei. rewrite I2 in Es. subst a' e'.
  destruct (Hz _ _ _ _ Hnet I1 I2) as (x' & Hx' & Hle). rewrite Hx in Hx'. injection Hx' as <-.
  destruct Hwhen as [Hlate|(m & Hm & Hc)].
  - exact (Hgo n ep _ Hlate Hnet).
  - specialize (Hf _ _ Hm). lia.
Qed.

(** The statements above the leaf's configuration, on any network: each came from the answer to a question
    by name, and it came during this call or was kept and is not about to expire. *)
Theorem C169_recent_partial : forall E O steps s0 fuel id s' cs c,
  newborn s0 -> forwards E -> clean_net E -> clean_steps steps -> clean id ->
  let s := after_steps E O steps s0 in
  get_verified_trust_chains E O fuel id s = (s', Ok cs) -> In c cs ->
  exists ts leaf, tc_chain (ch_tc c) = ts ++ [leaf] /\
    forall t, In t ts -> exists n ep a e k p x,
      t = TJws k p /\ e_net E n (QFetch ep a e) = RText (Some t) /\ s_exp p = Some x /\
      (st_tick (f_col s) <= n \/ (e_clock E (st_tick (f_col s)) <= x - e_delta E)%Z).
Proof.
  intros E O steps s0 fuel id s' cs c Hn Hf HC Hst Hid s H Hin.
  destruct (rests_on E O steps s0 fuel id s' cs c Hn HC Hst Hid H Hin) as (ts & leaf & Ht & _ & _ & Hr).
  exists ts, leaf. split; [exact Ht|]. intros t Hin'.
  destruct (Hr t Hin') as (a & e & n & ep & k & p & x & Hnet & -> & Hx & Hwhen).
  exists n, ep, a, e, k, p, x. split; [reflexivity|]. split; [exact Hnet|]. split; [exact Hx|].
  destruct Hwhen as [Hw|(m & Hm & Hc)]; [left; exact Hw|right]. eapply Z.le_trans; [apply Hf, Hm|exact Hc].
Qed.

(** so servers that hand out nothing that has expired are enough to have no expired statement in a chain *)
Theorem C169_in_time_partial : forall E O steps s0 fuel id s' cs c,
  newborn s0 -> forwards E -> (0 <= e_delta E)%Z -> clean_net E -> clean_steps steps -> clean id ->
  (forall n ep a e k p x, e_net E n (QFetch ep a e) = RText (Some (TJws k p)) -> s_exp p = Some x ->
     (e_clock E n <= x)%Z) ->
  let s := after_steps E O steps s0 in
  get_verified_trust_chains E O fuel id s = (s', Ok cs) -> In c cs ->
  exists ts leaf, tc_chain (ch_tc c) = ts ++ [leaf] /\
    forall k p, In (TJws k p) ts -> exists x, s_exp p = Some x /\ (e_clock E (st_tick (f_col s)) <= x)%Z.
Proof.
  intros E O steps s0 fuel id s' cs c Hn Hf Hd HC Hst Hid Hfr s H Hin.
  destruct (C169_recent_partial E O steps s0 fuel id s' cs c Hn Hf HC Hst Hid H Hin) as (ts & leaf & Ht & Hr).
  exists ts, leaf. split; [exact Ht|]. intros k p Hp.
  destruct (Hr _ Hp) as (n & ep & a & e & k' & p' & x & [= <- <-] & Hnet & Hx & Hw). exists x. split; [exact Hx|].
  destruct Hw as [Hw|Hw]; [|unfold s; lia].
  eapply Z.le_trans; [apply Hf, Hw|]. exact (Hfr _ _ _ _ _ _ _ Hnet Hx).
Qed.

(** rp moves from im to ib at request 20; at 500 it is still found through im, at 2000 only through ib *)
Definition moving : cenv := env_of (fun n =>
  if Nat.ltb n 20 then says
    [("rp/wk", TJws 3 (ec "rp" 3 1000 (Some ["im"]))); ("im/wk", TJws 2 (ec "im" 2 1000 (Some ["ta"])));
     ("ib/wk", TJws 4 (ec "ib" 4 1000 (Some ["ta"]))); ("ta/wk", TJws 1 (ec "ta" 1 1000 None))]
    [("im", "rp", TJws 2 (est "im" "rp" 900 [3])); ("ta", "im", TJws 1 (est "ta" "im" 900 [2]));
     ("ta", "ib", TJws 1 (est "ta" "ib" 900 [4]))]
  else says
    [("rp/wk", TJws 3 (ec "rp" 3 3000 (Some ["ib"]))); ("im/wk", TJws 2 (ec "im" 2 3000 (Some ["ta"])));
     ("ib/wk", TJws 4 (ec "ib" 4 3000 (Some ["ta"]))); ("ta/wk", TJws 1 (ec "ta" 1 3000 None))]
    [("ib", "rp", TJws 4 (est "ib" "rp" 2900 [3])); ("ta", "im", TJws 1 (est "ta" "im" 2900 [2]));
     ("ta", "ib", TJws 1 (est "ta" "ib" 2900 [4]))])
  (fun n => if Nat.ltb n 10 then 0%Z else if Nat.ltb n 30 then 500%Z else 2000%Z).

Definition first_steps : list step := Look 9 "rp" :: repeat Wait 20.
Definition later_steps : list step := first_steps ++ Ask 9 "im" :: Look 9 "rp" :: repeat Wait 10.

Lemma moving_docs n u t : e_net moving n (QDoc u) = RText (Some t) ->
  exists id k x h, t = TJws k (ec id k x h) /\ forall l a, h = Some l -> In a l -> clean a.
Proof.
  cbn [moving env_of e_net]. destruct (Nat.ltb n 20); intros H; apply says_doc in H;
    destruct H as [H|[H|[H|[H|[]]]]]; injection H as _ <-;
    do 4 eexists; (split; [reflexivity|]); intros l a; [| | |discriminate| | | |discriminate];
    intros [= <-] [<-|[]]; reflexivity.
Qed.

Lemma moving_fetch n ep a e t : e_net moving n (QFetch ep a e) = RText (Some t) ->
  (a = "im" -> e = "rp" -> n < 20) /\
  exists k x ks, t = TJws k (est a e x ks) /\ (n < 20 -> x = 900%Z) /\ (20 <= n -> x = 2900%Z).
Proof.
  cbn [moving env_of e_net]. destruct (Nat.ltb_spec n 20) as [L|L]; intros H; apply says_fetch in H;
    repeat (destruct H as [[= <- <- <-]|H];
            [split; [try (intros _ _; lia); discriminate|
             do 3 eexists; split; [reflexivity|split; intros; try lia; reflexivity]]|]);
    destruct H.
Qed.

Example C169_ex :
  let s1 := after_steps moving id_order first_steps knows_ta in
  let s2 := after_steps moving id_order later_steps knows_ta in
  let found s := match snd (get_verified_trust_chains moving id_order 9 "rp" s) with
                 | Ok cs => Some (map (fun c => map between (ch_verified c)) cs)
                 | Err _ => None
                 end in
  newborn knows_ta /\ forwards moving /\ own_words moving /\ clean_net moving /\ clean_steps later_steps /\
  let_go moving "im" "rp" (st_tick (f_col s2)) /\ over_at moving "im" "rp" 900 /\
  (900 - e_delta moving < e_clock moving (st_tick (f_col s2)))%Z /\
  found s1 = Some [[("ta", "im"); ("im", "rp"); ("rp", "rp")]] /\
  found s2 = Some [[("ta", "ib"); ("ib", "rp"); ("rp", "rp")]] /\
  (forall n ep a e k p x, e_net moving n (QFetch ep a e) = RText (Some (TJws k p)) -> s_exp p = Some x ->
     (e_clock moving n <= x)%Z).
Proof.
  assert (L : let_go moving "im" "rp" 20).
  { intros n ep t Hle H. apply moving_fetch in H. destruct H as [H _]. specialize (H eq_refl eq_refl). lia. }
  cbv zeta. split; [repeat split|]. split.
  { intros n m H. cbn [moving env_of e_clock]. destruct (Nat.ltb_spec n 10), (Nat.ltb_spec m 10);
      destruct (Nat.ltb_spec n 30), (Nat.ltb_spec m 30); lia. }
  split.
  { split.
    - intros n ep a e k p H. apply moving_fetch in H. destruct H as (_ & k' & x & ks & [= _ ->] & _). split; reflexivity.
    - intros n u k p H. apply moving_docs in H. destruct H as (id & k' & x & h & [= _ ->] & _). reflexivity. }
  split.
  { intros n u k p l a H Hl Hin. apply moving_docs in H. destruct H as (id & k' & x & h & [= _ ->] & Hc).
    exact (Hc l a Hl Hin). }
  split.
  { intros st id Hin Ha. unfold later_steps, first_steps in Hin. cbn [repeat app] in Hin.
    repeat (destruct Hin as [<-|Hin]; [cbn in Ha; try discriminate; injection Ha as <-; reflexivity|]). destruct Hin. }
  split.
  { intros n ep t Hle. apply L. eapply Nat.le_trans; [|exact Hle]. vm_compute. lia. }
  split.
  { intros n q k p H Hi Hs. destruct q as [u|ep a e].
    - apply moving_docs in H. destruct H as (id & k' & x & h & [= _ ->] & _). cbn in *. congruence.
    - apply moving_fetch in H. destruct H as (Hl & k' & x & ks & [= _ ->] & Hx & _). cbn in Hi, Hs. subst.
      exists x. split; [reflexivity|]. rewrite Hx by (apply Hl; reflexivity). lia. }
  split; [vm_compute; reflexivity|]. split; [vm_compute; reflexivity|]. split; [vm_compute; reflexivity|].
  intros n ep a e k p x H Hx. apply moving_fetch in H. destruct H as (_ & k' & x' & ks & [= _ ->] & H1 & H2).
  cbn in Hx. injection Hx as <-. cbn [moving env_of e_clock].
  destruct (Nat.ltb_spec n 10), (Nat.ltb_spec n 30); destruct (Nat.lt_ge_cases n 20);
    try (rewrite H1 by lia); try (rewrite H2 by lia); lia.
Qed.

Print Assumptions C169_removed_refuted.
Print Assumptions C169_in_time_refuted.
Print Assumptions C169_removed_partial.
Print Assumptions C169_recent_partial.
Print Assumptions C169_in_time_partial.

(** ** C170 *)

(** A key of [x] was withdrawn: nobody lists it any more, and what listed it has expired.  Then no statement
    of [x] that is signed with it is accepted. *)
Definition C170_full : Prop := forall E O steps s0 fuel id s' cs c x k p z,
  newborn s0 -> forwards E -> (0 <= e_delta E)%Z -> ~ holds (f_keys s0) x k ->
  let s := after_steps E O steps s0 in
  withdrawn E x k (st_tick (f_col s)) -> key_over_at E x k z ->
  (z + e_delta E < e_clock E (st_tick (f_col s)))%Z ->
  get_verified_trust_chains E O fuel id s = (s', Ok cs) -> In c cs ->
  In (TJws k p) (tc_chain (ch_tc c)) -> s_iss p <> x.

(** im had key 2 until request 20.  It was stolen; im has key 5 now.  The thief signs for a host of theirs. *)
Definition stolen : cenv := env_of (fun n =>
  if Nat.ltb n 20 then says
    [("rp/wk", TJws 3 (ec "rp" 3 1000 (Some ["im"]))); ("im/wk", TJws 2 (ec "im" 2 1000 (Some ["ta"])));
     ("ta/wk", TJws 1 (ec "ta" 1 1000 None))]
    [("im", "rp", TJws 2 (est "im" "rp" 900 [3])); ("ta", "im", TJws 1 (est "ta" "im" 900 [2]))]
  else says
    [("rp/wk", TJws 3 (ec "rp" 3 9000 (Some ["im"]))); ("im/wk", TJws 5 (ec "im" 5 9000 (Some ["ta"])));
     ("ta/wk", TJws 1 (ec "ta" 1 9000 None)); ("thief/wk", TJws 66 (ec "thief" 66 9000 (Some ["im"])))]
    [("im", "rp", TJws 5 (est "im" "rp" 9000 [3])); ("ta", "im", TJws 1 (est "ta" "im" 9000 [5]));
     ("im", "thief", TJws 2 (est "im" "thief" 9000 [66]))])
  (fun n => if Nat.ltb n 20 then 0%Z else 5000%Z).

Definition stolen_steps : list step := Look 9 "rp" :: repeat Wait 20.

Lemma stolen_net n q k0 p : e_net stolen n q = RText (Some (TJws k0 p)) -> s_sub p = "im" -> lists p 2 ->
  n < 20 /\ exists y, s_exp p = Some y /\ (y <= 1000)%Z.
Proof.
  intros H Hs (ks & Hk & Hin).
  cbn [stolen env_of e_net] in H. destruct (Nat.ltb_spec n 20) as [L|L]; (split; [try exact L|]);
    (destruct q as [u|ep a e]; [apply says_doc in H|apply says_fetch in H]); cbn [In] in H;
    repeat (destruct H as [H|H]; [injection H as; subst p; cbn in Hs, Hk; try discriminate;
                                  injection Hk as <-; cbn in Hin;
                                  try (destruct Hin as [Hin|[]]; discriminate);
                                  eexists; (split; [reflexivity|lia])|]); destruct H.
Qed.

Lemma stolen_accepted : exists s' c,
  get_verified_trust_chains stolen id_order 9 "thief" (after_steps stolen id_order stolen_steps knows_ta)
  = (s', Ok [c]) /\ In (TJws 2 (est "im" "thief" 9000 [66])) (tc_chain (ch_tc c)).
Proof. eexists. eexists. split; [vm_compute; reflexivity|]. vm_compute. auto. Qed.

Theorem C170_withdrawn_refuted : ~ C170_full.
Proof.
  intros H. destruct stolen_accepted as (s' & c & Hg & Hin).
  refine (H stolen id_order stolen_steps knows_ta 9 "thief" s' [c] c "im" 2 _ 1000%Z _ _ _ _ _ _ _ Hg
            (or_introl eq_refl) Hin eq_refl).
  - repeat split.
  - intros n m Hle. cbn [stolen env_of e_clock]. destruct (Nat.ltb_spec n 20), (Nat.ltb_spec m 20); lia.
  - cbn. lia.
  - intros (ks & Hk & _). discriminate.
  - intros n q k0 p Hle Hn Hs Hl. destruct (stolen_net _ _ _ _ Hn Hs Hl) as [L _].
    assert (G : 20 <= st_tick (f_col (after_steps stolen id_order stolen_steps knows_ta))) by (vm_compute; lia).
    lia.
  - intros n q k0 p Hn Hs Hl. apply (stolen_net _ _ _ _ Hn Hs Hl).
  - vm_compute. reflexivity.
Qed.

(** Missing: that the key jar forgets.  What holds: an entity that starts again with a key jar without the
    key does not accept it, whatever its caches contain and whatever the network says. *)
Theorem C170_restarted_partial : forall E O steps s0 kj fuel id s' cs c x k p z,
  newborn s0 -> forwards E -> clean_net E -> clean_steps steps -> clean id -> (0 <= e_delta E)%Z ->
  ~ holds kj x k ->
  let s := mkFed (f_col (after_steps E O steps s0)) kj [] in
  withdrawn E x k (st_tick (f_col s)) -> key_over_at E x k z ->
  (z + e_delta E < e_clock E (st_tick (f_col s)))%Z ->
  get_verified_trust_chains E O fuel id s = (s', Ok cs) -> In c cs ->
  In (TJws k p) (tc_chain (ch_tc c)) -> s_iss p <> x.
Proof.
  intros E O steps s0 kj fuel id s' cs c x k p z Hn Hf HC Hst Hid Hd Hkj s Hw Hz Hnow H Hin Hp Hx.
  assert (Hi : fi E (st_tick (f_col s)) (f_col s)) by exact (fi_run E O steps s0 Hn HC Hst).
  destruct (looked E O fuel id s s' cs c Hi HC Hid H Hin)
    as (pre & ch & leaf & H1 & _ & Hps & Hleaf & Hr).
  (* nobody who was heard lists the key *)
  assert (Hdoc : forall k0 q, leaf = TJws k0 q -> s_sub q = x -> ~ lists q k).
  { intros k0 q -> Hs Hl. destruct Hleaf as (n & u & k1 & q1 & Hnet & [= <- <-] & Hwhen).
    destruct (Hz _ _ _ _ Hnet Hs Hl) as (y & Hy & Hle). destruct Hwhen as [Hlate|(m & y' & Hm & Hy' & Hc)].
    - exact (Hw _ _ _ _ Hlate Hnet Hs Hl).
    - assert (e_clock E (st_tick (f_col s)) <= e_clock E m)%Z by (apply Hf, Hm).
      rewrite Hy in Hy'. injection Hy' as <-. lia. }
  assert (Hst' : forall ts k0 q, In ts (pre ++ [ch]) -> In (TJws k0 q) ts -> s_sub q = x -> ~ lists q k).
  { intros ts k0 q Hts Hq Hs Hl. destruct (Hr ts _ Hts Hq) as (a & e & n & ep & k1 & q1 & y & Hnet & [= <- <-] & Hy & Hwhen).
    destruct (Hz _ _ _ _ Hnet Hs Hl) as (y' & Hy' & Hle). rewrite Hy in Hy'. injection Hy' as <-.
    destruct Hwhen as [Hlate|(m & Hm & Hc)].
    - exact (Hw _ _ _ _ Hlate Hnet Hs Hl).
    - assert (e_clock E (st_tick (f_col s)) <= e_clock E m)%Z by (apply Hf, Hm). lia. }
  assert (Hall : forall ts k0 q, In ts (pre ++ [ch]) -> In (k0, q) (jws (ts ++ [leaf])) -> s_sub q = x -> ~ lists q k).
  { intros ts k0 q Hts Hq. rewrite jws_app in Hq. apply in_app_iff in Hq. destruct Hq as [Hq|Hq].
    - apply (Hst' ts k0 q Hts). clear -Hq. induction ts as [|[|k' p'] ts IH]; cbn [jws] in Hq; [destruct Hq| |].
      + right. apply IH, Hq.
      + destruct Hq as [[= -> ->]|Hq]; [left; reflexivity|right; apply IH, Hq].
    - destruct leaf as [|k' p']; cbn [jws] in Hq; [destruct Hq|]. destruct Hq as [[= -> ->]|[]].
      apply (Hdoc k0 q eq_refl). }
  (* so it can be neither in the key jar nor vouched for in this chain *)
  assert (Hjar : ~ holds (after_calls (e_lib E) kj (map (fun c => c ++ [leaf]) pre)) x k).
  { intros Hh. apply history_traceable in Hh. rewrite flat_map_concat_map, map_map, <- flat_map_concat_map in Hh.
    inversion Hh as [? ? G|k0 q jw ? Hq _ Hj Hk]; subst; [exact (Hkj G)|].
    apply in_flat_map in Hq. destruct Hq as (ts & Hts & Hq).
    refine (Hall ts k0 q _ Hq _ (ex_intro _ jw (conj Hj Hk))); [apply in_or_app; left; exact Hts|congruence]. }
  assert (Hin' : In (k, p) (jws (ch ++ [leaf]))).
  { rewrite H1 in Hp. clear -Hp. induction (ch ++ [leaf]) as [|[|k' p'] ts IH]; [destruct Hp| |]; cbn [jws].
    - destruct Hp as [Hp|Hp]; [discriminate|apply IH, Hp].
    - destruct Hp as [[= -> ->]|Hp]; [left; reflexivity|right; apply IH, Hp]. }
  apply in_split in Hin'. destruct Hin' as (l1 & l2 & El).
  destruct (Hps l1 k p l2 El) as [Hh|(k0 & q & jw & Hq & Hs & Hj & Hk)].
  - rewrite Hx in Hh. exact (Hjar Hh).
  - refine (Hall ch k0 q _ _ _ (ex_intro _ jw (conj Hj Hk))).
    + apply in_or_app. right. left. reflexivity.
    + rewrite El. apply in_or_app. left. exact Hq.
    + congruence.
Qed.

(** with a fresh key jar but the old caches the same collection is refused *)
Definition stolen_again : fstate :=
  mkFed (f_col (after_steps stolen id_order stolen_steps knows_ta)) [("ta", [1])] [].

Lemma stolen_again_tick : Nat.leb 20 (st_tick (f_col stolen_again)) = true.
Proof. vm_compute. reflexivity. Qed.

Example C170_ex :
  ~ holds (f_keys stolen_again) "im" 2 /\ withdrawn stolen "im" 2 (st_tick (f_col stolen_again)) /\
  key_over_at stolen "im" 2 1000 /\
  Z.ltb (1000 + e_delta stolen) (e_clock stolen (st_tick (f_col stolen_again))) = true /\
  is_ok (snd (get_verified_trust_chains stolen id_order 9 "thief" stolen_again)) = false /\
  length (match snd (get_verified_trust_chains stolen id_order 9 "rp" stolen_again) with
          | Ok cs => cs
          | Err _ => []
          end) = 1.
Proof.
  split; [intros (ks & Hk & _); discriminate|]. split.
  { intros n q k0 p Hle Hn Hs Hl. destruct (stolen_net _ _ _ _ Hn Hs Hl) as [L _].
    assert (G := stolen_again_tick). apply Nat.leb_le in G. revert G Hle. generalize (st_tick (f_col stolen_again)).
    intros m G Hle. lia. }
  split; [intros n q k0 p Hn Hs Hl; apply (stolen_net _ _ _ _ Hn Hs Hl)|].
  split; [vm_compute; reflexivity|]. split; vm_compute; reflexivity.
Qed.

(** what was accepted once is accepted for ever by the one who accepted it: keys stay over all histories *)
Theorem C170_kept : forall E O steps s x k, holds (f_keys s) x k -> holds (f_keys (after_steps E O steps s)) x k.
Proof.
  intros E O steps. induction steps as [|st steps IH]; intros s x k H; [exact H|]. cbn [after_steps fold_left].
  apply IH. destruct st as [fuel id|fuel id|]; cbn [do_step]; [| |exact H].
  - apply looked_keys, H.
  - unfold get_trust_chains, mbind, StateM.get. destruct (dget id (f_chains s)); [exact H|].
    assert (G := looked_keys E O fuel id s x k H).
    destruct (get_verified_trust_chains E O fuel id s) as [s1 [cs|e]]; [|exact G].
    destruct (is_nil cs); exact G.
Qed.

Print Assumptions C170_withdrawn_refuted.
Print Assumptions C170_restarted_partial.
Print Assumptions C170_kept.
