(** Properties of trust chain collection (C32-C36). *)
From Verif Require Import PyFacts.
From Verif Require Export CollectorFacts.
From Coq Require Import Lia.

(** ** A small federation for the examples *)
Definition ec (id : string) (k : key) (exp : Z) (hints : option (list string)) : stmt :=
  mkStmt id id (Some exp) (Some [k])
    (Some [("federation_entity", [("federation_fetch_endpoint", VStr (id ++ "/fetch"))])])
    None None hints.

Definition est (iss sub : string) (exp : Z) (ks : list key) : stmt :=
  mkStmt iss sub (Some exp) (Some ks) None None None None.

(** the library takes a statement for 15 seconds after it expired *)
Definition within_skew (n : Z) (p : stmt) : bool :=
  match s_exp p with Some z => Z.ltb n (z + 15) | None => true end.

Definition all_keys : keyjar_lib := mkLib (fun _ _ => true) false within_skew.
Definition wk_url (id : string) : string := (id ++ "/wk")%string.
Definition tenant_url (id : string) : string := (id ++ "/tenant/wk")%string.

Definition static_net (docs : dict token) (fetches : dict token) : nat -> request -> response :=
  fun _ q =>
    match q with
    | QDoc u => match dget u docs with Some t => RText (Some t) | None => R404 end
    | QFetch ep i s => match dget (ep ++ " " ++ s) fetches with Some t => RText (Some t) | None => R404 end
    end.

Definition ex_env (docs fetches : dict token) (anchors : list string) : cenv :=
  mkEnv 300 anchors (static_net docs fetches) (fun _ => 0%Z) all_keys wk_url tenant_url.

Definition empty_state : cstate := mkState [] [] 0.

(** rp below im below ta *)
Definition fed : cenv := ex_env
  [("rp/wk", TJws 3 (ec "rp" 3 1000 (Some ["im"]))); ("im/tenant/wk", TJws 2 (ec "im" 2 1000 (Some ["ta"])));
   ("ta/wk", TJws 1 (ec "ta" 1 1000 None))]
  [("im/fetch rp", TJws 2 (est "im" "rp" 900 [3])); ("ta/fetch im", TJws 1 (est "ta" "im" 800 [2]))]
  ["ta"].

Definition fed_tree : tree esval :=
  T [("im", Some (ESTok (TJws 2 (est "im" "rp" 900 [3])),
                  T [("ta", Some (ESTok (TJws 1 (est "ta" "im" 800 [2])), T []))]))].

Lemma fed_collects : forall fuel,
  snd (collect fed (S (S (S fuel))) "" "rp" empty_state)
  = Ok (Some (fed_tree, TJws 3 (ec "rp" 3 1000 (Some ["im"])))).
Proof. reflexivity. Qed.

Lemma fed_obtainable id c :
  obtainable fed empty_state id c ->
  c = ec "rp" 3 1000 (Some ["im"]) /\ id = "rp" \/
  c = ec "im" 2 1000 (Some ["ta"]) /\ (id = "im" \/ id = "im/tenant") \/
  c = ec "ta" 1 1000 None.
Proof.
  assert (app_inj : forall a b r, (a ++ r)%string = (b ++ r)%string -> a = b).
  { assert (len : forall x y, String.length (x ++ y)%string = String.length x + String.length y)
      by (induction x; simpl; intros; [reflexivity|rewrite IHx; reflexivity]).
    induction a as [|x a IH]; intros [|y b] r H; simpl in H; [reflexivity| | |].
    - exfalso. apply (f_equal String.length) in H. simpl in H. rewrite len in H. lia.
    - exfalso. apply (f_equal String.length) in H. simpl in H. rewrite len in H. lia.
    - injection H as -> H. f_equal. exact (IH b r H). }
  intros [(t & n & _ & Hs & k & keys & Et & Ek & Hin)|(e & H & _)]; [|discriminate].
  subst t. unfold serves_config, fed, ex_env, static_net in Hs. simpl e_net in Hs. simpl e_wk in Hs.
  simpl e_tenant in Hs.
  destruct Hs as [Hs|Hs].
  - destruct (String.eqb_spec (wk_url id) "rp/wk") as [N|_].
    { injection Hs as <- <-. left. split; [reflexivity|]. apply (app_inj id "rp" "/wk"), N. }
    destruct (String.eqb_spec (wk_url id) "im/tenant/wk") as [N|_].
    { injection Hs as <- <-. right; left. split; [reflexivity|]. right.
      apply (app_inj id "im/tenant" "/wk"), N. }
    destruct (String.eqb_spec (wk_url id) "ta/wk") as [N|_]; [|discriminate].
    injection Hs as <- <-. right; right. reflexivity.
  - destruct (String.eqb_spec (tenant_url id) "rp/wk") as [N|_].
    { exfalso. apply (f_equal String.length) in N.
      assert (len : forall x y, String.length (x ++ y)%string = String.length x + String.length y)
        by (induction x; simpl; intros; [reflexivity|rewrite IHx; reflexivity]).
      unfold tenant_url in N. rewrite len in N. simpl in N. lia. }
    destruct (String.eqb_spec (tenant_url id) "im/tenant/wk") as [N|_].
    { injection Hs as <- <-. right; left. split; [reflexivity|]. left.
      apply (app_inj id "im" "/tenant/wk"), N. }
    destruct (String.eqb_spec (tenant_url id) "ta/wk") as [N|_]; [|discriminate].
    injection Hs as <- <-. right; right. reflexivity.
Qed.

(** ** C32 *)

Definition C32_full : Prop := forall E stop_at id s,
  exists fuel, snd (collect E fuel stop_at id s) <> Err RecursionError.

(** two entities that name each other *)
Definition loop : cenv := ex_env
  [("a/wk", TJws 1 (ec "a" 1 1000 (Some ["b"]))); ("b/wk", TJws 2 (ec "b" 2 1000 (Some ["a"])))]
  [("b/fetch a", TJws 2 (est "b" "a" 900 [1])); ("a/fetch b", TJws 1 (est "a" "b" 900 [2]))] [].

Definition loop_state : cstate := fst (collect loop 3 "" "a" empty_state).

Lemma loop_forever fuel :
  collect_tree loop fuel "" "a" (Some (ec "a" 1 1000 (Some ["b"]))) loop_state
  = (loop_state, Err RecursionError) /\
  collect_tree loop fuel "" "b" (Some (ec "b" 2 1000 (Some ["a"]))) loop_state
  = (loop_state, Err RecursionError).
Proof.
  induction fuel as [|fuel [IH1 IH2]]; [split; reflexivity|]. split.
  - cbn [collect_tree s_hints s_iss ec]. change (String.eqb "a" "") with false. cbn iota. cbn [mfold].
    unfold collect_branch, mbind. change (String.eqb "a" "b") with false. cbn [andb].
    rewrite (es_fresh loop "a" "b" loop_state (ESTok (TJws 2 (est "b" "a" 900 [1]))) 900)
      by (reflexivity || (vm_compute; discriminate)).
    unfold es_truthy.
    assert (Ec : cfg_getitem loop "b" loop_state
                 = (loop_state, Ok (Some (mkEntry (ec "b" 2 1000 (Some ["a"]))
                                            (Some (TJws 2 (ec "b" 2 1000 (Some ["a"])))) CDict))))
      by reflexivity.
    rewrite Ec. simpl option_map. rewrite IH2. reflexivity.
  - cbn [collect_tree s_hints s_iss ec]. change (String.eqb "b" "") with false. cbn iota. cbn [mfold].
    unfold collect_branch, mbind. change (String.eqb "b" "a") with false. cbn [andb].
    rewrite (es_fresh loop "b" "a" loop_state (ESTok (TJws 1 (est "a" "b" 900 [2]))) 900)
      by (reflexivity || (vm_compute; discriminate)).
    unfold es_truthy.
    assert (Ec : cfg_getitem loop "a" loop_state
                 = (loop_state, Ok (Some (mkEntry (ec "a" 1 1000 (Some ["b"]))
                                            (Some (TJws 1 (ec "a" 1 1000 (Some ["b"])))) CDict))))
      by reflexivity.
    rewrite Ec. simpl option_map. rewrite IH1. reflexivity.
Qed.

(** whatever the recursion limit, a loop of authority hints exhausts it *)
Theorem C32_terminates_refuted : ~ C32_full.
Proof.
  intros H. destruct (H loop "" "a" loop_state) as [fuel N]. apply N.
  change (snd (mbind (collect_tree loop fuel "" "a" (Some (ec "a" 1 1000 (Some ["b"]))))
                 (fun tr => ret (Some (tr, TJws 1 (ec "a" 1 1000 (Some ["b"]))))) loop_state)
          = Err RecursionError).
  unfold mbind.
  rewrite (proj1 (loop_forever fuel)). reflexivity.
Qed.

(** Missing: federations with loops.  What holds: if every hint that is followed decreases some rank,
    a recursion limit above the rank of the entity is enough, whatever the network does. *)
Theorem C32_terminates_partial : forall E stop_at id s rank fuel,
  acyclic E s stop_at rank -> rank id < fuel ->
  snd (collect E fuel stop_at id s) <> Err RecursionError.
Proof.
  intros E stop_at id s rank fuel HR Hr.
  destruct (t_collect E s False True stop_at rank (fun f => False_ind _ f) (fun _ => HR) fuel id
              (fun _ => Hr) (fun f => False_ind _ f)) as [_ H].
  intros X. rewrite X in H. apply (H I). reflexivity.
Qed.

Definition fed_rank (id : string) : nat :=
  if String.eqb id "rp" then 2 else if String.eqb id "im" then 1
  else if String.eqb id "im/tenant" then 1 else 0.

Example C32_ex : acyclic fed empty_state "" fed_rank /\
  (forall fuel, snd (collect fed (S (S (S fuel))) "" "rp" empty_state)
   = Ok (Some (fed_tree, TJws 3 (ec "rp" 3 1000 (Some ["im"]))))) /\
  snd (collect loop 50 "" "a" empty_state) = Err RecursionError.
Proof.
  split; [|split; [exact fed_collects|reflexivity]].
  intros id c hints a Ho Eh _ Hin _.
  apply fed_obtainable in Ho. destruct Ho as [[-> ->]|[[-> Hid]| ->]]; simpl in Eh; try discriminate;
    injection Eh as <-; destruct Hin as [<-|[]].
  - vm_compute. lia.
  - destruct Hid as [->| ->]; vm_compute; lia.
Qed.

(** ** C33 *)

Definition C33_full : Prop := forall E stop_at id s fuel s' tr t,
  collect E fuel stop_at id s = (s', Ok (Some (tr, t))) ->
  exists c, ((exists e, dget id (st_cfg s) = Some e /\ ce_stmt e = c /\ ce_jws e = Some t) \/
             config_from E (st_tick s) id t c) /\
            grown E s stop_at id c tr.

(** the statement of "a!!p" about "q!exp!r" is taken for the one of "a" about "p!!q!exp!r"; its lifetime
    for the one of "a!exp!p!!q" about "r" *)
Definition clash : cenv := ex_env
  [("r/wk", TJws 1 (ec "r" 1 1000 (Some ["a!exp!p!!q"; "a"; "q!exp!r"; "p!!q!exp!r"])));
   ("a!exp!p!!q/wk", TJws 2 (ec "a!exp!p!!q" 2 1000 None));
   ("a/wk", TJws 3 (ec "a" 3 1000 None));
   ("q!exp!r/wk", TJws 4 (ec "q!exp!r" 4 1000 (Some ["a!!p"])));
   ("a!!p/wk", TJws 5 (ec "a!!p" 5 1000 None));
   ("p!!q!exp!r/wk", TJws 6 (ec "p!!q!exp!r" 6 1000 (Some ["a"])))]
  [("a!exp!p!!q/fetch r", TJws 2 (est "a!exp!p!!q" "r" 900 [1]));
   ("a/fetch r", TJws 3 (est "a" "r" 900 [1]));
   ("q!exp!r/fetch r", TJws 4 (est "q!exp!r" "r" 900 [1]));
   ("p!!q!exp!r/fetch r", TJws 6 (est "p!!q!exp!r" "r" 900 [1]));
   ("a!!p/fetch q!exp!r", TJws 5 (est "a!!p" "q!exp!r" 900 [4]));
   ("a/fetch p!!q!exp!r", TJws 3 (est "a" "p!!q!exp!r" 900 [6]))] [].

Definition clash_tree : tree esval :=
  T [("a!exp!p!!q", Some (ESTok (TJws 2 (est "a!exp!p!!q" "r" 900 [1])), T []));
     ("a", Some (ESTok (TJws 3 (est "a" "r" 900 [1])), T []));
     ("q!exp!r", Some (ESTok (TJws 4 (est "q!exp!r" "r" 900 [1])),
                    T [("a!!p", Some (ESTok (TJws 5 (est "a!!p" "q!exp!r" 900 [4])), T []))]));
     ("p!!q!exp!r", Some (ESTok (TJws 6 (est "p!!q!exp!r" "r" 900 [1])),
                    T [("a", Some (ESTok (TJws 5 (est "a!!p" "q!exp!r" 900 [4])), T []))]))].

Lemma clash_collects :
  collect clash 5 "" "r" empty_state
  = (fst (collect clash 5 "" "r" empty_state),
     Ok (Some (clash_tree, TJws 1 (ec "r" 1 1000 (Some ["a!exp!p!!q"; "a"; "q!exp!r"; "p!!q!exp!r"]))))).
Proof. vm_compute. reflexivity. Qed.

Lemma grown_branches E s stop_at entity c bs : grown E s stop_at entity c (T bs) ->
  forall a b, In (a, b) bs -> grown_branch E s stop_at entity a b.
Proof. intros G. inversion G; subst; [intros a b []|assumption]. Qed.

Lemma grown_branch_some E s stop_at entity a v t : grown_branch E s stop_at entity a (Some (v, t)) ->
  exists c, said_by E s a entity v /\ obtainable E s a c /\ grown E s stop_at a c t.
Proof. intros G. inversion G; subst. eauto. Qed.

Theorem C33_branches_refuted : ~ C33_full.
Proof.
  intros H. destruct (H _ _ _ _ _ _ _ _ clash_collects) as (c & _ & G).
  assert (Hb := grown_branches _ _ _ _ _ _ G).
  specialize (Hb "p!!q!exp!r" _ (or_intror (or_intror (or_intror (or_introl eq_refl))))).
  apply grown_branch_some in Hb. destruct Hb as (c1 & _ & _ & G').
  assert (Hb := grown_branches _ _ _ _ _ _ G' "a" _ (or_introl eq_refl)).
  apply grown_branch_some in Hb. destruct Hb as (c2 & Hs & _ & _).
  destruct Hs as [(n & ep & c3 & t & _ & Ho & He & Hn & Ev)|Hs]; [|discriminate].
  injection Ev as <-.
  destruct Ho as [(t & m & _ & Hserve & k & keys & Et & Ek & _)|(e & X & _)]; [|discriminate].
  destruct Hserve as [Hserve|Hserve]; [|discriminate]. injection Hserve as <-. injection Et as <- <-.
  destruct He as (md & fe & [= <-] & [= <-] & [= <-]). discriminate.
Qed.

(** Missing: identifiers containing an exclamation mark, which can make two cache keys coincide. *)
Theorem C33_branches_partial : forall E stop_at id s fuel s' tr t,
  clean id -> clean_federation E s ->
  collect E fuel stop_at id s = (s', Ok (Some (tr, t))) ->
  exists c, ((exists e, dget id (st_cfg s) = Some e /\ ce_stmt e = c /\ ce_jws e = Some t) \/
             config_from E (st_tick s) id t c) /\
            grown E s stop_at id c tr.
Proof.
  intros E stop_at id s fuel s' tr t Hid Hcl H.
  destruct (t_collect E s True False stop_at (fun _ => 0) (fun _ => Hcl) (fun f => False_ind _ f) fuel id
              (fun f => False_ind _ f) (fun _ => Hid)) as [_ G].
  rewrite H in G. simpl in G. destruct G as (c & Hc & G). exists c. split; [exact Hc|exact (G I)].
Qed.

Example C33_ex : clean "rp" /\ clean_federation fed empty_state /\
  snd (collect fed 3 "" "rp" empty_state) = Ok (Some (fed_tree, TJws 3 (ec "rp" 3 1000 (Some ["im"])))) /\
  snd (collect fed 3 "im" "rp" empty_state)
  = Ok (Some (T [("im", Some (ESTok (TJws 2 (est "im" "rp" 900 [3])), T []))],
              TJws 3 (ec "rp" 3 1000 (Some ["im"])))).
Proof.
  split; [reflexivity|]. split; [|split; reflexivity].
  intros id c hints a Ho Eh Hin. apply fed_obtainable in Ho.
  destruct Ho as [[-> ->]|[[-> Hid]| ->]]; simpl in Eh; try discriminate;
    injection Eh as <-; destruct Hin as [<-|[]]; reflexivity.
Qed.

(** ** C34 *)

(** A statement that is handed out is the cached one, still fresh and untouched, or the network gave it
    during this call; then it is in the cache together with its lifetime. *)
Theorem C34_only_while_fresh : forall E entity authority s s' v,
  get_entity_statement E entity authority s = (s', Ok (Some v)) ->
  (s' = s /\ dget (cache_key authority entity) (st_es s) = Some v /\
   exists z, dget (time_key authority entity) (st_es s) = Some (ESExp z) /\
             (e_clock E (st_tick s) <= z - e_delta E)%Z) \/
  (exists n ep t, st_tick s <= n < st_tick s' /\
                  e_net E n (QFetch ep authority entity) = RText (Some t) /\ v = ESTok t).
Proof.
  intros E entity authority s s' v H.
  destruct (dget (cache_key authority entity) (st_es s)) as [c|] eqn:Ec.
  - destruct (dget (time_key authority entity) (st_es s)) as [[x|z]|] eqn:Et.
    + rewrite (es_other E entity authority s c Ec) in H; [discriminate|congruence].
    + destruct (Z_le_gt_dec (clock_of E s) (z - e_delta E)) as [Hle|Hgt].
      * rewrite (es_fresh E entity authority s c z Ec Et Hle) in H. injection H as <- <-.
        left. split; [reflexivity|]. split; [reflexivity|]. exists z. auto.
      * rewrite (es_stale E entity authority s c z Ec Et) in H by lia.
        apply es_missing in H.
        2:{ simpl. rewrite dget_ddel_other by apply key_kinds_same. apply dget_ddel_same. }
        destruct H as (n & ep & t & k & p & z' & H1 & H2 & H3 & H4 & _). right.
        exists n, ep, t. simpl in H1. repeat split; try assumption; lia.
    + rewrite (es_other E entity authority s c Ec) in H; [discriminate|congruence].
  - apply es_missing in H; [|exact Ec].
    destruct H as (n & ep & t & k & p & z' & H1 & H2 & H3 & H4 & _). right.
    exists n, ep, t. repeat split; try assumption; lia.
Qed.

(** Asking again: nothing is requested, nothing changes and the same statement comes back, with whatever
    network and as long as the recorded lifetime minus the delta is not over. *)
Theorem C34_second_time : forall E entity authority s s' v,
  get_entity_statement E entity authority s = (s', Ok (Some v)) ->
  exists z, dget (time_key authority entity) (st_es s') = Some (ESExp z) /\
    forall E', (e_clock E' (st_tick s') <= z - e_delta E')%Z ->
               get_entity_statement E' entity authority s' = (s', Ok (Some v)).
Proof.
  intros E entity authority s s' v H.
  assert (G : dget (cache_key authority entity) (st_es s') = Some v /\
              exists z, dget (time_key authority entity) (st_es s') = Some (ESExp z)).
  { destruct (dget (cache_key authority entity) (st_es s)) as [c|] eqn:Ec.
    - destruct (dget (time_key authority entity) (st_es s)) as [[x|z]|] eqn:Et.
      + rewrite (es_other E entity authority s c Ec) in H; [discriminate|congruence].
      + destruct (Z_le_gt_dec (clock_of E s) (z - e_delta E)) as [Hle|Hgt].
        * rewrite (es_fresh E entity authority s c z Ec Et Hle) in H. injection H as <- <-. eauto.
        * rewrite (es_stale E entity authority s c z Ec Et) in H by lia.
          apply es_missing in H.
          2:{ simpl. rewrite dget_ddel_other by apply key_kinds_same. apply dget_ddel_same. }
          destruct H as (n & ep & t & k & p & z' & _ & _ & _ & _ & _ & _ & H1 & H2). eauto.
      + rewrite (es_other E entity authority s c Ec) in H; [discriminate|congruence].
    - apply es_missing in H; [|exact Ec].
      destruct H as (n & ep & t & k & p & z' & _ & _ & _ & _ & _ & _ & H1 & H2). eauto. }
  destruct G as [G1 [z G2]]. exists z. split; [exact G2|].
  intros E' Hle. exact (es_fresh E' entity authority s' v z G1 G2 Hle).
Qed.

(** fetched once, reused at 600, fetched again at 601 *)
Definition at_time (E : cenv) (t : Z) : cenv :=
  mkEnv (e_delta E) (e_anchors E) (e_net E) (fun _ => t) (e_lib E) (e_wk E) (e_tenant E).

Example C34_ex :
  let r := get_entity_statement fed "rp" "im" empty_state in
  let v := ESTok (TJws 2 (est "im" "rp" 900 [3])) in
  snd r = Ok (Some v) /\ st_tick (fst r) = 3 /\
  get_entity_statement (at_time fed 600) "rp" "im" (fst r) = (fst r, Ok (Some v)) /\
  st_tick (fst (get_entity_statement (at_time fed 601) "rp" "im" (fst r))) = 4.
Proof. repeat split; reflexivity. Qed.

(** ** C35 *)

Definition C35_full : Prop := forall a e a' e',
  (cache_key a e = cache_key a' e' -> a = a' /\ e = e') /\
  (time_key a e = time_key a' e' -> a = a' /\ e = e') /\
  cache_key a e <> time_key a' e'.

Theorem C35_cache_keys_refuted : ~ C35_full.
Proof.
  intros H. destruct (H "a!!b" "c" "a" "b!!c") as [H1 _].
  destruct (H1 eq_refl) as [H2 _]. discriminate.
Qed.

(** Missing: authorities whose identifier contains an exclamation mark.  (The entity's may.) *)
Theorem C35_cache_keys_partial : forall a e a' e', clean a -> clean a' ->
  (cache_key a e = cache_key a' e' -> a = a' /\ e = e') /\
  (time_key a e = time_key a' e' -> a = a' /\ e = e') /\
  cache_key a e <> time_key a' e'.
Proof.
  intros a e a' e' Ha Ha'. split; [apply cache_key_inj; assumption|].
  split; [apply time_key_inj; assumption|apply key_kinds; assumption].
Qed.

(** whatever the identifiers, the two entries of one pair are different *)
Theorem C35_own_entries : forall a e, cache_key a e <> time_key a e.
Proof. exact key_kinds_same. Qed.

Example C35_ex : clean "https://ta.example.org" /\ clean "https://im.example.org" /\
  cache_key "https://ta.example.org" "https://im.example.org!!x"
  = "https://ta.example.org!!https://im.example.org!!x" /\
  cache_key "x!exp!y" "z" = time_key "x" "y!!z".
Proof. repeat split; reflexivity. Qed.

(** ** C36 *)

(** the signed configuration of the leaf that is returned: if the cached one has expired, the
    network delivered it during this call *)
Definition C36_full : Prop := forall E stop_at id s fuel s' tr t e z,
  collect E fuel stop_at id s = (s', Ok (Some (tr, t))) ->
  dget id (st_cfg s) = Some e -> s_exp (ce_stmt e) = Some z -> (z <= e_clock E (st_tick s))%Z ->
  exists n, (n = st_tick s \/ n = S (st_tick s)) /\ serves_config E n id t.

Definition late_state (class : vclass) : cstate :=
  mkState [("rp", mkEntry (ec "rp" 3 1000 None) (Some (TJws 3 (ec "rp" 3 1000 None))) class)] [] 0.

(** an expired configuration is used for another [allowed_delta] seconds *)
Theorem C36_expired_configuration_refuted : ~ C36_full.
Proof.
  intros H.
  destruct (H (at_time (ex_env [] [] []) 1299) "" "rp" (late_state CDict) 1 (late_state CDict) (T [])
              (TJws 3 (ec "rp" 3 1000 None)) (mkEntry (ec "rp" 3 1000 None)
              (Some (TJws 3 (ec "rp" 3 1000 None))) CDict) 1000%Z eq_refl eq_refl eq_refl)
    as (n & _ & [X|X]); [simpl; lia|discriminate|discriminate].
Qed.

(** Missing: the last [allowed_delta] seconds. *)
Theorem C36_expired_configuration_partial : forall E stop_at id s fuel s' tr t e z,
  collect E fuel stop_at id s = (s', Ok (Some (tr, t))) ->
  dget id (st_cfg s) = Some e -> s_exp (ce_stmt e) = Some z ->
  (z + e_delta E <= e_clock E (st_tick s))%Z ->
  exists n, (n = st_tick s \/ n = S (st_tick s)) /\ serves_config E n id t.
Proof.
  intros E stop_at id s fuel s' tr t e z H He Hz Hle.
  unfold collect in H. unfold mbind at 1, StateM.get in H. unfold cache_get in H. rewrite He in H.
  unfold mbind at 1 in H. unfold mbind at 1, now in H. unfold mbind at 1, lift at 1 in H.
  unfold too_old in H. rewrite Hz in H. destruct (Z.leb_spec (z + e_delta E) (e_clock E (st_tick s))); [|lia].
  unfold ret at 1 in H. unfold mbind at 1 in H.
  destruct (get_entity_configuration E id s) as [s1 [signed|x]] eqn:Eg; [|discriminate].
  destruct signed as [t0|]; [|discriminate].
  assert (Hs : exists n, (n = st_tick s \/ n = S (st_tick s)) /\ serves_config E n id t0).
  { unfold get_entity_configuration, get_document in Eg.
    destruct (e_net E (st_tick s) (QDoc (e_wk E id))) as [r| | |] eqn:En; try discriminate.
    - injection Eg as <- ->. exists (st_tick s). split; [auto|left; exact En].
    - destruct (String.eqb _ _); [discriminate|]. simpl in Eg.
      destruct (e_net E (S (st_tick s)) (QDoc (e_tenant E id))) as [r| | |] eqn:En2; try discriminate.
      injection Eg as <- ->. exists (S (st_tick s)). split; [auto|right; exact En2]. }
  unfold mbind at 1, open_self_signed at 1 in H.
  destruct (verify_self_signed E _ (Some t0)) as [[t1 p]|x] eqn:Ev; [|discriminate].
  apply verify_self_signed_ok in Ev. destruct Ev as [[= <-] _].
  unfold mbind at 1, cfg_set, modify in H. unfold mbind at 1 in H.
  destruct (collect_tree E fuel stop_at id _ _) as [s2 [tr2|x]]; [|discriminate].
  unfold ret in H. simpl in H. injection H as _ _ <-. exact Hs.
Qed.

(** the configuration of an authority, looked up for its fetch endpoint and its hints, is used only
    while its lifetime minus the delta is not over (unless it is a Message) *)
Theorem C36_authority_configuration : forall E authority s s' e,
  cfg_getitem E authority s = (s', Ok (Some e)) -> ce_class e = CDict ->
  exists z, s_exp (ce_stmt e) = Some z /\ (e_clock E (st_tick s) < z - e_delta E)%Z.
Proof.
  intros E authority s s' e H Hc. unfold cfg_getitem, cache_getitem in H.
  destruct (dget authority (st_cfg s)) as [e'|]; [|discriminate].
  destruct (ce_class e') eqn:Ec.
  - destruct (s_exp (ce_stmt e')) as [z|] eqn:Ez; [|discriminate].
    destruct (Z.ltb_spec (e_clock E (st_tick s)) (z - e_delta E)); [|discriminate].
    injection H as _ <-. exists z. auto.
  - injection H as _ <-. congruence.
  - injection H as _ <-. congruence.
Qed.

Example C36_ex :
  let net := [("rp/wk", TJws 3 (ec "rp" 3 5000 None))] in
  snd (collect (at_time (ex_env net [] []) 1299) 1 "" "rp" (late_state CDict) )
  = Ok (Some (T [], TJws 3 (ec "rp" 3 1000 None))) /\
  snd (collect (at_time (ex_env net [] []) 1300) 1 "" "rp" (late_state CDict))
  = Ok (Some (T [], TJws 3 (ec "rp" 3 5000 None))).
Proof. split; reflexivity. Qed.

Print Assumptions C32_terminates_refuted.
Print Assumptions C32_terminates_partial.
Print Assumptions C33_branches_refuted.
Print Assumptions C33_branches_partial.
Print Assumptions C34_only_while_fresh.
Print Assumptions C34_second_time.
Print Assumptions C35_cache_keys_refuted.
Print Assumptions C35_cache_keys_partial.
Print Assumptions C36_expired_configuration_refuted.
Print Assumptions C36_expired_configuration_partial.
Print Assumptions C36_authority_configuration.
