(** In a well-run federation exactly the routes to known trust anchors give trust chains (C92). *)
From Verif Require Import PyFacts ExampleKit CollectorProps CollectorRepeatProps.
From Verif Require Export WellRunFacts.
From Coq Require Import Lia.

(** the documents stand still, are fresh, and identifiers do not contain exclamation marks *)
Definition quiet (E : cenv) (id : string) : Prop :=
  static E /\ serves_fresh E /\ clean_federation E (mkState [] [] 0) /\ clean id.

(** ** C92 *)

Lemma collect_routes E W stop id rank fuel s :
  quiet E id -> visited E (f_col s) -> well_run W E stop id -> ranked W stop id rank -> rank id < fuel ->
  exists s' chains,
    collect_trust_chains E fuel id stop s = (s', Ok (chains, Some (own W id))) /\
    f_keys s' = f_keys s /\ f_chains s' = f_chains s /\ visited E (f_col s') /\ NoDup chains /\
    forall c, In c chains <-> exists r, route W stop id r /\ r <> [] /\ c = along W id r.
Proof.
  intros (HS & HF & HC & Hid) V WR RK Hf.
  assert (HC' := hints_clean E _ HS HC).
  assert (V' : visited E (fst (collect E fuel stop id (f_col s)))) by (constructor; assumption).
  destruct (collect_eq E HS HF HC' stop fuel id Hid (f_col s) (visited_consistent E HS HF HC' _ V))
    as (s1 & E1 & _).
  assert (R := reaches_self W stop id).
  destruct (wr_ptree E W stop id rank WR RK HF fuel id R Hf) as (tr & Ht & _ & Hnd & Hc).
  unfold pcollect in E1. rewrite (wr_pconf E W stop id WR id R) in E1. cbn [bind] in E1.
  rewrite (wr_self_signed E W stop id WR id R) in E1. cbn [bind fst snd] in E1. rewrite Ht in E1. cbn [bind] in E1.
  rewrite E1 in V'. cbn [fst] in V'.
  exists (mkFed s1 (f_keys s) (f_chains s)), (map (map tok_of) (tree2chains tr)). split.
  { unfold collect_trust_chains, mbind, on_col. rewrite E1. reflexivity. }
  split; [reflexivity|]. split; [reflexivity|]. split; [exact V'|]. split.
  { apply NoDup_map_in; [|exact Hnd]. intros x y Hx Hy. apply Hc in Hx, Hy. destruct Hx as (r1 & _ & _ & ->).
    destruct Hy as (r2 & _ & _ & ->). rewrite !map_map. cbn [tok_of]. rewrite !map_id. intros ->. reflexivity. }
  intros c. rewrite in_map_iff. split.
  - intros (c' & <- & Hin). apply Hc in Hin. destruct Hin as (r & Hr & Hne & ->). exists r.
    split; [exact Hr|]. split; [exact Hne|]. rewrite map_map. apply map_id.
  - intros (r & Hr & Hne & ->). exists (map ESTok (along W id r)). split.
    + rewrite map_map. apply map_id.
    + apply Hc. exists r. auto.
Qed.

(** the route [r] of [id] ends in an entity whose keys are in the jar, and meets the constraints along it *)
Definition good_route (W : world) (kj : keyjar) (stop id : string) (r : list string) : Prop :=
  route W stop id r /\ r <> [] /\ known kj (end_of id r) /\ accepted (claims_along W id r).

(** [c] is the trust chain of the route [r], with policies applied *)
Definition belongs (O : iter_order) (W : world) (id : string) (r : list string) (c : tchain) : Prop :=
  tc_chain (ch_tc c) = chain_along W id r /\ ch_anchor c = end_of id r /\
  exists ves, policy_call_chain O (claims_along W id r) = Ok (ch_md c, ves).

Lemma verified_routes E W stop id rank fuel s :
  quiet E id -> visited E (f_col s) -> well_run W E stop id -> ranked W stop id rank -> rank id < fuel ->
  jar_right W stop id (f_keys s) -> constraints_clear W stop id ->
  exists s' kj' chains tcs,
    collect_trust_chains E fuel id stop s = (s', Ok (chains, Some (own W id))) /\
    f_keys s' = f_keys s /\ f_chains s' = f_chains s /\ visited E (f_col s') /\
    (chains = [] -> tcs = []) /\
    verify_trust_chains E chains [own W id] (f_keys s) = (kj', Ok tcs) /\ jar_right W stop id kj' /\ NoDup chains /\
    (forall tc, In tc tcs -> exists r, good_route W (f_keys s) stop id r /\ tc_chain tc = chain_along W id r /\
       tc_verified tc = claims_along W id r /\ tc_anchor tc = end_of id r) /\
    (forall r, good_route W (f_keys s) stop id r ->
       exists tc, In tc tcs /\ tc_chain tc = chain_along W id r /\ tc_verified tc = claims_along W id r /\
                  tc_anchor tc = end_of id r).
Proof.
  intros Q V WR RK Hf J CC. assert (HF := proj1 (proj2 Q)).
  destruct (collect_routes E W stop id rank fuel s Q V WR RK Hf) as (s1 & chains & C1 & C2 & C3 & C4 & C6 & C5).
  destruct (verify_routes E W stop id WR HF (f_keys s) CC chains) with (kj := f_keys s) (acc := @nil trust_chain)
    as (kj' & tcs & V1 & V2 & V3 & V4 & V5).
  { intros c Hin. apply C5, Hin. }
  { exact J. }
  { intros e _. reflexivity. }
  exists s1, kj', chains, tcs. split; [exact C1|]. split; [exact C2|]. split; [exact C3|]. split; [exact C4|].
  split.
  { intros ->. cbn [mfold] in V1. injection V1 as _ <-. reflexivity. }
  split; [exact V1|]. split; [exact V2|]. split; [exact C6|]. split.
  - intros tc Hin. destruct (V4 tc Hin) as (r & A1 & A2 & A3 & A4 & A5 & A6). exists r.
    split; [|exact A6]. split; [exact A1|]. split; [exact A2|]. split; [exact A4|exact A5].
  - intros r (B1 & B2 & B3 & B4). apply (V5 r B1 B2); [|exact B3|exact B4]. apply C5. exists r. auto.
Qed.

(** no chain is returned twice *)
Lemma verify_nodup E extra chains kj kj' tcs :
  verify_trust_chains E chains extra kj = (kj', Ok tcs) -> NoDup chains -> NoDup (map tc_chain tcs).
Proof.
  unfold verify_trust_chains.
  cut (forall acc kj kj' tcs,
         mfold (fun acc c => do tc <- run_verifier E (c ++ extra) in
                             ret (match tc with Some t => acc ++ [t] | None => acc end)) chains acc kj = (kj', Ok tcs) ->
         NoDup chains -> exists l, incl l chains /\ NoDup l /\ map tc_chain tcs = map tc_chain acc ++ map (fun c => c ++ extra) l).
  { intros G H N. destruct (G _ _ _ _ H N) as (l & _ & Nl & ->). cbn [map app]. apply NoDup_map_in; [|exact Nl].
    intros x y _ _. apply app_inv_tail. }
  clear kj kj' tcs. induction chains as [|c chains IH]; intros acc kj kj' tcs H N; cbn [mfold] in H.
  - injection H as _ <-. exists []. split; [intros x []|]. split; [constructor|]. symmetry. apply app_nil_r.
  - inversion N as [|? ? Hc N']; subst. unfold mbind at 1 in H. unfold mbind at 1, run_verifier at 1 in H.
    destruct (verifier_call (e_lib E) kj (c ++ extra)) as [kj1 [o|x]] eqn:Ev; [|discriminate].
    unfold ret at 1 in H. destruct (IH _ _ _ _ H N') as (l & I & Nl & El). destruct o as [t|].
    + assert (Et : tc_chain t = c ++ extra).
      { assert (X := call_ok (e_lib E) kj (c ++ extra) (Some t)). rewrite Ev in X. apply X. reflexivity. }
      exists (c :: l). split; [intros x [<-|Hx]; [left; reflexivity|right; apply I, Hx]|]. split.
      * constructor; [intros Hin; apply Hc, I, Hin|exact Nl].
      * rewrite El, map_app, <- app_assoc. cbn [map app]. rewrite Et. reflexivity.
    + exists l. split; [intros x Hx; right; apply I, Hx|]. split; [exact Nl|exact El].
Qed.

Lemma mapM_In A B (f : A -> res B) l l' : mapM f l = Ok l' ->
  (forall x, In x l -> exists y, In y l' /\ f x = Ok y) /\ (forall y, In y l' -> exists x, In x l /\ f x = Ok y).
Proof.
  revert l'. induction l as [|x l IH]; intros l' H; cbn [mapM] in H.
  - injection H as <-. split; intros ? [].
  - apply bind_ok in H. destruct H as (y & Hy & H). apply bind_ok in H. destruct H as (l1 & Hl & [= <-]).
    destruct (IH l1 Hl) as [I1 I2]. split.
    + intros x' [<-|Hin]; [exists y; split; [left; reflexivity|exact Hy]|].
      destruct (I1 x' Hin) as (y' & H1 & H2). exists y'. split; [right; exact H1|exact H2].
    + intros y' [<-|Hin]; [exists x; split; [left; reflexivity|exact Hy]|].
      destruct (I2 y' Hin) as (x' & H1 & H2). exists x'. split; [right; exact H1|exact H2].
Qed.

Lemma mapM_Err A B (f : A -> res B) l e : mapM f l = Err e -> exists x, In x l /\ f x = Err e.
Proof.
  induction l as [|x l IH]; cbn [mapM]; [discriminate|]. destruct (f x) as [y|e'] eqn:Ef; cbn [bind].
  - destruct (mapM f l) as [l'|e']; cbn [bind]; [discriminate|]. intros [= ->].
    destruct (IH eq_refl) as (x' & H1 & H2). exists x'. split; [right; exact H1|exact H2].
  - intros [= ->]. exists x. split; [left; reflexivity|exact Ef].
Qed.

(** The trust chains that are returned are those of the routes to known anchors along which the constraints are
    met, each once.  An exception is only raised if the policies along such a route raise it. *)
Theorem C92_exactly_the_routes : forall E O W id rank fuel s s' r,
  quiet E id -> visited E (f_col s) -> well_run W E "" id -> ranked W "" id rank -> rank id < fuel ->
  jar_right W "" id (f_keys s) -> constraints_clear W "" id ->
  get_verified_trust_chains E O fuel id s = (s', r) ->
  match r with
  | Ok cs => (forall rt, good_route W (f_keys s) "" id rt -> exists c, In c cs /\ belongs O W id rt c) /\
             (forall c, In c cs -> exists rt, good_route W (f_keys s) "" id rt /\ belongs O W id rt c) /\
             NoDup (map (fun c => tc_chain (ch_tc c)) cs)
  | Err x => exists rt, good_route W (f_keys s) "" id rt /\ policy_call_chain O (claims_along W id rt) = Err x
  end.
Proof.
  intros E O W id rank fuel s s' r Q V WR RK Hf J CC H.
  destruct (verified_routes E W "" id rank fuel s Q V WR RK Hf J CC)
    as (s1 & kj' & chains & tcs & C1 & C2 & C3 & _ & C4 & C5 & _ & C8 & C6 & C7).
  assert (Hr : r = apply_policies O tcs).
  { unfold get_verified_trust_chains in H. unfold mbind at 1 in H. rewrite C1 in H.
    destruct chains as [|c0 chains0].
    - injection H as _ <-. rewrite (C4 eq_refl). reflexivity.
    - unfold mbind, on_keys in H. rewrite C2, C5 in H. unfold lift in H. injection H as _ <-. reflexivity. }
  subst r. clear H. unfold apply_policies. destruct (mapM (apply_to_chain O) tcs) as [cs|x] eqn:Em.
  - destruct (mapM_In _ _ _ _ _ Em) as [M1 M2]. split; [|split].
    + intros rt G. destruct (C7 rt G) as (tc & Hin & D1 & D2 & D3). destruct (M1 tc Hin) as (c & Hc & Ha).
      exists c. split; [exact Hc|]. unfold apply_to_chain in Ha. rewrite D2 in Ha. apply bind_ok in Ha.
      destruct Ha as ([md ves] & Hp & [= <-]). unfold belongs, ch_anchor. cbn [ch_tc ch_md tc_chain tc_anchor fst snd].
      split; [exact D1|]. split; [exact D3|]. exists ves. exact Hp.
    + intros c Hin. destruct (M2 c Hin) as (tc & Ht & Ha). destruct (C6 tc Ht) as (rt & G & D1 & D2 & D3).
      exists rt. split; [exact G|]. unfold apply_to_chain in Ha. rewrite D2 in Ha. apply bind_ok in Ha.
      destruct Ha as ([md ves] & Hp & [= <-]). unfold belongs, ch_anchor. cbn [ch_tc ch_md tc_chain tc_anchor fst snd].
      split; [exact D1|]. split; [exact D3|]. exists ves. exact Hp.
    + replace (map (fun c => tc_chain (ch_tc c)) cs) with (map tc_chain tcs); [exact (verify_nodup _ _ _ _ _ _ C5 C8)|].
      clear - Em. revert cs Em. induction tcs as [|tc tcs IH]; intros cs Em; cbn [mapM] in Em; [injection Em as <-; reflexivity|].
      apply bind_ok in Em. destruct Em as (c & Ha & Em). apply bind_ok in Em. destruct Em as (cs' & Em & [= <-]).
      cbn [map]. rewrite (IH _ Em). f_equal. unfold apply_to_chain in Ha. apply bind_ok in Ha. destruct Ha as (r & _ & [= <-]). reflexivity.
  - destruct (mapM_Err _ _ _ _ _ Em) as (tc & Ht & Ha). destruct (C6 tc Ht) as (rt & G & D1 & D2 & D3).
    exists rt. split; [exact G|]. unfold apply_to_chain in Ha. rewrite D2 in Ha.
    destruct (policy_call_chain O (claims_along W id rt)) as [[md ves]|e]; [discriminate|].
    injection Ha as ->. reflexivity.
Qed.
Print Assumptions C92_exactly_the_routes.

(** rp below im and in; im below ta; in below ta and tb.  Only the keys of ta are known. *)
Definition dia_key (e : string) : key :=
  if String.eqb e "rp" then 3 else if String.eqb e "im" then 2 else if String.eqb e "in" then 4
  else if String.eqb e "ta" then 1 else if String.eqb e "tb" then 5 else 0.

Definition dia_above (e : string) : option (list string) :=
  if String.eqb e "rp" then Some ["im"; "in"] else if String.eqb e "im" then Some ["ta"]
  else if String.eqb e "in" then Some ["ta"; "tb"] else None.

Definition dia_world : world :=
  mkWorld (fun e => ec e (dia_key e) 1000 (dia_above e)) (fun a e => est a e 900 [dia_key e]) dia_key.

Definition dia : cenv := ex_env
  (map (fun e => ((e ++ "/wk")%string, own dia_world e)) ["rp"; "im"; "in"; "ta"; "tb"])
  (map (fun p => ((fst p ++ "/fetch " ++ snd p)%string, TJws (dia_key (fst p)) (w_about dia_world (fst p) (snd p))))
     [("im", "rp"); ("in", "rp"); ("ta", "im"); ("ta", "in"); ("tb", "in")])
  ["ta"].

Definition dia_rank (e : string) : nat :=
  if String.eqb e "rp" then 2 else if String.eqb e "im" then 1 else if String.eqb e "in" then 1 else 0.

Lemma reaches_in W stop e0 l : In e0 l -> (forall e a, In e l -> In a (above W stop e) -> In a l) ->
  forall e, reaches W stop e0 e -> In e l.
Proof. intros H0 Hs e R. induction R as [|a b R IH Hb]; [exact H0|]. exact (Hs a b IH Hb). Qed.

Lemma dia_reaches e : reaches dia_world "" "rp" e -> In e ["rp"; "im"; "in"; "ta"; "tb"].
Proof.
  apply reaches_in; [left; reflexivity|]. intros x a Hx Ha. repeat destruct Hx as [<-|Hx]; try destruct Hx;
    vm_compute in Ha; simpl; tauto.
Qed.

Lemma dia_well_run : well_run dia_world dia "" "rp".
Proof.
  constructor.
  - intros e R. apply dia_reaches in R. repeat destruct R as [<-|R]; try destruct R;
      (split; [left; reflexivity|]; split; [reflexivity|]; split; [reflexivity|]; split; [discriminate|];
       eexists; split; [reflexivity|left; reflexivity]).
  - intros e a R Ha. apply dia_reaches in R.
    repeat destruct R as [<-|R]; try destruct R; vm_compute in Ha; repeat destruct Ha as [<-|Ha]; try destruct Ha;
      (split; [reflexivity|]; split; [reflexivity|]; split; [eexists; split; [reflexivity|left; reflexivity]|];
       eexists; split; [eexists _, _; split; [reflexivity|]; split; reflexivity|]; split; [discriminate|reflexivity]).
  - reflexivity.
  - reflexivity.
Qed.

Lemma dia_net n q t : e_net dia n q = RText (Some t) ->
  (exists e, In e ["rp"; "im"; "in"; "ta"; "tb"] /\ t = own dia_world e) \/
  (exists a e, t = TJws (dia_key a) (est a e 900 [dia_key e])).
Proof.
  unfold dia, ex_env, static_net. cbn [e_net]. destruct q as [u|ep i x].
  - intros H. left. destruct (dget u _) as [t0|] eqn:Ed; [|discriminate]. injection H as ->.
    apply dget_In in Ed. apply in_map_iff in Ed. destruct Ed as (e & [= _ <-] & Hin). eauto.
  - intros H. right. destruct (dget _ _) as [t0|] eqn:Ed; [|discriminate]. injection H as ->.
    apply dget_In in Ed. apply in_map_iff in Ed. destruct Ed as ([a e] & [= _ <-] & Hin). eauto.
Qed.

Lemma dia_quiet : quiet dia "rp".
Proof.
  split; [split; reflexivity|]. split; [|split; [|reflexivity]].
  - intros n q k p H. destruct (dia_net n q _ H) as [(e & _ & [= _ ->])|(a & e & [= _ ->])];
      (eexists; split; [reflexivity|reflexivity]).
  - intros i c hints a [(t & n & _ & Hs & k & ks & -> & _)|(e & He & _)] Hh Ha; [|discriminate].
    assert (D : exists e, In e ["rp"; "im"; "in"; "ta"; "tb"] /\ TJws k c = own dia_world e).
    { destruct Hs as [Hs|Hs]; (destruct (dia_net n _ _ Hs) as [D|(a' & e' & X)]; [exact D|]);
        injection X as _ ->; cbn in Hh; discriminate. }
    destruct D as (e & Hin & X). injection X as _ ->.
    repeat destruct Hin as [<-|Hin]; try destruct Hin; cbn in Hh; try discriminate Hh; injection Hh as <-;
      repeat destruct Ha as [<-|Ha]; try destruct Ha; reflexivity.
Qed.

Lemma dia_route e r : route dia_world "" e r -> In e ["rp"; "im"; "in"; "ta"; "tb"] ->
  In (e, r) [("rp", ["im"; "ta"]); ("rp", ["in"; "ta"]); ("rp", ["in"; "tb"]); ("im", ["ta"]); ("in", ["ta"]);
             ("in", ["tb"]); ("ta", []); ("tb", [])].
Proof.
  intros H. induction H as [e He|e a r Ha Hr IH]; intros Hin.
  - repeat destruct Hin as [<-|Hin]; try destruct Hin; vm_compute in He; try discriminate He; simpl; tauto.
  - repeat destruct Hin as [<-|Hin]; try destruct Hin; vm_compute in Ha; repeat destruct Ha as [<-|Ha]; try destruct Ha;
      (destruct IH as [X|IH]; [simpl; tauto|try discriminate X; injection X as <-; simpl; tauto|]);
      repeat (destruct IH as [X|IH]; [try discriminate X; injection X as <-; simpl; tauto|]); destruct IH.
Qed.

Example C92_ex :
  quiet dia "rp" /\ visited dia (mkState [] [] 0) /\ well_run dia_world dia "" "rp" /\
  ranked dia_world "" "rp" dia_rank /\ dia_rank "rp" < 3 /\ jar_right dia_world "" "rp" [("ta", [1])] /\
  constraints_clear dia_world "" "rp" /\
  good_route dia_world [("ta", [1])] "" "rp" ["im"; "ta"] /\ good_route dia_world [("ta", [1])] "" "rp" ["in"; "ta"] /\
  ~ good_route dia_world [("ta", [1])] "" "rp" ["in"; "tb"] /\
  exists cs s', get_verified_trust_chains dia id_order 3 "rp" (mkFed (mkState [] [] 0) [("ta", [1])] []) = (s', Ok cs) /\
                length cs = 2.
Proof.
  split; [exact dia_quiet|]. split; [constructor|]. split; [exact dia_well_run|]. split.
  { intros e a R Ha. apply dia_reaches in R. repeat destruct R as [<-|R]; try destruct R; vm_compute in Ha;
      repeat destruct Ha as [<-|Ha]; try destruct Ha; vm_compute; lia. }
  split; [vm_compute; lia|]. split.
  { intros e ks R Hd. simpl in Hd. destruct (String.eqb_spec e "ta") as [->|_]; [|discriminate].
    injection Hd as <-. left. reflexivity. }
  split.
  { intros r Hr. apply dia_route in Hr; [|left; reflexivity].
    repeat (destruct Hr as [X|Hr]; [try discriminate X; injection X as <-; exists true; reflexivity|]). destruct Hr. }
  assert (R : forall a r, In a (above dia_world "" "rp") -> In (hd "" r) (above dia_world "" a) ->
              r = [hd "" r] -> above dia_world "" (hd "" r) = [] -> route dia_world "" "rp" (a :: r)).
  { intros a r H1 H2 E1 H3. rewrite E1. constructor; [exact H1|]. constructor; [exact H2|]. constructor. exact H3. }
  split; [|split; [|split]].
  - split; [apply R; vm_compute; auto|]. split; [discriminate|]. split; [eexists; reflexivity|reflexivity].
  - split; [apply R; vm_compute; auto|]. split; [discriminate|]. split; [eexists; reflexivity|reflexivity].
  - intros (_ & _ & [ks K] & _). discriminate K.
  - eexists _, _. split; [vm_compute; reflexivity|reflexivity].
Qed.
