(** Collection and verification in a well-run federation. *)
From Verif Require Import PyFacts TreeProps.
From Verif Require Export WellRunSpec CollectorRepeat VerifierFacts.
From Coq Require Import Lia.

Lemma NoDup_flat_map A B (f : A -> list B) l :
  NoDup l -> (forall x, In x l -> NoDup (f x)) ->
  (forall x y b, In x l -> In y l -> In b (f x) -> In b (f y) -> x = y) -> NoDup (flat_map f l).
Proof.
  induction l as [|x l IH]; intros N H D; cbn [flat_map]; [constructor|].
  inversion N as [|? ? Hx N']; subst.
  assert (NA : forall l1 l2 : list B, NoDup l1 -> NoDup l2 -> (forall b, In b l1 -> ~ In b l2) -> NoDup (l1 ++ l2)).
  { induction l1 as [|b l1 IH1]; intros l2 N1 N2 D'; [exact N2|]. inversion N1 as [|? ? Hb N1']; subst. cbn [app]. constructor.
    - intros Hin. apply in_app_or in Hin. destruct Hin as [Hin|Hin]; [exact (Hb Hin)|]. exact (D' b (or_introl eq_refl) Hin).
    - apply IH1; [exact N1'|exact N2|]. intros b' Hb'. apply D'. right. exact Hb'. }
  apply NA.
  - apply H. left. reflexivity.
  - apply IH; [exact N'| |]; intros; eauto using in_cons.
  - intros b Hb Hin. apply in_flat_map in Hin. destruct Hin as (y & Hy & Hb'). apply Hx.
    rewrite (D x y b (or_introl eq_refl) (or_intror Hy) Hb Hb'). exact Hy.
Qed.

Lemma NoDup_keys_pairs A (d : dict A) : NoDup (dkeys d) -> NoDup d.
Proof. apply NoDup_map_inv. Qed.

Lemma NoDup_map_in A B (f : A -> B) l : (forall x y, In x l -> In y l -> f x = f y -> x = y) -> NoDup l -> NoDup (map f l).
Proof.
  intros H N. induction N as [|x l Hx N IH]; cbn [map]; constructor.
  - intros Hin. apply in_map_iff in Hin. destruct Hin as (y & Ey & Hy). apply Hx.
    rewrite (H x y (or_introl eq_refl) (or_intror Hy) (eq_sym Ey)). exact Hy.
  - apply IH. intros a b Ha Hb. apply H; right; assumption.
Qed.

Section WellRun.
Context (E : cenv) (W : world) (stop id : string) (rank : string -> nat).
Hypothesis WR : well_run W E stop id.
Hypothesis RK : ranked W stop id rank.
Hypothesis HF : serves_fresh E.

Notation reach := (reaches W stop id).

Lemma wr_pconf e : reach e -> pconf E e = Ok (Some (own W e)).
Proof.
  intros R. destruct (wr_config _ _ _ _ WR e R) as (P & _). unfold pconf, pdoc.
  destruct P as [P|(P1 & P2 & P3)].
  - rewrite P. reflexivity.
  - rewrite P1. destruct (String.eqb_spec (e_tenant E e) (e_wk E e)); [contradiction|]. rewrite P3. reflexivity.
Qed.

Lemma wr_self_signed e : reach e -> verify_self_signed E (e_clock E 0) (Some (own W e)) = Ok (own W e, w_config W e).
Proof.
  intros R. destruct (wr_config _ _ _ _ WR e R) as (_ & _ & _ & _ & ks & Ek & Hk).
  unfold own, verify_self_signed. rewrite Ek.
  assert (K : kmem (w_key W e) (filter (lib_picks (e_lib E) (TJws (w_key W e) (w_config W e))) ks) = true).
  { apply kmem_In, filter_In. split; [exact Hk|]. apply (wr_picks _ _ _ _ WR). }
  rewrite K, (wr_valid _ _ _ _ WR e R). reflexivity.
Qed.

Lemma wr_pverified e : reach e -> pverified E e = Ok (own W e, w_config W e).
Proof. intros R. unfold pverified. rewrite (wr_pconf e R). cbn [bind]. apply wr_self_signed, R. Qed.

Lemma wr_fresh_about e a : reach e -> In a (above W stop e) -> exists z, s_exp (w_about W a e) = Some z.
Proof.
  intros R Ha. destruct (wr_about _ _ _ _ WR e a R Ha) as (_ & _ & _ & ep & _ & _ & Hn).
  destruct (HF _ _ _ _ Hn) as (z & Hz & _). eauto.
Qed.

Lemma wr_fresh_config e : reach e -> exists z, s_exp (w_config W e) = Some z.
Proof.
  intros R. destruct (wr_config _ _ _ _ WR e R) as ([P|(_ & _ & P)] & _);
    destruct (HF _ _ _ _ P) as (z & Hz & _); eauto.
Qed.

Lemma wr_pstatement e a : reach e -> In a (above W stop e) ->
  pstatement E a e = Ok (Some (ESTok (TJws (w_key W a) (w_about W a e)))).
Proof.
  intros R Ha. assert (Ra : reach a) by (eapply reaches_up; eauto).
  destruct (wr_about _ _ _ _ WR e a R Ha) as (_ & _ & _ & ep & He & Hne & Hn).
  destruct (wr_fresh_about e a R Ha) as [z Hz].
  destruct He as (m & fe & E1 & E2 & E3).
  unfold pstatement, pendpoint. rewrite (wr_pverified a Ra). cbn [bind snd].
  unfold get_endpoint. rewrite E1. unfold dindex. rewrite E2. cbn [bind]. rewrite E3. cbn [bind].
  destruct (String.eqb_spec ep ""); [contradiction|].
  unfold pdoc. rewrite Hn. cbn [bind unverified]. rewrite Hz. reflexivity.
Qed.

Lemma rank_ne e a : reach e -> In a (above W stop e) -> e <> a.
Proof. intros R Ha <-. specialize (RK e e R Ha). lia. Qed.

Lemma above_hints e : reach e -> above W stop e <> [] ->
  e <> stop /\ s_hints (w_config W e) = Some (above W stop e).
Proof.
  intros R H. unfold above, superiors in *. destruct (String.eqb_spec e stop); [contradiction|].
  split; [assumption|]. destruct (s_hints (w_config W e)); [reflexivity|contradiction].
Qed.

(** the tree of superiors has exactly the routes as its paths *)
Lemma wr_ptree fuel : forall e, reach e -> rank e < fuel ->
  exists tr, ptree E fuel stop e (w_config W e) = Ok tr /\
    (tr = T [] <-> above W stop e = []) /\ NoDup (tree2chains tr) /\
    forall c, In c (tree2chains tr) <-> exists r, route W stop e r /\ r <> [] /\ c = map ESTok (along W e r).
Proof.
  induction fuel as [|fuel IH]; intros e R Hr; [lia|]. cbn [ptree].
  destruct (wr_config _ _ _ _ WR e R) as (_ & Hi & _).
  destruct (above W stop e) as [|a0 l0] eqn:Ea.
  - assert (Ht : (match s_hints (w_config W e) with
                  | None => Ok (T [])
                  | Some hints =>
                      if String.eqb (s_iss (w_config W e)) stop then Ok (T [])
                      else let* bs := foldM (fun acc a => let* b := pbranch E (ptree E fuel stop) e a in
                                                          Ok (dset a b acc)) hints [] in Ok (T bs)
                  end) = Ok (T [])).
    { rewrite Hi. unfold above, superiors in Ea. destruct (s_hints (w_config W e)) as [h|]; [|reflexivity].
      destruct (String.eqb_spec e stop); [reflexivity|]. subst h. reflexivity. }
    rewrite Ht. exists (T []). split; [reflexivity|]. split; [tauto|]. split; [constructor|].
    intros c. cbn [tree2chains flat_map].
    split; [intros []|]. intros (r & Hroute & Hne & _). inversion Hroute as [|? a r' Hin]; subst; [contradiction|].
    rewrite Ea in Hin. destruct Hin.
  - rewrite <- Ea. assert (Hnn : above W stop e <> []) by (rewrite Ea; discriminate).
    destruct (above_hints e R Hnn) as [Hstop Hh]. rewrite Hh, Hi.
    destruct (String.eqb_spec e stop); [contradiction|].
    assert (Hb : forall a, In a (above W stop e) -> exists t,
               pbranch E (ptree E fuel stop) e a = Ok (Some (ESTok (TJws (w_key W a) (w_about W a e)), t)) /\
               (t = T [] <-> above W stop a = []) /\ NoDup (tree2chains t) /\
               forall c, In c (tree2chains t) <->
                         exists r, route W stop a r /\ r <> [] /\ c = map ESTok (along W a r)).
    { intros a Ha. assert (Ra : reach a) by (eapply reaches_up; eauto).
      destruct (IH a Ra) as (t & Ht & Hemp & Hnd & Hc). { specialize (RK e a R Ha). lia. }
      exists t. split; [|split; [|split]; assumption]. unfold pbranch.
      destruct (String.eqb_spec e a) as [Eq|_]; [exfalso; exact (rank_ne e a R Ha Eq)|]. cbn [andb].
      rewrite (wr_pstatement e a R Ha). cbn [bind]. rewrite (wr_pverified a Ra). cbn [bind snd].
      rewrite Ht. reflexivity. }
    assert (Hfold : forall l d, (forall a, In a l -> In a (above W stop e)) ->
              exists bs, foldM (fun acc a => let* b := pbranch E (ptree E fuel stop) e a in Ok (dset a b acc)) l d
                         = Ok bs).
    { induction l as [|a l IHl]; intros d Hl; [eexists; reflexivity|]. cbn [foldM].
      destruct (Hb a (Hl a (or_introl eq_refl))) as (t & -> & _). cbn [bind].
      apply IHl. intros x Hx. apply Hl. right. exact Hx. }
    destruct (Hfold (above W stop e) [] (fun a h => h)) as [bs Hbs]. rewrite Hbs. cbn [bind].
    destruct (foldM_dset (pbranch E (ptree E fuel stop) e) _ _ _ Hbs) as (D1 & _ & D3); [intros a b []|].
    assert (Dk : forall a b, In (a, b) bs -> In a (above W stop e)).
    { assert (G : forall l d bs, foldM (fun acc a => let* b := pbranch E (ptree E fuel stop) e a in Ok (dset a b acc)) l d
                  = Ok bs -> forall a b, In (a, b) bs -> In a l \/ exists b', In (a, b') d).
      { induction l as [|a l IHl]; intros d bs0 H a' b' Hin; cbn [foldM] in H.
        - injection H as <-. eauto.
        - apply bind_ok in H. destruct H as (d' & Hd' & H). apply bind_ok in Hd'. destruct Hd' as (b & _ & [= <-]).
          destruct (IHl _ _ H a' b' Hin) as [Hl|[b'' Hd]]; [left; right; exact Hl|].
          apply In_dset in Hd. destruct Hd as [[= -> ->]|Hd]; [left; left; reflexivity|right; eauto]. }
      intros a b Hin. destruct (G _ _ _ Hbs a b Hin) as [H|[b' []]]. exact H. }
    exists (T bs). split; [reflexivity|]. split.
    { split; intros H; [|contradiction]. injection H as ->.
      destruct (D3 a0) as (b & _ & []). rewrite Ea. left. reflexivity. }
    assert (Dn : NoDup (dkeys bs)).
    { assert (G : forall l d bs, foldM (fun acc a => let* b := pbranch E (ptree E fuel stop) e a in Ok (dset a b acc)) l d
                  = Ok bs -> NoDup (dkeys d) -> NoDup (dkeys bs)).
      { induction l as [|a l IHl]; intros d bs0 H Hd; cbn [foldM] in H; [injection H as <-; exact Hd|].
        apply bind_ok in H. destruct H as (d' & Hd' & H). apply bind_ok in Hd'. destruct Hd' as (b & _ & [= <-]).
        apply (IHl _ _ H), NoDup_dset, Hd. }
      apply (G _ _ _ Hbs). constructor. }
    split.
    { cbn [tree2chains]. apply NoDup_flat_map; [apply NoDup_keys_pairs, Dn| |].
      - intros (a & b) Hin. cbn [snd]. destruct (Hb a (Dk a b Hin)) as (t & Hpb & _ & Hnd & _).
        rewrite (D1 a b Hin) in Hpb. injection Hpb as ->. destruct t as [[|b0 bs0]]; [repeat constructor; intros []|].
        apply NoDup_map_in; [|exact Hnd]. intros x y _ _ Exy. apply app_inj_tail in Exy. apply Exy.
      - assert (G : forall a b c, In (a, b) bs -> In c (match snd (a, b) with None => [[]] | Some (statement, unit) =>
             match unit with T [] => [[statement]] | T _ => map (fun l => l ++ [statement]) (tree2chains unit) end end) ->
             exists c', c = c' ++ [ESTok (TJws (w_key W a) (w_about W a e))]).
        { intros a b c Hin Hc. cbn [snd] in Hc. destruct (Hb a (Dk a b Hin)) as (t & Hpb & _).
          rewrite (D1 a b Hin) in Hpb. injection Hpb as ->. destruct t as [[|b0 bs0]].
          - destruct Hc as [<-|[]]. exists []. reflexivity.
          - apply in_map_iff in Hc. destruct Hc as (c' & <- & _). exists c'. reflexivity. }
        intros (a & b) (a' & b') c Hin Hin' Hc Hc'. destruct (G a b c Hin Hc) as [c1 E1]. destruct (G a' b' c Hin' Hc') as [c2 E2].
        rewrite E1 in E2. apply app_inj_tail in E2. destruct E2 as [_ E2]. injection E2 as _ E2.
        assert (Ha : a = a').
        { destruct (wr_about _ _ _ _ WR e a R (Dk a b Hin)) as (<- & _). destruct (wr_about _ _ _ _ WR e a' R (Dk a' b' Hin')) as (<- & _).
          rewrite E2. reflexivity. }
        subst a'. f_equal. assert (X := D1 a b Hin). rewrite (D1 a b' Hin') in X. congruence. }
    intros c. cbn [tree2chains]. rewrite in_flat_map. split.
    + intros ((a & b) & Hin & Hc). cbn [snd] in Hc. assert (Ha := Dk a b Hin).
      destruct (Hb a Ha) as (t & Hpb & Hemp & _ & Hch). rewrite (D1 a b Hin) in Hpb. injection Hpb as ->.
      destruct t as [[|b0 bs0]].
      * destruct Hc as [<-|[]]. exists [a]. split; [|split; [discriminate|reflexivity]].
        constructor; [exact Ha|]. constructor. apply Hemp. reflexivity.
      * apply in_map_iff in Hc. destruct Hc as (c' & <- & Hc'). apply Hch in Hc'.
        destruct Hc' as (r & Hroute & Hne & ->). exists (a :: r).
        split; [constructor; assumption|]. split; [discriminate|]. cbn [along]. rewrite map_app. reflexivity.
    + intros (r & Hroute & Hne & ->). inversion Hroute as [|? a r' Ha Hr']; subst; [contradiction|].
      destruct (D3 a Ha) as (b & Hb' & Hin). exists (a, b). split; [exact Hin|]. cbn [snd].
      destruct (Hb a Ha) as (t & Hpb & Hemp & _ & Hch). rewrite Hb' in Hpb. injection Hpb as ->.
      cbn [along]. destruct t as [[|b0 bs0]].
      * assert (Hno : above W stop a = []) by (apply Hemp; reflexivity).
        inversion Hr' as [|? a' r'' Hin']; subst; [left; reflexivity|]. rewrite Hno in Hin'. destruct Hin'.
      * apply in_map_iff. exists (map ESTok (along W a r')). split; [rewrite map_app; reflexivity|].
        apply Hch. exists r'. split; [exact Hr'|]. split; [|reflexivity]. intros ->.
        inversion Hr' as [? Hno|]; subst. apply Hemp in Hno. discriminate.
Qed.

(** ** Verification *)

Lemma jws_app l1 l2 : jws (l1 ++ l2) = jws l1 ++ jws l2.
Proof. induction l1 as [|[|k p] l1 IH]; simpl; [reflexivity|exact IH|rewrite IH; reflexivity]. Qed.

Lemma reach_end r : forall e, reach e -> route W stop e r -> reach (end_of e r) /\ above W stop (end_of e r) = [].
Proof.
  induction r as [|a r IH]; intros e R H; inversion H; subst; cbn [end_of]; [auto|].
  apply IH; [eapply reaches_up; eauto|assumption].
Qed.

Lemma along_tokens r : forall e, length (along W e r) = length r /\ length (jws (along W e r)) = length r.
Proof.
  induction r as [|a r IH]; intros e; cbn [along]; [auto|]. rewrite jws_app, !app_length.
  destruct (IH a) as [-> ->]. simpl. lia.
Qed.

Lemma first_issuer r : forall e, reach e -> route W stop e r -> r <> [] ->
  exists k p l, along W e r = TJws k p :: l /\ s_iss p = end_of e r.
Proof.
  induction r as [|a r IH]; intros e R H Hne; [contradiction|]. inversion H as [|? ? ? Ha Hr]; subst.
  cbn [along end_of]. destruct r as [|b r].
  - cbn [along app end_of]. exists (w_key W a), (w_about W a e), []. split; [reflexivity|].
    apply (wr_about _ _ _ _ WR e a R Ha).
  - destruct (IH a) as (k & p & l & El & Hi); [eapply reaches_up; eauto|exact Hr|discriminate|].
    rewrite El. exists k, p, (l ++ [TJws (w_key W a) (w_about W a e)]). split; [reflexivity|exact Hi].
Qed.

Lemma along_exp r : forall e x, reach e -> route W stop e r -> In x (map snd (jws (along W e r))) -> s_exp x <> None.
Proof.
  induction r as [|a r IH]; intros e x R Hr Hx; cbn [along] in Hx; [destruct Hx|].
  inversion Hr as [|? ? ? Ha Hr']; subst. rewrite jws_app, map_app in Hx. apply in_app_iff in Hx.
  destruct Hx as [Hx|[<-|[]]].
  - apply (IH a x); [eapply reaches_up; eauto|exact Hr'|exact Hx].
  - cbn [snd]. destruct (wr_fresh_about e a R Ha) as [z Hz]. congruence.
Qed.

(** keys are added for entities that are not at the end of a route only *)
Definition same_ends (kj kj' : keyjar) : Prop :=
  forall e, above W stop e = [] -> dget e kj' = dget e kj.

Lemma step_good kj k p l n ves e : reach (s_iss p) -> s_sub p = e -> reach e -> above W stop e <> [] ->
  k = w_key W (s_iss p) -> vouches_for p (w_key W e) ->
  jar_right W stop id kj -> known kj (s_iss p) ->
  exists kj', verify_tokens (e_lib E) kj n ves (TJws k p :: l) = verify_tokens (e_lib E) kj' n (ves ++ [p]) l /\
    jar_right W stop id kj' /\ known kj' e /\ same_ends kj kj' /\ (forall x k, holds kj x k -> holds kj' x k).
Proof.
  intros Ri Hs Re Hab Hk (ks & Ek & Hks) J [l0 Hl0]. cbn [verify_tokens].
  assert (Hin : In k (verify_keys (e_lib E) kj (TJws k p) (s_iss p))).
  { apply verify_keys_In. split; [|apply (wr_picks _ _ _ _ WR)]. exists l0. split; [exact Hl0|].
    subst k. apply (J _ _ Ri Hl0). }
  destruct (verify_keys (e_lib E) kj (TJws k p) (s_iss p)) as [|x y] eqn:Ev; [destruct Hin|]. cbn [is_nil].
  rewrite (proj2 (kmem_In k (x :: y)) Hin), Ek. subst e.
  exists (add_keys (e_lib E) kj (s_sub p) ks). split; [reflexivity|]. split; [|split; [|split]].
  - intros e' ks' Re' Hd.
    assert (Hh : holds (add_keys (e_lib E) kj (s_sub p) ks) e' (w_key W e')).
    { apply holds_add. destruct (string_dec e' (s_sub p)) as [->|Hne]; [right; auto|left].
      rewrite add_other in Hd by exact Hne. exists ks'. split; [exact Hd|]. exact (J _ _ Re' Hd). }
    destruct Hh as (l1 & Hl1 & Hin1). rewrite Hd in Hl1. injection Hl1 as <-. exact Hin1.
  - assert (Hh : holds (add_keys (e_lib E) kj (s_sub p) ks) (s_sub p) (w_key W (s_sub p))).
    { apply holds_add. right. auto. }
    destruct Hh as (l1 & Hl1 & _). exists l1. exact Hl1.
  - intros e' He'. apply add_other. intros ->. contradiction.
  - intros x' k' Hx'. apply holds_add. left. exact Hx'.
Qed.

Lemma good_along r : forall e kj n ves rest, reach e -> route W stop e r -> r <> [] ->
  jar_right W stop id kj -> known kj (end_of e r) ->
  exists kj', verify_tokens (e_lib E) kj n ves (along W e r ++ rest)
              = verify_tokens (e_lib E) kj' n (ves ++ map snd (jws (along W e r))) rest /\
    jar_right W stop id kj' /\ known kj' e /\ same_ends kj kj' /\ (forall x k, holds kj x k -> holds kj' x k).
Proof.
  induction r as [|a r IH]; intros e kj n ves rest R H Hne J K; [contradiction|].
  inversion H as [|? ? ? Ha Hr]; subst. cbn [along end_of] in *.
  assert (Ra : reach a) by (eapply reaches_up; eauto).
  destruct (wr_about _ _ _ _ WR e a R Ha) as (Hi & Hs & Hv & _).
  assert (Hnn : above W stop e <> []) by (intros X; rewrite X in Ha; destruct Ha).
  assert (G : exists kj1, verify_tokens (e_lib E) kj n ves (along W a r ++ TJws (w_key W a) (w_about W a e) :: rest)
              = verify_tokens (e_lib E) kj1 n (ves ++ map snd (jws (along W a r)))
                  (TJws (w_key W a) (w_about W a e) :: rest) /\
            jar_right W stop id kj1 /\ known kj1 a /\ same_ends kj kj1 /\ (forall x k, holds kj x k -> holds kj1 x k)).
  { destruct r as [|b r].
    - exists kj. cbn [along app jws map]. rewrite app_nil_r. split; [reflexivity|]. split; [exact J|].
      split; [exact K|]. split; [intros x Hx; reflexivity|auto].
    - apply (IH a kj n ves _ Ra Hr); [discriminate|exact J|exact K]. }
  destruct G as (kj1 & G1 & J1 & K1 & S1 & M1).
  destruct (step_good kj1 (w_key W a) (w_about W a e) rest n (ves ++ map snd (jws (along W a r))) e)
    as (kj2 & T1 & J2 & K2 & S2 & M2); try (rewrite Hi); try assumption; [reflexivity|].
  exists kj2. rewrite <- app_assoc. cbn [app]. rewrite G1, T1. split.
  - rewrite jws_app, map_app, <- app_assoc. reflexivity.
  - split; [exact J2|]. split; [exact K2|]. split; [|auto]. intros x Hx. rewrite (S2 x Hx). apply S1, Hx.
Qed.

(** calling the verifier with the chain of a route *)
Lemma call_route kj r b : route W stop id r -> r <> [] -> jar_right W stop id kj ->
  meets_restrictions (claims_along W id r) = Ok b ->
  exists kj' o, verifier_call (e_lib E) kj (chain_along W id r) = (kj', Ok o) /\
    jar_right W stop id kj' /\ same_ends kj kj' /\
    ((exists tc, o = Some tc) <-> known kj (end_of id r) /\ b = true) /\
    (forall tc, o = Some tc -> tc_chain tc = chain_along W id r /\ tc_verified tc = claims_along W id r /\
                               tc_anchor tc = end_of id r).
Proof.
  intros Hr Hne J Hb. assert (R := reaches_self W stop id).
  destruct (first_issuer r id R Hr Hne) as (k & p & l & El & Hi).
  unfold verifier_call, verify_trust_chain, chain_along. rewrite El. cbn [app]. unfold trusted_anchor. rewrite Hi.
  destruct (dget (end_of id r) kj) as [ks|] eqn:Ed.
  2:{ rewrite (proj2 (dmem_false _ _ _) Ed). exists kj, None. split; [reflexivity|]. split; [exact J|].
      split; [intros x Hx; reflexivity|]. split; [|discriminate]. split; [intros [tc [=]]|].
      intros [[x Hx] _]. congruence. }
  assert (Hm : dmem (end_of id r) kj = true) by (unfold dmem; rewrite Ed; reflexivity). rewrite Hm.
  assert (Hk : known kj (end_of id r)) by (exists ks; exact Ed).
  rewrite app_comm_cons, <- El.
  destruct (good_along r id kj (length (along W id r ++ [own W id]) - 1) [] [own W id] R Hr Hne J Hk)
    as (kj1 & G1 & J1 & K1 & S1 & M1).
  assert (Hnn : above W stop id <> []).
  { intros X. inversion Hr as [|? a r' Ha]; subst; [contradiction|]. rewrite X in Ha. destruct Ha. }
  destruct (wr_config _ _ _ _ WR id R) as (_ & Hci & Hcs & _ & Hcv).
  destruct (step_good kj1 (w_key W id) (w_config W id) [] (length (along W id r ++ [own W id]) - 1)
              ([] ++ map snd (jws (along W id r))) id) as (kj2 & T1 & J2 & K2 & S2 & M2);
    try (rewrite Hci); try assumption; [reflexivity|].
  change (TJws (w_key W id) (w_config W id)) with (own W id) in T1.
  rewrite G1, T1. cbn [verify_tokens app].
  assert (Ec : map snd (jws (along W id r)) ++ [w_config W id] = claims_along W id r).
  { unfold claims_along, chain_along. rewrite jws_app, map_app. reflexivity. }
  rewrite Ec, Hb.
  assert (Ecl : exists s ves, claims_along W id r = s :: ves /\ s_iss s = end_of id r).
  { unfold claims_along, chain_along. rewrite El. cbn [app jws map snd]. eexists _, _. split; [reflexivity|exact Hi]. }
  destruct Ecl as (s & ves & Ecl & Hs). rewrite Ecl. cbn [is_nil bind].
  assert (Sall : same_ends kj kj2) by (intros x Hx; rewrite (S2 x Hx); apply S1, Hx).
  destruct b.
  - assert (Hexp : exists z, trust_chain_expires_at (s :: ves) = Ok z).
    { assert (Hall : forall x, In x (claims_along W id r) -> s_exp x <> None).
      { unfold claims_along, chain_along. rewrite jws_app, map_app. intros x Hx. apply in_app_iff in Hx.
        destruct Hx as [Hx|[<-|[]]]; [|destruct (wr_fresh_config id R) as [z Hz]; cbn [snd]; congruence].
        apply (along_exp r id x R Hr Hx). }
      rewrite <- Ecl. unfold trust_chain_expires_at. generalize (-1)%Z. revert Hall. generalize (claims_along W id r).
      intros l1. induction l1 as [|x l1 IHl]; intros Hall z0; cbn [expires_from]; [eauto|].
      destruct (s_exp x) as [z|] eqn:Ez; [|exfalso; apply (Hall x); [left; reflexivity|exact Ez]].
      apply IHl. intros y Hy. apply Hall. right. exact Hy. }
    destruct Hexp as [z Hz]. rewrite Hz. cbn [bind].
    eexists kj2, (Some _). split; [reflexivity|]. split; [exact J2|]. split; [exact Sall|]. split.
    + split; [intros _; auto|]. intros _. eexists. reflexivity.
    + intros tc [= <-]. cbn [tc_chain tc_verified tc_anchor]. auto.
  - exists kj2, None. split; [reflexivity|]. split; [exact J2|]. split; [exact Sall|].
    split; [|discriminate]. split; [intros [tc [=]]|intros [_ [=]]].
Qed.

(** verifying the chains of several routes *)
Lemma verify_routes kj0 : constraints_clear W stop id ->
  forall chains, (forall c, In c chains -> exists r, route W stop id r /\ r <> [] /\ c = along W id r) ->
  forall kj acc, jar_right W stop id kj -> same_ends kj0 kj ->
  exists kj' tcs,
    mfold (fun acc c => do tc <- run_verifier E (c ++ [own W id]) in
                        ret (match tc with Some t => acc ++ [t] | None => acc end)) chains acc kj
    = (kj', Ok (acc ++ tcs)) /\
    jar_right W stop id kj' /\ same_ends kj0 kj' /\
    (forall tc, In tc tcs -> exists r, route W stop id r /\ r <> [] /\ In (along W id r) chains /\
       known kj0 (end_of id r) /\ meets_restrictions (claims_along W id r) = Ok true /\
       tc_chain tc = chain_along W id r /\ tc_verified tc = claims_along W id r /\ tc_anchor tc = end_of id r) /\
    (forall r, route W stop id r -> r <> [] -> In (along W id r) chains -> known kj0 (end_of id r) ->
       meets_restrictions (claims_along W id r) = Ok true ->
       exists tc, In tc tcs /\ tc_chain tc = chain_along W id r /\ tc_verified tc = claims_along W id r /\
                  tc_anchor tc = end_of id r).
Proof.
  intros CC. induction chains as [|c chains IH]; intros Hch kj acc J S.
  - exists kj, []. cbn [mfold]. rewrite app_nil_r. split; [reflexivity|]. split; [exact J|]. split; [exact S|].
    split; [intros tc []|intros r _ _ []].
  - destruct (Hch c (or_introl eq_refl)) as (r & Hr & Hne & ->). destruct (CC r Hr) as [b Hb].
    destruct (call_route kj r b Hr Hne J Hb) as (kj1 & o & C1 & J1 & S1 & C2 & C3).
    cbn [mfold]. unfold mbind at 1. unfold mbind at 1, run_verifier at 1.
    change (along W id r ++ [own W id]) with (chain_along W id r). rewrite C1. unfold ret at 1.
    assert (S' : same_ends kj0 kj1) by (intros x Hx; rewrite (S1 x Hx); apply S, Hx).
    assert (Kr : forall r', route W stop id r' -> (known kj (end_of id r') <-> known kj0 (end_of id r'))).
    { intros r' Hr'. destruct (reach_end r' id (reaches_self W stop id) Hr') as [_ Hend].
      unfold known. rewrite (S _ Hend). tauto. }
    destruct (IH (fun c h => Hch c (or_intror h)) kj1
                (match o with Some t => acc ++ [t] | None => acc end) J1 S')
      as (kj2 & tcs & I1 & I2 & I3 & I4 & I5).
    exists kj2, (match o with Some t => t :: tcs | None => tcs end). split.
    { rewrite I1. destruct o; [rewrite <- app_assoc|]; reflexivity. }
    split; [exact I2|]. split; [exact I3|]. split.
    + intros tc Hin. assert (D : (exists t, o = Some t /\ tc = t) \/ In tc tcs).
      { destruct o; [destruct Hin as [<-|Hin]; [left; eauto|right; exact Hin]|right; exact Hin]. }
      destruct D as [(t & Eo & ->)|D].
      * exists r. destruct (proj1 C2 (ex_intro _ t Eo)) as [K ->]. apply (Kr r Hr) in K.
        split; [exact Hr|]. split; [exact Hne|]. split; [left; reflexivity|]. split; [exact K|]. split; [exact Hb|].
        exact (C3 t Eo).
      * destruct (I4 tc D) as (r' & A1 & A2 & A3 & A4). exists r'. split; [exact A1|]. split; [exact A2|].
        split; [right; exact A3|exact A4].
    + intros r' Hr' Hne' Hin K Hacc. destruct Hin as [Heq|Hin].
      * destruct (proj2 C2) as [tc Eo].
        { assert (Hsame : chain_along W id r = chain_along W id r') by (unfold chain_along; rewrite Heq; reflexivity).
          assert (Hend : end_of id r = end_of id r').
          { destruct (first_issuer r id (reaches_self W stop id) Hr Hne) as (k1 & p1 & l1 & F1 & F2).
            destruct (first_issuer r' id (reaches_self W stop id) Hr' Hne') as (k2 & p2 & l2 & F3 & F4).
            rewrite Heq, F3 in F1. injection F1 as <- <- <-. congruence. }
          rewrite Hend. split; [apply (Kr r' Hr'), K|]. unfold claims_along in Hb, Hacc. rewrite Hsame in Hb. congruence. }
        assert (Hsame : chain_along W id r = chain_along W id r') by (unfold chain_along; rewrite Heq; reflexivity).
        destruct (C3 tc Eo) as (D1 & D2 & D3). exists tc. rewrite Eo. split; [left; reflexivity|].
        unfold claims_along in *. rewrite Hsame in D1, D2. split; [exact D1|]. split; [exact D2|]. rewrite D3.
        destruct (first_issuer r id (reaches_self W stop id) Hr Hne) as (k1 & p1 & l1 & F1 & F2).
        destruct (first_issuer r' id (reaches_self W stop id) Hr' Hne') as (k2 & p2 & l2 & F3 & F4).
        rewrite Heq, F3 in F1. injection F1 as <- <- <-. congruence.
      * destruct (I5 r' Hr' Hne' Hin K Hacc) as (tc & D1 & D2). exists tc. split; [|exact D2].
        destruct o; [right|]; exact D1.
Qed.

End WellRun.
