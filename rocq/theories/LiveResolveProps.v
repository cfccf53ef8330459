(** Resolvers in federations of entities that run this library (C140). *)
From Verif Require Import PyFacts ExampleKit CollectorProps CollectorRepeat CollectorRepeatProps TreeProps VerifierFacts
  FetchFacts PolicyProps FederationProps.
From Verif Require Import ResolveModel ResolveFacts ResolveProps.
From Verif Require Import LiveFacts LiveExample.
From Coq Require Import Lia.

(** ** Chains in the caches of a resolver, in a well-run federation *)

Section Caches.
Context (E : cenv) (W : world) (stop id : string) (rank : string -> nat).
Hypothesis WR : well_run W E stop id.
Hypothesis RK : ranked W stop id rank.
Hypothesis HF : serves_fresh E.

(** the statements of a route are in the cache, and the configuration of the entity at its end *)
Lemma route_cached s r : forall fuel e tr, reaches W stop id e -> route W stop e r -> r <> [] ->
  ptree E fuel stop e (w_config W e) = Ok tr -> cached E s e tr ->
  get_chain_statements E (e :: r) s = (s, Ok (map (fun t => Some (ESTok t)) (rev (along W e r)))) /\
  exists c, dget (end_of e r) (st_cfg s) = Some c.
Proof.
  induction r as [|a r IH]; intros fuel e tr R Hr Hne Ht K; [contradiction|].
  inversion Hr as [|? ? ? Ha Hr']; subst.
  assert (Hnn : above W stop e <> []) by (intros X; rewrite X in Ha; destruct Ha).
  destruct (above_hints W stop id e R Hnn) as [Hstop Hh].
  destruct (wr_config _ _ _ _ WR e R) as (_ & Hi & _).
  destruct fuel as [|fuel]; [discriminate Ht|]. cbn [ptree] in Ht. rewrite Hh, Hi in Ht.
  destruct (String.eqb_spec e stop); [contradiction|].
  apply bind_ok in Ht. destruct Ht as (bs & Hbs & [= <-]).
  destruct (foldM_dset (pbranch E (ptree E fuel stop) e) _ _ _ Hbs) as (_ & _ & D3); [intros x b []|].
  destruct (D3 a Ha) as (b & Hb & Hin).
  assert (Ra : reaches W stop id a) by (eapply reaches_up; eauto).
  unfold pbranch in Hb. destruct (String.eqb_spec e a) as [Eq|_]; [exfalso; exact (rank_ne W stop id rank RK e a R Ha Eq)|].
  cbn [andb] in Hb. rewrite (wr_pstatement E W stop id WR HF e a R Ha) in Hb. cbn [bind] in Hb.
  rewrite (wr_pverified E W stop id WR a Ra) in Hb. cbn [bind snd] in Hb.
  apply bind_ok in Hb. destruct Hb as (t & Ht & [= <-]).
  inversion K as [? ? Hcl K1 K2 _]; subst.
  destruct (K1 _ _ _ Hin) as [[P _] Hc].
  assert (G : es_getitem E (cache_key a e) s = (s, Ok (Some (ESTok (TJws (w_key W a) (w_about W a e)))))).
  { unfold es_getitem, cache_getitem. rewrite P. destruct s; reflexivity. }
  cbn [along end_of]. rewrite rev_app_distr. cbn [rev app map]. rewrite chain_statements_cons. unfold mbind at 1. rewrite G.
  destruct r as [|b r].
  - split; [reflexivity|exact Hc].
  - destruct (IH fuel a t Ra Hr' ltac:(discriminate) Ht (K2 _ _ _ Hin)) as [I1 I2]. split; [|exact I2].
    unfold mbind. rewrite I1. reflexivity.
Qed.

Lemma along_issuers r : forall e, reaches W stop id e -> route W stop e r -> map s_iss (map snd (jws (along W e r))) = rev r.
Proof.
  induction r as [|a r IH]; intros e R Hr; [reflexivity|]. inversion Hr as [|? ? ? Ha Hr']; subst.
  cbn [along rev]. rewrite jws_app, !map_app, (IH a (reaches_up _ _ _ _ _ R Ha) Hr').
  destruct (wr_about _ _ _ _ WR e a R Ha) as (H1 & _). cbn. rewrite H1. reflexivity.
Qed.

Lemma claims_issuers r : route W stop id r -> rev (map s_iss (claims_along W id r)) = id :: r.
Proof.
  intros Hr. unfold claims_along, chain_along.
  rewrite jws_app, !map_app, rev_app_distr, (along_issuers r id (reaches_self _ _ _) Hr), rev_involutive.
  destruct (wr_config _ _ _ _ WR id (reaches_self _ _ _)) as (_ & H1 & _). cbn. rewrite H1. reflexivity.
Qed.

(** what a resolver reads from its caches after it has collected the chains of [id] *)
Lemma chain_read s s' chains fuel r wta :
  quiet E id -> visited E (f_col s) -> rank id < fuel ->
  collect_trust_chains E fuel id stop s = (s', Ok (chains, Some (own W id))) ->
  route W stop id r -> r <> [] ->
  get_chain E (id :: r) (end_of id r) wta (f_col s')
  = (f_col s', Ok (map (fun t => Some (ESTok t)) (rev (chain_along W id r) ++ if wta then [own W (end_of id r)] else []))).
Proof.
  intros (HS & _ & HC & Hid) V Hf Hcol Hr Hne.
  assert (HC' := hints_clean E _ HS HC). assert (R := reaches_self W stop id).
  destruct (collect_eq E HS HF HC' stop fuel id Hid (f_col s) (visited_consistent E HS HF HC' _ V)) as (s1 & E1 & C1 & _ & P1).
  destruct (wr_ptree E W stop id rank WR RK HF fuel id R Hf) as (tr & Ht & _).
  assert (Ep : pcollect E fuel stop id = Ok (Some (tr, own W id))).
  { unfold pcollect. rewrite (wr_pconf E W stop id WR id R). cbn [bind].
    rewrite (wr_self_signed E W stop id WR id R). cbn [bind fst snd]. rewrite Ht. reflexivity. }
  rewrite Ep in E1, P1. destruct (P1 _ eq_refl) as [K (cf & Hv & _ & Hg)].
  unfold collect_trust_chains, mbind, on_col in Hcol. rewrite E1 in Hcol. injection Hcol as <- _. cbn [f_col].
  destruct (route_cached s1 r fuel id tr R Hr Hne Ht K) as [R1 (c & Hc)].
  destruct (reach_end W stop id r id R Hr) as [Rend _].
  unfold get_chain. unfold mbind at 1. rewrite (get_chain_config_ok E s1 id _ _ _ HS HF C1 Hg Hv).
  unfold mbind at 1. rewrite R1. unfold chain_along. rewrite rev_app_distr. cbn [rev app map]. rewrite map_app. destruct wta.
  - unfold mbind. rewrite (get_chain_config_ok E s1 _ c _ _ HS HF C1 Hc (wr_pverified E W stop id WR _ Rend)). reflexivity.
  - cbn [map]. rewrite app_nil_r. reflexivity.
Qed.

End Caches.

(** ** C140: resolvers answer for the members of a federation *)

(** [r] leads from [e] up to [top], or to a member without superiors *)
Inductive upto (F : list member) (top : string) : string -> list string -> Prop :=
| upto_end m : In m F -> m_id m = top \/ superiors_of m = [] -> upto F top (m_id m) []
| upto_up m a r : In m F -> m_id m <> top -> In a (superiors_of m) -> upto F top a r -> upto F top (m_id m) (a :: r).

(** the resolver knows the keys of the entity at the end of [rt], and the constraints along it are met *)
Definition usable_upto (jwks_of : val -> option (list key)) (F : list member) (E : cenv) (kj : keyjar) (top id : string)
    (rt : list string) : Prop :=
  upto F top id rt /\ rt <> [] /\ VerifierSpec.known kj (end_of id rt) /\ accepted (said jwks_of F E id rt).

Definition checkable_upto (jwks_of : val -> option (list key)) (F : list member) (E : cenv) (top id : string) : Prop :=
  forall rt, upto F top id rt -> exists b, meets_restrictions (said jwks_of F E id rt) = Ok b.

(** the chain in a response: configuration, statements upwards, and the configuration of the anchor if wanted *)
Definition names_in (o : option esval) : option (string * string) :=
  match o with Some (ESTok (TJws _ p)) => Some (names_of p) | _ => None end.

Fixpoint upwards (e : string) (rt : list string) : list (string * string) :=
  match rt with [] => [] | a :: rt' => (a, e) :: upwards a rt' end.

Section Resolver.
Context (jwks_of : val -> option (list key)) (F : list member) (E : cenv) (rank : string -> nat).
Hypothesis L : library_run jwks_of F E.
Hypothesis HR : hierarchy F rank.

Notation W := (library_world jwks_of F (e_clock E 0)).

Lemma above_to top m : In m F -> above W top (m_id m) = if String.eqb (m_id m) top then [] else superiors_of m.
Proof. intros Hm. unfold above. rewrite (member_superiors _ _ _ L m Hm). reflexivity. Qed.

Lemma upto_route top e r : upto F top e r -> route W top e r.
Proof.
  induction 1 as [m Hm Hs|m a r Hm Hn Ha Hr IH]; constructor.
  - rewrite above_to by exact Hm. destruct (String.eqb_spec (m_id m) top); [reflexivity|]. destruct Hs; [contradiction|assumption].
  - rewrite above_to by exact Hm. destruct (String.eqb_spec (m_id m) top); [contradiction|assumption].
  - exact IH.
Qed.

Lemma route_upto top e r : route W top e r -> forall m, In m F -> m_id m = e -> upto F top e r.
Proof.
  induction 1 as [e He|e a r Ha Hr IH]; intros m Hm <-.
  - rewrite above_to in He by exact Hm. constructor; [exact Hm|].
    destruct (String.eqb_spec (m_id m) top); [left; assumption|right; exact He].
  - rewrite above_to in Ha by exact Hm. destruct (String.eqb_spec (m_id m) top); [destruct Ha|].
    destruct (lf_superiors _ _ _ L m a Hm Ha) as (m' & H1 & H2 & _).
    apply upto_up; [exact Hm|assumption|exact Ha|exact (IH m' H1 H2)].
Qed.

Lemma upto_ranked top m : In m F -> ranked W top (m_id m) rank.
Proof.
  intros Hm e a R Ha. destruct (reaches_member _ _ _ L top m e Hm R) as (m' & Hm' & <-).
  rewrite above_to in Ha by exact Hm'. destruct (String.eqb (m_id m') top); [destruct Ha|]. exact (HR m' a Hm' Ha).
Qed.

Lemma upto_jar top m kj : In m F -> right_keys F kj -> jar_right W top (m_id m) kj.
Proof.
  intros Hm Hk e ks R Hd. destruct (reaches_member _ _ _ L top m e Hm R) as (m' & Hm' & <-).
  cbn [library_world w_key]. rewrite (by_id_In _ _ _ L m' Hm'). exact (Hk m' ks Hm' Hd).
Qed.

Lemma upto_run top m : In m F -> well_run W E top (m_id m).
Proof. intros Hm. apply library_well_run; [exact L|exact Hm|]. intros x Hx. exact (no_self F rank HR x Hx). Qed.

Lemma usable_route top m kj rt : In m F ->
  (good_route W kj top (m_id m) rt <-> usable_upto jwks_of F E kj top (m_id m) rt).
Proof.
  intros Hm. unfold good_route, usable_upto, said. split; intros (G1 & G2 & G3 & G4).
  - split; [exact (route_upto _ _ _ G1 m Hm eq_refl)|auto].
  - split; [exact (upto_route _ _ _ G1)|auto].
Qed.

Lemma along_names top e rt : upto F top e rt ->
  map names_in (map (fun t => Some (ESTok t)) (rev (along W e rt))) = map Some (upwards e rt).
Proof.
  induction 1 as [m Hm Hs|m a r Hm Hn Ha Hr IH]; [reflexivity|].
  cbn [along upwards]. rewrite rev_app_distr. cbn [rev app map]. rewrite IH. f_equal.
  destruct (wr_about _ _ _ _ (upto_run top m Hm) (m_id m) a (reaches_self _ _ _)) as (H1 & H2 & _).
  { rewrite above_to by exact Hm. destruct (String.eqb_spec (m_id m) top); [contradiction|exact Ha]. }
  cbn [names_in]. unfold names_of. rewrite H1, H2. reflexivity.
Qed.

Lemma chain_names top m rt : In m F -> upto F top (m_id m) rt ->
  map names_in (map (fun t => Some (ESTok t)) (rev (chain_along W (m_id m) rt)))
  = Some (m_id m, m_id m) :: map Some (upwards (m_id m) rt).
Proof.
  intros Hm Hu. unfold chain_along. rewrite rev_app_distr. cbn [rev app map]. f_equal.
  - cbn [names_in own]. rewrite (config_names _ _ _ rank L HR m Hm). reflexivity.
  - exact (along_names top _ rt Hu).
Qed.

End Resolver.

(** A request for [m] and the anchor [a]: the answer names [m], has what the policies along a path of [m] to [a] make of
    its metadata, and the statements along that path.  There is no answer if there is no such path, or the metadata has
    not got the type that is asked for; any other exception comes from the policies along a path. *)
Theorem C140_resolved : forall jwks_of F E O rank fuel me jwks wta m a t s s' r,
  library_run jwks_of F E -> hierarchy F rank -> checkable_upto jwks_of F E a (m_id m) -> In m F -> rank (m_id m) < fuel ->
  visited E (f_col s) -> right_keys F (f_keys s) ->
  resolve E O fuel me jwks wta (ask a (m_id m) t) s = (s', r) ->
  match r with
  | Ok resp => exists rt md v,
      usable_upto jwks_of F E (f_keys s) a (m_id m) rt /\ end_of (m_id m) rt = a /\
      adjusted O jwks_of F E (m_id m) rt md /\ asked_for md t v /\ carries (rr_claims resp) v /\
      dget "iss" (rr_claims resp) = Some (VStr me) /\ dget "sub" (rr_claims resp) = Some (VStr (m_id m)) /\
      map names_in (rr_chain resp) =
        Some (m_id m, m_id m) :: map Some (upwards (m_id m) rt) ++ (if wta then [Some (a, a)] else [])
  | Err x =>
      (exists rt, usable_upto jwks_of F E (f_keys s) a (m_id m) rt /\ policy_call_chain O (said jwks_of F E (m_id m) rt) = Err x) \/
      (x = AttributeError /\ forall rt, usable_upto jwks_of F E (f_keys s) a (m_id m) rt -> end_of (m_id m) rt <> a) \/
      (x = KeyError /\ exists rt md, usable_upto jwks_of F E (f_keys s) a (m_id m) rt /\ end_of (m_id m) rt = a /\
         adjusted O jwks_of F E (m_id m) rt md /\ forall v, ~ asked_for md t v)
  end.
Proof.
  intros jwks_of F E O rank fuel me jwks wta m a t s s' r L HR CC Hm Hf V Hk H.
  set (W := library_world jwks_of F (e_clock E 0)).
  assert (Q := library_quiet _ _ _ L m Hm). assert (HF := proj1 (proj2 Q)).
  assert (WR := upto_run jwks_of F E rank L HR a m Hm). assert (RK := upto_ranked jwks_of F E rank L HR a m Hm).
  assert (CC' : constraints_clear W a (m_id m)).
  { intros rt Hrt. apply CC. exact (route_upto jwks_of F E L a _ _ Hrt m Hm eq_refl). }
  destruct (verified_routes E W a (m_id m) rank fuel s Q V WR RK Hf (upto_jar jwks_of F E L a m _ Hm Hk) CC')
    as (s1 & kj' & chains & tcs & C1 & C2 & C3 & C4 & C5 & C6 & _ & _ & C7 & C8).
  unfold resolve, ask in H. cbn [rq_anchor rq_sub rq_type] in H. unfold mbind at 1 2, lift at 1 2, given in H. cbn beta iota in H.
  unfold mbind at 1 in H. rewrite C1 in H. cbn [fst snd] in H. unfold mbind at 1, on_keys in H. rewrite C2, C6 in H.
  unfold mbind at 1, lift at 1 in H. destruct (apply_policies O tcs) as [cs|x] eqn:Ea.
  2:{ injection H as <- <-. left. destruct (applied_err O tcs x Ea) as (tc & Ht & Hp).
      destruct (C7 tc Ht) as (rt & Hg & _ & B2 & _). exists rt. split; [apply (usable_route jwks_of F E L a m), Hg; exact Hm|].
      rewrite B2 in Hp. exact Hp. }
  destruct (applied_of O tcs cs Ea) as [A1 A2].
  destruct (find (fun c => String.eqb a (ch_anchor c)) cs) as [c|] eqn:Ef.
  2:{ injection H as <- <-. right. left. split; [reflexivity|]. intros rt Hu Eend.
      apply (usable_route jwks_of F E L a m) in Hu; [|exact Hm].
      destruct (C8 rt Hu) as (tc & Ht & _ & _ & B3). destruct (A2 tc Ht) as (c & Hc & D1 & _).
      apply (find_none _ _ Ef) in Hc. rewrite D1, B3, Eend, String.eqb_refl in Hc. discriminate Hc. }
  apply find_some in Ef. destruct Ef as [Hin Eanc]. apply String.eqb_eq in Eanc.
  destruct (A1 c Hin) as (tc & Ht & D1 & D2 & D3). destruct (C7 tc Ht) as (rt & Hg & B1 & B2 & B3).
  assert (Hu : usable_upto jwks_of F E (f_keys s) a (m_id m) rt) by (apply (usable_route jwks_of F E L a m), Hg; exact Hm).
  assert (Hend : end_of (m_id m) rt = a) by congruence.
  assert (Hadj : adjusted O jwks_of F E (m_id m) rt (ch_md c)) by (rewrite B2 in D3; exact D3).
  change (match t with
          | Some t => let* v := md_index (ch_md c) t in Ok (VDict [(t, v)])
          | None => Ok (md_val (ch_md c))
          end) with (metadata_asked (ch_md c) t) in H.
  unfold mbind at 1, lift at 1 in H. destruct (metadata_asked (ch_md c) t) as [v|x] eqn:Em.
  2:{ injection H as <- <-. right. right. split.
      - destruct t as [ty|]; cbn [metadata_asked] in Em; [|discriminate Em].
        destruct (md_index (ch_md c) ty) as [v|y] eqn:Ei; cbn [bind] in Em; [discriminate Em|]. injection Em as <-.
        unfold md_index in Ei. destruct (ch_md c) as [d|d].
        + unfold dindex in Ei. destruct (dget ty d); cbn [bind] in Ei; [discriminate Ei|]. injection Ei as <-. reflexivity.
        + unfold dindex in Ei. destruct (dget ty d); [discriminate Ei|]. injection Ei as <-. reflexivity.
      - exists rt, (ch_md c). split; [exact Hu|]. split; [exact Hend|]. split; [exact Hadj|].
        intros v Hv. apply metadata_asked_ok in Hv. congruence. }
  apply metadata_asked_ok in Em.
  assert (Epath : tc_iss_path (ch_tc c) = m_id m :: rt).
  { destruct (proj1 (FederationProps.mapM_In _ _ _ _ _ Ea) c Hin) as (tc' & Ht' & Hap).
    unfold apply_to_chain in Hap. apply bind_ok in Hap. destruct Hap as ([md ves] & Hp & Eq). injection Eq as Eq.
    assert (E1 : tc_chain tc' = tc_chain tc) by (rewrite <- D2, <- Eq; reflexivity).
    rewrite <- Eq. cbn [ch_tc tc_iss_path].
    pose proof Ht' as Hs. apply (verify_chains_spec E _ chains _ _ _ C6) in Hs. destruct Hs as (pre & ch & post & _ & Hv).
    apply call_ok in Hv. destruct Hv as (_ & _ & _ & -> & _).
    destruct (C7 tc' Ht') as (rt' & Hg' & B1' & B2' & _).
    rewrite B2', (claims_issuers E W a (m_id m) WR rt' (proj1 Hg')). f_equal.
    rewrite B1', B1 in E1. apply (f_equal (fun l => rev (map s_iss (map snd (jws l))))) in E1.
    change (map snd (jws (chain_along W (m_id m) ?r))) with (claims_along W (m_id m) r) in E1.
    rewrite !(claims_issuers E W a (m_id m) WR) in E1 by apply Hg || apply Hg'. injection E1 as E1. exact E1. }
  rewrite Epath in H. unfold mbind at 1, on_col at 1 in H. cbn [f_col f_keys f_chains] in H.
  assert (R := chain_read E W a (m_id m) rank WR RK HF s s1 chains fuel rt wta Q V Hf C1 (proj1 Hg) (proj1 (proj2 Hg))).
  rewrite Hend in R. rewrite R in H.
  unfold mbind, on_col, now, lift, ret in H. cbn [f_col f_keys f_chains] in H.
  destruct (create_total (e_clock E (st_tick (f_col s1))) me (m_id m) jwks [("metadata", v)]) as (p & Hp).
  { intros k [<-|[<-|[<-|[]]]]; reflexivity. }
  { intros w Hw. discriminate Hw. }
  rewrite Hp in H. injection H as <- <-. exists rt, (ch_md c), v.
  assert (ND : NoDup (dkeys [("metadata", v)])) by (apply nodupb_sound; reflexivity).
  assert (Cl := create_claims _ _ _ _ _ _ ND Hp).
  split; [exact Hu|]. split; [exact Hend|]. split; [exact Hadj|]. split; [exact Em|]. cbn [rr_claims rr_chain].
  split. { unfold carries. rewrite Cl. reflexivity. }
  split; [rewrite Cl; reflexivity|]. split; [rewrite Cl; reflexivity|].
  rewrite map_app, map_app. unfold W. rewrite (chain_names jwks_of F E rank L HR a m rt Hm (proj1 Hu)). cbn [app]. f_equal. f_equal.
  destruct wta; [|reflexivity].
  destruct (reach_end W a (m_id m) rt (m_id m) (reaches_self _ _ _) (proj1 Hg)) as [Rend _]. rewrite Hend in Rend.
  destruct (wr_config _ _ _ _ WR a Rend) as (_ & H1 & H2 & _). cbn [map names_in own]. unfold names_of.
  rewrite H1, H2. reflexivity.
Qed.
Print Assumptions C140_resolved.

(** ta resolves rp, with the contact that its policy adds; the anchor's configuration is wanted *)
Example C140_ex : checkable_upto ex_jwks v_fed v_env "ta" (m_id v_rp) /\
  exists s' resp, resolve v_env id_order 2 "ta" (VInt 1) true (ask "ta" "rp" (Some "openid_relying_party")) v_start = (s', Ok resp) /\
    map names_in (rr_chain resp) = [Some ("rp", "rp"); Some ("ta", "rp"); Some ("ta", "ta")] /\
    exists md, dget "metadata" (rr_claims resp) = Some (VDict [("openid_relying_party", VDict md)]) /\
               dget "contacts" md = Some (VList [VStr "ta"]).
Proof.
  split.
  - intros rt H. assert (Hrt : rt = ["ta"]).
    { inversion H as [m0 Hm0 Hs Em Er|m0 a r Hm0 Hn Ha Hr Em Er]; subst.
      - exfalso. live_members; try discriminate Em; destruct Hs as [Hs|Hs]; discriminate Hs.
      - live_members; try discriminate Em. destruct Ha as [<-|[]]. f_equal.
        inversion Hr as [m1 Hm1 Hs1 E1 E2|m1 a1 r1 Hm1 Hn1 Ha1 Hr1 E1 E2]; [reflexivity|].
        exfalso. live_members; try discriminate E1. apply Hn1. reflexivity. }
    subst rt. eexists. vm_compute. reflexivity.
  - eexists _, _. split; [vm_compute; reflexivity|]. split; [reflexivity|]. eexists. split; reflexivity.
Qed.

(** nobody has a path to op; and rp is no provider *)
Example C140_refused :
  snd (resolve v_env id_order 2 "ta" (VInt 1) true (ask "op" "rp" None) v_start) = Err AttributeError /\
  snd (resolve v_env id_order 2 "ta" (VInt 1) true (ask "ta" "rp" (Some "openid_provider")) v_start) = Err KeyError.
Proof. split; vm_compute; reflexivity. Qed.
