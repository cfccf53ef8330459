(** A client that asks for what the server supports is registered (C141). *)
From Verif Require Import PyFacts RegistrationFacts RegistrationProps RegistrationUriProps.
From Coq Require Import Permutation.

(** what the server makes of the value [v] of the claim [k]: values it does not know anything about are kept, of the
    values for which it publishes a list those in the list; a single value that is not in the list is left out *)
Inductive granted (R : reg_env) (k : string) (v : val) : option val -> Prop :=
| granted_passed : passed_on R k -> granted R k v (Some v)
| granted_free mk : dget k (rg_preferred R) = Some mk -> dget mk (rg_provider R) = None -> truthy v = true -> granted R k v (Some v)
| granted_common mk ms l c : dget k (rg_preferred R) = Some mk -> dget mk (rg_provider R) = Some (VList (map VStr ms)) ->
    dget k (rg_listed R) = Some true -> v = VList (map VStr l) ->
    c <> [] -> NoDup c -> (forall x, In x c <-> In x l /\ In x ms) -> granted R k v (Some (VList (map VStr c)))
| granted_one mk ms b s : dget k (rg_preferred R) = Some mk -> dget mk (rg_provider R) = Some (VList (map VStr ms)) ->
    dget k (rg_listed R) = Some b -> v = VStr s -> s <> "" -> In s ms -> granted R k v (Some v)
| granted_not mk ms b s : dget k (rg_preferred R) = Some mk -> dget mk (rg_provider R) = Some (VList (map VStr ms)) ->
    dget k (rg_listed R) = Some b -> v = VStr s -> ~ In s ms -> granted R k v None.

Definition granted_of (R : reg_env) (k : string) (request : dict val) (w : option val) : Prop :=
  match dget k request with Some v => granted R k v w | None => w = None end.

Definition algs : list string := ["id_token_signed_response_alg"; "userinfo_signed_response_alg"].

(** a redirect URI the server accepts *)
Definition good_redirect (R : reg_env) (request : dict val) (p : url) : Prop :=
  (app_type request = VStr "native" /\ (~ web_scheme p \/ loopback p)) \/
  (app_type request <> VStr "native" /\ u_fragment p = "" /\
     (u_scheme p = "https" \/
      (u_scheme p = "http" /\
       (app_type request <> VStr "web" \/ forall w, granted_of R "response_types" request w -> w = Some (VList [VStr "code"]))))).

(** requests nothing is wrong with *)
Record good_request (R : reg_env) (new_id : bool) (request : dict val) : Prop := mkGood {
  gr_keys : NoDup (dkeys request);
  gr_schema : rg_schema R request = true;
  gr_claims : forall k v, dget k request = Some v -> rg_blank R v = false /\ exists w, granted R k v w;
  gr_passed : forall k, In k (["client_id"; "application_type"; "jwks"; "jwks_uri"; "signed_jwks_uri"] ++ uri_claims) -> passed_on R k;
  gr_id : new_id = false -> exists id, dget "client_id" request = Some (VStr id) /\ id <> "";
  gr_redirect : forall v, dget "redirect_uris" request = Some v ->
    exists l, v = VList (map VStr l) /\ forall u, In u l -> good_redirect R request (rg_parse R u);
  gr_request : forall v, dget "request_uris" request = Some v ->
    exists l, v = VList (map VStr l) /\ forall u, In u l -> u_query (rg_parse R u) = "";
  gr_other : forall k v, In k other_uris -> dget k request = Some v ->
    exists l, dget "redirect_uris" request = Some (VList l) /\
      forall vs, Forall2 (stored_as R request) l vs -> rg_verify_url R v (VList vs) = true;
  gr_logout : forall v, dget "post_logout_redirect_uri" request = Some v -> truthy v = true ->
    exists u, v = VStr u /\ u_fragment (rg_parse R u) = "";
  gr_jwks : forall v, dget "jwks" request = Some v -> exists ks, ks_jwks (rg_keys R) v = Ok ks }.

(** full statement: such a client is registered *)
Definition C141_full : Prop := forall O R request new_id set_secret reserved s,
  good_request R new_id request ->
  exists s' args, step2_process_request O R request new_id set_secret reserved s = (s', Ok (Done args)).

(** ** Lemmas *)
Lemma vmem_str s l : vmem (VStr s) (map VStr l) = true <-> In s l.
Proof.
  rewrite vmem_true. split.
  - intros (y & Hin & He). apply in_map_iff in Hin as (x & <- & Hx). cbn in He. apply String.eqb_eq in He. subst. exact Hx.
  - intros H. exists (VStr s). split; [apply in_map, H | cbn; apply String.eqb_refl].
Qed.

Lemma strings_of (L : list val) : (forall x, In x L -> exists s, x = VStr s) -> exists c, L = map VStr c.
Proof.
  induction L as [|x L IH]; intros H; [exists []; reflexivity|].
  destruct (H x (or_introl eq_refl)) as [s ->]. destruct (IH (fun y I => H y (or_intror I))) as [c ->].
  exists (s :: c). reflexivity.
Qed.

Lemma all_hashable_strs l : all_hashable (map VStr l).
Proof. intros x H. apply in_map_iff in H as (k & <- & _). reflexivity. Qed.

Lemma py_set_strs l : py_set (VList (map VStr l)) = Ok (dedup (map VStr l)).
Proof.
  cbn [py_set]. unfold set_of_list. replace (forallb hashable (map VStr l)) with true; [reflexivity|].
  symmetry. apply forallb_forall. intros x H. exact (all_hashable_strs l x H).
Qed.

Lemma dedup_strs_nodup l : NoDup (dedup (map VStr l)).
Proof.
  induction l as [|s l IH]; [constructor|]. cbn [map dedup]. constructor.
  - intros H. apply filter_In in H as [_ H]. cbn in H. rewrite String.eqb_refl in H. discriminate H.
  - apply NoDup_filter, IH.
Qed.

Lemma In_dedup_strs s l : In (VStr s) (dedup (map VStr l)) <-> In s l.
Proof.
  split; intros H.
  - apply dedup_In, in_map_iff in H as (x & E & I). injection E as ->. exact I.
  - apply vmem_str in H. rewrite <- (vmem_dedup (VStr s) _ eq_refl (all_hashable_strs l)) in H.
    apply vmem_true in H as (y & I & E).
    assert (J := dedup_In _ _ I). apply in_map_iff in J as (x & <- & _). cbn in E. apply String.eqb_eq in E. subst. exact I.
Qed.

(** the values the client asks for and the server supports *)
Lemma common_strs O l ms : exists c,
  iov O (set_inter (dedup (map VStr ms)) (dedup (map VStr l))) = map VStr c /\
  NoDup c /\ (forall x, In x c <-> In x l /\ In x ms).
Proof.
  destruct (strings_of (iov O (set_inter (dedup (map VStr ms)) (dedup (map VStr l))))) as [c Hc].
  { intros x I. apply iov_In in I. unfold set_inter in I. apply filter_In in I as [I _]. apply dedup_In, in_map_iff in I as (s & <- & _).
    exists s. reflexivity. }
  exists c. split; [exact Hc|]. split.
  - apply (NoDup_map_inv VStr). rewrite <- Hc. apply (Permutation_NoDup (Permutation_sym (iov_perm O _))).
    apply NoDup_filter, dedup_strs_nodup.
  - intros x. transitivity (In (VStr x) (map VStr c)).
    { split; [apply in_map|]. intros I. apply in_map_iff in I as (y & E & I). injection E as ->. exact I. }
    rewrite <- Hc, iov_In. unfold set_inter. rewrite filter_In, In_dedup_strs.
    rewrite (vmem_dedup (VStr x) _ eq_refl (all_hashable_strs l)), vmem_str. tauto.
Qed.

Lemma granted_match O R k v w : granted R k v w -> dmem k (rg_preferred R) = true ->
  exists x, match_claim O R k v = Ok x /\ granted R k v (if truthy x then Some x else None).
Proof.
  intros K D. unfold match_claim. destruct K as [P | mk E1 E2 T | mk ms l c E1 E2 E3 -> N ND HC | mk ms b s E1 E2 E3 -> N I | mk ms b s E1 E2 E3 -> I].
  - unfold passed_on in P. congruence.
  - rewrite E1, E2. exists v. split; [reflexivity|]. rewrite T. exact (granted_free _ _ _ _ E1 E2 T).
  - rewrite E1, E2, E3.
    assert (T : truthy (VList (map VStr ms)) = true).
    { destruct ms; [|reflexivity]. destruct c as [|x c]; [contradiction N; reflexivity|]. destruct (proj1 (HC x) (or_introl eq_refl)) as [_ []]. }
    rewrite T, !py_set_strs. cbn [bind]. destruct (common_strs O l ms) as (c' & Hc & Nc & Mc).
    assert (Hn : c' <> []).
    { intros ->. destruct c as [|x c]; [exact (N eq_refl)|]. exact (proj2 (Mc x) (proj1 (HC x) (or_introl eq_refl))). }
    destruct (set_inter (dedup (map VStr ms)) (dedup (map VStr l))) as [|y ys] eqn:Es.
    { exfalso. apply Hn. assert (Z : iov O [] = []) by (apply iov_nil; reflexivity). rewrite Z in Hc. destruct c'; [reflexivity | discriminate Hc]. }
    cbn [is_nil]. rewrite Hc. eexists. split; [reflexivity|].
    assert (Tc : truthy (VList (map VStr c')) = true) by (destruct c'; [contradiction Hn; reflexivity | reflexivity]).
    rewrite Tc. exact (granted_common _ _ _ _ _ _ _ E1 E2 E3 eq_refl Hn Nc Mc).
  - rewrite E1, E2, E3.
    assert (T : truthy (VList (map VStr ms)) = true) by (destruct ms; [destruct I | reflexivity]). rewrite T.
    apply vmem_str in I. assert (Ts : truthy (VStr s) = true) by (destruct s; [contradiction N; reflexivity | reflexivity]).
    exists (VStr s). rewrite Ts. split; [|apply vmem_str in I; exact (granted_one _ _ _ _ _ _ _ E1 E2 E3 eq_refl N I)].
    destruct b; cbn [py_in bind]; rewrite I; reflexivity.
  - rewrite E1, E2, E3. exists VNull. split; [|exact (granted_not _ _ _ _ _ _ _ E1 E2 E3 eq_refl I)].
    assert (V : vmem (VStr s) (map VStr ms) = false) by (destruct (vmem (VStr s) (map VStr ms)) eqn:V; [apply vmem_str in V; contradiction | reflexivity]).
    destruct (truthy (VList (map VStr ms))); [|reflexivity]. destruct b; cbn [py_in bind]; rewrite V; reflexivity.
Qed.

Lemma filter_total O R : forall request acc,
  (forall k v, In (k, v) request -> dmem k (rg_preferred R) = true -> exists x, match_claim O R k v = Ok x) ->
  exists req, foldM (fun args (e : string * val) =>
           let (k, v) := e in
           if dmem k (rg_preferred R) then
             let* w := match_claim O R k v in
             Ok (if truthy w then dset k w args else args)
           else Ok (dset k v args)) request acc = Ok req.
Proof.
  induction request as [|[k v] request IH]; intros acc H; [eexists; reflexivity|]. cbn [foldM].
  destruct (dmem k (rg_preferred R)) eqn:D.
  - destruct (H k v (or_introl eq_refl) D) as [x ->]. cbn [bind]. apply IH. intros k' v' I. apply H. right. exact I.
  - cbn [bind]. apply IH. intros k' v' I. apply H. right. exact I.
Qed.

(** the request as the server goes on with it *)
Lemma good_accepted O R new_id request : good_request R new_id request ->
  exists req, accepted_request O R request req /\ NoDup (dkeys req) /\
    forall k, granted_of R k request (dget k req).
Proof.
  intros G. destruct (filter_total O R (filter (fun e => negb (rg_blank R (snd e))) request) []) as [req Hr].
  { intros k v I D. apply filter_In in I as [I _]. apply (In_dget_nodup _ _ _ _ (gr_keys _ _ _ G)) in I.
    destruct (gr_claims _ _ _ G _ _ I) as [_ [w K]]. destruct (granted_match O R k v w K D) as (x & Hx & _). exists x. exact Hx. }
  assert (A : accepted_request O R request req) by (split; [exact (gr_schema _ _ _ G) | exact Hr]).
  exists req. split; [exact A|]. destruct (accepted_get _ _ _ _ A (gr_keys _ _ _ G)) as [N D]. split; [exact N|].
  intros k. unfold granted_of. specialize (D k). destruct (dget k request) as [v|] eqn:E; [|exact D].
  destruct (gr_claims _ _ _ G _ _ E) as [B [w K]]. rewrite B in D. destruct (dmem k (rg_preferred R)) eqn:M.
  - destruct D as (x & Hx & ->). destruct (granted_match O R k v w K M) as (y & Hy & Hk). rewrite Hx in Hy. injection Hy as <-. exact Hk.
  - rewrite D. apply granted_passed, M.
Qed.

Lemma granted_of_passed R k request w : passed_on R k -> granted_of R k request w -> w = dget k request.
Proof.
  unfold granted_of, passed_on. intros P. destruct (dget k request) as [v|]; [|auto].
  unfold dmem in P. intros K. inversion K; subst; try (rewrite H in P; discriminate P); reflexivity.
Qed.

(** ** The checks of a registration *)
Lemma redirect_ok R req rq (l : list string) :
  app_type req = app_type rq -> dget "redirect_uris" req = Some (VList (map VStr l)) ->
  (forall u, In u l -> 
     (app_type rq = VStr "native" /\ (~ web_scheme (rg_parse R u) \/ loopback (rg_parse R u))) \/
     (app_type rq <> VStr "native" /\ u_fragment (rg_parse R u) = "" /\
       (u_scheme (rg_parse R u) = "https" \/
        (u_scheme (rg_parse R u) = "http" /\ (app_type rq <> VStr "web" \/ dget "response_types" req = Some (VList [VStr "code"])))))) ->
  exists vs, verify_redirect_uris R req = Ok (Done (VList vs)) /\ Forall2 (stored_as R rq) (map VStr l) vs.
Proof.
  intros ET D H. unfold verify_redirect_uris. rewrite D. cbn [bind]. fold (app_type req).
  set (mh := py_eqb (app_type req) (VStr "web") && negb (py_eqb (field "response_types" req) (VList [VStr "code"]))).
  assert (V : forall u, In u l -> exists v, verify_redirect_uri R (app_type req) mh u = Some v /\ stored_as R rq (VStr u) v).
  { intros u I. specialize (H u I). unfold verify_redirect_uri. rewrite ET. set (p := rg_parse R u) in *.
    destruct H as [[Hn Hp]|[Hn [Hf Hs]]].
    - rewrite Hn. cbn [py_eqb]. rewrite String.eqb_refl. destruct (smem (u_scheme p) ["http"; "https"]) eqn:ES; cbn [negb].
      + apply web_scheme_smem in ES. destruct Hp as [Hp|[Hp1 Hp2]]; [contradiction|].
        assert (X : String.eqb (u_scheme p) "http" && smem (u_host p) ["localhost"; "127.0.0.1"] = true).
        { rewrite Hp1. cbn [String.eqb Ascii.eqb Bool.eqb andb]. apply smem_In. destruct Hp2 as [->| ->]; simpl; tauto. }
        rewrite X. destruct (rg_split R u) as [b q] eqn:EQ. eexists. split; [reflexivity|]. exists u. split; [reflexivity|].
        right. split; [exact ES|]. rewrite EQ. reflexivity.
      + eexists. split; [reflexivity|]. exists u. split; [reflexivity|]. left. split; [exact Hn|]. split; [|reflexivity].
        fold p. intros C. apply web_scheme_smem in C. congruence.
    - destruct (py_eqb (app_type rq) (VStr "native")) eqn:EN; [apply py_eqb_native in EN; contradiction|].
      assert (W : web_scheme p) by (destruct Hs as [Hs|[Hs _]]; [right|left]; exact Hs).
      assert (X : mh && negb (String.eqb (u_scheme p) "https") = false).
      { destruct Hs as [Hs|[Hs [Ha|Ha]]].
        - rewrite Hs. cbn. apply andb_false_r.
        - unfold mh. rewrite ET. destruct (py_eqb (app_type rq) (VStr "web")) eqn:EW; [apply py_eqb_web in EW; contradiction|reflexivity].
        - unfold mh, field. rewrite Ha. cbn. rewrite andb_false_r. reflexivity. }
      rewrite X. apply web_scheme_smem in W as W'. rewrite W'. cbn [negb]. rewrite Hf. cbn [String.eqb negb].
      destruct (rg_split R u) as [b q] eqn:EQ. eexists. split; [reflexivity|]. exists u. split; [reflexivity|].
      right. split; [exact W|]. rewrite EQ. reflexivity. }
  clearbody mh. clear H D ET.
  assert (G : forall l, (forall u, In u l -> exists v, verify_redirect_uri R (app_type req) mh u = Some v /\ stored_as R rq (VStr u) v) ->
    forall acc, exists vs, foldM (fun acc u =>
           match acc with
           | Failed => Ok Failed
           | Done (VList l) =>
               match u with
               | VStr s => Ok (match verify_redirect_uri R (app_type req) mh s with
                               | Some v => Done (VList (l ++ [v]))
                               | None => Failed
                               end)
               | _ => Err AttributeError
               end
           | Done _ => Err TypeError
           end) (map VStr l) (Done (VList acc)) = Ok (Done (VList (acc ++ vs))) /\ Forall2 (stored_as R rq) (map VStr l) vs).
  { clear. induction l as [|u l IH]; intros H acc; [exists []; rewrite app_nil_r; split; [reflexivity|constructor]|].
    destruct (H u (or_introl eq_refl)) as (v & E & S).
    destruct (IH (fun x I => H x (or_intror I)) (acc ++ [v])) as (vs & F & F2). cbn [map foldM]. rewrite E. cbn [bind].
    exists (v :: vs). rewrite F, <- app_assoc. split; [reflexivity | constructor; assumption]. }
  destruct (G l V []) as (vs & F & F2). exists vs. split; [exact F | exact F2].
Qed.

Lemma request_uris_fit R (l : list string) : (forall u, In u l -> u_query (rg_parse R u) = "") ->
  exists vs, verify_request_uris R (map VStr l) = Ok (Done (VList vs)).
Proof.
  intros H. unfold verify_request_uris.
  match goal with |- exists vs, foldM ?f _ _ = _ => set (g := f) end. generalize (@nil val).
  induction l as [|u l IH]; intros acc; [exists acc; reflexivity|]. cbn [map foldM]. unfold g at 1. cbv zeta.
  rewrite (H u (or_introl eq_refl)). cbn [String.eqb negb bind].
  destruct (negb (String.eqb (u_fragment (rg_parse R u)) "")); apply IH; intros x I; apply H; right; exact I.
Qed.

Lemma other_uris_fit R request ci rs :
  (forall k v, In k other_uris -> dget k request = Some v -> dget "redirect_uris" ci = Some rs /\ rg_verify_url R v rs = true) ->
  exists ci', verify_other_uris R request ci = Ok (Done ci').
Proof.
  unfold verify_other_uris. fold other_uris.
  enough (G : forall l, (forall x, In x l -> In x other_uris) -> forall ci,
    (forall k v, In k l -> dget k request = Some v -> dget "redirect_uris" ci = Some rs /\ rg_verify_url R v rs = true) ->
    exists ci', foldM (fun (acc : outcome (dict val)) item =>
           match acc with
           | Failed => Ok Failed
           | Done ci =>
               match dget item request with
               | None => Ok (Done ci)
               | Some v => let* rs := dindex "redirect_uris" ci in
                           Ok (if rg_verify_url R v rs then Done (dset item v ci) else Failed)
               end
           end) l (Done ci) = Ok (Done ci')).
  { intros H. exact (G other_uris (fun x I => I) ci H). }
  induction l as [|x l IH]; intros S c H; [eexists; reflexivity|]. cbn [foldM].
  destruct (dget x request) as [v|] eqn:D.
  - destruct (H x v (or_introl eq_refl) D) as [E V]. unfold dindex. rewrite E. cbn [bind]. rewrite V.
    apply IH; [intros y I; apply S; right; exact I|]. intros k w I Dk. rewrite dget_dset_other; [apply (H k w (or_intror I) Dk)|].
    intros <-. specialize (S _ (or_introl eq_refl)). unfold other_uris in S. simpl in S. intuition discriminate.
  - apply IH; [intros y I; apply S; right; exact I|]. intros k w I. apply H. right. exact I.
Qed.

(** the supported algorithms are in a list, if there are any *)
Definition alg_fits (R : reg_env) (k : string) : Prop :=
  exists mk, dget k (rg_preferred R) = Some mk /\
    (dget mk (rg_provider R) = None \/ exists ms, dget mk (rg_provider R) = Some (VList ms)).

Lemma check_algs_fit R request ci :
  (forall k v, In k algs -> dget k request = Some v -> alg_fits R k /\ dmem k ci = true) ->
  exists ci', check_algs R request ci = Ok ci'.
Proof.
  unfold check_algs. fold algs.
  enough (G : forall l, NoDup l -> forall ci,
    (forall k v, In k l -> dget k request = Some v -> alg_fits R k /\ dmem k ci = true) ->
    exists ci', foldM (fun (ci : dict val) (item : string) =>
           match dget item request with
           | None => Ok ci
           | Some alg =>
               let* claim := dindex item (rg_preferred R) in
               match dget claim (rg_provider R) with
               | None | Some VNull =>
                   if dmem item ci then Ok (ddel item ci) else Err KeyError
               | Some support =>
                   let* b := py_in alg support in
                   if b && negb (rg_signing R alg)
                   then (if dmem item ci then Ok (ddel item ci) else Err KeyError)
                   else Ok ci
               end
           end) l ci = Ok ci').
  { intros H. apply (G algs); [|exact H]. repeat constructor; simpl; intuition discriminate. }
  induction l as [|x l IH]; intros N c H; [eexists; reflexivity|]. cbn [foldM]. inversion N as [|? ? NI N']; subst.
  assert (T : forall k v, In k l -> dget k request = Some v -> alg_fits R k /\ dmem k (ddel x c) = true).
  { intros k v I D. destruct (H k v (or_intror I) D) as [A B]. split; [exact A|]. unfold dmem in *.
    rewrite dget_ddel_other; [exact B|]. intros ->. contradiction. }
  assert (T0 : forall k v, In k l -> dget k request = Some v -> alg_fits R k /\ dmem k c = true).
  { intros k v I. apply H. right. exact I. }
  destruct (dget x request) as [v|] eqn:D; [|apply IH; assumption].
  destruct (H x v (or_introl eq_refl) D) as [(mk & E1 & E2) M]. unfold dindex. rewrite E1. cbn [bind]. rewrite M.
  destruct E2 as [-> |[ms ->]]; [apply IH; assumption|]. cbn [py_in bind].
  destruct (vmem v ms && negb (rg_signing R v)); apply IH; assumption.
Qed.

(** a registration that passes all checks *)
Lemma setup_ok O R request new_id set_secret reserved s req id req' ci kj :
  accepted_request O R request req -> identified R new_id reserved s req id req' ->
  client_info R req' (first_entry R id new_id set_secret) = Ok (Done ci) ->
  import_client_keys (rg_keys R) req' id (r_keys s) = (kj, Ok tt) ->
  step2_process_request O R request new_id set_secret reserved s =
    (mkRState (dset id ci (dset id (first_entry R id new_id set_secret) (r_cdb s))) (with_secret R set_secret id kj),
     Ok (Done (rg_comb R (filter (fun e => smem (fst e) (rg_response R)) ci)))).
Proof.
  intros [A1 A2] I C K. unfold step2_process_request, client_registration_setup. rewrite A1, A2. cbn [negb].
  assert (G :
    (do _ <- set_client id (first_entry R id new_id set_secret) in
              do r <- do_client_registration R req' id in
              match r with
              | Failed => ret Failed
              | Done ci =>
                  do _ <- (if set_secret && negb (String.eqb (rg_secret R id) "")
                           then on_ckeys (fun kj => (add_ckeys id [KSecret (rg_secret R id)] kj, Ok tt))
                           else ret tt) in
                  do _ <- set_client id ci in
                  ret (Done (rg_comb R (filter (fun e => smem (fst e) (rg_response R)) ci)))
              end) s =
    (mkRState (dset id ci (dset id (first_entry R id new_id set_secret) (r_cdb s))) (with_secret R set_secret id kj),
     Ok (Done (rg_comb R (filter (fun e => smem (fst e) (rg_response R)) ci))))).
  { unfold mbind, set_client, modify, do_client_registration, StateM.get, lift. unfold mbind. cbn [r_cdb r_keys].
    assert (D : dindex id (dset id (first_entry R id new_id set_secret) (r_cdb s)) = Ok (first_entry R id new_id set_secret)).
    { apply dindex_ok, dget_dset_same. }
    rewrite D, C. unfold on_ckeys. cbn [r_cdb r_keys]. rewrite K. cbn. unfold with_secret.
    destruct (set_secret && negb (String.eqb (rg_secret R id) "")); reflexivity. }
  unfold identified in I. destruct new_id.
  - destruct I as [-> ->]. unfold mbind at 1. cbn [StateM.get]. unfold mbind at 1. cbn [ret fst snd].
    match goal with |- context [match ?m s with _ => _ end] => change (m s) with
      ((do _ <- set_client (rg_newid R (if is_nil reserved then dkeys (r_cdb s) else reserved)) (first_entry R (rg_newid R (if is_nil reserved then dkeys (r_cdb s) else reserved)) true set_secret) in
              do r <- do_client_registration R (ddel "client_id" req) (rg_newid R (if is_nil reserved then dkeys (r_cdb s) else reserved)) in
              match r with
              | Failed => ret Failed
              | Done ci =>
                  do _ <- (if set_secret && negb (String.eqb (rg_secret R (rg_newid R (if is_nil reserved then dkeys (r_cdb s) else reserved))) "")
                           then on_ckeys (fun kj => (add_ckeys (rg_newid R (if is_nil reserved then dkeys (r_cdb s) else reserved)) [KSecret (rg_secret R (rg_newid R (if is_nil reserved then dkeys (r_cdb s) else reserved)))] kj, Ok tt))
                           else ret tt) in
                  do _ <- set_client (rg_newid R (if is_nil reserved then dkeys (r_cdb s) else reserved)) ci in
                  ret (Done (rg_comb R (filter (fun e => smem (fst e) (rg_response R)) ci)))
              end) s) end.
    rewrite G. reflexivity.
  - destruct I as (I1 & I2 & ->). unfold mbind at 1. cbn [StateM.get]. unfold mbind at 1.
    unfold field. rewrite I1. apply String.eqb_neq in I2. rewrite I2. cbn [ret].
    match goal with |- context [match ?m s with _ => _ end] => change (m s) with
      ((do _ <- set_client id (first_entry R id false set_secret) in
              do r <- do_client_registration R req id in
              match r with
              | Failed => ret Failed
              | Done ci =>
                  do _ <- (if set_secret && negb (String.eqb (rg_secret R id) "")
                           then on_ckeys (fun kj => (add_ckeys id [KSecret (rg_secret R id)] kj, Ok tt))
                           else ret tt) in
                  do _ <- set_client id ci in
                  ret (Done (rg_comb R (filter (fun e => smem (fst e) (rg_response R)) ci)))
              end) s) end.
    rewrite G. reflexivity.
Qed.

Lemma granted_alg R k v w : granted R k v (Some w) -> dmem k (rg_preferred R) = true -> alg_fits R k.
Proof.
  intros K D. inversion K; subst; try (unfold passed_on in *; congruence);
    (eexists; split; [eassumption|]); [left; assumption | right; eexists; eassumption | right; eexists; eassumption].
Qed.

(** all checks pass *)
Lemma good_info O R new_id request req id req' reserved s set_secret : good_request R new_id request ->
  (forall k v, In k algs -> dget k request = Some v -> dmem k (rg_preferred R) = true) ->
  accepted_request O R request req -> NoDup (dkeys req) -> (forall k, granted_of R k request (dget k req)) ->
  identified R new_id reserved s req id req' ->
  exists ci, client_info R req' (first_entry R id new_id set_secret) = Ok (Done ci).
Proof.
  intros G HA A N K I.
  assert (NR := identified_nodup _ _ _ _ _ _ _ I N).
  assert (D : forall k, k <> "client_id" -> granted_of R k request (dget k req')).
  { intros k H. rewrite (identified_get _ _ _ _ _ _ _ _ I H). apply K. }
  assert (P : forall k, In k (["application_type"; "jwks"; "jwks_uri"; "signed_jwks_uri"] ++ uri_claims) -> dget k req' = dget k request).
  { intros k Hk. apply (granted_of_passed R).
    - apply (gr_passed _ _ _ G). simpl in *. tauto.
    - apply D. intros ->. simpl in Hk. intuition discriminate. }
  assert (AT : app_type req' = app_type request) by (unfold app_type; rewrite P; [reflexivity | simpl; tauto]).
  unfold client_info. fold (base_info req' (first_entry R id new_id set_secret)).
  set (b := base_info req' (first_entry R id new_id set_secret)).
  assert (S1 : exists c1, (if truthy (field "post_logout_redirect_uri" req') then
              match field "post_logout_redirect_uri" req' with
              | VStr u => if negb (String.eqb (u_fragment (rg_parse R u)) "") then Ok Failed
                          else let (b0, q) := rg_split R u in
                               Ok (Done (dset "post_logout_redirect_uri" (VList [VStr b0; q]) b))
              | _ => Err AttributeError
              end
            else Ok (Done b)) = Ok (Done c1) /\ (forall k, dmem k b = true -> dmem k c1 = true)).
  { unfold field. rewrite P by (simpl; tauto). destruct (dget "post_logout_redirect_uri" request) as [v|] eqn:E.
    - destruct (truthy v) eqn:T; [|exists b; auto]. destruct (gr_logout _ _ _ G _ E T) as (u & -> & F). rewrite F. cbn [String.eqb negb].
      destruct (rg_split R u) as [b0 q]. eexists. split; [reflexivity|]. intros k. unfold dmem. rewrite dget_dset. destruct (String.eqb k _); auto.
    - exists b. auto. }
  destruct S1 as (c1 & -> & M1). cbn [bind].
  assert (S2 : exists c2, (if dmem "redirect_uris" req' then
              let* v := verify_redirect_uris R req' in
              Ok (match v with Failed => Failed | Done l => Done (dset "redirect_uris" l c1) end)
            else Ok (Done c1)) = Ok (Done c2) /\ (forall k, dmem k c1 = true -> dmem k c2 = true) /\
            (forall l, dget "redirect_uris" request = Some (VList l) ->
               exists vs, Forall2 (stored_as R request) l vs /\ dget "redirect_uris" c2 = Some (VList vs))).
  { unfold dmem at 1. rewrite P by (simpl; tauto). destruct (dget "redirect_uris" request) as [v|] eqn:E.
    - destruct (gr_redirect _ _ _ G _ E) as (l & -> & HU).
      destruct (redirect_ok R req' request l AT) as (vs & V & F2).
      { rewrite P; [exact E | simpl; tauto]. }
      { intros u Iu. destruct (HU u Iu) as [HN|(H1 & H2 & [H3|[H3 [H4|H4]]])]; [left; exact HN | right; split; [exact H1|]; split; [exact H2|]..].
        - left. exact H3.
        - right. split; [exact H3|]. left. exact H4.
        - right. split; [exact H3|]. right. apply H4, D. discriminate. }
      rewrite V. cbn [bind]. eexists. split; [reflexivity|]. split.
      + intros k. unfold dmem. rewrite dget_dset. destruct (String.eqb k _); auto.
      + intros l' E'. injection E' as <-. exists vs. split; [exact F2 | apply dget_dset_same].
    - eexists. split; [reflexivity|]. split; [auto|]. intros l' E'. discriminate E'. }
  destruct S2 as (c2 & -> & M2 & HR). cbn [bind].
  assert (S3 : exists c3, (match dget "request_uris" req' with
            | Some (VList l) => let* v := verify_request_uris R l in
                                Ok (match v with Failed => Failed | Done l => Done (dset "request_uris" l c2) end)
            | Some _ => Err TypeError
            | None => Ok (Done c2)
            end) = Ok (Done c3) /\ (forall k, dmem k c2 = true -> dmem k c3 = true) /\
            dget "redirect_uris" c3 = dget "redirect_uris" c2).
  { rewrite P by (simpl; tauto). destruct (dget "request_uris" request) as [v|] eqn:E.
    - destruct (gr_request _ _ _ G _ E) as (l & -> & HU). destruct (request_uris_fit R l HU) as [vs ->]. cbn [bind].
      eexists. split; [reflexivity|]. split; [|apply dget_dset_other; discriminate].
      intros k. unfold dmem. rewrite dget_dset. destruct (String.eqb k _); auto.
    - eexists. split; [reflexivity|]. auto. }
  destruct S3 as (c3 & -> & M3 & R3). cbn [bind].
  assert (S4 : exists c4, verify_other_uris R req' c3 = Ok (Done c4)).
  { destruct (dget "redirect_uris" request) as [[| | | |l|]|] eqn:E.
    5:{ destruct (HR l eq_refl) as (vs & F2 & Dv). apply (other_uris_fit R req' c3 (VList vs)). intros k v Ik Dk.
        rewrite P in Dk by (unfold other_uris in Ik; simpl in *; tauto). destruct (gr_other _ _ _ G k v Ik Dk) as (l' & El & V).
        rewrite E in El. injection El as <-. split; [rewrite R3; exact Dv | exact (V vs F2)]. }
    all: apply (other_uris_fit R req' c3 VNull); intros k v Ik Dk;
      rewrite P in Dk by (unfold other_uris in Ik; simpl in *; tauto); destruct (gr_other _ _ _ G k v Ik Dk) as (l' & El & _);
      rewrite E in El; discriminate El. }
  destruct S4 as (c4 & E4). rewrite E4. cbn [bind].
  destruct (check_algs_fit R req' c4) as (c5 & E5).
  { intros k v Ik Dk. assert (Hc : k <> "client_id") by (intros ->; unfold algs in Ik; simpl in Ik; intuition discriminate).
    assert (Kk := D k Hc). rewrite Dk in Kk. unfold granted_of in Kk. destruct (dget k request) as [a|] eqn:Ea; [|discriminate Kk].
    split; [exact (granted_alg _ _ _ _ Kk (HA k a Ik Ea))|].
    assert (B : dmem k b = true).
    { unfold dmem, b. rewrite base_info_get by exact NR.
      assert (Hg : smem k ignored = false).
      { destruct (smem k ignored) eqn:Sk; [|reflexivity]. apply smem_In in Sk. unfold algs, ignored in *. simpl in *. intuition (subst; discriminate). }
      rewrite Hg, Dk. reflexivity. }
    apply M1, M2, M3 in B. unfold dmem in *. rewrite (other_uris_get _ _ _ _ k E4); [exact B|].
    unfold algs in Ik. simpl in *. intuition (subst; discriminate). }
  rewrite E5. cbn [bind]. eexists. reflexivity.
Qed.

Lemma good_import R new_id request req' id kj : good_request R new_id request ->
  (forall k, In k ["jwks"; "jwks_uri"; "signed_jwks_uri"] -> dget k req' = dget k request) ->
  exists kj', import_client_keys (rg_keys R) req' id kj = (kj', Ok tt).
Proof.
  intros G P. unfold import_client_keys. destruct (truthy (field "signed_jwks_uri" req')); [eexists; reflexivity|].
  destruct (truthy (field "jwks_uri" req')); [eexists; reflexivity|]. unfold field. rewrite (P "jwks") by (simpl; tauto).
  destruct (dget "jwks" request) as [v|] eqn:E; [|eexists; reflexivity].
  destruct (truthy v); [|eexists; reflexivity]. destruct (gr_jwks _ _ _ G v E) as [ks ->]. eexists. reflexivity.
Qed.

(** Missing: algorithms for ID tokens or user information asked for at a server that has no such claims, see below. *)
Theorem C141_granted_partial : forall O R request new_id set_secret reserved s,
  good_request R new_id request ->
  (forall k v, In k algs -> dget k request = Some v -> dmem k (rg_preferred R) = true) ->
  exists s' args id ci,
    step2_process_request O R request new_id set_secret reserved s = (s', Ok (Done args)) /\
    client_of R new_id reserved s request id /\ dget id (r_cdb s') = Some ci /\
    (forall k v, dget k request = Some v -> ~ In k checked ->
       ~ In k ["client_id"; "client_salt"; "client_id_issued_at"; "client_secret"; "client_secret_expires_at"] ->
       granted R k v (dget k ci)) /\
    (forall l, dget "redirect_uris" request = Some (VList l) ->
       exists vs, dget "redirect_uris" ci = Some (VList vs) /\ Forall2 (stored_as R request) l vs).
Proof.
  intros O R request new_id set_secret reserved s G HA.
  destruct (good_accepted O R new_id request G) as (req & A & N & K).
  assert (HI : exists id req', identified R new_id reserved s req id req').
  { unfold identified. destruct new_id; [eexists _, _; split; reflexivity|].
    destruct (gr_id _ _ _ G eq_refl) as (id & Di & Ni). exists id, req. split; [|auto]. specialize (K "client_id").
    apply granted_of_passed in K; [congruence|]. apply (gr_passed _ _ _ G). left. reflexivity. }
  destruct HI as (id & req' & I).
  assert (NR := identified_nodup _ _ _ _ _ _ _ I N).
  assert (D : forall k, k <> "client_id" -> granted_of R k request (dget k req')).
  { intros k H. rewrite (identified_get _ _ _ _ _ _ _ _ I H). apply K. }
  assert (P : forall k, In k (["application_type"; "jwks"; "jwks_uri"; "signed_jwks_uri"] ++ uri_claims) -> dget k req' = dget k request).
  { intros k Hk. apply (granted_of_passed R).
    - apply (gr_passed _ _ _ G). simpl in *. tauto.
    - apply D. intros ->. simpl in Hk. intuition discriminate. }
  destruct (good_info O R new_id request req id req' reserved s set_secret G HA A N K I) as [ci C].
  destruct (good_import R new_id request req' id (r_keys s) G) as [kj KJ].
  { intros k Hk. apply P. simpl in *. tauto. }
  eexists _, _, id, ci. split; [exact (setup_ok _ _ _ _ _ _ _ _ _ _ _ _ A I C KJ)|].
  split; [apply (identified_client _ _ _ _ _ _ _ _ _ (gr_keys _ _ _ G) (gr_passed _ _ _ G _ (or_introl eq_refl)) A I)|].
  split; [apply dget_dset_same|]. split.
  - intros k v Dk Nk Nb. rewrite (stored_claim R id new_id set_secret req' ci k NR C Nk Nb).
    assert (Hk := D k (fun e => Nb (or_introl (eq_sym e)))). unfold granted_of in Hk. rewrite Dk in Hk. exact Hk.
  - intros l Dl. assert (Dl' := Dl). rewrite <- P in Dl' by (simpl; tauto).
    destruct (client_info_redirect _ _ _ _ _ C Dl') as (v & V & Dv).
    assert (AT : app_type req' = app_type request) by (unfold app_type; rewrite P; [reflexivity | simpl; tauto]).
    destruct (verify_uris_ok R req' req' v l eq_refl eq_refl Dl' V) as (vs & -> & F2 & _).
    exists vs. split; [exact Dv|]. clear -F2 AT. induction F2 as [|a x l vs (u & E & S) _ IH]; constructor; [|exact IH].
    exists u. rewrite <- AT. split; assumption.
Qed.

(** The server of the examples is an authorization server that issues no ID tokens; the client gives an algorithm for them. *)
Definition ex_alg : dict val := ("id_token_signed_response_alg", VStr "RS256") :: ex_web.

Ltac good_claims := 
  match goal with |- forall k v, dget k _ = Some v -> _ => 
    intros k v H; cbn [dget ex_alg ex_web] in H;
    repeat (match type of H with (if String.eqb k ?x then _ else _) = _ => 
      destruct (String.eqb_spec k x) as [->|_]; [injection H as <-; split; [reflexivity|]|] end); [..|discriminate H] end.

Lemma ex_web_good : good_request ex_reg true ex_web /\ good_request ex_reg true ex_alg.
Proof.
  split; (constructor; [repeat constructor; simpl; intuition discriminate | reflexivity | good_claims
    | intros k Hk; simpl in Hk; repeat (destruct Hk as [<-|Hk]; [reflexivity|]); destruct Hk
    | discriminate
    | intros v H; injection H as <-; exists ["https://rp/cb"]; split; [reflexivity|]; intros u [<-|[]]; right;
      split; [discriminate|]; split; [reflexivity|]; left; reflexivity
    | intros v H; discriminate H
    | intros k v Hk H; simpl in Hk; destruct Hk as [<-|[<-|[<-|[]]]]; discriminate H
    | intros v H; discriminate H
    | intros v H; eexists; reflexivity]).
  all: try (eexists; apply granted_passed; reflexivity).
  all: exists (Some (VList (map VStr ["code"]))); apply (granted_common _ _ _ "response_types_supported" ["code"; "id_token"] ["code"; "token"]);
    try reflexivity; [discriminate | repeat constructor; simpl; tauto |];
    intros x; simpl; split; [intros [<-|[]]; auto | intros [[<-|[<-|[]]] [E|[E|[]]]]; try discriminate E; auto].
Qed.

Theorem C141_granted_refuted : ~ C141_full.
Proof.
  intros F. destruct (F id_order ex_reg ex_alg true true [] ex_start (proj2 ex_web_good)) as (s' & args & H).
  vm_compute in H. discriminate H.
Qed.

Example C141_ex : good_request ex_reg true ex_web /\
  exists s' args ci, step2_process_request id_order ex_reg ex_web true true [] ex_start = (s', Ok (Done args)) /\
    dget "client1" (r_cdb s') = Some ci /\ dget "client_name" ci = Some (VStr "RP") /\
    dget "response_types" ci = Some (VList [VStr "code"]).
Proof.
  split; [apply ex_web_good|]. eexists _, _, _. split; [vm_compute; reflexivity|]. split; [reflexivity|]. split; reflexivity.
Qed.

Print Assumptions C141_granted_partial.
Print Assumptions C141_granted_refuted.
