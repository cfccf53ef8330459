(** The endpoints and the claims that an entity publishes (C154, C155). *)
From Coq Require Import Ascii.
From Verif Require Import PyFacts ChainsProps.
From Verif Require Export EndpointsModel.

(** ** Vocabulary *)

(** the name ends in _endpoint, as those of the library do *)
Definition endpoint_named (n : string) : Prop := exists p, n = (p ++ "_endpoint")%string.

(** endpoints that are published have such names, and no two of them the same *)
Definition well_named (eps : list endpoint) : Prop :=
  (forall e, In e eps -> ep_endpoint_name e = "" \/ endpoint_named (ep_endpoint_name e)) /\
  forall e e', In e eps -> In e' eps -> ep_endpoint_name e = ep_endpoint_name e' -> ep_endpoint_name e <> "" ->
    ep_full_path e = ep_full_path e'.

(** where the endpoint of this name is, according to the metadata of the type *)
Definition published (md : dict val) (type name : string) : option val :=
  match dget type md with Some (VDict d) => dget name d | _ => None end.

(** ** Lemmas *)
Fixpoint last_char (s : string) : option ascii :=
  match s with
  | EmptyString => None
  | String c s' => match last_char s' with Some x => Some x | None => Some c end
  end.

Lemma last_app a b c : last_char b = Some c -> last_char (a ++ b)%string = Some c.
Proof. intros H. induction a as [|x a IH]; [exact H|]. cbn. rewrite IH. reflexivity. Qed.

Lemma not_auth n p : (n ++ "_auth_methods" <> p ++ "_endpoint")%string /\ (n ++ "_auth_signing_alg_values" <> p ++ "_endpoint")%string.
Proof.
  split; intros H; apply (f_equal last_char) in H;
    rewrite (last_app p "_endpoint" "t"%char eq_refl) in H.
  - rewrite (last_app n "_auth_methods" "s"%char eq_refl) in H. discriminate H.
  - rewrite (last_app n "_auth_signing_alg_values" "s"%char eq_refl) in H. discriminate H.
Qed.

Lemma set_if_other k p l info : k <> p -> dget k (set_if p l info) = dget k info.
Proof. intros N. unfold set_if. destruct (is_nil l); [reflexivity|]. apply dget_dset_other. exact N. Qed.

Lemma claims_get info e n : endpoint_named n ->
  dget n (endpoint_claims info e) = if String.eqb (ep_endpoint_name e) n then Some (VStr (ep_full_path e)) else dget n info.
Proof.
  intros [p ->]. unfold endpoint_claims. destruct (String.eqb (ep_endpoint_name e) "") eqn:E0.
  - apply String.eqb_eq in E0. rewrite E0. destruct p; reflexivity.
  - destruct (not_auth (ep_endpoint_name e) p) as [N1 N2].
    rewrite set_if_other by congruence. rewrite set_if_other by congruence. rewrite dget_dset.
    rewrite String.eqb_sym. destruct (String.eqb (ep_endpoint_name e) (p ++ "_endpoint")); reflexivity.
Qed.

Lemma claims_found eps e : forall info,
  well_named eps -> In e eps -> ep_endpoint_name e <> "" ->
  dget (ep_endpoint_name e) (fold_left endpoint_claims eps info) = Some (VStr (ep_full_path e)).
Proof.
  induction eps as [|x eps IH] using rev_ind; intros info [W1 W2] I NE; [destruct I|].
  rewrite fold_left_app. cbn [fold_left].
  assert (N : endpoint_named (ep_endpoint_name e)) by (destruct (W1 e I) as [H|H]; [destruct (NE H) | exact H]).
  rewrite claims_get by exact N. destruct (String.eqb (ep_endpoint_name x) (ep_endpoint_name e)) eqn:Ex.
  - apply String.eqb_eq in Ex. rewrite (W2 e x I) by (auto || apply in_elt). reflexivity.
  - apply in_app_or in I. destruct I as [I|[->|[]]]; [|rewrite String.eqb_refl in Ex; discriminate].
    apply IH; [|exact I | exact NE]. split.
    + intros y Iy. apply W1, in_or_app. left. exact Iy.
    + intros y z Iy Iz. apply W2; apply in_or_app; left; assumption.
Qed.

Lemma NoDup_set_if p l info : NoDup (dkeys info) -> NoDup (dkeys (set_if p l info)).
Proof. intros N. unfold set_if. destruct (is_nil l); [exact N | apply NoDup_dset, N]. Qed.

Lemma claims_nodup eps : forall info, NoDup (dkeys info) -> NoDup (dkeys (fold_left endpoint_claims eps info)).
Proof.
  induction eps as [|e eps IH]; intros info N; [exact N|]. cbn [fold_left]. apply IH. unfold endpoint_claims.
  destruct (String.eqb (ep_endpoint_name e) ""); [exact N|]. apply NoDup_set_if, NoDup_set_if, NoDup_dset, N.
Qed.

Lemma server_metadata_get schema prefer eps k :
  dget k (get_server_metadata schema prefer eps) =
  match dget k (get_endpoint_claims eps) with Some v => Some v | None => if smem k schema then dget k prefer else None end.
Proof.
  unfold get_server_metadata. rewrite dget_dupdate by (apply claims_nodup; constructor).
  destruct (dget k (get_endpoint_claims eps)); [reflexivity|].
  induction prefer as [|[k' v] prefer IH]; cbn [filter fst]; [destruct (smem k schema); reflexivity|].
  destruct (smem k' schema) eqn:Es.
  - cbn [dget]. destruct (String.eqb k k') eqn:Ek; [|exact IH]. apply String.eqb_eq in Ek. subst k'. rewrite Es. reflexivity.
  - rewrite IH. cbn [dget]. destruct (String.eqb k k') eqn:Ek; [|reflexivity]. apply String.eqb_eq in Ek. subst k'. rewrite Es. reflexivity.
Qed.

Lemma adopted d tme : NoDup (dkeys tme) -> forall k,
  dget k (fold_left (fun d (e : string * endpoint) => dset (fst e) (snd e) d) tme d) =
  match dget k tme with Some e => Some e | None => dget k d end.
Proof. intros N k. exact (dget_dupdate _ k d tme N). Qed.

Lemma published_type t d n : published [(t, VDict d)] t n = dget n d.
Proof. unfold published. cbn [dget]. rewrite String.eqb_refl. reflexivity. Qed.

(** ** C154: endpoints *)

(** every endpoint that has a name is published under it *)
Theorem C154_found : forall schema fe e,
  well_named (map snd (fe_endpoint fe)) -> In e (map snd (fe_endpoint fe)) -> ep_endpoint_name e <> "" ->
  published (fe_get_metadata schema fe "federation_entity") "federation_entity" (ep_endpoint_name e) = Some (VStr (ep_full_path e)).
Proof.
  intros schema fe e W I NE. unfold fe_get_metadata. rewrite published_type.
  rewrite server_metadata_get. unfold get_endpoint_claims. rewrite (claims_found _ e [] W I NE). reflexivity.
Qed.

(** the endpoints of a trust mark entity are published once the federation entity has adopted them *)
Theorem C154_adopted : forall schema fe tme k e,
  NoDup (dkeys tme) -> well_named (map snd (fe_endpoint (adopt fe tme))) -> In (k, e) tme -> ep_endpoint_name e <> "" ->
  published (fe_get_metadata schema (adopt fe tme) "federation_entity") "federation_entity" (ep_endpoint_name e) =
    Some (VStr (ep_full_path e)).
Proof.
  intros schema fe tme k e N W I NE. apply C154_found; [exact W | | exact NE].
  assert (D := adopted (fe_endpoint fe) tme N k). rewrite (In_dget_nodup _ _ _ _ N I) in D. apply dget_In in D.
  change e with (snd (k, e)). apply in_map. exact D.
Qed.

(** full statement: a trust mark entity itself publishes its endpoints where they are looked for *)
Definition C154_issuer_full : Prop := forall tme k e,
  well_named (map snd tme) -> In (k, e) tme -> ep_endpoint_name e <> "" ->
  published (tme_get_metadata tme) "federation_entity" (ep_endpoint_name e) = Some (VStr (ep_full_path e)).

Definition status_ep : endpoint :=
  mkEndpoint "trust_mark_status" "federation_trust_mark_status_endpoint" "https://tmi/status" [VStr "none"] [].
Definition fetch_ep : endpoint := mkEndpoint "fetch" "federation_fetch_endpoint" "https://tmi/fetch" [] [].
Definition config_ep : endpoint := mkEndpoint "entity_configuration" "" "https://tmi/.well-known/openid-federation" [] [].

Lemma named_of n : endpoint_named (n ++ "_endpoint")%string.
Proof. exists n. reflexivity. Qed.

Lemma status_named : well_named [status_ep].
Proof.
  split; [|intros e e' [<-|[]] [<-|[]] _ _; reflexivity].
  intros e [<-|[]]. right. exact (named_of "federation_trust_mark_status").
Qed.

Theorem C154_issuer_refuted : ~ C154_issuer_full.
Proof.
  intros H. specialize (H [("status", status_ep)] "status" status_ep status_named (or_introl eq_refl) ltac:(discriminate)).
  discriminate H.
Qed.

(** no two endpoints have the same name *)
Definition distinct_names (eps : list endpoint) : Prop := forall e e', In e eps -> In e' eps -> ep_name e = ep_name e' -> e = e'.

Definition backwards (s : string) : list ascii := rev (list_ascii_of_string s).

Lemma backwards_app a b : backwards (a ++ b) = backwards b ++ backwards a.
Proof.
  unfold backwards. rewrite <- rev_app_distr. f_equal. induction a as [|c a IH]; [reflexivity|]. cbn. rewrite IH. reflexivity.
Qed.

Lemma backwards_inj a b : backwards a = backwards b -> a = b.
Proof.
  unfold backwards. intros H. apply (f_equal (@rev ascii)) in H. rewrite !rev_involutive in H.
  rewrite <- (string_of_list_ascii_of_string a), <- (string_of_list_ascii_of_string b), H. reflexivity.
Qed.

Lemma same_end a b s : (a ++ s)%string = (b ++ s)%string -> a = b.
Proof. intros H. apply (f_equal backwards) in H. rewrite !backwards_app in H. apply app_inv_head in H. exact (backwards_inj _ _ H). Qed.

(** the claims about one endpoint *)
Lemma tme_get md x n :
  dget (n ++ "_endpoint") (tme_claims md x) =
    (if String.eqb (ep_name x) n && negb (String.eqb (ep_full_path x) "") then Some (VStr (ep_full_path x)) else dget (n ++ "_endpoint") md) /\
  dget (n ++ "_auth_signing_algs") (tme_claims md x) =
    (if String.eqb (ep_name x) n && negb (is_nil (ep_algs x)) then Some (VList (ep_algs x)) else dget (n ++ "_auth_signing_algs") md) /\
  dget (n ++ "_auth_methods") (tme_claims md x) =
    (if String.eqb (ep_name x) n && negb (is_nil (ep_authn x)) then Some (VList (ep_authn x)) else dget (n ++ "_auth_methods") md).
Proof.
  assert (D : forall a b, (a ++ "_endpoint" <> b ++ "_auth_signing_algs")%string /\ (a ++ "_endpoint" <> b ++ "_auth_methods")%string /\
                          (a ++ "_auth_signing_algs" <> b ++ "_auth_methods")%string).
  { intros a b. repeat split; intros H; apply (f_equal backwards) in H; rewrite !backwards_app in H; discriminate H. }
  destruct (D n (ep_name x)) as (D1 & D2 & D3). destruct (D (ep_name x) n) as (D4 & D5 & D6).
  unfold tme_claims, set_if.
  destruct (String.eqb (ep_full_path x) ""), (is_nil (ep_algs x)), (is_nil (ep_authn x)); cbn [negb]; rewrite ?Bool.andb_true_r, ?Bool.andb_false_r;
    (destruct (String.eqb_spec (ep_name x) n) as [<-|N];
     [|assert (forall s, (n ++ s)%string <> (ep_name x ++ s)%string) by (intros s H; apply N; symmetry; exact (same_end _ _ _ H))]);
    repeat split; repeat (rewrite dget_dset_same || rewrite dget_dset_other by (first [assumption | congruence | auto])); reflexivity.
Qed.

(** Every endpoint of a trust mark entity is in the metadata of the trust mark entity, with what is needed to use it, under the name of the
    endpoint. Missing: nothing is in the metadata of the federation entity, where it is looked for. *)
Theorem C154_issuer_partial : forall tme k e, distinct_names (map snd tme) -> In (k, e) tme ->
  let md := tme_get_metadata tme in
  (ep_full_path e <> "" -> published md "trust_mark_entity" (ep_name e ++ "_endpoint") = Some (VStr (ep_full_path e))) /\
  (ep_algs e <> [] -> published md "trust_mark_entity" (ep_name e ++ "_auth_signing_algs") = Some (VList (ep_algs e))) /\
  (ep_authn e <> [] -> published md "trust_mark_entity" (ep_name e ++ "_auth_methods") = Some (VList (ep_authn e))) /\
  forall n, published md "federation_entity" n = None.
Proof.
  intros tme k e Hd Hin md. unfold md, tme_get_metadata. rewrite !published_type.
  assert (I : In e (map snd tme)) by (change e with (snd (k, e)); apply in_map; exact Hin).
  revert Hd I. generalize (map snd tme). intros eps Hd I. split; [|split; [|split; [|reflexivity]]]; intros Ne;
    (induction eps as [|x eps IH] using rev_ind; [destruct I|]; rewrite fold_left_app; cbn [fold_left];
     destruct (tme_get (fold_left tme_claims eps []) x (ep_name e)) as (T1 & T2 & T3); rewrite ?T1, ?T2, ?T3; clear T1 T2 T3;
     destruct (String.eqb_spec (ep_name x) (ep_name e)) as [En|N];
     [rewrite (Hd x e (in_elt _ _ _) I En)|
      cbn [andb]; apply IH; [intros y z Iy Iz; apply Hd; apply in_or_app; left; assumption|];
      apply in_app_or in I; destruct I as [I|[->|[]]]; [exact I|destruct (N eq_refl)]]).
  - apply String.eqb_neq in Ne. rewrite Ne. reflexivity.
  - destruct (ep_algs e); [destruct (Ne eq_refl)|reflexivity].
  - destruct (ep_authn e); [destruct (Ne eq_refl)|reflexivity].
Qed.
Print Assumptions C154_issuer_partial.

Example C154_issuer_ex : distinct_names (map snd [("status", status_ep); ("fetch", fetch_ep)]) /\
  published (tme_get_metadata [("status", status_ep); ("fetch", fetch_ep)]) "trust_mark_entity" "trust_mark_status_endpoint" =
    Some (VStr "https://tmi/status") /\
  published (tme_get_metadata [("status", status_ep); ("fetch", fetch_ep)]) "trust_mark_entity" "trust_mark_status_auth_methods" =
    Some (VList [VStr "none"]).
Proof.
  split; [|split; reflexivity]. intros e e' [<-|[<-|[]]] [<-|[<-|[]]] H; try reflexivity; discriminate H.
Qed.

(** A client asks a trust mark issuer for nothing that it could not name. *)
Theorem C154_request : forall args,
  (forall r, trust_mark_request args = Ok r -> r = args /\ exists v, dget "trust_mark_id" r = Some v) /\
  (forall v, dget "trust_mark_id" args = Some v -> trust_mark_request args = Ok args).
Proof.
  intros args. unfold trust_mark_request, dmem. split; [intros r H|intros v H]; destruct (dget "trust_mark_id" args) as [w|] eqn:D; try discriminate.
  - injection H as <-. eauto.
  - reflexivity.
Qed.
Print Assumptions C154_request.

(** an entity of several parts; the parts speak of their own type *)
Definition own_types (parts : dict cpart) : Prop :=
  forall t md k, In (t, CTyped md) parts -> In k (dkeys (md t)) -> k = t.

(** full statement *)
Definition C154_combo_full : Prop := forall schema parts fe e,
  NoDup (dkeys parts) -> own_types parts -> dget "federation_entity" parts = Some (CFederation fe) ->
  well_named (map snd (fe_endpoint fe)) -> In e (map snd (fe_endpoint fe)) -> ep_endpoint_name e <> "" ->
  exists md, combo_get_metadata schema parts = Ok md /\
    published md "federation_entity" (ep_endpoint_name e) = Some (VStr (ep_full_path e)).

(** with a trust mark entity among the parts there are no metadata at all *)
Theorem C154_combo_refuted : ~ C154_combo_full.
Proof.
  intros H.
  destruct (H [] [("federation_entity", CFederation (mkFedServer [] [("status", status_ep)])); ("trust_mark_entity", CTrustMarks [])]
              (mkFedServer [] [("status", status_ep)]) status_ep) as (md & X & _); try reflexivity.
  - repeat constructor; simpl; intuition discriminate.
  - intros t md k [X|[X|[]]]; discriminate X.
  - exact status_named.
  - left. reflexivity.
  - discriminate.
  - discriminate X.
Qed.

Lemma dupdate_other {A} k (d e : dict A) : ~ In k (dkeys e) -> dget k (dupdate d e) = dget k d.
Proof.
  revert d. induction e as [|[k' v] e IH]; intros d N; [reflexivity|]. cbn [dupdate fold_left fst snd].
  change (dget k (dupdate (dset k' v d) e) = dget k d). rewrite IH by (intros I; apply N; right; exact I).
  apply dget_dset_other. intros ->. apply N. left. reflexivity.
Qed.

Definition plain_part (c : cpart) : Prop := forall eps, c <> CTrustMarks eps.

Lemma combo_fold schema parts : forall acc,
  NoDup (dkeys parts) -> own_types parts -> (forall t c, In (t, c) parts -> plain_part c) ->
  exists md, foldM (fun acc p =>
           match snd p with
           | CFederation fe => Ok (dupdate acc (fe_get_metadata schema fe (fst p)))
           | CTyped md => Ok (dupdate acc (md (fst p)))
           | CTrustMarks _ => Err TypeError
           | CHandler | CPlain => Ok acc
           end) parts acc = Ok md /\
    (dget "federation_entity" parts = None -> dget "federation_entity" md = dget "federation_entity" acc) /\
    forall fe, dget "federation_entity" parts = Some (CFederation fe) ->
      dget "federation_entity" md = dget "federation_entity" (fe_get_metadata schema fe "federation_entity").
Proof.
  induction parts as [|[t c] parts IH]; intros acc ND OT PL.
  { exists acc. split; [reflexivity|]. split; [reflexivity | discriminate]. }
  cbn [dkeys map fst] in ND. apply NoDup_cons_iff in ND. destruct ND as [NI ND].
  assert (OT' : own_types parts) by (intros t' md k I; apply (OT t' md k); right; exact I).
  assert (PL' : forall t c, In (t, c) parts -> plain_part c) by (intros t' c' I; apply (PL t' c'); right; exact I).
  assert (NF : t = "federation_entity" -> dget "federation_entity" parts = None).
  { intros ->. destruct (dget "federation_entity" parts) as [x|] eqn:D; [|reflexivity]. exfalso. apply NI.
    apply (in_map fst _ _ (dget_In _ _ _ _ D)). }
  assert (ST : exists acc', match c with
           | CFederation fe => Ok (dupdate acc (fe_get_metadata schema fe t))
           | CTyped md => Ok (dupdate acc (md t))
           | CTrustMarks _ => Err TypeError
           | CHandler | CPlain => Ok acc
           end = Ok acc' /\
           (t <> "federation_entity" -> dget "federation_entity" acc' = dget "federation_entity" acc) /\
           forall fe, t = "federation_entity" -> c = CFederation fe ->
             dget "federation_entity" acc' = dget "federation_entity" (fe_get_metadata schema fe "federation_entity")).
  { destruct c as [fe|md|eps| |].
    - eexists. split; [reflexivity|]. split.
      + intros NE. apply dupdate_other. cbn. intros [X|[]]; auto.
      + intros fe' -> Ec. injection Ec as <-. unfold dupdate, fe_get_metadata. cbn [fold_left fst snd].
        rewrite dget_dset_same. reflexivity.
    - eexists. split; [reflexivity|]. split; [|discriminate].
      intros NE. apply dupdate_other. intros I. apply NE. symmetry. apply (OT t md); [left; reflexivity | exact I].
    - exfalso. apply (PL t (CTrustMarks eps) (or_introl eq_refl) eps). reflexivity.
    - eexists. split; [reflexivity|]. split; [reflexivity | discriminate].
    - eexists. split; [reflexivity|]. split; [reflexivity | discriminate]. }
  destruct ST as (acc' & Es & S1 & S2). cbn [foldM fst snd]. rewrite Es. cbn [bind].
  destruct (IH acc' ND OT' PL') as (md & Em & M1 & M2). exists md. split; [exact Em|].
  cbn [dget]. destruct (String.eqb "federation_entity" t) eqn:Et.
  - apply String.eqb_eq in Et. split; [discriminate|]. intros fe [= ->].
    rewrite M1 by (apply NF; auto). exact (S2 fe (eq_sym Et) eq_refl).
  - apply String.eqb_neq in Et. split; [intros D; rewrite (M1 D); apply S1; congruence | exact M2].
Qed.

(** Missing: entities with a trust mark entity as a part. *)
Theorem C154_combo_partial : forall schema parts fe e,
  NoDup (dkeys parts) -> own_types parts -> (forall t c, In (t, c) parts -> plain_part c) ->
  dget "federation_entity" parts = Some (CFederation fe) ->
  well_named (map snd (fe_endpoint fe)) -> In e (map snd (fe_endpoint fe)) -> ep_endpoint_name e <> "" ->
  exists md, combo_get_metadata schema parts = Ok md /\
    published md "federation_entity" (ep_endpoint_name e) = Some (VStr (ep_full_path e)).
Proof.
  intros schema parts fe e ND OT PL D W I NE. destruct (combo_fold schema parts [] ND OT PL) as (md & Em & _ & M).
  exists md. split; [exact Em|]. unfold published. rewrite (M fe D). exact (C154_found schema fe e W I NE).
Qed.

(** what the first chain of [cs] says about the endpoint *)
Definition says (c : tchain) (v : val) : Prop :=
  (exists m fe, ch_md c = ByType m /\ dget "federation_entity" m = Some (Some fe) /\
     dget "federation_trust_mark_endpoint" fe = Some v) \/
  (exists m fe, ch_md c = Flat m /\ dget "federation_entity" m = Some (VDict fe) /\
     dget "federation_trust_mark_endpoint" fe = Some v).

(** What the client of a trust mark issuer uses is what the first verified chain of the issuer says, and the chain is kept; the
    empty string is for issuers without chains. *)
Theorem C154_client : forall E O fuel issuer s s' v,
  trust_mark_endpoint E O fuel issuer s = (s', Ok v) ->
  (exists c cs, dget issuer (f_chains s') = Some (c :: cs) /\ says c v /\
     (dget issuer (f_chains s) = Some (c :: cs) \/
      exists s0, f_chains s0 = f_chains s /\ snd (get_verified_trust_chains E O fuel issuer s0) = Ok (c :: cs))) \/
  (v = VStr "" /\ exists s0, f_chains s0 = f_chains s /\ snd (get_verified_trust_chains E O fuel issuer s0) = Ok []).
Proof.
  intros E O fuel issuer s s' v H.
  assert (Last : forall c cs s1, (match c :: cs with
    | [] => ret (VStr "")
    | c :: _ =>
      match ch_md c with
      | ByType m =>
          do fe <- lift (dindex "federation_entity" m) in
          match fe with
          | Some fe => lift (dindex "federation_trust_mark_endpoint" fe)
          | None => raise TypeError
          end
      | Flat m =>
          do v <- lift (dindex "federation_entity" m) in
          match v with
          | VDict fe => lift (dindex "federation_trust_mark_endpoint" fe)
          | _ => raise TypeError
          end
      end
    end) s1 = (s', Ok v) -> s' = s1 /\ says c v).
  { intros c cs s1 X. destruct (ch_md c) as [m|m] eqn:Em; unfold mbind, lift, dindex in X.
    - destruct (dget "federation_entity" m) as [[fe|]|] eqn:D1; [| discriminate X | discriminate X].
      destruct (dget "federation_trust_mark_endpoint" fe) as [w|] eqn:D2; [|discriminate X]. injection X as <- <-.
      split; [reflexivity|]. left. eauto.
    - destruct (dget "federation_entity" m) as [[| | | | |fe]|] eqn:D1; try discriminate X.
      destruct (dget "federation_trust_mark_endpoint" fe) as [w|] eqn:D2; [|discriminate X]. injection X as <- <-.
      split; [reflexivity|]. right. eauto. }
  unfold trust_mark_endpoint, mbind at 1 in H.
  destruct (get_trust_chains E O fuel issuer s) as [s1 [cs|e]] eqn:Eg; [|discriminate H].
  assert (G : f_chains s1 = f_chains s /\ cs = [] \/
              (exists c rest, cs = c :: rest) /\ dget issuer (f_chains s1) = Some cs /\
              (dget issuer (f_chains s) = Some cs \/
               exists s0, f_chains s0 = f_chains s /\ snd (get_verified_trust_chains E O fuel issuer s0) = Ok cs)).
  { revert Eg. unfold get_trust_chains, mbind, StateM.get. destruct (dget issuer (f_chains s)) as [cs0|] eqn:D.
    - intros Eg. injection Eg as <- <-. destruct cs0 as [|c cs0]; [left; auto|]. right. split; [eauto|]. auto.
    - assert (K := get_verified_chains E O fuel issuer s).
      destruct (get_verified_trust_chains E O fuel issuer s) as [s2 [[|c cs0]|e]] eqn:Ev; cbn [fst is_nil] in *; intros Eg;
        [injection Eg as <- <-; left; auto | | discriminate Eg].
      injection Eg as <- <-. right. split; [eauto|]. split; [apply dget_dset_same|]. right. exists s. rewrite Ev. auto. }
  destruct G as [[Ek ->]|((c & rest & ->) & D & W)].
  - cbn [is_nil] in H. unfold mbind at 1 in H. unfold mbind at 1 in H.
    assert (K := get_verified_chains E O fuel issuer s1).
    destruct (get_verified_trust_chains E O fuel issuer s1) as [s2 [[|c cs0]|e]] eqn:Ev; cbn [fst] in K; [| |discriminate H].
    + cbn in H. injection H as <- <-. right. split; [reflexivity|]. exists s1. rewrite Ev. auto.
    + left. cbn [is_nil] in H. unfold mbind at 1, store_trust_chain at 1, modify at 1, ret at 1 in H.
      apply (Last c cs0) in H. destruct H as [-> S]. exists c, cs0. split; [apply dget_dset_same|]. split; [exact S|].
      right. exists s1. rewrite Ev. split; [exact Ek | reflexivity].
  - cbn [is_nil] in H. unfold mbind at 1, ret at 1 in H. apply (Last c rest) in H. destruct H as [-> S]. left. exists c, rest. auto.
Qed.

(** an issuer with the usual endpoints *)
Definition ex_fe : fed_server := mkFedServer [("organization_name", VStr "o"); ("logo_uri", VStr "l")]
  [("entity_configuration", config_ep); ("fetch", fetch_ep)].
Definition ex_tme : dict endpoint := [("status", status_ep)].

Example C154_ex : well_named (map snd (fe_endpoint (adopt ex_fe ex_tme))) /\ NoDup (dkeys ex_tme) /\
  fe_get_metadata federation_entity_schema (adopt ex_fe ex_tme) "federation_entity" =
  [("federation_entity", VDict [("organization_name", VStr "o"); ("federation_fetch_endpoint", VStr "https://tmi/fetch");
     ("federation_trust_mark_status_endpoint", VStr "https://tmi/status");
     ("federation_trust_mark_status_endpoint_auth_methods", VList [VStr "none"])])].
Proof.
  split; [|split; [repeat constructor; simpl; tauto | reflexivity]]. split.
  - intros e [<-|[<-|[<-|[]]]]; [left; reflexivity | right; exact (named_of "federation_fetch") |
      right; exact (named_of "federation_trust_mark_status")].
  - intros e e' [<-|[<-|[<-|[]]]] [<-|[<-|[<-|[]]]] X NE; try reflexivity; try discriminate X; destruct (NE X).
Qed.

Example C154_ex_combo : exists md, combo_get_metadata federation_entity_schema
    [("openid_provider", CTyped (fun t => [(t, VDict [("issuer", VStr "https://op")])])); ("federation_entity", CFederation (adopt ex_fe ex_tme));
     ("other", CPlain)] = Ok md /\
  published md "federation_entity" "federation_trust_mark_status_endpoint" = Some (VStr "https://tmi/status") /\
  published md "openid_provider" "issuer" = Some (VStr "https://op").
Proof. eexists. split; [reflexivity|]. split; reflexivity. Qed.

Example C154_ex_client : forall E O fuel,
  let c := mkTChain (mkTC "https://ta" [] 0%Z [] [])
             (ByType [("federation_entity", Some [("federation_trust_mark_endpoint", VStr "https://tmi/mark")])]) in
  let s := mkFed (mkState [] [] 0) [] [("https://tmi", [c])] in
  trust_mark_endpoint E O fuel "https://tmi" s = (s, Ok (VStr "https://tmi/mark")) /\ says c (VStr "https://tmi/mark").
Proof. intros E O fuel c s. split; [reflexivity|]. left. eexists _, _. split; [reflexivity|]. split; reflexivity. Qed.

(** ** C155: the claims of a federation entity *)

(** full statement: what an entity is told to say and supports, it says *)
Definition C155_full : Prop := forall prefer k v, v <> VNull ->
  In k federation_entity_supports -> dget k prefer = Some v -> dget k (claims_metadata prefer) = Some v.

(** policy_uri is policy_url in the schema, and there is no logo_uri *)
Theorem C155_claims_refuted : ~ C155_full /\
  forall prefer k, In k ["policy_uri"; "logo_uri"] ->
    In k federation_entity_supports /\ dget k (claims_metadata prefer) = None /\
    forall eps, dget k (get_endpoint_claims eps) = None -> dget k (get_server_metadata federation_entity_schema prefer eps) = None.
Proof.
  split.
  - intros H. specialize (H [("policy_uri", VStr "p")] "policy_uri" (VStr "p") ltac:(discriminate) ltac:(simpl; tauto) eq_refl).
    discriminate H.
  - intros prefer k I. split; [simpl in *; tauto|]. split.
    + unfold claims_metadata. assert (N : ~ In k federation_entity_schema) by (intros J; destruct I as [<-|[<-|[]]]; simpl in J; intuition discriminate).
      assert (G : forall l info, ~ In k l -> dget k info = None ->
        dget k (fold_left (fun info key => match dget key prefer with None | Some VNull => info | Some v => dset key v info end) l info) = None).
      { induction l as [|x l IH]; intros info Nl D; [exact D|]. cbn [fold_left]. apply IH; [intros J; apply Nl; right; exact J|].
        assert (Nx : k <> x) by (intros ->; apply Nl; left; reflexivity).
        destruct (dget x prefer) as [[]|]; try exact D; rewrite dget_dset_other by exact Nx; exact D. }
      apply G; [exact N | reflexivity].
    + intros eps D. rewrite server_metadata_get, D. destruct I as [<-|[<-|[]]]; reflexivity.
Qed.

(** Missing: policy_uri and logo_uri.  All other claims are said as they were given, and nothing else is. *)
Theorem C155_claims_partial : forall prefer k,
  (In k federation_entity_supports -> ~ In k ["policy_uri"; "logo_uri"] -> In k federation_entity_schema) /\
  dget k (claims_metadata prefer) =
    if smem k federation_entity_schema then match dget k prefer with Some VNull => None | o => o end else None.
Proof.
  intros prefer k. split.
  - intros I N. simpl in *. intuition subst; tauto.
  - unfold claims_metadata.
    assert (G : forall l info, NoDup l ->
      dget k (fold_left (fun info key => match dget key prefer with None | Some VNull => info | Some v => dset key v info end) l info) =
      if smem k l then match dget k prefer with Some VNull | None => dget k info | o => o end else dget k info).
    { induction l as [|x l IH]; intros info N; [reflexivity|]. apply NoDup_cons_iff in N. destruct N as [Nx N]. cbn [fold_left].
      rewrite IH by exact N. cbn [smem existsb]. change (existsb (String.eqb k) l) with (smem k l).
      destruct (String.eqb k x) eqn:Ek.
      - apply String.eqb_eq in Ek. subst x. cbn [orb]. apply smem_false in Nx. rewrite Nx.
        destruct (dget k prefer) as [[]|]; try reflexivity; apply dget_dset_same.
      - cbn [orb]. apply String.eqb_neq in Ek.
        assert (X : dget k (match dget x prefer with None | Some VNull => info | Some v => dset x v info end) = dget k info)
          by (destruct (dget x prefer) as [[]|]; try reflexivity; apply dget_dset_other; exact Ek).
        rewrite X. reflexivity. }
    rewrite G; [|repeat constructor; simpl; intuition discriminate].
    destruct (smem k federation_entity_schema); [|reflexivity]. destruct (dget k prefer) as [[]|]; reflexivity.
Qed.

(** full statement: asking for the preferences does not change what is published *)
Definition C155_asking_full : Prop := forall schema fe later k,
  published (fe_get_metadata schema (mkFedServer (fe_prefer (fst (get_preferences fe))) later) "federation_entity") "federation_entity" k =
  published (fe_get_metadata schema (mkFedServer (fe_prefer fe) later) "federation_entity") "federation_entity" k.

(** an endpoint that is taken away after the preferences were asked for is still published *)
Theorem C155_asking_refuted : ~ C155_asking_full.
Proof.
  intros H. specialize (H federation_entity_schema ex_fe [] "federation_fetch_endpoint"). discriminate H.
Qed.

(** Missing: changes of the endpoints after the preferences were asked for. *)
Theorem C155_asking_partial : forall schema fe k,
  fe_endpoint (fst (get_preferences fe)) = fe_endpoint fe /\
  published (fe_get_metadata schema (fst (get_preferences fe)) "federation_entity") "federation_entity" k =
  published (fe_get_metadata schema fe "federation_entity") "federation_entity" k.
Proof.
  intros schema fe k. split; [reflexivity|]. unfold fe_get_metadata. rewrite !published_type.
  rewrite !server_metadata_get. cbn [get_preferences fst fe_prefer fe_endpoint].
  destruct (dget k (get_endpoint_claims (map snd (fe_endpoint fe)))) as [v|] eqn:D; [reflexivity|].
  destruct (smem k schema); [|reflexivity]. rewrite dget_dupdate by (apply claims_nodup; constructor). rewrite D. reflexivity.
Qed.

Example C155_ex : claims_metadata [("organization_name", VStr "o"); ("contacts", VList [VStr "c"]); ("logo_uri", VStr "l"); ("homepage_uri", VNull)] =
  [("contacts", VList [VStr "c"]); ("organization_name", VStr "o")].
Proof. reflexivity. Qed.

Print Assumptions C154_found.
Print Assumptions C154_adopted.
Print Assumptions C154_issuer_refuted.
Print Assumptions C154_combo_refuted.
Print Assumptions C154_combo_partial.
Print Assumptions C154_client.
Print Assumptions C155_claims_refuted.
Print Assumptions C155_claims_partial.
Print Assumptions C155_asking_refuted.
Print Assumptions C155_asking_partial.
