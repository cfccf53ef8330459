(** Lemmas about SessionModel: an operation works within the record of one session. *)
From Coq Require Import Lia.
From Verif Require Import PyFacts.
From Verif Require Export SessionSpec.
Local Open Scope string_scope.
Local Open Scope list_scope.
Local Open Scope Z_scope.

Lemma bind_inv {S A B} (m : M S A) (f : A -> M S B) s s' b :
  mbind m f s = (s', Ok b) -> exists s1 a, m s = (s1, Ok a) /\ f a s1 = (s', Ok b).
Proof.
  unfold mbind. destruct (m s) as [s1 [a|e]]; intros H; [exists s1, a; split; [reflexivity|exact H]|inversion H].
Qed.
Lemma lift_inv {S A} (r : res A) (s s' : S) a : lift r s = (s', Ok a) -> s' = s /\ r = Ok a.
Proof. intros H. inversion H. split; reflexivity. Qed.

(** ** Within one session *)

Definition local {A} (k : string) (m : M sess A) : Prop :=
  forall s s', dget k (c_db s) = dget k (c_db s') ->
    snd (m s) = snd (m s') /\ dget k (c_db (fst (m s))) = dget k (c_db (fst (m s'))).
Definition frame {A} (k : string) (m : M sess A) : Prop :=
  forall s k', k' <> k -> dget k' (c_db (fst (m s))) = dget k' (c_db s).
Definition within {A} (k : string) (m : M sess A) : Prop := local k m /\ frame k m.

Lemma within_ret {A} k (a : A) : within k (ret a).
Proof. split; [intros s s' H; split; [reflexivity|exact H]|intros s k' H; reflexivity]. Qed.
Lemma within_raise {A} k e : within k (@raise sess A e).
Proof. split; [intros s s' H; split; [reflexivity|exact H]|intros s k' H; reflexivity]. Qed.
Lemma within_lift {A} k (r : res A) : within k (@lift sess A r).
Proof. split; [intros s s' H; split; [reflexivity|exact H]|intros s k' H; reflexivity]. Qed.

Lemma within_bind {A B} k (m : M sess A) (f : A -> M sess B) :
  within k m -> (forall a, within k (f a)) -> within k (mbind m f).
Proof.
  intros [Lm Fm] H. split.
  - intros s s' E. destruct (Lm s s' E) as [E1 E2]. unfold mbind.
    destruct (m s) as [s1 r1], (m s') as [s1' r1']. cbn in E1, E2. subst r1'.
    destruct r1 as [a|e]; [exact (proj1 (H a) s1 s1' E2)|split; [reflexivity|exact E2]].
  - intros s k' N. specialize (Fm s k' N). unfold mbind. destruct (m s) as [s1 [a|e]]; cbn in Fm; [|exact Fm].
    rewrite <- Fm. exact (proj2 (H a) s1 k' N).
Qed.

(** the same, with what is known of the result *)
Lemma within_bind_of {A B} k (r : res A) (f : A -> M sess B) :
  (forall a, r = Ok a -> within k (f a)) -> within k (mbind (lift r) f).
Proof.
  intros H. destruct r as [a|e].
  - exact (H a eq_refl).
  - exact (within_raise k e).
Qed.

Lemma within_of_key k : within k (of_key k).
Proof.
  split; [intros s s' H; cbn; split; [rewrite H; reflexivity|exact H]|intros s k' H; reflexivity].
Qed.
Lemma within_store k d : within k (store k d).
Proof.
  split.
  - intros s s' H. cbn. split; [reflexivity|]. rewrite !dget_dset_same. unfold record_of. rewrite H. reflexivity.
  - intros s k' N. cbn. apply dget_dset_other. exact N.
Qed.
Lemma within_set_record k d : within k (set_record k d).
Proof.
  split.
  - intros s s' H. cbn. split; [reflexivity|]. rewrite !dget_dset_same. reflexivity.
  - intros s k' N. cbn. apply dget_dset_other. exact N.
Qed.
Lemma within_bind_key k x : within k (bind_key x k).
Proof. split; [intros s s' H; split; [reflexivity|exact H]|intros s k' H; reflexivity]. Qed.
Lemma within_bind_val k x : within k (bind_val x k).
Proof.
  unfold bind_val.
  destruct x; cbn [hashable]; try apply within_ret; try apply within_raise; apply within_bind_key.
Qed.
Local Opaque bind_val.

Lemma within_get_set L k names : within k (get_set L k names).
Proof.
  unfold get_set. apply within_bind; [apply within_of_key|].
  intros [r|]; [apply within_ret|]. destruct (l_raises L); [apply within_raise|apply within_ret].
Qed.
Local Opaque get_set.
Lemma within_remove L k : within k (remove_state L k).
Proof.
  unfold remove_state. apply within_bind; [apply within_of_key|].
  intros [r|]; [|destruct (l_raises L); [apply within_raise|apply within_ret]].
  split.
  - intros s s' H. cbn. split; [reflexivity|]. rewrite !dget_ddel_same. reflexivity.
  - intros s k' N. cbn. apply dget_ddel_other. exact N.
Qed.

Ltac wn := repeat first
  [ apply within_ret | apply within_raise | apply within_lift | apply within_of_key | apply within_store
  | apply within_set_record | apply within_bind_key | apply within_bind_val | apply within_get_set | apply within_remove
  | apply within_bind; [|intros ?] ].

Lemma within_update_context L E svc k d : within k (update_context L E svc k d).
Proof.
  unfold update_context. destruct (String.eqb svc "userinfo"); [wn|].
  apply within_bind; [wn|intros rec]. destruct (l_check L svc rec d); wn.
Qed.
Local Opaque update_context.
Lemma within_do_request L E svc k args : within k (do_request L E svc k args).
Proof.
  unfold do_request. wn. match goal with |- within _ (if ?b then _ else _) => destruct b end;
    [wn|apply within_update_context].
Qed.
Local Opaque do_request.
Lemma within_no_error k d : within k (no_error d).
Proof. unfold no_error. destruct (dmem "error" d); wn. Qed.
Local Opaque no_error.
Lemma within_get_tokens L E k : within k (get_tokens L E k).
Proof.
  unfold get_tokens. wn; [|apply within_no_error]. apply within_do_request.
Qed.
Local Opaque get_tokens.
Lemma within_refresh L E k sc : within k (refresh_access_token L E k sc).
Proof. unfold refresh_access_token. wn; [apply within_do_request|apply within_no_error]. Qed.
Local Opaque refresh_access_token.
Lemma within_user_info L E k t : within k (get_user_info L E k t).
Proof.
  unfold get_user_info. wn; [|apply within_do_request|apply within_no_error]. destruct (truthy t); wn.
Qed.
Local Opaque get_user_info.
Lemma within_init L C k n args : within k (init_authorization L C k n args).
Proof. unfold init_authorization. wn. destruct (cf_oidc C); wn. Qed.
Lemma within_active L now k : within k (has_active_authentication L now k).
Proof. unfold has_active_authentication. wn. match goal with |- within _ (match ?c with _ => _ end) => destruct c end; wn. Qed.
Lemma within_valid L now k : within k (get_valid_access_token L now k).
Proof.
  unfold get_valid_access_token. wn. match goal with |- within _ (match ?c with _ => _ end) => destruct c end; [|wn].
  cbv zeta. match goal with |- within _ (if ?b then _ else _) => destruct b end; wn.
  match goal with |- within _ (if ?b then _ else _) => destruct b end; wn.
Qed.
Lemma within_logout L C k u : within k (logout L C k u).
Proof. unfold logout. destruct (cf_end_session C); wn. Qed.

Lemma within_claimed k raw : named raw = Some k \/ named raw = None -> within k (claimed raw).
Proof.
  unfold claimed, named. destruct (dget "state" raw) as [[]|]; intros [H|H]; try discriminate H; try apply within_ret.
  inversion H. apply within_of_key.
Qed.

Lemma within_finalize_auth L E raw k :
  keeps_state L -> named raw = Some k \/ named raw = None -> within k (finalize_auth L E raw).
Proof.
  intros HK Hn. unfold finalize_auth. apply within_bind; [apply within_claimed; exact Hn|intros rec].
  apply within_bind_of. intros d Hd. apply HK in Hd. destruct (dmem "error" d); [wn|].
  rewrite Hd. unfold named in Hn. destruct (dget "state" raw) as [v|]; [|apply (within_raise k)].
  destruct v; try apply (within_raise k). destruct Hn as [Hn|Hn]; inversion Hn.
  cbn [key_of]. apply within_bind_of. intros k0 Hk0. inversion Hk0. wn.
  match goal with |- within _ (if ?b then _ else _) => destruct b end; [|wn]. wn. apply within_update_context.
Qed.

Lemma within_access L E resp k k' c :
  access_session resp k' = Some k \/ access_session resp k' = None ->
  within k (get_access_and_id_token L E resp k' c).
Proof.
  intros H. unfold get_access_and_id_token.
  assert (H0 : within k (if given resp then ret [] else get_set L k' [])).
  { unfold access_session in H. destruct (String.eqb_spec k' "") as [->|N].
    - destruct resp as [[|x d]|]; cbn [given]; [|apply within_ret|]; destruct H as [H|H]; inversion H; apply within_get_set.
    - destruct H as [H|H]; inversion H. destruct (given resp); wn. }
  apply within_bind; [exact H0|intros _].
  assert (H1 : (if String.eqb k' "" then lift (let* v := from_response "state" resp in key_of v) else ret k')
               = @lift sess string (if String.eqb k' "" then (let* v := from_response "state" resp in key_of v) else Ok k')).
  { destruct (String.eqb k' ""); reflexivity. }
  rewrite H1. apply within_bind_of. intros k1 Hk1.
  assert (k1 = k) as ->.
  { unfold access_session in H. destruct (String.eqb_spec k' "") as [Ek|Ek].
    - destruct resp as [d|]; [|discriminate Hk1].
      cbn [from_response] in Hk1. apply bind_ok in Hk1. destruct Hk1 as [v [Hv Hk1]].
      apply dindex_ok in Hv. destruct d as [|x d]; [discriminate Hv|].
      unfold named in H. rewrite Hv in H. destruct v; try discriminate Hk1.
      destruct H as [H|H]; inversion H. inversion Hk1. congruence.
    - inversion Hk1. destruct H as [H|H]; inversion H. congruence. }
  wn.
  - match goal with |- within _ (if ?b then _ else _) => destruct b end; wn.
  - match goal with |- within _ (if ?b then _ else _) => destruct b end; wn.
    + destruct c; wn. apply within_get_tokens.
    + match goal with |- within _ (if ?b then _ else _) => destruct b end; wn. apply within_get_tokens.
Qed.

Lemma within_finish L E k a v c :
  dget "state" a = Some (VStr k) ->
  within k
    (do p <- get_access_and_id_token L E (Some a) k c in
     let '(token, idt) := p in
     do info <- (if cf_userinfo (v_conf E) && truthy token then get_user_info L E k token
                 else if truthy idt then do t <- lift (as_dict idt) in ret (userinfo_in_id_token L t)
                 else ret []) in
     do _ <- (if sid_support (v_conf E) && truthy idt then
                do t <- lift (as_dict idt) in
                match dget "sid" t with Some x => bind_val x k | None => ret tt end
              else ret tt) in
     do who <- (if truthy idt then do t <- lift (as_dict idt) in lift (dindex "sub" t)
                else lift (dindex "sub" info)) in
     do _ <- bind_val who k in
     ret [("userinfo", VDict info); ("state", v); ("token", token); ("id_token", idt);
          ("session_state", match dget "session_state" a with Some x => x | None => VStr "" end);
          ("issuer", cf_issuer (v_conf E))]).
Proof.
  intros Hv. apply within_bind.
  - apply within_access. left. unfold access_session, named. destruct (String.eqb_spec k "") as [->|N]; [|reflexivity].
    destruct a as [|x a]; [discriminate Hv|]. rewrite Hv. reflexivity.
  - intros [token idt]. wn.
    + destruct (cf_userinfo (v_conf E) && truthy token); [apply within_user_info|]. destruct (truthy idt); wn.
    + destruct (sid_support (v_conf E) && truthy idt); wn.
      match goal with |- within _ (match ?o with _ => _ end) => destruct o end; wn.
    + destruct (truthy idt); wn.
Qed.

Local Transparent update_context do_request no_error get_tokens refresh_access_token get_user_info get_set bind_val.

(** what finalize_auth returns names the session of the response *)
Lemma stamp_other L now d d' k : stamp L now d = Ok d' -> k <> "__expires_at" -> dget k d' = dget k d.
Proof.
  unfold stamp. destruct (dget "expires_in" d) as [v|]; intros H N.
  - apply bind_ok in H. destruct H as [n [_ H]]. inversion H. apply dget_dset_other. exact N.
  - inversion H. reflexivity.
Qed.

Lemma update_context_ok L E svc k d s s' d' x :
  update_context L E svc k d s = (s', Ok d') -> x <> "__expires_at" -> dget x d' = dget x d.
Proof.
  unfold update_context. destruct (String.eqb svc "userinfo"); intros H N; [inversion H; reflexivity|].
  unfold mbind in H. cbn [of_key] in H. destruct (l_check L svc (dget k (c_db s)) d) as [e|]; [inversion H|].
  destruct (stamp L (v_now E) d) as [d1|e] eqn:Es; cbn in H; [|inversion H]. inversion H; subst.
  exact (stamp_other _ _ _ _ _ Es N).
Qed.

Lemma finalize_auth_state L E raw s s' a :
  keeps_state L -> finalize_auth L E raw s = (s', Ok a) -> dget "state" a = dget "state" raw.
Proof.
  intros HK H. unfold finalize_auth in H. apply bind_inv in H. destruct H as [s0 [rec [_ H]]].
  apply bind_inv in H. destruct H as [s1 [d [Ed H]]]. apply lift_inv in Ed. destruct Ed as [-> Ed].
  pose proof (HK _ _ _ Ed) as Hs. destruct (dmem "error" d); [inversion H; subst; exact Hs|].
  apply bind_inv in H. destruct H as [s2 [k [_ H]]]. apply bind_inv in H. destruct H as [s3 [c [_ H]]].
  cbv zeta in H. match type of H with (if ?b then _ else _) _ = _ => destruct b end; [|inversion H].
  apply bind_inv in H. destruct H as [s4 [u [_ H]]].
  apply (update_context_ok _ _ _ _ _ _ _ _ "state") in H; [|discriminate].
  rewrite H. exact Hs.
Qed.

Lemma within_post {A B} k (m : M sess A) (f : A -> M sess B) (Q : A -> Prop) :
  within k m -> (forall s s' a, m s = (s', Ok a) -> Q a) -> (forall a, Q a -> within k (f a)) -> within k (mbind m f).
Proof.
  intros [Lm Fm] HQ H. split.
  - intros s s' E. destruct (Lm s s' E) as [E1 E2]. unfold mbind.
    destruct (m s) as [s1 r1] eqn:Em, (m s') as [s1' r1']. cbn in E1, E2. subst r1'.
    destruct r1 as [a|e]; [exact (proj1 (H a (HQ _ _ _ Em)) s1 s1' E2)|split; [reflexivity|exact E2]].
  - intros s k' N. specialize (Fm s k' N). unfold mbind. destruct (m s) as [s1 [a|e]] eqn:Em; cbn in Fm; [|exact Fm].
    rewrite <- Fm. exact (proj2 (H a (HQ _ _ _ Em)) s1 k' N).
Qed.

Lemma within_finalize L E raw c k :
  keeps_state L -> named raw = Some k \/ named raw = None -> within k (finalize L E raw c).
Proof.
  intros HK Hn. unfold finalize.
  apply (within_post k _ _ (fun a => dget "state" a = dget "state" raw)).
  - apply within_finalize_auth; assumption.
  - intros s s' a H. exact (finalize_auth_state _ _ _ _ _ _ HK H).
  - intros a Ha. apply within_bind_of. intros v Hv. apply dindex_ok in Hv.
    destruct (dmem "error" a); [wn|]. apply within_bind_of. intros k1 Hk1.
    destruct v; try discriminate Hk1. inversion Hk1; subst k1.
    unfold named in Hn. rewrite <- Ha, Hv in Hn. destruct Hn as [Hn|Hn]; inversion Hn; subst.
    apply within_finish. exact Hv.
Qed.

Lemma within_step L o k :
  keeps_state L -> session_of o = Some k \/ session_of o = None -> within k (step L o).
Proof.
  intros HK H. destruct o; cbn [session_of] in H; cbn [step]; unfold omap; (apply within_bind; [|intros ?; apply within_ret]);
    try (destruct H as [H|H]; inversion H; subst).
  - apply within_init.
  - apply within_finalize; [exact HK|left; congruence].
  - apply within_finalize; [exact HK|right; congruence].
  - apply within_finalize_auth; [exact HK|left; congruence].
  - apply within_finalize_auth; [exact HK|right; congruence].
  - apply within_access. left. congruence.
  - apply within_access. right. congruence.
  - apply within_get_tokens.
  - apply within_refresh.
  - apply within_user_info.
  - apply within_active.
  - apply within_valid.
  - apply within_logout.
  - apply within_remove.
Qed.

(** ** What the operations read and write *)

Lemma dget_restrict names r x : dget x (restrict names r) = if smem x names then dget x r else None.
Proof.
  unfold restrict. induction r as [|[y v] r IH]; cbn; [destruct (smem x names); reflexivity|].
  destruct (smem y names) eqn:Ey; cbn; rewrite ?IH; destruct (String.eqb_spec x y) as [->|N]; rewrite ?Ey; reflexivity.
Qed.

Lemma get_set_eq L k names s :
  get_set L k names s
  = (s, match dget k (c_db s) with
        | Some r => Ok (restrict names r)
        | None => if l_raises L then Err KeyError else Ok []
        end).
Proof.
  unfold get_set, mbind. cbn [of_key]. destruct (dget k (c_db s)) as [r|]; [reflexivity|].
  destruct (l_raises L); reflexivity.
Qed.

Lemma get_set_ok L k names s s' c x :
  get_set L k names s = (s', Ok c) -> smem x names = true -> s' = s /\ dget x c = holds k x s.
Proof.
  rewrite get_set_eq. unfold holds. intros H Hx. injection H as <- Hr. split; [reflexivity|].
  destruct (dget k (c_db s)) as [r|].
  - injection Hr as <-. rewrite dget_restrict, Hx. reflexivity.
  - destruct (l_raises L); [discriminate Hr|]. injection Hr as <-. reflexivity.
Qed.

Definition stored (k : string) (d : dict val) (s : sess) : sess :=
  mkSess (dset k (dupdate (record_of k s) d) (c_db s)) (c_map s).

Lemma holds_stored k d s x :
  NoDup (dkeys d) -> holds k x (stored k d s) = match dget x d with Some v => Some v | None => holds k x s end.
Proof.
  intros ND. unfold holds, stored. cbn [c_db]. rewrite dget_dset_same, dget_dupdate by exact ND.
  destruct (dget x d); [reflexivity|]. unfold record_of. destruct (dget k (c_db s)); reflexivity.
Qed.

Lemma stamp_nodup L now d d' : stamp L now d = Ok d' -> NoDup (dkeys d) -> NoDup (dkeys d').
Proof.
  unfold stamp. destruct (dget "expires_in" d) as [v|]; intros H N.
  - apply bind_ok in H. destruct H as [n [_ H]]. inversion H. apply NoDup_dset. exact N.
  - inversion H. subst. exact N.
Qed.

Lemma update_context_inv L E svc k d s s' d' :
  svc <> "userinfo" -> update_context L E svc k d s = (s', Ok d') ->
  l_check L svc (dget k (c_db s)) d = None /\ stamp L (v_now E) d = Ok d' /\ s' = stored k d' s.
Proof.
  intros N H. unfold update_context in H. apply String.eqb_neq in N. rewrite N in H.
  apply bind_inv in H. destruct H as [s0 [rec [H0 H]]]. injection H0 as <- <-.
  destruct (l_check L svc (dget k (c_db s)) d) as [e|]; [discriminate H|].
  apply bind_inv in H. destruct H as [s1 [d1 [H1 H]]]. apply lift_inv in H1. destruct H1 as [-> H1].
  apply bind_inv in H. destruct H as [s2 [u [H2 H]]]. injection H2 as <- _. injection H as <- <-.
  split; [reflexivity|]. split; [exact H1|reflexivity].
Qed.

Lemma do_request_inv L E svc k args s s' d' :
  svc <> "userinfo" -> do_request L E svc k args s = (s', Ok d') -> dmem "error" d' = false ->
  exists q raw d, l_request L svc (dget k (c_db s)) args = Ok q /\ v_net E svc q = Ok raw
    /\ l_parse L svc (dget k (c_db s)) raw = Ok d /\ dmem "error" d = false
    /\ l_check L svc (dget k (c_db s)) d = None /\ stamp L (v_now E) d = Ok d' /\ s' = stored k d' s.
Proof.
  intros N H He. unfold do_request in H.
  apply bind_inv in H. destruct H as [s0 [rec [H0 H]]]. injection H0 as <- <-.
  apply bind_inv in H. destruct H as [s1 [q [H1 H]]]. apply lift_inv in H1. destruct H1 as [-> H1].
  apply bind_inv in H. destruct H as [s2 [raw [H2 H]]]. apply lift_inv in H2. destruct H2 as [-> H2].
  apply bind_inv in H. destruct H as [s3 [d [H3 H]]]. apply lift_inv in H3. destruct H3 as [-> H3].
  destruct (dmem "error" d) eqn:Ed; [injection H as <- <-; congruence|].
  apply update_context_inv in H; [|exact N]. destruct H as [Hc [Hst ->]].
  exists q, raw, d. repeat split; assumption.
Qed.

Lemma no_error_inv d s s' d' : no_error d s = (s', Ok d') -> s' = s /\ d' = d /\ dmem "error" d = false.
Proof.
  unfold no_error. destruct (dmem "error" d) eqn:E; intros H; [discriminate H|]. injection H as <- <-.
  repeat split.
Qed.

Lemma get_tokens_inv L E k s s' d' :
  get_tokens L E k s = (s', Ok d') ->
  exists args q raw d, l_request L "accesstoken" (dget k (c_db s)) args = Ok q /\ v_net E "accesstoken" q = Ok raw
    /\ l_parse L "accesstoken" (dget k (c_db s)) raw = Ok d /\ dmem "error" d = false
    /\ stamp L (v_now E) d = Ok d' /\ s' = stored k d' s.
Proof.
  intros H. unfold get_tokens in H.
  apply bind_inv in H. destruct H as [s0 [c [H0 H]]]. rewrite get_set_eq in H0. injection H0 as <- _.
  apply bind_inv in H. destruct H as [s1 [code [H1 H]]]. apply lift_inv in H1. destruct H1 as [-> _].
  apply bind_inv in H. destruct H as [s2 [uri [H2 H]]]. apply lift_inv in H2. destruct H2 as [-> _].
  cbv zeta in H. apply bind_inv in H. destruct H as [s3 [d1 [H3 H]]]. apply no_error_inv in H. destruct H as [-> [-> He]].
  apply do_request_inv in H3; [|discriminate|exact He].
  destruct H3 as [q [raw [d [Hq [Hn [Hp [Hd [_ [Hst ->]]]]]]]]].
  eexists. exists q, raw, d. repeat split; eassumption.
Qed.

Lemma refresh_inv L E k sc s s' d' :
  refresh_access_token L E k sc s = (s', Ok d') ->
  exists args q raw d, l_request L "refresh_token" (dget k (c_db s)) args = Ok q /\ v_net E "refresh_token" q = Ok raw
    /\ l_parse L "refresh_token" (dget k (c_db s)) raw = Ok d /\ dmem "error" d = false
    /\ stamp L (v_now E) d = Ok d' /\ s' = stored k d' s.
Proof.
  intros H. unfold refresh_access_token in H.
  apply bind_inv in H. destruct H as [s3 [d1 [H3 H]]]. apply no_error_inv in H. destruct H as [-> [-> He]].
  apply do_request_inv in H3; [|discriminate|exact He].
  destruct H3 as [q [raw [d [Hq [Hn [Hp [Hd [_ [Hst ->]]]]]]]]].
  eexists. exists q, raw, d. repeat split; eassumption.
Qed.

(** user information changes no record *)
Definition pure {A} (m : M sess A) : Prop := forall s, fst (m s) = s.
Lemma pure_bind {A B} (m : M sess A) (f : A -> M sess B) : pure m -> (forall a, pure (f a)) -> pure (mbind m f).
Proof.
  intros Hm Hf s. specialize (Hm s). unfold mbind. destruct (m s) as [s0 [a|e]]; cbn in Hm; subst s0; [apply Hf|reflexivity].
Qed.
Lemma pure_lift {A} (r : res A) : pure (@lift sess A r).
Proof. intros s. reflexivity. Qed.
Lemma pure_get_set L k names : pure (get_set L k names).
Proof. intros s. rewrite get_set_eq. reflexivity. Qed.

Lemma user_info_keeps L E k t : pure (get_user_info L E k t).
Proof.
  unfold get_user_info. apply pure_bind.
  - destruct (truthy t); [intros s; reflexivity|]. apply pure_bind; [apply pure_get_set|intros c; apply pure_lift].
  - intros a. apply pure_bind.
    + unfold do_request. apply pure_bind; [intros s; reflexivity|intros rec].
      apply pure_bind; [apply pure_lift|intros q]. apply pure_bind; [apply pure_lift|intros raw].
      apply pure_bind; [apply pure_lift|intros d]. destruct (dmem "error" d); intros s; reflexivity.
    + intros d. unfold no_error. destruct (dmem "error" d); intros s; reflexivity.
Qed.

Lemma finalize_auth_inv L E raw s s' a :
  finalize_auth L E raw s = (s', Ok a) -> dmem "error" a = false ->
  exists rec k d, rec = snd (claimed raw s) /\ (exists o, rec = Ok o /\ l_parse L "authorization" o raw = Ok d)
    /\ dmem "error" d = false /\ dget "state" d = Some (VStr k)
    /\ py_eqb (match holds k "iss" s with Some i => i | None => VNull end) (issuer_now (v_conf E)) = true
    /\ stamp L (v_now E) d = Ok a /\ s' = stored k a (stored k d s).
Proof.
  intros H He. unfold finalize_auth in H.
  apply bind_inv in H. destruct H as [s0 [o [H0 H]]].
  assert (s0 = s).
  { unfold claimed in H0. destruct (dget "state" raw) as [[]|]; injection H0 as H0 _; congruence. }
  subst s0.
  apply bind_inv in H. destruct H as [s1 [d [H1 H]]]. apply lift_inv in H1. destruct H1 as [-> H1].
  destruct (dmem "error" d) eqn:Ed; [injection H as <- <-; congruence|].
  apply bind_inv in H. destruct H as [s2 [k [H2 H]]]. apply lift_inv in H2. destruct H2 as [-> H2].
  destruct (dget "state" d) as [v|] eqn:Ev; [|discriminate H2].
  destruct v; try discriminate H2. injection H2 as ->.
  apply bind_inv in H. destruct H as [s3 [c [H3 H]]].
  apply (get_set_ok _ _ _ _ _ _ "iss") in H3; [|reflexivity]. destruct H3 as [-> H3]. rewrite H3 in H.
  cbv zeta in H. match type of H with (if ?b then _ else _) _ = _ => destruct b eqn:Eb end; [|discriminate H].
  apply bind_inv in H. destruct H as [s4 [u [H4 H]]]. injection H4 as <- _.
  apply update_context_inv in H; [|discriminate]. destruct H as [_ [Hst ->]].
  exists (Ok o), k, d. rewrite H0. repeat split; try assumption. exists o. split; [reflexivity|exact H1].
Qed.

(** finalize, after the authorization response *)
Lemma finalize_inv L E raw c s s' r :
  finalize L E raw c s = (s', Ok r) ->
  exists s1 a, finalize_auth L E raw s = (s1, Ok a)
    /\ ((dmem "error" a = true /\ s' = s1 /\ exists v e, dget "state" a = Some v /\ dget "error" a = Some e
           /\ r = [("state", v); ("error", e)])
        \/ (dmem "error" a = false /\ exists k s2 token idt info s3,
              dget "state" a = Some (VStr k)
              /\ get_access_and_id_token L E (Some a) k c s1 = (s2, Ok (token, idt))
              /\ c_db s3 = c_db s2 /\ c_db s' = c_db s2
              /\ r = [("userinfo", VDict info); ("state", VStr k); ("token", token); ("id_token", idt);
                      ("session_state", match dget "session_state" a with Some x => x | None => VStr "" end);
                      ("issuer", cf_issuer (v_conf E))])).
Proof.
  intros H. unfold finalize in H.
  apply bind_inv in H. destruct H as [s1 [a [H0 H]]]. exists s1, a. split; [exact H0|].
  apply bind_inv in H. destruct H as [s2 [v [H1 H]]]. apply lift_inv in H1. destruct H1 as [-> H1]. apply dindex_ok in H1.
  destruct (dmem "error" a) eqn:Ee.
  - left. split; [reflexivity|]. apply bind_inv in H. destruct H as [s2 [e [H2 H]]]. apply lift_inv in H2. destruct H2 as [-> H2].
    apply dindex_ok in H2. injection H as <- <-. split; [reflexivity|]. exists v, e. repeat split; assumption.
  - right. split; [reflexivity|]. apply bind_inv in H. destruct H as [s2 [k [H2 H]]]. apply lift_inv in H2. destruct H2 as [-> H2].
    destruct v; try discriminate H2. injection H2 as ->.
    apply bind_inv in H. destruct H as [s3 [[token idt] [H3 H]]].
    apply bind_inv in H. destruct H as [s4 [info [H4 H]]].
    assert (E4 : s4 = s3).
    { destruct (cf_userinfo (v_conf E) && truthy token).
      - pose proof (user_info_keeps L E k token s3) as X. rewrite H4 in X. exact X.
      - destruct (truthy idt).
        + apply bind_inv in H4. destruct H4 as [s5 [t [H5 H4]]]. apply lift_inv in H5. destruct H5 as [-> _].
          injection H4 as H4 _. congruence.
        + injection H4 as H4 _. congruence. }
    subst s4.
    apply bind_inv in H. destruct H as [s5 [u [H5 H]]].
    assert (B : forall x k' w w' u', bind_val x k' w = (w', Ok u') -> c_db w' = c_db w).
    { intros x k' w w' u' Hb. unfold bind_val in Hb. destruct x; cbn [hashable] in Hb; inversion Hb; reflexivity. }
    assert (E5 : c_db s5 = c_db s3).
    { destruct (sid_support (v_conf E) && truthy idt).
      - apply bind_inv in H5. destruct H5 as [s6 [t [H6 H5]]]. apply lift_inv in H6. destruct H6 as [-> _].
        destruct (dget "sid" t) as [x|]; [exact (B _ _ _ _ _ H5)|injection H5 as H5 _; congruence].
      - injection H5 as H5 _. congruence. }
    apply bind_inv in H. destruct H as [s6 [who [H6 H]]].
    assert (E6 : s6 = s5).
    { destruct (truthy idt).
      - apply bind_inv in H6. destruct H6 as [s7 [t [H7 H6]]]. apply lift_inv in H7. destruct H7 as [-> _].
        apply lift_inv in H6. exact (proj1 H6).
      - apply lift_inv in H6. exact (proj1 H6). }
    subst s6.
    apply bind_inv in H. destruct H as [s7 [u' [H7 H]]]. apply B in H7. injection H as <- <-.
    exists k, s3, token, idt, info, s5. repeat split; try assumption. congruence.
Qed.

(** tokens come from the authorization response or from the token endpoint *)
Lemma access_inv L E resp k c s s' token idt :
  (k <> "" \/ exists d, resp = Some d /\ dget "state" d = Some (VStr k)) ->
  get_access_and_id_token L E resp k c s = (s', Ok (token, idt)) ->
  (s' = s /\ (token = VNull \/ exists d, resp = Some d /\ dget "access_token" d = Some token)
          /\ (idt = VNull \/ exists d, resp = Some d /\ dget marker d = Some idt))
  \/ exists t, get_tokens L E k s = (s', Ok t) /\ dget "access_token" t = Some token
          /\ idt = match dget marker t with Some i => i | None => VNull end.
Proof.
  intros Nk H. unfold get_access_and_id_token in H.
  apply bind_inv in H. destruct H as [s0 [u [H0 H]]].
  assert (s0 = s). { destruct (given resp); [|rewrite get_set_eq in H0]; injection H0 as H0 _; congruence. } subst s0.
  apply bind_inv in H. destruct H as [s1 [k1 [H1 H]]].
  assert (s1 = s /\ k1 = k) as [-> ->].
  { destruct (String.eqb_spec k "") as [Ek|Ek].
    - destruct Nk as [Nk|[d [-> Hd]]]; [contradiction|]. cbn [from_response] in H1. unfold dindex in H1. rewrite Hd in H1.
      cbn [bind key_of] in H1. injection H1 as <- <-. split; reflexivity.
    - injection H1 as <- <-. split; reflexivity. }
  apply bind_inv in H. destruct H as [s2 [cl [H2 H]]]. rewrite get_set_eq in H2. injection H2 as <- _.
  apply bind_inv in H. destruct H as [s3 [v [H3 H]]]. apply lift_inv in H3. destruct H3 as [-> _].
  apply bind_inv in H. destruct H as [s4 [ts [H4 H]]]. apply lift_inv in H4. destruct H4 as [-> _].
  apply bind_inv in H. destruct H as [s5 [i [H5 H]]].
  assert (F : forall x w, from_response x resp = Ok w -> exists d, resp = Some d /\ dget x d = Some w).
  { intros x w Hx. destruct resp as [d|]; [|discriminate Hx]. exists d. split; [reflexivity|]. apply dindex_ok in Hx. exact Hx. }
  assert (I : s5 = s /\ (i = VNull \/ exists d, resp = Some d /\ dget marker d = Some i)).
  { match type of H5 with (if ?b then _ else _) _ = _ => destruct b end.
    - apply lift_inv in H5. destruct H5 as [-> H5]. split; [reflexivity|]. right. exact (F _ _ H5).
    - injection H5 as <- <-. split; [reflexivity|left; reflexivity]. }
  destruct I as [-> I]. clear H5.
  match type of H with (if ?b then _ else _) _ = _ => destruct b end.
  - apply bind_inv in H. destruct H as [s6 [a [H6 H]]]. apply lift_inv in H6. destruct H6 as [-> H6].
    destruct c.
    + apply bind_inv in H. destruct H as [s7 [t [H7 H]]].
      apply bind_inv in H. destruct H as [s8 [a' [H8 H]]]. apply lift_inv in H8. destruct H8 as [-> H8].
      apply dindex_ok in H8. injection H as <- <- <-. right. exists t. repeat split; assumption.
    + injection H as <- <- <-. left. split; [reflexivity|]. split; [right; exact (F _ _ H6)|exact I].
  - match type of H with (if ?b then _ else _) _ = _ => destruct b end.
    + apply bind_inv in H. destruct H as [s7 [t [H7 H]]].
      apply bind_inv in H. destruct H as [s8 [a' [H8 H]]]. apply lift_inv in H8. destruct H8 as [-> H8].
      apply dindex_ok in H8. injection H as <- <- <-. right. exists t. repeat split; assumption.
    + injection H as <- <- <-. left. split; [reflexivity|]. split; [left; reflexivity|exact I].
Qed.

(** ** Authorization requests *)

(** the arguments of an authorization request *)
Definition base_args (C : conf) (n : string) (t m u : val) : dict val :=
  let r := [("redirect_uri", u); ("response_type", t)] in
  let r := if truthy m then dset "response_mode" m r else r in
  let r := if cf_oidc C then dset "nonce" (VStr n) r else r in
  if truthy (cf_scope C) then dset "scope" (cf_scope C) r else r.
Definition all_args (C : conf) (k n : string) (t m u : val) (args : option (dict val)) : dict val :=
  let r := dupdate (base_args C n t m u) (cf_args C) in
  dset "state" (VStr k) (match args with Some a => dupdate r a | None => r end).

Lemma init_inv L C k n args s s' q :
  init_authorization L C k n args s = (s', Ok q) ->
  exists t m u,
    response_type_of C args = Ok t /\ response_mode_of L C t args = Ok m /\ pick_redirect L args t m = Ok u
    /\ l_request L "authorization" (Some [("iss", cf_issuer C)]) (all_args C k n t m u args) = Ok q
    /\ s' = stored k q (mkSess (dset k [("iss", cf_issuer C)] (c_db s))
                               (if cf_oidc C then dset n k (c_map s) else c_map s)).
Proof.
  intros H. unfold init_authorization in H.
  apply bind_inv in H. destruct H as [s0 [t [H0 H]]]. apply lift_inv in H0. destruct H0 as [-> H0].
  apply bind_inv in H. destruct H as [s0 [m [H1 H]]]. apply lift_inv in H1. destruct H1 as [-> H1].
  apply bind_inv in H. destruct H as [s0 [u [H2 H]]]. apply lift_inv in H2. destruct H2 as [-> H2].
  cbv zeta in H.
  apply bind_inv in H. destruct H as [s1 [x [H3 H]]].
  assert (s1 = mkSess (c_db s) (if cf_oidc C then dset n k (c_map s) else c_map s)).
  { destruct (cf_oidc C); injection H3 as <- _; [reflexivity|destruct s; reflexivity]. }
  subst s1. apply bind_inv in H. destruct H as [s2 [y [H4 H]]]. injection H4 as <- _. cbn [c_db c_map] in H.
  apply bind_inv in H. destruct H as [s3 [rec [H5 H]]]. injection H5 as <- <-. cbn [c_db] in H.
  rewrite dget_dset_same in H.
  apply bind_inv in H. destruct H as [s4 [q' [H6 H]]]. apply lift_inv in H6. destruct H6 as [-> H6].
  apply bind_inv in H. destruct H as [s5 [z [H7 H]]]. injection H7 as <- _. injection H as <- <-.
  exists t, m, u. repeat split; assumption.
Qed.

Lemma all_args_get C k n t m u args x :
  cf_args C = [] -> wf_args args -> x <> "state" ->
  dget x (all_args C k n t m u args)
  = match match args with Some a => dget x a | None => None end with
    | Some v => Some v
    | None => dget x (base_args C n t m u)
    end.
Proof.
  intros Hc Hw N. unfold all_args. rewrite Hc. cbv zeta. cbn [dupdate fold_left]. rewrite dget_dset_other by exact N.
  change (dupdate (base_args C n t m u) []) with (base_args C n t m u).
  destruct args as [a|]; [|reflexivity]. rewrite dget_dupdate by exact Hw. reflexivity.
Qed.

Lemma base_args_type C n t m u : dget "response_type" (base_args C n t m u) = Some t.
Proof.
  unfold base_args. cbv zeta. destruct (truthy m), (cf_oidc C), (truthy (cf_scope C)); reflexivity.
Qed.
Lemma base_args_mode C n t m u : dget "response_mode" (base_args C n t m u) = if truthy m then Some m else None.
Proof.
  unfold base_args. cbv zeta. destruct (truthy m), (cf_oidc C), (truthy (cf_scope C)); reflexivity.
Qed.
Lemma base_args_nonce C n t m u : dget "nonce" (base_args C n t m u) = if cf_oidc C then Some (VStr n) else None.
Proof.
  unfold base_args. cbv zeta. destruct (truthy m), (cf_oidc C), (truthy (cf_scope C)); reflexivity.
Qed.

Lemma arg_get x args : arg x args = match match args with Some a => dget x a | None => None end with Some v => v | None => VNull end.
Proof. destruct args; reflexivity. Qed.

Lemma given_arg x args : truthy (arg x args) = true -> given args = true.
Proof. destruct args as [[|p a]|]; cbn; intros H; try discriminate H; reflexivity. Qed.

(** ** Sessions that are closed *)

Definition absent (k : string) (s : sess) : Prop := dget k (c_db s) = None.

Lemma get_set_absent L k names s :
  absent k s -> get_set L k names s = (s, if l_raises L then Err KeyError else Ok []).
Proof. intros H. rewrite get_set_eq, H. reflexivity. Qed.

Lemma get_tokens_absent L E k s : absent k s -> get_tokens L E k s = (s, Err KeyError).
Proof.
  intros H. unfold get_tokens, mbind. rewrite get_set_absent by exact H. destruct (l_raises L); reflexivity.
Qed.

Lemma access_absent L E resp k k' c s :
  access_session resp k' = Some k -> absent k s ->
  exists e, get_access_and_id_token L E resp k' c s = (s, Err e).
Proof.
  intros Hk Ha. unfold get_access_and_id_token.
  unfold mbind at 1.
  assert (P : (if given resp then ret [] else get_set L k' []) s = (s, snd ((if given resp then ret [] else get_set L k' []) s))).
  { destruct (given resp); [reflexivity|]. rewrite get_set_eq. reflexivity. }
  rewrite P. destruct (snd ((if given resp then ret [] else get_set L k' []) s)) as [u|e]; [|exists e; reflexivity].
  unfold mbind at 1.
  assert (Q : (if String.eqb k' "" then lift (let* v := from_response "state" resp in key_of v) else ret k') s
              = (s, if String.eqb k' "" then (let* v := from_response "state" resp in key_of v) else Ok k')).
  { destruct (String.eqb k' ""); reflexivity. }
  rewrite Q.
  destruct (if String.eqb k' "" then (let* v := from_response "state" resp in key_of v) else Ok k') as [k1|e] eqn:E1;
    [|exists e; reflexivity].
  assert (k1 = k) as ->.
  { unfold access_session in Hk. destruct (String.eqb_spec k' "") as [Ek|Ek].
    - destruct resp as [d|]; [|discriminate E1]. cbn [from_response] in E1. apply bind_ok in E1. destruct E1 as [v [Hv E1]].
      apply dindex_ok in Hv. destruct d as [|x d]; [discriminate Hv|]. unfold named in Hk. rewrite Hv in Hk.
      destruct v; try discriminate E1. inversion Hk. inversion E1. congruence.
    - congruence. }
  unfold mbind at 1. rewrite get_set_absent by exact Ha. destruct (l_raises L); eexists; reflexivity.
Qed.

Lemma finalize_auth_absent L E raw k s :
  keeps_state L -> named raw = Some k -> absent k s -> py_eqb VNull (issuer_now (v_conf E)) = false ->
  (exists e, finalize_auth L E raw s = (s, Err e))
  \/ exists d, finalize_auth L E raw s = (s, Ok d) /\ dmem "error" d = true.
Proof.
  intros HK Hn Ha Hi. unfold named in Hn.
  assert (Hc : claimed raw s = (s, Ok None)).
  { unfold claimed. destruct (dget "state" raw) as [[]|]; try discriminate Hn. injection Hn as ->. unfold of_key. rewrite Ha. reflexivity. }
  destruct (finalize_auth L E raw s) as [s' r] eqn:H. unfold finalize_auth in H.
  unfold mbind at 1 in H. rewrite Hc in H. unfold mbind at 1 in H. unfold lift at 1 in H.
  destruct (l_parse L "authorization" None raw) as [d|e] eqn:Ed; [|left; exists e; congruence].
  destruct (dmem "error" d) eqn:Ee; [right; exists d; split; [unfold ret in H; congruence|exact Ee]|].
  pose proof (HK _ _ _ Ed) as Hs. rewrite Hs in H.
  destruct (dget "state" raw) as [v|]; [|discriminate Hn]. destruct v; try discriminate Hn. injection Hn as ->.
  unfold mbind at 1 in H. unfold lift at 1 in H. cbn [key_of] in H. unfold mbind at 1 in H.
  rewrite get_set_absent in H by exact Ha.
  destruct (l_raises L); [left; eexists; symmetry; exact H|]. cbn [dget] in H. rewrite Hi in H.
  left. exists ValueError. unfold raise in H. congruence.
Qed.
