(** C131-C138: logins of a relying party. *)
From Coq Require Import Lia.
From Verif Require Import PyFacts ExampleKit SessionFacts.
Local Open Scope string_scope.
Local Open Scope list_scope.
Local Open Scope Z_scope.

(** * A library and a client for the examples *)

Definition once (d : dict val) : res (dict val) := if nodupb (dkeys d) then Ok d else Err ValueError.
Definition modes : dict string :=
  [("code", "query"); ("id_token", "fragment"); ("token", "fragment"); ("code token", "fragment");
   ("code id_token", "fragment"); ("id_token token", "fragment"); ("code id_token token", "fragment")].
Definition as_int (v : val) : res Z := match v with VInt n => Ok n | _ => Err ValueError end.
Definition plain : lib :=
  mkLib true (fun _ _ raw => once raw) (fun _ _ _ => None) as_int
        (fun svc rec args => match rec with Some _ => once args | None => Err KeyError end)
        (fun _ _ _ => Ok (VStr "https://rp/cb")) modes ["sub"; "name"] ["sub"; "exp"].
Definition op_info : dict val := [("issuer", VStr "https://op")].
Definition rp : conf :=
  mkConf (VStr "https://op") op_info (VList [VStr "code"; VStr "id_token"]) (VList []) (VList [VStr "openid"]) true []
         (VStr "https://rp") (VStr "secret") true true.
Definition idt (sub : string) (e : Z) : val := VDict [("sub", VStr sub); ("exp", VInt e)].
(** a server: code [c] is good for the tokens of the user of that name *)
Definition server (svc : string) (q : dict val) : res (dict val) :=
  if String.eqb svc "accesstoken" then
    match dget "code" q with
    | Some (VStr c) => Ok [("access_token", VStr ("token of " ++ c)%string); ("expires_in", VInt 60); (marker, idt c 100)]
    | _ => Ok [("error", VStr "invalid_grant")]
    end
  else if String.eqb svc "refresh_token" then Ok [("access_token", VStr "refreshed")]
  else if String.eqb svc "userinfo" then
    match dget "access_token" q with Some t => Ok [("sub", t)] | None => Ok [("error", VStr "invalid_request")] end
  else Err ValueError.
Definition at_ (now : Z) : env := mkEnvS rp server now.
Definition empty : sess := mkSess [] [].

Lemma plain_keeps : keeps_state plain.
Proof. intros rec raw d H. cbn in H. unfold once in H. destruct (nodupb (dkeys raw)); [|discriminate H]. inversion H. reflexivity. Qed.
Lemma once_nodup d d' : once d = Ok d' -> NoDup (dkeys d').
Proof. unfold once. destruct (nodupb (dkeys d)) eqn:E; intros H; [|discriminate H]. inversion H; subst. apply nodupb_sound. exact E. Qed.
Lemma plain_wf : wf_lib plain.
Proof.
  split; cbn.
  - intros svc rec raw d. apply once_nodup.
  - intros svc rec args d. destruct rec; [apply once_nodup|discriminate].
Qed.

(** * C131: logins do not mix *)

(** Whatever other logins are going on in between, in whatever order: what the operations
    of one login result in, and what the client knows of it in the end, is what they
    result in alone. *)
Theorem C131_logins_do_not_mix L l s k :
  keeps_state L ->
  filter (fun p => of_session k (fst p)) (snd (run L l s)) = snd (run L (filter (of_session k) l) s)
  /\ dget k (c_db (fst (run L l s))) = dget k (c_db (fst (run L (filter (of_session k) l) s))).
Proof.
  intros HK.
  assert (H : forall l s s', dget k (c_db s) = dget k (c_db s') ->
            filter (fun p => of_session k (fst p)) (snd (run L l s)) = snd (run L (filter (of_session k) l) s')
            /\ dget k (c_db (fst (run L l s))) = dget k (c_db (fst (run L (filter (of_session k) l) s')))).
  { clear l s. intros l. induction l as [|o l IH]; intros s s' E; [split; [reflexivity|exact E]|].
    cbn [run filter]. destruct (of_session k o) eqn:Eo.
    - unfold of_session in Eo. destruct (session_of o) as [k0|] eqn:Es; [|discriminate Eo].
      apply String.eqb_eq in Eo. subst k0.
      destruct (proj1 (within_step L o k HK (or_introl Es)) s s' E) as [E1 E2].
      cbn [run]. destruct (step L o s) as [s1 r], (step L o s') as [s1' r']. cbn in E1, E2. subst r'.
      destruct (IH s1 s1' E2) as [I1 I2].
      destruct (run L l s1) as [s2 rs], (run L (filter (of_session k) l) s1') as [s2' rs']. cbn in I1, I2 |- *.
      unfold of_session at 1. rewrite Es, String.eqb_refl, I1. split; [reflexivity|exact I2].
    - assert (F : dget k (c_db (fst (step L o s))) = dget k (c_db s)).
      { unfold of_session in Eo. destruct (session_of o) as [k0|] eqn:Es.
        - apply String.eqb_neq in Eo. exact (proj2 (within_step L o k0 HK (or_introl Es)) s k Eo).
        - (* no session: within any other key *)
          assert (N : k <> String "x" k) by (clear; induction k; [discriminate|intros X; inversion X; auto]).
          exact (proj2 (within_step L o (String "x" k) HK (or_intror Es)) s k N). }
      destruct (step L o s) as [s1 r]. cbn in F. rewrite <- F in E. destruct (IH s1 s' E) as [I1 I2].
      destruct (run L l s1) as [s2 rs]. cbn in I1, I2 |- *. rewrite Eo. split; [exact I1|exact I2]. }
  apply H. reflexivity.
Qed.
Print Assumptions C131_logins_do_not_mix.

(** two logins side by side *)
Definition two_logins : list op :=
  [Init (at_ 1) "s1" "n1" None; Init (at_ 2) "s2" "n2" None;
   Finalize (at_ 3) [("state", VStr "s2"); ("code", VStr "bob")] false;
   Finalize (at_ 4) [("state", VStr "s1"); ("code", VStr "alice")] false;
   Valid (at_ 5) "s1"; Active (at_ 5) "s2"; Clear "s2"; Valid (at_ 5) "s2"; Valid (at_ 70) "s1"].
Definition answers (k : string) (l : list (op * res out)) : list (res out) :=
  map snd (filter (fun p => of_session k (fst p)) l).
Example C131_ex :
  skipn 1 (answers "s1" (snd (run plain two_logins empty)))
  = [Ok (OMsg [("userinfo", VDict [("sub", VStr "token of alice")]); ("state", VStr "s1"); ("token", VStr "token of alice");
               ("id_token", idt "alice" 100); ("session_state", VStr ""); ("issuer", VStr "https://op")]);
     Ok (OPair (VStr "token of alice") (VInt 64)); Err OtherException]
  /\ skipn 2 (answers "s2" (snd (run plain two_logins empty))) = [Ok (OBool true); Ok ODone; Err KeyError].
Proof. split; vm_compute; reflexivity. Qed.

(** * C132: the verified ID token of a login *)

Definition C132_id_token_full : Prop :=
  forall L E raw c s s1 s' a r v,
    keeps_state L -> wf_lib L ->
    finalize_auth L E raw s = (s1, Ok a) -> dget marker a = Some v -> truthy v = true ->
    finalize L E raw c s = (s', Ok r) -> dmem "error" r = false ->
    exists w, dget "id_token" r = Some w /\ truthy w = true.

(** A hybrid login whose ID token came with the code only: the ID token is lost. *)
Definition hybrid_server (svc : string) (q : dict val) : res (dict val) :=
  if String.eqb svc "accesstoken" then Ok [("access_token", VStr "t")] else server svc q.
Definition hybrid : env := mkEnvS rp hybrid_server 5.
Definition hybrid_answer : dict val := [("state", VStr "s1"); ("code", VStr "c"); (marker, idt "alice" 100)].
Definition asked_for (t : string) : sess :=
  mkSess [("s1", [("iss", VStr "https://op"); ("redirect_uri", VStr "https://rp/cb"); ("response_type", VStr t)])] [].
Theorem C132_id_token_refuted : ~ C132_id_token_full.
Proof.
  intros H.
  destruct (H plain hybrid hybrid_answer false (asked_for "code id_token") _ _ _ _ (idt "alice" 100)
              plain_keeps plain_wf eq_refl eq_refl eq_refl eq_refl eq_refl) as [w [Hw Ht]].
  vm_compute in Hw. inversion Hw; subst w. discriminate Ht.
Qed.
Print Assumptions C132_id_token_refuted.

(** Any ID token returned is one that the library has verified, in the authorization
    response or in a response of the token endpoint, against the record of this login. *)
Theorem C132_id_token_partial L E raw c s s' r v :
  keeps_state L ->
  finalize L E raw c s = (s', Ok r) -> dget "id_token" r = Some v -> v <> VNull ->
  exists k s1, named raw = Some k /\ dget "state" r = Some (VStr k)
    /\ (exists a, finalize_auth L E raw s = (s1, Ok a))
    /\ ((exists d, l_parse L "authorization" (dget k (c_db s)) raw = Ok d /\ dget marker d = Some v)
        \/ from_token_endpoint L E s1 k marker v).
Proof.
  intros HK H Hv Nv. apply finalize_inv in H. destruct H as [s1 [a [Ha H]]].
  destruct H as [[_ [_ [w [e [_ [_ ->]]]]]]|[He [k [s2 [token [i [info [s3 [Hk [Hg [_ [_ ->]]]]]]]]]]]]; [discriminate Hv|].
  cbn in Hv. inversion Hv; subst i. pose proof (finalize_auth_state _ _ _ _ _ _ HK Ha) as Hst.
  assert (Hn : named raw = Some k) by (unfold named; rewrite <- Hst, Hk; reflexivity).
  exists k, s1. split; [exact Hn|]. split; [reflexivity|]. split; [exists a; exact Ha|].
  destruct (finalize_auth_inv _ _ _ _ _ _ Ha He) as [rec [k' [d [Hrec [[o [Ho Hp]] [_ [Hk' [_ [Hs _]]]]]]]]].
  assert (Nk : k <> "" \/ exists d, Some a = Some d /\ dget "state" d = Some (VStr k))
    by (right; exists a; split; [reflexivity|exact Hk]).
  destruct (access_inv _ _ _ _ _ _ _ _ _ Nk Hg) as [[_ [_ Hi]]|[t [Ht [_ Hi]]]].
  - left. destruct Hi as [Hi|[d0 [Hd0 Hi]]]; [contradiction|]. inversion Hd0; subst d0. exists d. split.
    + rewrite <- Hp. f_equal. unfold claimed in Hrec. unfold named in Hn.
      destruct (dget "state" raw) as [[]|]; try discriminate Hn. inversion Hn; subst. cbn in Ho. inversion Ho. reflexivity.
    + rewrite <- Hi. symmetry. apply (stamp_other _ _ _ _ _ Hs). discriminate.
  - right. apply get_tokens_inv in Ht. destruct Ht as [args [q [rw [d' [Hq [Hnet [Hpar [_ [Hst' _]]]]]]]]].
    exists args, q, rw, d'. repeat split; try assumption.
    rewrite <- (stamp_other _ _ _ _ marker Hst') by discriminate. destruct (dget marker t) as [i|]; [congruence|contradiction].
Qed.
Print Assumptions C132_id_token_partial.

(** The documentation offers to ask by state alone; for the implicit types that fails. *)
Theorem C132_by_state_refuted :
  ~ (forall L E k s v,
        keeps_state L -> wf_lib L -> k <> "" ->
        holds k "response_type" s = Some (VStr "id_token") -> holds k marker s = Some v ->
        exists s' token, get_access_and_id_token L E None k false s = (s', Ok (token, v))).
Proof.
  intros H.
  destruct (H plain (at_ 5) "s1"
              (mkSess [("s1", [("response_type", VStr "id_token"); (marker, idt "alice" 100)])] [])
              (idt "alice" 100) plain_keeps plain_wf) as [s' [token X]];
    [discriminate|reflexivity|reflexivity|]. vm_compute in X. discriminate X.
Qed.
Print Assumptions C132_by_state_refuted.

Theorem C132_by_state_partial L E k s t resp :
  k <> "" -> holds k "response_type" s = Some (VStr t) -> t = "code" \/ t = "code id_token" \/ t = "id_token code" ->
  get_access_and_id_token L E None k false s = get_access_and_id_token L E (Some resp) k false s.
Proof.
  intros Nk Ht Hc. unfold get_access_and_id_token. apply String.eqb_neq in Nk. rewrite Nk.
  assert (G : get_set L k ["response_type"] s = (s, Ok [("response_type", VStr t)])
              \/ exists r, get_set L k ["response_type"] s = (s, Ok r) /\ dindex "response_type" r = Ok (VStr t)).
  { right. unfold holds in Ht. rewrite get_set_eq. destruct (dget k (c_db s)) as [r|]; [|discriminate Ht].
    exists (restrict ["response_type"] r). split; [reflexivity|].
    unfold dindex. rewrite dget_restrict. cbn [smem existsb String.eqb]. cbn. rewrite Ht. reflexivity. }
  assert (P : forall resp0 : option (dict val), (if given resp0 then ret [] else get_set L k []) s
              = (s, snd ((if given resp0 then ret [] else get_set L k []) s))).
  { intros resp0. destruct (given resp0); [reflexivity|]. rewrite get_set_eq. reflexivity. }
  assert (Q : forall resp0 : option (dict val), exists u, snd ((if given resp0 then ret [] else get_set L k []) s) = Ok u).
  { intros resp0. destruct (given resp0); [exists []; reflexivity|]. rewrite get_set_eq. unfold holds in Ht.
    destruct (dget k (c_db s)) as [r|]; [exists (restrict [] r); reflexivity|discriminate Ht]. }
  unfold mbind at 1. symmetry. unfold mbind at 1. rewrite (P None), (P (Some resp)).
  destruct (Q None) as [u ->], (Q (Some resp)) as [u' ->].
  destruct G as [G|[r [G Hr]]].
  - unfold mbind, ret, lift. rewrite G. destruct Hc as [->|[->| ->]]; reflexivity.
  - unfold mbind, ret, lift. rewrite G, Hr. destruct Hc as [->|[->| ->]]; reflexivity.
Qed.
Print Assumptions C132_by_state_partial.

Example C132_ex :
  snd (get_access_and_id_token plain (at_ 5) None "s1" false
         (mkSess [("s1", [("response_type", VStr "code"); ("code", VStr "alice"); ("redirect_uri", VStr "u")])] []))
  = Ok (VStr "token of alice", idt "alice" 100)
  /\ exists s' r, finalize plain (at_ 5) [("state", VStr "s1"); (marker, idt "alice" 100)] false (asked_for "id_token") = (s', Ok r)
       /\ dget "id_token" r = Some (idt "alice" 100) /\ dget "token" r = Some VNull.
Proof. split; [vm_compute; reflexivity|]. eexists. eexists. split; [vm_compute; reflexivity|]. split; reflexivity. Qed.

(** * C133: valid tokens and active authentications *)

(** the operations that get a new access token *)
Inductive renewal := Fetch | Renew (scope : val).
Definition renew (L : lib) (E : env) (k : string) (w : renewal) : M sess (dict val) :=
  match w with Fetch => get_tokens L E k | Renew sc => refresh_access_token L E k sc end.

Definition C133_valid_full : Prop :=
  forall L E k w s s' d t now,
    wf_lib L -> renew L E k w s = (s', Ok d) -> dget "access_token" d = Some t ->
    dget "__expires_at" d = None \/ dmem "expires_in" d = true ->
    (forall e, expiry L (v_now E) d = Some e -> 0 < e) ->
    snd (get_valid_access_token L now k s') = valid_at now t (expiry L (v_now E) d).

(** A new token that came without a lifetime gets the expiry of the token before. *)
Theorem C133_valid_refuted : ~ C133_valid_full.
Proof.
  intros H.
  specialize (H plain (at_ 65) "s1" (Renew VNull)
                (mkSess [("s1", [("access_token", VStr "old"); ("__expires_at", VInt 60)])] [])
                _ _ (VStr "refreshed") 70 plain_wf eq_refl eq_refl (or_introl eq_refl)).
  assert (X : forall e, expiry plain (v_now (at_ 65)) [("access_token", VStr "refreshed")] = Some e -> 0 < e)
    by (intros e X; discriminate X).
  specialize (H X). vm_compute in H. discriminate H.
Qed.
Print Assumptions C133_valid_refuted.

Lemma stamp_expiry L now d d' :
  stamp L now d = Ok d' ->
  expiry L now d' = expiry L now d
  /\ dget "__expires_at" d' = match expiry L now d with Some e => Some (VInt e) | None => dget "__expires_at" d end.
Proof.
  unfold stamp, expiry. destruct (dget "expires_in" d) as [v|] eqn:E; intros H.
  - apply bind_ok in H. destruct H as [n [Hn H]]. inversion H; subst d'.
    rewrite dget_dset_other by discriminate. rewrite E, Hn, dget_dset_same. split; reflexivity.
  - inversion H; subst d'. rewrite E. split; reflexivity.
Qed.

(** With a lifetime, or without one after a token without one, the answer is right. *)
Theorem C133_valid_partial L E k w s s' d t now :
  wf_lib L -> renew L E k w s = (s', Ok d) -> dget "access_token" d = Some t ->
  dmem "expires_in" d = true \/ (dget "__expires_at" d = None /\ holds k "__expires_at" s = None) ->
  (forall e, expiry L (v_now E) d = Some e -> 0 < e) ->
  snd (get_valid_access_token L now k s') = valid_at now t (expiry L (v_now E) d).
Proof.
  intros [W _] H Ht Hx He.
  assert (R : exists svc raw d0, l_parse L svc (dget k (c_db s)) raw = Ok d0 /\ stamp L (v_now E) d0 = Ok d /\ s' = stored k d s).
  { destruct w; cbn [renew] in H; [apply get_tokens_inv in H|apply refresh_inv in H];
      destruct H as [args [q [raw [d0 [_ [_ [Hp [_ [Hs ->]]]]]]]]]; eexists; exists raw, d0; repeat split; eassumption. }
  destruct R as [svc [raw [d0 [Hp [Hs ->]]]]].
  pose proof (stamp_nodup _ _ _ _ Hs (W _ _ _ _ Hp)) as ND.
  destruct (stamp_expiry _ _ _ _ Hs) as [E1 E2].
  assert (X : holds k "__expires_at" (stored k d s) = match expiry L (v_now E) d with Some e => Some (VInt e) | None => None end).
  { rewrite holds_stored by exact ND. rewrite E2, E1. destruct Hx as [Hx|[Hx1 Hx2]].
    - unfold expiry. unfold stamp in Hs. unfold dmem in Hx. destruct (dget "expires_in" d0) as [v|] eqn:Ev.
      + apply bind_ok in Hs. destruct Hs as [n [-> _]]. reflexivity.
      + inversion Hs; subst d0. rewrite Ev in Hx. discriminate Hx.
    - rewrite E2 in Hx1. destruct (expiry L (v_now E) d0); [reflexivity|]. rewrite Hx1. exact Hx2. }
  assert (Y : holds k "access_token" (stored k d s) = Some t).
  { rewrite holds_stored by exact ND. rewrite Ht. reflexivity. }
  unfold get_valid_access_token, mbind. rewrite get_set_eq. unfold holds in X, Y.
  destruct (dget k (c_db (stored k d s))) as [r|]; [|discriminate Y].
  rewrite !dget_restrict. cbn [smem existsb]. cbn [String.eqb Ascii.eqb Bool.eqb orb]. rewrite X, Y.
  unfold valid_at. destruct (expiry L (v_now E) d) as [e|]; [|reflexivity].
  specialize (He e eq_refl). cbn [truthy]. destruct (Z.eqb_spec e 0); [lia|]. cbn [negb lift less].
  destruct (now <? e); reflexivity.
Qed.
Print Assumptions C133_valid_partial.

Example C133_ex :
  exists s' d, renew plain (at_ 5) "s1" Fetch
       (mkSess [("s1", [("code", VStr "alice"); ("redirect_uri", VStr "u"); ("__expires_at", VInt 3)])] []) = (s', Ok d)
    /\ dget "access_token" d = Some (VStr "token of alice")
    /\ expiry plain 5 d = Some 65
    /\ snd (get_valid_access_token plain 10 "s1" s') = Ok (VStr "token of alice", VInt 65)
    /\ snd (get_valid_access_token plain 65 "s1" s') = Err OtherException.
Proof. eexists. eexists. split; [vm_compute; reflexivity|]. repeat split; vm_compute; reflexivity. Qed.

(** After a login that returned an ID token the authentication is active until that
    token expires. *)
Theorem C133_active L E raw c s s' r t e k now :
  keeps_state L -> wf_lib L ->
  finalize L E raw c s = (s', Ok r) -> dget "id_token" r = Some (VDict t) -> dget "exp" t = Some (VInt e) ->
  named raw = Some k ->
  snd (has_active_authentication L now k s') = Ok (now <? e).
Proof.
  intros HK [W _] H Hi Hexp Hn. apply finalize_inv in H. destruct H as [s1 [a [Ha H]]].
  destruct H as [[_ [_ [w [x [_ [_ ->]]]]]]|[He [k0 [s2 [token [i [info [s3 [Hk [Hg [_ [Hdb ->]]]]]]]]]]]]; [discriminate Hi|].
  cbn in Hi. inversion Hi; subst i.
  pose proof (finalize_auth_state _ _ _ _ _ _ HK Ha) as Hst.
  assert (k0 = k) as -> by (unfold named in Hn; rewrite <- Hst, Hk in Hn; congruence).
  assert (Nk : k <> "" \/ exists d, Some a = Some d /\ dget "state" d = Some (VStr k))
    by (right; exists a; split; [reflexivity|exact Hk]).
  assert (X : holds k marker s2 = Some (VDict t)).
  { destruct (access_inv _ _ _ _ _ _ _ _ _ Nk Hg) as [[-> [_ Hx]]|[tr [Ht [_ Hx]]]].
    - destruct Hx as [Hx|[d0 [Hd0 Hx]]]; [discriminate Hx|]. inversion Hd0; subst d0.
      destruct (finalize_auth_inv _ _ _ _ _ _ Ha He) as [rec [k' [d [_ [[o [_ Hp]] [_ [Hk' [_ [Hs ->]]]]]]]]].
      assert (k' = k) as ->.
      { pose proof (stamp_other _ _ _ _ "state" Hs) as Y. rewrite Hk, Hk' in Y. assert (Z : "state" <> "__expires_at") by discriminate.
        specialize (Y Z). congruence. }
      rewrite holds_stored by exact (stamp_nodup _ _ _ _ Hs (W _ _ _ _ Hp)). rewrite Hx. reflexivity.
    - apply get_tokens_inv in Ht. destruct Ht as [args [q [rw [d' [_ [_ [Hp [_ [Hs ->]]]]]]]]].
      rewrite holds_stored by exact (stamp_nodup _ _ _ _ Hs (W _ _ _ _ Hp)).
      destruct (dget marker tr) as [i|]; [congruence|discriminate Hx]. }
  unfold has_active_authentication, mbind. rewrite get_set_eq, Hdb. unfold holds in X.
  destruct (dget k (c_db s2)) as [rc|]; [|discriminate X].
  assert (Y : dget marker (restrict [marker] rc) = Some (VDict t)).
  { rewrite dget_restrict. cbn [smem existsb]. rewrite String.eqb_refl. exact X. }
  destruct (restrict [marker] rc) as [|p c0] eqn:Er; [discriminate Y|].
  unfold dindex. unfold lift. rewrite Y. cbn [as_dict]. rewrite Hexp. reflexivity.
Qed.
Print Assumptions C133_active.

(** * C134: what an authorization request asks for *)

Lemma plain_passes : passes plain.
Proof.
  intros rec r q x H _. cbn in H. destruct rec; [|discriminate H]. unfold once in H.
  destruct (nodupb (dkeys r)); [|discriminate H]. inversion H. reflexivity.
Qed.

Definition C134_type_full : Prop :=
  forall L C k n args types s s' q t,
    passes L -> cf_args C = [] -> wf_args args -> cf_types C = VList (map VStr types) ->
    init_authorization L C k n args s = (s', Ok q) -> wanted_type types args = Some t ->
    dget "response_type" q = Some t.

(** With any other argument the usual response type is forgotten. *)
Theorem C134_type_refuted : ~ C134_type_full.
Proof.
  intros H.
  assert (W : wf_args (Some [("prompt", VStr "login")])) by (apply nodupb_sound; reflexivity).
  specialize (H plain rp "s1" "n1" (Some [("prompt", VStr "login")]) ["code"; "id_token"] empty _ _ (VStr "code")
                plain_passes eq_refl W eq_refl eq_refl eq_refl). vm_compute in H. discriminate H.
Qed.
Print Assumptions C134_type_refuted.

Theorem C134_type_partial L C k n args types s s' q t :
  passes L -> cf_args C = [] -> wf_args args -> cf_types C = VList (map VStr types) ->
  given args = false \/ truthy (arg "response_type" args) = true ->
  init_authorization L C k n args s = (s', Ok q) -> wanted_type types args = Some t ->
  dget "response_type" q = Some t.
Proof.
  intros P Hc W Ht Hg H Hw. apply init_inv in H. destruct H as [t' [m [u [H1 [_ [_ [H4 _]]]]]]].
  rewrite (P _ _ _ "response_type" H4) by (cbn; auto). rewrite all_args_get by (assumption || discriminate).
  unfold wanted_type in Hw. pose proof (arg_get "response_type" args) as Ha.
  destruct (truthy (arg "response_type" args)) eqn:Et.
  - inversion Hw; subst t. rewrite Ha in Et |- *.
    destruct (match args with Some a => dget "response_type" a | None => None end); [reflexivity|discriminate Et].
  - destruct Hg as [Hg|Hg]; [|discriminate Hg].
    assert (match args with Some a => dget "response_type" a | None => None end = None) as ->.
    { destruct args as [[|p a]|]; [reflexivity|discriminate Hg|reflexivity]. }
    rewrite base_args_type. f_equal. unfold response_type_of in H1. rewrite Hg, Ht in H1. cbn [py_in bind] in H1.
    assert (X : vmem (VStr "code") (map VStr types) = smem "code" types).
    { clear. unfold vmem, smem. induction types as [|x l IH]; [reflexivity|]. cbn [map existsb]. rewrite IH. reflexivity. }
    rewrite X in H1. unfold usual_type in Hw. destruct (smem "code" types); [congruence|].
    destruct types as [|x l]; [discriminate Hw|]. cbn in H1. congruence.
Qed.
Print Assumptions C134_type_partial.

(** The way in which the answer comes is one that the client supports. *)
Theorem C134_mode L C k n args ms s s' q :
  passes L -> cf_args C = [] -> wf_args args -> cf_modes C = VList (map VStr ms) -> ms <> [] -> ~ In "" ms ->
  (truthy (arg "response_mode" args) = true \/ match args with Some a => dmem "response_mode" a | None => false end = false) ->
  init_authorization L C k n args s = (s', Ok q) ->
  exists m, effective_mode L q = Some m /\ vmem m (map VStr ms) = true.
Proof.
  intros P Hc W Hm Ns HF Hr H. set (supported := map VStr ms) in *. apply init_inv in H. destruct H as [t [m [u [H1 [H2 [_ [H4 _]]]]]]].
  unfold effective_mode.
  rewrite (P _ _ _ "response_mode" H4), (P _ _ _ "response_type" H4) by (cbn; auto).
  rewrite !all_args_get by (assumption || discriminate).
  rewrite base_args_type, base_args_mode.
  assert (Tm : truthy (cf_modes C) = true) by (rewrite Hm; unfold supported; destruct ms; [contradiction|reflexivity]).
  unfold response_mode_of in H2.
  destruct Hr as [Hr|Hr].
  - pose proof (given_arg _ _ Hr) as Hg. rewrite Hg, Hr, Tm, Hm in H2. cbn [py_in bind] in H2.
    pose proof (arg_get "response_mode" args) as Ha.
    destruct (match args with Some a => dget "response_mode" a | None => None end) as [v|]; [|rewrite Ha in Hr; discriminate Hr].
    rewrite Ha in Hr, H2. rewrite Hr. exists v. split; [reflexivity|].
    destruct (vmem v supported); [reflexivity|discriminate H2].
  - assert (Hn : match args with Some a => dget "response_mode" a | None => None end = None).
    { destruct args as [a|]; [|reflexivity]. unfold dmem in Hr. destruct (dget "response_mode" a); [discriminate Hr|reflexivity]. }
    rewrite Hn. pose proof (arg_get "response_mode" args) as Ha. rewrite Hn in Ha.
    assert (Hk : truthy (if given args then arg "response_mode" args else VNull) = false)
      by (destruct (given args); [rewrite Ha; reflexivity|reflexivity]).
    cbv zeta in H2. rewrite Hk, Tm in H2. destruct t; try discriminate H2.
    apply bind_ok in H2. destruct H2 as [dm [Hd H2]]. unfold default_mode in Hd. apply dindex_ok in Hd.
    rewrite Hm in H2. cbn [py_in bind] in H2.
    destruct (vmem (VStr dm) supported) eqn:Ev.
    + inversion H2; subst m. cbn [truthy].
      assert (Ht : match match args with Some a => dget "response_type" a | None => None end with
                   | Some v => Some v | None => Some (VStr s0) end = Some (VStr s0)).
      { unfold response_type_of in H1. pose proof (arg_get "response_type" args) as Hb. destruct (given args) eqn:Hg.
        - destruct (truthy (arg "response_type" args)); [|discriminate H1]. inversion H1 as [H3]. rewrite Hb in H3.
          destruct (match args with Some a => dget "response_type" a | None => None end); [|discriminate H3].
          congruence.
        - destruct args as [[|p a]|]; [reflexivity|discriminate Hg|reflexivity]. }
      rewrite Ht, Hd. exists (VStr dm). split; [reflexivity|exact Ev].
    + unfold supported in *. destruct ms as [|v0 l]; [contradiction|]. cbn [map py_nth0] in H2. inversion H2; subst m.
      assert (Hv : truthy (VStr v0) = true).
      { destruct v0; [exfalso; apply HF; left; reflexivity|reflexivity]. }
      rewrite Hv, Hv. exists (VStr v0). split; [reflexivity|].
      unfold vmem. cbn [map existsb py_eqb]. rewrite String.eqb_refl. reflexivity.
Qed.
Print Assumptions C134_mode.

(** The order of the words of a response type matters as soon as a mode is asked for. *)
Theorem C134_order_refuted :
  ~ (forall L C k n t t' m s,
        sorted (words t) = sorted (words t') ->
        is_ok (snd (init_authorization L C k n (Some [("response_type", VStr t); ("response_mode", VStr m)]) s))
        = is_ok (snd (init_authorization L C k n (Some [("response_type", VStr t'); ("response_mode", VStr m)]) s))).
Proof.
  intros H. specialize (H plain rp "s1" "n1" "code id_token" "id_token code" "form_post" empty eq_refl).
  vm_compute in H. discriminate H.
Qed.
Print Assumptions C134_order_refuted.

(** When no redirect URI fits, the caller is told of a type error. *)
Theorem C134_exception_refuted :
  ~ (forall L C k n args s,
        (forall t m, l_pick L args t m = Err ValueError) -> snd (init_authorization L C k n args s) <> Err TypeError).
Proof.
  intros H.
  apply (H (mkLib true (l_parse plain) (l_check plain) as_int (l_request plain) (fun _ _ _ => Err ValueError) modes [] [])
           rp "s1" "n1" None empty); [intros; reflexivity|reflexivity].
Qed.
Print Assumptions C134_exception_refuted.

Definition strict_rp : conf :=
  mkConf (VStr "https://op") op_info (VList [VStr "id_token token"; VStr "id_token"]) (VList [VStr "form_post"]) VNull true []
         (VStr "https://rp") VNull true true.
Example C134_ex :
  (exists s' q, init_authorization plain strict_rp "s1" "n1" None empty = (s', Ok q)
     /\ dget "response_type" q = Some (VStr "id_token token") /\ effective_mode plain q = Some (VStr "form_post"))
  /\ (exists s' q, init_authorization plain rp "s1" "n1" (Some [("response_type", VStr "id_token")]) empty = (s', Ok q)
     /\ dget "response_type" q = Some (VStr "id_token") /\ effective_mode plain q = Some (VStr "fragment")).
Proof.
  split; eexists; eexists; (split; [vm_compute; reflexivity|]); split; vm_compute; reflexivity.
Qed.

(** * C135: outcomes of a login *)

Definition C135_error_full : Prop :=
  forall L E raw c s rec d e,
    keeps_state L -> snd (claimed raw s) = Ok rec -> l_parse L "authorization" rec raw = Ok d ->
    dget "error" d = Some e ->
    exists r, snd (finalize L E raw c s) = Ok r /\ dget "error" r = Some e.

(** An error without a state is not reported. *)
Theorem C135_error_refuted : ~ C135_error_full.
Proof.
  intros H.
  destruct (H plain (at_ 5) [("error", VStr "access_denied")] false empty None _ (VStr "access_denied")
              plain_keeps eq_refl eq_refl eq_refl) as [r [X _]]. vm_compute in X. discriminate X.
Qed.
Print Assumptions C135_error_refuted.

Theorem C135_error_partial L E raw c s rec d e v :
  snd (claimed raw s) = Ok rec -> l_parse L "authorization" rec raw = Ok d ->
  dget "error" d = Some e -> dget "state" d = Some v ->
  finalize L E raw c s = (s, Ok [("state", v); ("error", e)]).
Proof.
  intros Hc Hp He Hv. unfold finalize, finalize_auth.
  assert (Hcl : claimed raw s = (s, Ok rec)).
  { unfold claimed in *. destruct (dget "state" raw) as [[]|]; cbn in Hc; inversion Hc; reflexivity. }
  unfold mbind, lift. rewrite Hcl, Hp. unfold dmem, dindex. rewrite He. cbn [ret]. rewrite Hv, He. reflexivity.
Qed.
Print Assumptions C135_error_partial.

Definition C135_completes_full : Prop :=
  forall L E raw c s s1 s2 a k token i,
    keeps_state L -> wf_lib L ->
    finalize_auth L E raw s = (s1, Ok a) -> dmem "error" a = false -> dget "state" a = Some (VStr k) ->
    get_access_and_id_token L E (Some a) k c s1 = (s2, Ok (token, i)) ->
    cf_userinfo (v_conf E) = false ->
    exists s' r, finalize L E raw c s = (s', Ok r) /\ dget "token" r = Some token.

(** An access token without an ID token is thrown away when there is no user information
    to be had (OAuth2). *)
Definition oauth_rp : conf :=
  mkConf (VStr "https://op") op_info (VList [VStr "code"]) (VList []) VNull false [] (VStr "https://rp") VNull false false.
Theorem C135_completes_refuted : ~ C135_completes_full.
Proof.
  intros H.
  destruct (H plain (mkEnvS oauth_rp hybrid_server 5) [("state", VStr "s1"); ("code", VStr "c")] false (asked_for "code")
              _ _ _ "s1" _ _ plain_keeps plain_wf eq_refl eq_refl eq_refl eq_refl eq_refl) as [s' [r [X _]]].
  vm_compute in X. discriminate X.
Qed.
Print Assumptions C135_completes_refuted.

(** With an ID token that says who it is about, a login without user information
    completes, and the session is bound to the subject. *)
Theorem C135_completes_partial L E raw c s s1 s2 a k token t sub :
  finalize_auth L E raw s = (s1, Ok a) -> dmem "error" a = false -> dget "state" a = Some (VStr k) ->
  get_access_and_id_token L E (Some a) k c s1 = (s2, Ok (token, VDict t)) ->
  cf_userinfo (v_conf E) = false ->
  dget "sub" t = Some (VStr sub) -> (forall x, dget "sid" t = Some x -> exists y, x = VStr y) ->
  exists s' r, finalize L E raw c s = (s', Ok r) /\ dget "token" r = Some token /\ dget "id_token" r = Some (VDict t)
    /\ dget "userinfo" r = Some (VDict (userinfo_in_id_token L t)) /\ dget sub (c_map s') = Some k.
Proof.
  intros Ha He Hk Hg Hu Hs Hsid. unfold finalize, mbind. rewrite Ha. unfold lift, dindex. rewrite Hk, He. cbn [key_of].
  rewrite Hg. assert (T : truthy (VDict t) = true) by (destruct t; [discriminate Hs|reflexivity]).
  rewrite Hu, T. cbn [andb as_dict]. rewrite Bool.andb_true_r. rewrite Hs.
  assert (B : forall w, exists w', bind_val (VStr sub) k w = (w', Ok tt) /\ dget sub (c_map w') = Some k).
  { intros w. eexists. split; [reflexivity|]. cbn [c_map]. apply dget_dset_same. }
  destruct (sid_support (v_conf E)).
  - destruct (dget "sid" t) as [x|] eqn:Ex.
    + destruct (Hsid x eq_refl) as [y ->]. unfold ret.
      eexists. eexists. split; [reflexivity|]. repeat split; try reflexivity. cbn [c_map]. apply dget_dset_same.
    + cbn [ret]. match goal with |- context [bind_val (VStr sub) k ?w] => destruct (B w) as [w' [Bw Bs]] end. rewrite Bw.
      eexists. eexists. split; [reflexivity|]. repeat split; try reflexivity. exact Bs.
  - cbn [ret]. match goal with |- context [bind_val (VStr sub) k ?w] => destruct (B w) as [w' [Bw Bs]] end. rewrite Bw.
    eexists. eexists. split; [reflexivity|]. repeat split; try reflexivity. exact Bs.
Qed.
Print Assumptions C135_completes_partial.

(** Logout without a service for it was meant to be reported as such. *)
Theorem C135_logout_refuted :
  ~ (forall L C k u s, cf_end_session C = false -> snd (logout L C k u s) = Err OtherException).
Proof. intros H. specialize (H plain oauth_rp "s1" VNull empty eq_refl). discriminate H. Qed.
Print Assumptions C135_logout_refuted.

Example C135_ex :
  let E := mkEnvS (mkConf (VStr "https://op") [("issuer", VStr "https://op"); ("backchannel_logout_session_required", VBool true)]
                          (VList [VStr "code"]) (VList []) VNull true [] (VStr "https://rp") VNull false true) server 5 in
  exists s' r, finalize plain E [("state", VStr "s1"); ("code", VStr "alice")] false (asked_for "code") = (s', Ok r)
    /\ dget "userinfo" r = Some (VDict [("sub", VStr "alice")]) /\ dget "alice" (c_map s') = Some "s1".
Proof. eexists. eexists. split; [vm_compute; reflexivity|]. split; reflexivity. Qed.

(** * C136: closed sessions, failed logins *)

Lemma closed_step L o k s :
  keeps_state L -> (forall args, exists e, l_request L "refresh_token" None args = Err e) ->
  absent k s -> starts k o = false -> knows_provider o ->
  absent k (fst (step L o s)) /\ (of_session k o = true -> gives_access o (snd (step L o s)) = false).
Proof.
  intros HK HR Ha Hs Hp.
  destruct (of_session k o) eqn:Eo.
  2: { split; [|discriminate]. unfold absent. rewrite <- Ha. unfold of_session in Eo.
       destruct (session_of o) as [k0|] eqn:Es.
       - apply String.eqb_neq in Eo. exact (proj2 (within_step L o k0 HK (or_introl Es)) s k Eo).
       - assert (N : k <> String "x" k) by (clear; induction k; [discriminate|intros X; inversion X; auto]).
         exact (proj2 (within_step L o (String "x" k) HK (or_intror Es)) s k N). }
  assert (Es : session_of o = Some k).
  { unfold of_session in Eo. destruct (session_of o) as [k0|]; [|discriminate Eo]. apply String.eqb_eq in Eo. congruence. }
  assert (G : absent k (fst (step L o s)) /\ gives_access o (snd (step L o s)) = false); [|split; [exact (proj1 G)|intros _; exact (proj2 G)]].
  destruct o; cbn [session_of] in Es; cbn [step]; unfold omap.
  - injection Es as ->. cbn in Hs. rewrite String.eqb_refl in Hs. discriminate Hs.
  - cbn [knows_provider] in Hp. unfold finalize.
    destruct (finalize_auth_absent L E raw k s HK Es Ha Hp) as [[e He]|[d [Hd Hde]]].
    + unfold mbind. rewrite He. split; [exact Ha|reflexivity].
    + unfold mbind. rewrite Hd. unfold lift, dindex. rewrite Hde. destruct (dget "state" d) as [v|]; [|split; [exact Ha|reflexivity]].
      unfold dmem in Hde. destruct (dget "error" d) as [e|]; [|discriminate Hde]. split; [exact Ha|reflexivity].
  - cbn [knows_provider] in Hp.
    destruct (finalize_auth_absent L E raw k s HK Es Ha Hp) as [[e He]|[d [Hd Hde]]]; unfold mbind.
    + rewrite He. split; [exact Ha|reflexivity].
    + rewrite Hd. cbn. rewrite Hde. split; [exact Ha|reflexivity].
  - destruct (access_absent L E resp k key collect s Es Ha) as [e He]. unfold mbind. rewrite He. split; [exact Ha|reflexivity].
  - injection Es as ->. unfold mbind. rewrite get_tokens_absent by exact Ha. split; [exact Ha|reflexivity].
  - injection Es as ->. unfold refresh_access_token, do_request, mbind. cbn [of_key]. rewrite Ha. unfold lift.
    destruct (HR (if truthy scope then [("scope", scope)] else [])) as [e ->]. split; [exact Ha|reflexivity].
  - injection Es as ->. pose proof (user_info_keeps L E k token s) as X. unfold mbind.
    destruct (get_user_info L E k token s) as [s0 [d|e]]; cbn in X; subst s0; split; try exact Ha; reflexivity.
  - injection Es as ->. unfold has_active_authentication, mbind. rewrite get_set_absent by exact Ha.
    destruct (l_raises L); split; try exact Ha; reflexivity.
  - injection Es as ->. unfold get_valid_access_token, mbind. rewrite get_set_absent by exact Ha.
    destruct (l_raises L); split; try exact Ha; reflexivity.
  - injection Es as ->. unfold logout, mbind. destruct (cf_end_session (v_conf E)); cbn [of_key];
      [|split; [exact Ha|reflexivity]]. unfold lift.
    destruct (l_request L "end_session" (dget k (c_db s)) (if truthy uri then [("post_logout_redirect_uri", uri)] else []));
      split; try exact Ha; reflexivity.
  - injection Es as ->. unfold clear_session, remove_state, mbind. cbn [of_key]. rewrite Ha.
    destruct (l_raises L); split; try exact Ha; reflexivity.
Qed.

(** Once a session is cleared no operation says that its user is logged in, hands out its
    tokens or completes its login, until a login of that name is started anew. *)
Theorem C136_closed L k s l o r :
  keeps_state L -> (forall args, exists e, l_request L "refresh_token" None args = Err e) ->
  Forall (fun o => starts k o = false /\ knows_provider o) l ->
  In (o, r) (snd (run L l (fst (clear_session L k s)))) -> of_session k o = true ->
  gives_access o r = false.
Proof.
  intros HK HR HF.
  assert (A : absent k (fst (clear_session L k s))).
  { unfold absent, clear_session, remove_state, mbind. cbn [of_key]. destruct (dget k (c_db s)) as [x|] eqn:Ex.
    - cbn. apply dget_ddel_same.
    - destruct (l_raises L); exact Ex. }
  revert A. generalize (fst (clear_session L k s)) as s0. induction HF as [|o1 l [Hs Hp] HF IH]; intros s0 A Hin Ho; [destruct Hin|].
  cbn [run] in Hin. destruct (closed_step L o1 k s0 HK HR A Hs Hp) as [A1 G].
  destruct (step L o1 s0) as [s1 r1]. cbn [fst snd] in A1, G.
  specialize (IH s1 A1). destruct (run L l s1) as [s2 rs]. cbn [snd] in IH, Hin.
  destruct Hin as [Hin|Hin]; [inversion Hin; subst; exact (G Ho)|exact (IH Hin Ho)].
Qed.
Print Assumptions C136_closed.

Example C136_ex :
  let late := [Active (at_ 5) "s1"; Valid (at_ 5) "s1"; Refresh (at_ 5) "s1" VNull;
               Finalize (at_ 5) [("state", VStr "s1"); ("code", VStr "alice")] false] in
  let s := fst (run plain [Init (at_ 1) "s1" "n1" None; Finalize (at_ 3) [("state", VStr "s1"); ("code", VStr "alice")] false] empty) in
  map snd (snd (run plain (firstn 2 late) s)) = [Ok (OBool true); Ok (OPair (VStr "token of alice") (VInt 63))]
  /\ map snd (snd (run plain late (fst (clear_session plain "s1" s)))) = [Err KeyError; Err KeyError; Err KeyError; Err KeyError]
  /\ Forall (fun o => starts "s1" o = false /\ knows_provider o) late
  /\ (forall args, exists e, l_request plain "refresh_token" None args = Err e).
Proof.
  split; [vm_compute; reflexivity|]. split; [vm_compute; reflexivity|]. split.
  - repeat constructor.
  - intros args. exists KeyError. reflexivity.
Qed.

(** A login that failed should not count as one. *)
Definition C136_failed_full : Prop :=
  forall L E raw s s' e now k,
    keeps_state L -> wf_lib L -> finalize_auth L E raw s = (s', Err e) ->
    snd (has_active_authentication L now k s') = Ok true ->
    snd (has_active_authentication L now k s) = Ok true.

(** The response is filed before the library checks it (nonce of the ID token): if it is
    refused then, the user is logged in all the same. *)
Definition refusing : lib :=
  mkLib false (l_parse plain) (fun svc _ _ => if String.eqb svc "authorization" then Some ValueError else None) as_int
        (l_request plain) (l_pick plain) modes [] [].
Theorem C136_failed_refuted : ~ C136_failed_full.
Proof.
  intros H.
  specialize (H refusing (at_ 5) [("state", VStr "s1"); (marker, idt "mallory" 100)] (asked_for "id_token") _ ValueError 6 "s1"
                plain_keeps plain_wf eq_refl eq_refl). vm_compute in H. discriminate H.
Qed.
Print Assumptions C136_failed_refuted.

(** If the library does not refuse at that point, a failed response leaves no trace. *)
Theorem C136_failed_partial L E raw s s' e :
  (forall rec d, l_check L "authorization" rec d = None) ->
  (forall v, exists n, l_int L v = Ok n) ->
  finalize_auth L E raw s = (s', Err e) -> s' = s.
Proof.
  intros Hc Hi H. unfold finalize_auth, mbind in H.
  assert (Hcl : exists o, claimed raw s = (s, Ok o)).
  { unfold claimed. destruct (dget "state" raw) as [[]|]; eexists; reflexivity. }
  destruct Hcl as [o Ho]. rewrite Ho in H. unfold lift in H.
  destruct (l_parse L "authorization" o raw) as [d|x]; [|congruence].
  destruct (dmem "error" d); [discriminate H|].
  destruct (match dget "state" d with Some v => key_of v | None => Err KeyError end) as [k|x]; [|congruence].
  rewrite get_set_eq in H.
  destruct (match dget k (c_db s) with Some r => Ok (restrict ["iss"] r) | None => if l_raises L then Err KeyError else Ok [] end) as [c|x]; [|congruence].
  cbv zeta in H.
  match type of H with (if ?b then _ else _) _ = _ => destruct b end; [|unfold raise in H; congruence].
  cbn [store modify] in H. unfold update_context, mbind in H. cbn [String.eqb Ascii.eqb Bool.eqb of_key] in H. rewrite Hc in H.
  unfold lift, stamp in H. destruct (dget "expires_in" d) as [v|].
  - destruct (Hi v) as [n Hn]. rewrite Hn in H. cbn in H. discriminate H.
  - cbn in H. discriminate H.
Qed.
Print Assumptions C136_failed_partial.

(** * C137: the tokens come the way they were asked for *)

Definition C137_code_full : Prop :=
  forall L E raw c s s' r k token,
    keeps_state L -> wf_lib L ->
    holds k "response_type" s = Some (VStr "code") -> named raw = Some k ->
    finalize L E raw c s = (s', Ok r) -> dget "token" r = Some token ->
    exists s1, (exists a, finalize_auth L E raw s = (s1, Ok a)) /\ from_token_endpoint L E s1 k "access_token" token.

(** The parameters of the response overwrite those of the request, which is consulted for
    the response type afterwards: a response with a response type of its own makes the
    client take an access token from the browser although it had asked for a code. *)
Definition injected : dict val :=
  [("state", VStr "s1"); ("response_type", VStr "token"); ("access_token", VStr "mallory's")].
Theorem C137_code_refuted : ~ C137_code_full.
Proof.
  intros H.
  destruct (H plain (at_ 5) injected false (asked_for "code") _ _ "s1" (VStr "mallory's")
              plain_keeps plain_wf eq_refl eq_refl eq_refl eq_refl) as [s1 [_ [args [q [raw [d [Hq [Hn [Hp Hd]]]]]]]]].
  cbn in Hq, Hp. destruct (dget "s1" (c_db s1)); [|discriminate Hq]. unfold once in Hq, Hp.
  destruct (nodupb (dkeys args)); [|discriminate Hq]. destruct (nodupb (dkeys raw)); [|discriminate Hp].
  inversion Hp; subst d. inversion Hq; subst q. unfold at_ in Hn. cbn [v_net] in Hn. unfold server in Hn. cbn [String.eqb Ascii.eqb Bool.eqb] in Hn.
  destruct (dget "code" args) as [[]|]; inversion Hn; subst raw; cbn in Hd; inversion Hd.
Qed.
Print Assumptions C137_code_refuted.

Theorem C137_code_partial L E raw c s s' r k token :
  keeps_state L -> wf_lib L ->
  (forall rec d, l_parse L "authorization" rec raw = Ok d -> dget "response_type" d = None) ->
  holds k "response_type" s = Some (VStr "code") -> named raw = Some k ->
  finalize L E raw c s = (s', Ok r) -> dget "token" r = Some token ->
  exists s1, (exists a, finalize_auth L E raw s = (s1, Ok a)) /\ from_token_endpoint L E s1 k "access_token" token.
Proof.
  intros HK [W _] HT Hr Hn H Ht. apply finalize_inv in H. destruct H as [s1 [a [Ha H]]].
  destruct H as [[_ [_ [w [x [_ [_ ->]]]]]]|[He [k0 [s2 [tk [i [info [s3 [Hk [Hg [_ [Hdb ->]]]]]]]]]]]]; [discriminate Ht|].
  cbn in Ht. inversion Ht; subst tk.
  pose proof (finalize_auth_state _ _ _ _ _ _ HK Ha) as Hst.
  assert (k0 = k) as -> by (unfold named in Hn; rewrite <- Hst, Hk in Hn; congruence).
  exists s1. split; [exists a; exact Ha|].
  destruct (finalize_auth_inv _ _ _ _ _ _ Ha He) as [rec [k' [d [_ [[o [_ Hp]] [_ [Hk' [_ [Hs ->]]]]]]]]].
  assert (k' = k) as ->.
  { assert (Z : "state" <> "__expires_at") by discriminate. pose proof (stamp_other _ _ _ _ "state" Hs Z) as Y.
    rewrite Hk, Hk' in Y. congruence. }
  assert (Hrt : holds k "response_type" (stored k a (stored k d s)) = Some (VStr "code")).
  { rewrite holds_stored by exact (stamp_nodup _ _ _ _ Hs (W _ _ _ _ Hp)).
    rewrite (stamp_other _ _ _ _ "response_type" Hs) by discriminate. rewrite (HT _ _ Hp).
    rewrite holds_stored by exact (W _ _ _ _ Hp). rewrite (HT _ _ Hp). exact Hr. }
  unfold get_access_and_id_token in Hg. apply bind_inv in Hg. destruct Hg as [u0 [x0 [G0 Hg]]].
  assert (u0 = stored k a (stored k d s)).
  { destruct (given (Some a)); [|rewrite get_set_eq in G0]; injection G0 as G0 _; congruence. }
  subst u0. apply bind_inv in Hg. destruct Hg as [u1 [k1 [G1 Hg]]].
  assert (u1 = stored k a (stored k d s) /\ k1 = k) as [-> ->].
  { destruct (String.eqb_spec k "") as [Ek|Ek].
    - cbn [from_response] in G1. unfold dindex in G1. rewrite Hk in G1. cbn [bind key_of] in G1.
      injection G1 as <- <-. split; reflexivity.
    - injection G1 as <- <-. split; reflexivity. }
  apply bind_inv in Hg. destruct Hg as [u2 [cl [G2 Hg]]].
  apply (get_set_ok _ _ _ _ _ _ "response_type") in G2; [|reflexivity]. destruct G2 as [-> G2].
  apply bind_inv in Hg. destruct Hg as [u3 [v [G3 Hg]]]. apply lift_inv in G3. destruct G3 as [-> G3]. apply dindex_ok in G3.
  rewrite G2, Hrt in G3. inversion G3; subst v.
  apply bind_inv in Hg. destruct Hg as [u4 [ts [G4 Hg]]]. apply lift_inv in G4. destruct G4 as [-> G4]. inversion G4; subst ts.
  cbn [words words_aux Ascii.eqb Bool.eqb map] in Hg.
  apply bind_inv in Hg. destruct Hg as [u5 [i0 [G5 Hg]]]. cbn in G5. injection G5 as <- _.
  change (one_of [VStr "code"] [["token"]; ["id_token"; "token"]; ["code"; "token"]; ["code"; "id_token"; "token"]]) with false in Hg.
  change (one_of [VStr "code"] [["code"]; ["code"; "id_token"]]) with true in Hg. cbv iota in Hg.
  apply bind_inv in Hg. destruct Hg as [u6 [t [G6 Hg]]]. apply bind_inv in Hg. destruct Hg as [u7 [a' [G7 Hg]]].
  apply lift_inv in G7. destruct G7 as [-> G7]. apply dindex_ok in G7. injection Hg as _ -> _.
  apply get_tokens_inv in G6. destruct G6 as [args [q [rw [d' [Hq [Hnet [Hpar [_ [Hst' _]]]]]]]]].
  exists args, q, rw, d'. repeat split; try assumption.
  rewrite <- (stamp_other _ _ _ _ "access_token" Hst') by discriminate. exact G7.
Qed.
Print Assumptions C137_code_partial.

Example C137_ex :
  exists s' r, finalize plain (at_ 5) [("state", VStr "s1"); ("code", VStr "alice")] false (asked_for "code") = (s', Ok r)
    /\ dget "token" r = Some (VStr "token of alice").
Proof. eexists. eexists. split; vm_compute; reflexivity. Qed.

(** * C138: a login is found again *)

Definition C138_nonce_full : Prop :=
  forall L C k n args s s' q x,
    passes L -> wf_args args -> init_authorization L C k n args s = (s', Ok q) ->
    dget "nonce" q = Some (VStr x) -> dget x (c_map s') = Some k.

(** A nonce of the caller is sent but not bound. *)
Theorem C138_nonce_refuted : ~ C138_nonce_full.
Proof.
  intros H.
  assert (W : wf_args (Some [("response_type", VStr "code"); ("nonce", VStr "mine")])) by (apply nodupb_sound; reflexivity).
  specialize (H plain rp "s1" "n1" (Some [("response_type", VStr "code"); ("nonce", VStr "mine")]) empty _ _ "mine" plain_passes
                W eq_refl eq_refl). vm_compute in H. discriminate H.
Qed.
Print Assumptions C138_nonce_refuted.

Theorem C138_nonce_partial L C k n args s s' q x :
  passes L -> wf_args args -> cf_args C = [] -> (forall a, args = Some a -> dget "nonce" a = None) ->
  init_authorization L C k n args s = (s', Ok q) ->
  dget "nonce" q = Some (VStr x) -> x = n /\ dget x (c_map s') = Some k.
Proof.
  intros P W Hc Ha H Hx. apply init_inv in H. destruct H as [t [m [u [_ [_ [_ [H4 ->]]]]]]].
  rewrite (P _ _ _ "nonce" H4) in Hx by (cbn; auto). rewrite all_args_get in Hx by (assumption || discriminate).
  assert (E : match args with Some a => dget "nonce" a | None => None end = None).
  { destruct args as [a|]; [exact (Ha a eq_refl)|reflexivity]. }
  rewrite E, base_args_nonce in Hx. cbn [c_map stored]. destruct (cf_oidc C); [|discriminate Hx].
  inversion Hx. split; [reflexivity|apply dget_dset_same].
Qed.
Print Assumptions C138_nonce_partial.

(** The state of the request is the name of the session, which knows whom the request is
    for and what was asked. *)
Theorem C138_state L C k n args s s' q :
  passes L -> wf_lib L -> init_authorization L C k n args s = (s', Ok q) ->
  dget "state" q = Some (VStr k)
  /\ (forall x v, dget x q = Some v -> holds k x s' = Some v)
  /\ (dget "iss" q = None -> holds k "iss" s' = Some (cf_issuer C))
  /\ (forall k', k' <> k -> dget k' (c_db s') = dget k' (c_db s)).
Proof.
  intros P [_ W] H. pose proof (proj2 (within_init L C k n args) s) as F. rewrite H in F.
  apply init_inv in H. destruct H as [t [m [u [_ [_ [_ [H4 ->]]]]]]].
  pose proof (W _ _ _ _ H4) as ND.
  split; [|split; [|split]].
  - rewrite (P _ _ _ "state" H4) by (cbn; auto). unfold all_args. cbv zeta. apply dget_dset_same.
  - intros x v Hx. rewrite holds_stored by exact ND. rewrite Hx. reflexivity.
  - intros Hx. rewrite holds_stored by exact ND. rewrite Hx. unfold holds. cbn [c_db]. rewrite dget_dset_same. reflexivity.
  - exact F.
Qed.
Print Assumptions C138_state.

Example C138_ex :
  exists s' q, init_authorization plain rp "s1" "n1" None empty = (s', Ok q)
    /\ dget "nonce" q = Some (VStr "n1") /\ dget "n1" (c_map s') = Some "s1" /\ holds "s1" "iss" s' = Some (VStr "https://op").
Proof. eexists. eexists. split; [vm_compute; reflexivity|]. repeat split. Qed.

(** hypotheses of the theorems about active authentications and failed logins are met *)
Example C133_active_ex :
  exists s' r, finalize plain (at_ 5) [("state", VStr "s1"); ("code", VStr "alice")] false (asked_for "code") = (s', Ok r)
    /\ dget "id_token" r = Some (idt "alice" 100)
    /\ snd (has_active_authentication plain 99 "s1" s') = Ok true
    /\ snd (has_active_authentication plain 100 "s1" s') = Ok false.
Proof. eexists. eexists. split; [vm_compute; reflexivity|]. repeat split; vm_compute; reflexivity. Qed.
Definition lenient : lib :=
  mkLib true (l_parse plain) (fun _ _ _ => None) (fun _ => Ok 0) (l_request plain) (l_pick plain) modes [] [].
Example C136_failed_ex :
  finalize_auth lenient (at_ 5) [("state", VStr "unknown"); ("code", VStr "c")] (asked_for "code") = (asked_for "code", Err KeyError)
  /\ (forall rec d, l_check lenient "authorization" rec d = None) /\ (forall v, exists n, l_int lenient v = Ok n).
Proof. split; [vm_compute; reflexivity|]. split; [reflexivity|]. intros v. exists 0. reflexivity. Qed.
