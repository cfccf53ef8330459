(** Authorization responses: the trust anchor they name (C153). *)
From Verif Require Import PyFacts ChainsProps ClientFacts RegistrationProps ClientProps AttackServerFacts.
From Verif Require Export ResponseModel.

(** ** Vocabulary *)

(** the response for [id] names the trust anchor [a], and nothing else is changed *)
Definition names (f : fstate) (id a : string) : Prop :=
  forall aresp, let r := extra_response_args f (Some id) aresp in
    dget "trust_anchor_id" r = Some (VStr a) /\ forall k, k <> "trust_anchor_id" -> dget k r = dget k aresp.

(** the response for [id] is left as it is *)
Definition names_none (f : fstate) (id : string) : Prop :=
  forall aresp, extra_response_args f (Some id) aresp = aresp.

(** [id] asks for authorization at the OIDC endpoint *)
Definition asks (id : string) (a : sact) : Prop :=
  match a with Authorize OIDC _ _ i _ => i = id | _ => False end.

(** verification of the chains of [id] is part of [a]; [provided] are those it sent *)
Definition checks (id : string) (provided : list token) (a : sact) : Prop :=
  match a with
  | Authorize OIDC _ _ i p => i = id /\ p = provided
  | Serve (Lookup i) | Serve (Metadata i) => i = id /\ provided = []
  | _ => False
  end.

(** ** What is stored *)
Lemma auto_end_chains E O fuel R F new id provided s s1 r :
  auto_end E O fuel R F new id provided s s1 r ->
  f_chains (a_fed s1) = f_chains (a_fed s) \/
  (F = OIDC /\ exists f1 c rest, chains_for E O fuel id provided (a_fed s) = (f1, Ok (c :: rest)) /\
     f_chains (a_fed s1) = dset id (c :: rest) (f_chains (a_fed s))).
Proof.
  intros H. destruct H as [f1 r0 e EC NE|f1 c rest e EC|f1 c rest md k1 r2 o r EC EM EK E2 An]; cbn [a_fed];
    assert (ES := chains_store _ _ _ _ _ _ _ _ EC); [left; exact ES| |];
    (destruct F; cbn [stored_chains]; auto; right; split; [reflexivity|]; exists f1, c, rest; split; [exact EC|];
     cbn [f_chains]; rewrite ES; reflexivity).
Qed.

Section Stored.
Context (E : cenv) (O : iter_order) (fuel : nat) (me : string) (jwks : val) (wta : bool) (R : reg_env) (prio : list string).
Local Notation serve := (serve E O fuel me jwks wta R prio).
Local Notation after_served := (after_served E O fuel me jwks wta R prio).

Lemma stores_none {A B} (m : M fstate A) (k : A -> M fstate B) s :
  f_chains (fst (m s)) = f_chains s -> (forall a s1, f_chains (fst (k a s1)) = f_chains s1) ->
  f_chains (fst (mbind m k s)) = f_chains s.
Proof.
  intros H1 H2. unfold mbind. destruct (m s) as [s1 [a|e]]; [|exact H1]. rewrite H2. exact H1.
Qed.

Lemma lift_chains {A} (r : res A) (s : fstate) : f_chains (fst (lift r s)) = f_chains s.
Proof. reflexivity. Qed.

Lemma resolve_chains q s : f_chains (fst (resolve E O fuel me jwks wta q s)) = f_chains s.
Proof.
  unfold resolve. apply stores_none; [apply lift_chains|]. intros anchor s1.
  apply stores_none; [apply lift_chains|]. intros sub s2.
  apply stores_none; [apply collect_chains|]. intros r s3.
  apply stores_none; [apply on_keys_chains|]. intros tcs s4.
  apply stores_none; [apply lift_chains|]. intros cs s5.
  destruct (find _ cs) as [c|]; [|reflexivity].
  apply stores_none; [apply lift_chains|]. intros md s6.
  apply stores_none; [apply on_col_chains|]. intros ch s7.
  apply stores_none; [apply on_col_chains|]. intros n s8.
  apply stores_none; [apply lift_chains|]. reflexivity.
Qed.

Lemma signed_chains id t stop hints s : f_chains (fst (collect_trust_chains_signed E fuel id t stop hints s)) = f_chains s.
Proof.
  unfold collect_trust_chains_signed. apply stores_none; [apply on_col_chains|]. intros tp s1.
  apply stores_none; [apply on_col_chains|]. reflexivity.
Qed.

Lemma fed_of {A B} (m : M fstate A) (k : A -> M astate B) s :
  f_chains (fst (m (a_fed s))) = f_chains (a_fed s) ->
  (forall a s1, f_chains (a_fed (fst (k a s1))) = f_chains (a_fed s1)) ->
  f_chains (a_fed (fst (mbind (on_fed m) k s))) = f_chains (a_fed s).
Proof.
  intros H1 H2. unfold mbind, on_fed. destruct (m (a_fed s)) as [s1 [a|e]]; [|exact H1]. rewrite H2. exact H1.
Qed.

Lemma fed_lift {A B} (r : res A) (k : A -> M astate B) s :
  (forall a s1, f_chains (a_fed (fst (k a s1))) = f_chains (a_fed s1)) ->
  f_chains (a_fed (fst (mbind (lift r) k s))) = f_chains (a_fed s).
Proof. intros H. unfold mbind, lift. destruct r as [a|e]; [apply H | reflexivity]. Qed.

Lemma fed_reg {A} (m : M rstate A) s : f_chains (a_fed (fst (on_reg m s))) = f_chains (a_fed s).
Proof. unfold on_reg. destruct (m (a_reg s)). reflexivity. Qed.

Lemma explicit_oidc_chains t s : f_chains (a_fed (fst (explicit_oidc E O fuel R prio t s))) = f_chains (a_fed s).
Proof.
  unfold explicit_oidc. apply fed_of; [apply on_col_chains|]. intros tp s1. apply fed_lift. intros m s2. apply fed_lift. intros ty s3.
  apply fed_of; [apply get_verified_chains|]. intros cs s4. destruct (is_nil cs); [reflexivity|].
  apply fed_lift. intros _ s5. apply fed_lift. intros md s6. apply fed_reg.
Qed.

Lemma explicit_oauth_chains t s : f_chains (a_fed (fst (explicit_oauth E O fuel R prio t s))) = f_chains (a_fed s).
Proof.
  unfold explicit_oauth. apply fed_of; [apply on_col_chains|]. intros tp s1. apply fed_lift. intros m s2. apply fed_lift. intros ty s3.
  apply fed_of; [apply signed_chains|]. intros r s4. apply fed_of; [apply on_keys_chains|]. intros tcs s5.
  apply fed_lift. intros cs s6. apply fed_lift. intros c s7. apply fed_lift. intros md s8. apply fed_reg.
Qed.

Lemma dropped {A} (m : M astate A) s : fst (mbind m (fun _ => ret tt) s) = fst (m s).
Proof. unfold mbind. destruct (m s) as [s1 [a|e]]; reflexivity. Qed.

Lemma dropped_fed {A} (m : M fstate A) s : a_fed (fst (mbind (on_fed m) (fun _ => ret tt) s)) = fst (m (a_fed s)).
Proof. rewrite dropped. unfold on_fed. destruct (m (a_fed s)); reflexivity. Qed.

(** looking somebody up *)
Lemma lookup_chains (what : bool) i id s :
  let s' := if what then fst (get_trust_chains E O fuel i s) else fst (get_verified_metadata E O fuel i s) in
  dget id (f_chains s') = dget id (f_chains s) \/
  (dget id (f_chains s) = None /\ i = id /\
   exists cs, cs <> [] /\ snd (get_verified_trust_chains E O fuel id s) = Ok cs /\ dget id (f_chains s') = Some cs).
Proof.
  cbv zeta. unfold get_trust_chains, get_verified_metadata, mbind, StateM.get.
  destruct (dget i (f_chains s)) as [cs|] eqn:Ed.
  { left. destruct what; [reflexivity|]. destruct cs; reflexivity. }
  assert (Hk := get_verified_chains E O fuel i s).
  destruct (get_verified_trust_chains E O fuel i s) as [s1 [cs|x]] eqn:Eg; cbn [fst] in Hk.
  2:{ left. destruct what; cbn [fst]; rewrite Hk; reflexivity. }
  destruct cs as [|c cs]; cbn [is_nil].
  { left. destruct what; cbn [fst ret]; rewrite Hk; reflexivity. }
  destruct (string_dec i id) as [->|N].
  - right. split; [exact Ed|]. split; [reflexivity|]. exists (c :: cs). split; [discriminate|].
    rewrite Eg. split; [reflexivity|]. destruct what; apply dget_dset_same.
  - left. destruct what; cbn; rewrite dget_dset_other by congruence; rewrite Hk; reflexivity.
Qed.

(** the chains for [id] stay, or they are those just verified for [id] *)
Lemma serve_chains a s id :
  keeps_id R -> passed_on R "client_id" ->
  let s' := fst (serve a s) in
  dget id (f_chains (a_fed s')) = dget id (f_chains (a_fed s)) \/
  ((asks id a \/ dget id (f_chains (a_fed s)) = None) /\ exists provided cs, checks id provided a /\ cs <> [] /\
     snd (chains_for E O fuel id provided (a_fed s)) = Ok cs /\ dget id (f_chains (a_fed s')) = Some cs).
Proof.
  intros KI PC. cbv zeta. destruct a as [a|F new automatic i provided|t|t]; cbn [AttackServerFacts.serve].
  - rewrite dropped_fed. destruct a as [i|i|i|ts|q]; cbn [perform].
    + left. rewrite get_verified_chains. reflexivity.
    + destruct (lookup_chains true i id (a_fed s)) as [H|(N & -> & cs & NE & V & D)]; [left; exact H|]. right. split; [right; exact N|].
      exists [], cs. split; [split; reflexivity|]. split; [exact NE|]. split; [exact V | exact D].
    + assert (X : f_chains (fst ((do _ <- get_verified_metadata E O fuel i in ret (@nil tchain)) (a_fed s))) =
                  f_chains (fst (get_verified_metadata E O fuel i (a_fed s))))
        by (unfold mbind; destruct (get_verified_metadata E O fuel i (a_fed s)) as [s1 [x|e]]; reflexivity).
      assert (G := lookup_chains false i id (a_fed s)). cbv zeta iota in G. rewrite <- X in G. clear X.
      destruct G as [H|(N & -> & cs & NE & V & D)]; [left; exact H|]. right. split; [right; exact N|].
      exists [], cs. split; [split; reflexivity|]. split; [exact NE|]. split; [exact V | exact D].
    + left. rewrite stores_none; [reflexivity | apply on_keys_chains | intros; apply lift_chains].
    + left. rewrite stores_none; [reflexivity | apply resolve_chains | reflexivity].
  - rewrite dropped. destruct (client_authentication E O fuel R F new automatic i provided s) as [s' v] eqn:EA. cbn [fst].
    destruct (auth_fed _ _ _ _ _ _ _ _ _ _ _ _ KI PC EA) as [->|(s1 & r & AE & EF)]; [left; reflexivity|].
    rewrite EF. destruct (auto_end_chains _ _ _ _ _ _ _ _ _ _ _ AE) as [-> |(-> & f1 & c & rest & EC & ->)];
      rewrite forget_fed in *; [left; reflexivity|].
    destruct (string_dec i id) as [->|NE]; [|left; apply dget_dset_other; congruence].
    right. split; [left; reflexivity|]. exists provided, (c :: rest). split; [split; reflexivity|]. split; [discriminate|].
    rewrite EC. split; [reflexivity | apply dget_dset_same].
  - left. rewrite dropped, explicit_oauth_chains. reflexivity.
  - left. rewrite dropped, explicit_oidc_chains. reflexivity.
Qed.

Lemma after_snoc acts a s : after_served (acts ++ [a]) s = fst (serve a (after_served acts s)).
Proof. unfold AttackServerFacts.after_served. rewrite fold_left_app. reflexivity. Qed.

Lemma kept_for id cs acts s :
  keeps_id R -> passed_on R "client_id" -> (forall a, In a acts -> ~ asks id a) ->
  dget id (f_chains (a_fed s)) = Some cs -> dget id (f_chains (a_fed (after_served acts s))) = Some cs.
Proof.
  intros KI PC. induction acts as [|a acts IH] using rev_ind; intros NA D; [exact D|].
  assert (D' : dget id (f_chains (a_fed (after_served acts s))) = Some cs).
  { apply IH; [|exact D]. intros x I. apply NA, in_or_app. left. exact I. }
  rewrite after_snoc. destruct (serve_chains a (after_served acts s) id KI PC) as [H|([A|N] & _)]; [congruence | |congruence].
  exfalso. apply (NA a); [apply in_elt | exact A].
Qed.

Lemma history id cs acts s :
  keeps_id R -> passed_on R "client_id" ->
  dget id (f_chains (a_fed s)) = None -> dget id (f_chains (a_fed (after_served acts s))) = Some cs ->
  exists pre a post provided, acts = pre ++ a :: post /\ checks id provided a /\ cs <> [] /\
    snd (chains_for E O fuel id provided (a_fed (after_served pre s))) = Ok cs.
Proof.
  intros KI PC N. revert cs. induction acts as [|a acts IH] using rev_ind; intros cs D.
  { cbn in D. congruence. }
  rewrite after_snoc in D. destruct (serve_chains a (after_served acts s) id KI PC) as [H|(_ & provided & cs' & C & NE & V & D')].
  - rewrite H in D. destruct (IH cs D) as (pre & a0 & post & provided & -> & C & NE & V).
    exists pre, a0, (post ++ [a]), provided. split; [rewrite <- app_assoc; reflexivity|]. auto.
  - rewrite D' in D. injection D as <-. exists acts, a, [], provided. auto.
Qed.
End Stored.

Lemma names_first f id c rest : id <> "" -> dget id (f_chains f) = Some (c :: rest) -> names f id (ch_anchor c).
Proof.
  intros NE D aresp. cbv zeta. unfold extra_response_args. apply String.eqb_neq in NE. rewrite NE, D.
  split; [apply dget_dset_same|]. intros k NK. apply dget_dset_other. exact NK.
Qed.

Lemma names_nothing f id : dget id (f_chains f) = None -> names_none f id.
Proof. intros D aresp. unfold extra_response_args. rewrite D. destruct (String.eqb id ""); reflexivity. Qed.

Lemma named f id a : dget "trust_anchor_id" (extra_response_args f (Some id) []) = Some a ->
  exists c rest, dget id (f_chains f) = Some (c :: rest) /\ a = VStr (ch_anchor c).
Proof.
  unfold extra_response_args. destruct (String.eqb id ""); [discriminate|].
  destruct (dget id (f_chains f)) as [[|c rest]|]; [discriminate| |discriminate].
  rewrite dget_dset_same. intros H. injection H as <-. eauto.
Qed.

Lemma not_both f id a : names f id a -> names_none f id -> False.
Proof.
  intros H N. destruct (H []) as [D _]. rewrite (N []) in D. discriminate D.
Qed.

(** ** C153 *)

(** full statement: the response to a client that was registered automatically names the trust anchor of the chain it was
    registered with *)
Definition C153_full (F : flavour) (new : bool) : Prop := forall E O fuel R automatic id provided s s' rid,
  keeps_id R -> passed_on R "client_id" -> id <> "" -> registers F id s ->
  client_authentication E O fuel R F new automatic id provided s = (s', Ok (Use rid)) ->
  exists c md ci, backed E O fuel id provided (a_fed s) c /\ chain_metadata c (kind_of F) = Ok md /\
    dget rid (r_cdb (a_reg s')) = Some ci /\ stored_from R md ci /\ names (a_fed s') rid (ch_anchor c).

(** A client that gets a new identifier is looked for under that one, its chains are stored under the old one; the OAuth 2
    endpoints store no chains. *)
Theorem C153_named_refuted : forall F new, F <> OIDC \/ new = true -> ~ C153_full F new.
Proof.
  intros F new W H.
  assert (G : exists s' rid, client_authentication ex_world id_order 9 ex_reg F new true "evil" evil_chain ex_as = (s', Ok (Use rid)) /\
    names_none (a_fed s') rid).
  { destruct F; [destruct new; [|destruct W as [W|W]; [destruct (W eq_refl) | discriminate W]]| destruct new | ];
      (eexists; eexists; split; [vm_compute; reflexivity|]; apply names_nothing; vm_compute; reflexivity). }
  destruct G as (s' & rid & G & N).
  destruct (H ex_world id_order 9 ex_reg true "evil" evil_chain ex_as s' rid ex_keeps eq_refl ltac:(discriminate) Logic.I G)
    as (c & md & ci & _ & _ & _ & _ & X).
  exact (not_both _ _ _ X N).
Qed.

(** Missing: clients with new identifiers and the OAuth 2 endpoints.  What holds at the OIDC endpoint: the anchor of the chain
    the client was registered with is named from then on until the client asks again, whatever else the server does. *)
Theorem C153_named_partial : forall E O fuel me jwks wta R prio automatic id provided s s1 rid acts,
  keeps_id R -> passed_on R "client_id" -> id <> "" -> registers OIDC id s ->
  client_authentication E O fuel R OIDC false automatic id provided s = (s1, Ok (Use rid)) ->
  (forall a, In a acts -> ~ asks id a) ->
  rid = id /\
  exists c md ci, backed E O fuel id provided (a_fed s) c /\ chain_metadata c "openid_relying_party" = Ok md /\
    dget rid (r_cdb (a_reg s1)) = Some ci /\ stored_from R md ci /\
    names (a_fed (after_served E O fuel me jwks wta R prio acts s1)) rid (ch_anchor c).
Proof.
  intros E O fuel me jwks wta R prio automatic id provided s s1 rid acts KI PC NE RG H NA.
  destruct (authentication_cases _ _ _ _ _ _ _ _ _ _ _ _ H) as [(NR & _)|[(_ & _ & _ & X)|(_ & -> & s2 & r & AE & X)]];
    [destruct (NR RG) | discriminate |].
  destruct r as [[rid'|]|e]; [|destruct X; discriminate | destruct X; discriminate].
  destruct (auto_registered E O fuel R OIDC false id provided (forget OIDC id s) s2 rid' KI PC AE)
    as (Er & c & rest & md & ci & (f1 & EC) & B & EM & D & SF).
  destruct X as (ci0 & [[D0 [[= ->] ->]] | D0]); [|congruence].
  assert (ci0 = ci) by congruence. subst ci0. clear D0.
  unfold given_id in Er. subst rid'. split; [reflexivity|].
  rewrite forget_fed in B, EC. exists c, md, (dset "automatic_registered" (VBool true) ci).
  split; [exact B|]. split; [exact EM|]. rewrite String.eqb_refl. cbn [a_reg r_cdb]. split; [apply dget_dset_same|].
  split; [apply stored_more; [simpl; tauto | exact SF]|].
  apply names_first with (rest := rest); [exact NE|]. apply kept_for; [exact KI | exact PC | exact NA |]. cbn [a_fed].
  inversion AE as [| |f2 c2 rest2 md2 k1 r2 o r0 EC2 EM2 EK E2 An]; subst. rewrite forget_fed, EC in EC2.
  injection EC2 as <- <- <-. apply dget_dset_same.
Qed.

(** Whatever a server that starts without stored chains has done: the anchor a response names is that of a chain which was
    verified for the client, at its own request or when it was looked up. *)
Theorem C153_verified : forall E O fuel me jwks wta R prio acts s id v,
  keeps_id R -> passed_on R "client_id" -> f_chains (a_fed s) = [] ->
  dget "trust_anchor_id" (extra_response_args (a_fed (after_served E O fuel me jwks wta R prio acts s)) (Some id) []) = Some v ->
  exists pre a post provided c, acts = pre ++ a :: post /\ checks id provided a /\
    backed E O fuel id provided (a_fed (after_served E O fuel me jwks wta R prio pre s)) c /\ v = VStr (ch_anchor c).
Proof.
  intros E O fuel me jwks wta R prio acts s id v KI PC E0 H.
  destruct (named _ _ _ H) as (c & rest & D & ->).
  assert (N : dget id (f_chains (a_fed s)) = None) by (rewrite E0; reflexivity).
  destruct (history E O fuel me jwks wta R prio id _ acts s KI PC N D) as (pre & a & post & provided & -> & C & _ & V).
  exists pre, a, post, provided, c. split; [reflexivity|]. split; [exact C|]. split; [|reflexivity].
  destruct (chains_for E O fuel id provided (a_fed (after_served E O fuel me jwks wta R prio pre s))) as [f1 r] eqn:EC.
  cbn [snd] in V. subst r. apply (chains_backed _ _ _ _ _ _ _ _ _ EC). left. reflexivity.
Qed.

(** full statement for explicit registration *)
Definition C153_explicit_full (explicit : cenv -> iter_order -> nat -> reg_env -> list string -> token -> M astate (outcome (dict val))) : Prop :=
  forall E O fuel R prio t s s' args rid,
  explicit E O fuel R prio t s = (s', Ok (Done args)) -> dget "client_id" args = Some (VStr rid) ->
  exists a, names (a_fed s') rid a.

Theorem C153_explicit_refuted : ~ C153_explicit_full explicit_oidc /\ ~ C153_explicit_full explicit_oauth.
Proof.
  split; intros H.
  - assert (G : exists s' args rid, explicit_oidc ruled id_order 9 ex_reg ex_prio (TJws 3 (rp_ec "bad" 3)) ex_as = (s', Ok (Done args)) /\
      dget "client_id" args = Some (VStr rid) /\ names_none (a_fed s') rid).
    { eexists; eexists; eexists. split; [vm_compute; reflexivity|]. split; [reflexivity|]. apply names_nothing. reflexivity. }
    destruct G as (s' & args & rid & G & D & N). destruct (H _ _ _ _ _ _ _ _ _ _ G D) as [a X]. exact (not_both _ _ _ X N).
  - assert (G : exists s' args rid, explicit_oauth ruled id_order 9 ex_reg ex_prio (TJws 3 (rp_ec "bad" 3)) ex_as = (s', Ok (Done args)) /\
      dget "client_id" args = Some (VStr rid) /\ names_none (a_fed s') rid).
    { eexists; eexists; eexists. split; [vm_compute; reflexivity|]. split; [reflexivity|]. apply names_nothing. reflexivity. }
    destruct G as (s' & args & rid & G & D & N). destruct (H _ _ _ _ _ _ _ _ _ _ G D) as [a X]. exact (not_both _ _ _ X N).
Qed.

(** Explicit registrations leave what is named for a client as it was. *)
Theorem C153_explicit_partial : forall E O fuel R prio t s id aresp,
  extra_response_args (a_fed (fst (explicit_oidc E O fuel R prio t s))) id aresp = extra_response_args (a_fed s) id aresp /\
  extra_response_args (a_fed (fst (explicit_oauth E O fuel R prio t s))) id aresp = extra_response_args (a_fed s) id aresp.
Proof.
  intros E O fuel R prio t s id aresp. unfold extra_response_args.
  rewrite (explicit_oidc_chains E O fuel R prio), (explicit_oauth_chains E O fuel R prio). split; reflexivity.
Qed.

(** evil registers, then others are looked up and register *)
Definition ex_acts : list sact :=
  [Serve (Lookup "evil"); Authorize OIDC false true "other" [TJunk]; ExplicitOIDC (TJws 3 (rp_ec "bad" 3));
   Authorize PAR false true "evil" evil_chain; Serve (Metadata "ta")].

Example C153_ex : exists s1, registers OIDC "evil" ex_as /\
  client_authentication ex_world id_order 9 ex_reg OIDC false true "evil" evil_chain ex_as = (s1, Ok (Use "evil")) /\
  (forall a, In a ex_acts -> ~ asks "evil" a) /\
  extra_response_args (a_fed (after_served ex_world id_order 9 "op" VNull false ex_reg ["ta"] ex_acts s1)) (Some "evil") [("code", VStr "x")] =
    [("code", VStr "x"); ("trust_anchor_id", VStr "ta")].
Proof.
  eexists. split; [exact Logic.I|]. split; [vm_compute; reflexivity|]. split; [|vm_compute; reflexivity].
  intros a [<-|[<-|[<-|[<-|[<-|[]]]]]]; cbn; intros X; try exact X; discriminate X.
Qed.

Example C153_ex_verified : f_chains (a_fed ex_as) = [] /\
  dget "trust_anchor_id" (extra_response_args (a_fed (after_served ex_world id_order 9 "op" VNull false ex_reg ["ta"]
    (Authorize OIDC true true "evil" evil_chain :: ex_acts) ex_as)) (Some "evil") []) = Some (VStr "ta").
Proof. split; [reflexivity | vm_compute; reflexivity]. Qed.

Print Assumptions C153_named_refuted.
Print Assumptions C153_named_partial.
Print Assumptions C153_verified.
Print Assumptions C153_explicit_refuted.
Print Assumptions C153_explicit_partial.
