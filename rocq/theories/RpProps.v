(** The relying party: registration responses (C93-C100). *)
From Verif Require Import PyFacts CollectorProps ExampleKit WellRunProps RegistrationFacts RegistrationProps ClientProps.
From Verif Require Export RpFacts.
From Coq Require Import Lia.

(** ** An example: op and rp below ta *)

Definition small : cenv := ex_env
  [("rp/wk", TJws 3 (ec "rp" 3 1000 (Some ["ta"]))); ("op/wk", TJws 4 (ec "op" 4 1000 (Some ["ta"])));
   ("ta/wk", TJws 1 (ec "ta" 1 1000 None))]
  [("ta/fetch rp", TJws 1 (est "ta" "rp" 900 [3])); ("ta/fetch op", TJws 1 (est "ta" "op" 900 [4]))]
  ["ta"].

Definition fresh (kj : keyjar) : fstate := mkFed (mkState [] [] 0) kj [].

(** a response issued by [iss] about [sub], naming [ta], signed with [k] *)
Definition response (iss sub ta : string) (k : key) (exp : Z) : answer :=
  mkAnswer k (mkStmt iss sub (Some exp) (Some [k])
                (Some [("openid_relying_party", [("client_id", VStr sub)])]) None None None) (Some ta).

Definition good : answer := response "op" "rp" "ta" 4 1000.

Lemma good_accepted : exists s', parse_oidc small id_order 3 "rp" good (fresh [("ta", [1])]) = (s', Ok [("client_id", VStr "rp")]).
Proof. eexists. vm_compute. reflexivity. Qed.

Lemma good_accepted_oauth : exists s', parse_oauth small id_order 3 "rp" good (fresh [("ta", [1])])
  = (s', Ok (ByType [("openid_relying_party", Some [("client_id", VStr "rp")])])).
Proof. eexists. vm_compute. reflexivity. Qed.

(** ** C93 *)

(** only responses that name a configured trust anchor are accepted, and only if its issuer has a chain *)
Theorem C93_configured_anchor : forall E O fuel me a s s' md,
  parse_oidc E O fuel me a s = (s', Ok md) ->
  exists ta chains, an_anchor a = Some ta /\ In ta (e_anchors E) /\
    chains_found E fuel (s_iss (an_claims a)) ta s chains /\ chains <> [].
Proof.
  intros E O fuel me a s s' md H.
  destruct (oidc_inv _ _ _ _ _ _ _ _ H) as (ta & s1 & s2 & chains & leaf & kj & pre & ch & post & tc & c & Ho & _).
  destruct (open_inv _ _ _ _ _ _ _ Ho) as (_ & Ha & Hin & _ & _ & s0 & chs & lf & tcs & kj0 & Hc & Hne & _).
  exists ta, chs. split; [exact Ha|]. split; [exact Hin|]. split; [|exact Hne]. exists lf. rewrite Hc. reflexivity.
Qed.
Print Assumptions C93_configured_anchor.

Theorem C93_configured_anchor_oauth : forall E O fuel me a s s' md,
  parse_oauth E O fuel me a s = (s', Ok md) ->
  exists ta chains, an_anchor a = Some ta /\ In ta (e_anchors E) /\
    chains_found E fuel (s_iss (an_claims a)) ta s chains /\ chains <> [].
Proof.
  intros E O fuel me a s s' md H.
  destruct (oauth_inv _ _ _ _ _ _ _ _ H) as (ta & s1 & c & Ho & _).
  destruct (open_inv _ _ _ _ _ _ _ Ho) as (_ & Ha & Hin & _ & _ & s0 & chs & lf & tcs & kj0 & Hc & Hne & _).
  exists ta, chs. split; [exact Ha|]. split; [exact Hin|]. split; [|exact Hne]. exists lf. rewrite Hc. reflexivity.
Qed.
Print Assumptions C93_configured_anchor_oauth.

Example C93_ex :
  (exists s', parse_oidc small id_order 3 "rp" good (fresh [("ta", [1])]) = (s', Ok [("client_id", VStr "rp")])) /\
  snd (parse_oidc small id_order 3 "rp" (response "op" "rp" "tb" 4 1000) (fresh [("ta", [1])])) = Err ValueError.
Proof. split; [exact good_accepted|vm_compute; reflexivity]. Qed.

(** ** C94 *)

(** an accepted response is signed with a key of its issuer that can be traced to known keys over the statements
    collected about the issuer and about the client; the response itself does not help *)
Definition authentic (parse : cenv -> iter_order -> nat -> string -> answer -> fstate -> Prop) : Prop :=
  forall E O fuel me a s, parse E O fuel me a s ->
    exists ta s1 chains1 chains2, an_anchor a = Some ta /\
      chains_found E fuel (s_iss (an_claims a)) ta s chains1 /\
      open_response E fuel a s = (s1, Ok (an_claims a, ta)) /\ chains_found E fuel me ta s1 chains2 /\
      traceable (f_keys s) (flat_map jws (chains1 ++ chains2)) (s_iss (an_claims a)) (an_signer a).

Theorem C94_authentic : authentic (fun E O fuel me a s => exists md, snd (parse_oidc E O fuel me a s) = Ok md).
Proof.
  intros E O fuel me a s [md H]. destruct (parse_oidc E O fuel me a s) as [s' r] eqn:Ep. cbn [snd] in H. subst r.
  destruct (oidc_inv _ _ _ _ _ _ _ _ Ep) as (ta & s1 & s2 & chains & leaf & kj & pre & ch & post & tc & c
    & Ho & Hc & Ech & _ & Hv & _).
  destruct (open_inv _ _ _ _ _ _ _ Ho) as (_ & Ha & _ & _ & _ & s0 & chs & lf & tcs & kj0 & Hc0 & _ & Hv0 & Es1).
  exists ta, s1, chs, chains. split; [exact Ha|]. split; [exists lf; rewrite Hc0; reflexivity|]. split; [exact Ho|].
  split; [exists leaf; rewrite Hc; reflexivity|].
  assert (Hkj : f_keys s1 = after_calls (e_lib E) (f_keys s) chs).
  { rewrite Es1. cbn [f_keys]. rewrite (verify_all_keys _ _ _ _ _ _ Hv0). f_equal.
    etransitivity; [apply map_ext; intros x; apply app_nil_r|]. apply map_id. }
  apply call_ok in Hv. destruct Hv as (Hv & _). apply verified_iff in Hv. destruct Hv as (_ & _ & Hps & _).
  rewrite Hkj, <- after_calls_app in Hps.
  assert (T : traceable (f_keys s) (an_jws a :: flat_map jws (chs ++ chains)) (s_iss (an_claims a)) (an_signer a)).
  { apply (traceable_trans (f_keys s) (after_calls (e_lib E) (f_keys s) (chs ++ map (fun c => c ++ [an_tok a]) pre)) _ (jws (ch ++ [an_tok a]))).
    - intros e k Hh. apply history_traceable in Hh. revert Hh. apply traceable_mono. intros x Hx.
      apply in_flat_map in Hx. destruct Hx as (l & Hl & Hx). apply in_app_or in Hl. destruct Hl as [Hl|Hl].
      + right. apply in_flat_map. exists l. split; [apply in_or_app; left; exact Hl|exact Hx].
      + apply in_map_iff in Hl. destruct Hl as (l' & <- & Hl). rewrite FederationProps.jws_app in Hx. apply in_app_or in Hx.
        destruct Hx as [Hx|[<-|[]]]; [|left; reflexivity]. right. apply in_flat_map. exists l'.
        split; [|exact Hx]. apply in_or_app. right. rewrite Ech. apply in_or_app. left. exact Hl.
    - intros x Hx. rewrite FederationProps.jws_app in Hx. apply in_app_or in Hx.
      destruct Hx as [Hx|[<-|[]]]; [|left; reflexivity]. right. apply in_flat_map. exists ch.
      split; [|exact Hx]. apply in_or_app. right. rewrite Ech. apply in_elt.
    - apply (proj1 (signed_traceable _ _ Hps)). rewrite FederationProps.jws_app. apply in_or_app. right. left. reflexivity. }
  apply traceable_without in T. destruct T as [T|T]; exact T.
Qed.
Print Assumptions C94_authentic.

(** oauth2: anybody can answer in the name of op *)
Theorem C94_authentic_oauth_refuted :
  ~ authentic (fun E O fuel me a s => exists md, snd (parse_oauth E O fuel me a s) = Ok md).
Proof.
  intros H. destruct (H small id_order 3 "rp" (response "op" "rp" "ta" 9 1000) (fresh [("ta", [1])]))
    as (ta & s1 & c1 & c2 & Ha & (l1 & Hc1) & Ho & (l2 & Hc2) & T).
  { eexists. vm_compute. reflexivity. }
  injection Ha as <-. vm_compute in Hc1. injection Hc1 as <- <-.
  assert (G : f_col s1 = f_col (fst (open_response small 3 (response "op" "rp" "ta" 9 1000) (fresh [("ta", [1])]))))
    by (rewrite Ho; reflexivity).
  assert (Ec : c2 = [[TJws 1 (est "ta" "rp" 900 [3])]]).
  { destruct s1 as [sc sk sh]. vm_compute in G. subst sc. vm_compute in Hc2. injection Hc2 as <- <-. reflexivity. }
  subst c2. cbn [app flat_map jws an_claims an_signer response s_iss] in T.
  assert (N : forall e k, traceable (f_keys (fresh [("ta", [1])])) [(1, est "ta" "op" 900 [4]); (1, est "ta" "rp" 900 [3])] e k -> k <> 9).
  { intros e k T'. induction T' as [e k (l & Hl & Hin)|k0 p jw k Hin _ _ Hj Hk].
    - cbn [fresh f_keys dget] in Hl. destruct (String.eqb e "ta"); [|discriminate]. injection Hl as <-.
      destruct Hin as [<-|[]]. discriminate.
    - destruct Hin as [[= <- <-]|[[= <- <-]|[]]]; cbn in Hj; injection Hj as <-; destruct Hk as [<-|[]]; discriminate. }
  exact (N _ _ T eq_refl).
Qed.
Print Assumptions C94_authentic_oauth_refuted.

(** Missing: any relation between the key and the issuer.  What holds: the response is signed with one of the keys it
    contains itself. *)
Theorem C94_self_signed_oauth_partial : forall E O fuel me a s s' md,
  parse_oauth E O fuel me a s = (s', Ok md) ->
  exists ks, s_jwks (an_claims a) = Some ks /\ In (an_signer a) ks.
Proof.
  intros E O fuel me a s s' md H. destruct (oauth_inv _ _ _ _ _ _ _ _ H) as (ta & s1 & c & Ho & _).
  destruct (open_inv _ _ _ _ _ _ _ Ho) as (_ & _ & _ & K & _). exact K.
Qed.
Print Assumptions C94_self_signed_oauth_partial.

Example C94_ex :
  (exists md, snd (parse_oidc small id_order 3 "rp" good (fresh [("ta", [1])])) = Ok md) /\
  snd (parse_oidc small id_order 3 "rp" (response "op" "rp" "ta" 9 1000) (fresh [("ta", [1])])) = Err BadSignature.
Proof. split; [eexists; vm_compute; reflexivity|vm_compute; reflexivity]. Qed.

(** ** C95 *)

(** a response is accepted by the client it is about *)
Definition C95_full (parse : cenv -> iter_order -> nat -> string -> answer -> fstate -> Prop) : Prop :=
  forall E O fuel me a s, parse E O fuel me a s -> s_sub (an_claims a) = me.

Theorem C95_other_client_refuted :
  ~ C95_full (fun E O fuel me a s => exists md, snd (parse_oidc E O fuel me a s) = Ok md).
Proof.
  intros H. specialize (H small id_order 3 "rp" (response "op" "rp2" "ta" 4 1000) (fresh [("ta", [1])])).
  discriminate H. eexists. vm_compute. reflexivity.
Qed.
Print Assumptions C95_other_client_refuted.

Theorem C95_other_client_oauth_refuted :
  ~ C95_full (fun E O fuel me a s => exists md, snd (parse_oauth E O fuel me a s) = Ok md).
Proof.
  intros H. specialize (H small id_order 3 "rp" (response "op" "rp2" "ta" 4 1000) (fresh [("ta", [1])])).
  discriminate H. eexists. vm_compute. reflexivity.
Qed.
Print Assumptions C95_other_client_oauth_refuted.

(** ** C96 *)

(** the library refuses statements that expired more than [g] seconds ago *)
Definition checks_expiry (g : Z) (L : keyjar_lib) : Prop :=
  forall n p z, lib_valid L n p = true -> s_exp p = Some z -> (n < z + g)%Z.

Definition C96_full (parse : cenv -> iter_order -> nat -> string -> answer -> fstate -> Prop) : Prop :=
  forall E O fuel me a s z, checks_expiry 15 (e_lib E) -> parse E O fuel me a s -> s_exp (an_claims a) = Some z ->
    (e_clock E (st_tick (f_col s)) <= z)%Z.

Lemma skew_checks : checks_expiry 15 all_keys.
Proof. intros n p z H Hz. cbn in H. unfold within_skew in H. rewrite Hz in H. apply Z.ltb_lt. exact H. Qed.

Theorem C96_expired_refuted :
  ~ C96_full (fun E O fuel me a s => exists md, snd (parse_oidc E O fuel me a s) = Ok md).
Proof.
  intros H. specialize (H small id_order 3 "rp" (response "op" "rp" "ta" 4 (-1)) (fresh [("ta", [1])]) (-1)%Z).
  specialize (H skew_checks). vm_compute in H. apply H; [|reflexivity|reflexivity]. eexists. reflexivity.
Qed.
Print Assumptions C96_expired_refuted.

Theorem C96_expired_oauth_refuted :
  ~ C96_full (fun E O fuel me a s => exists md, snd (parse_oauth E O fuel me a s) = Ok md).
Proof.
  intros H. specialize (H small id_order 3 "rp" (response "op" "rp" "ta" 4 (-1)) (fresh [("ta", [1])]) (-1)%Z).
  specialize (H skew_checks). vm_compute in H. apply H; [|reflexivity|reflexivity]. eexists. reflexivity.
Qed.
Print Assumptions C96_expired_oauth_refuted.

(** Missing: responses that expired less than the tolerance of the library ago.  No response is accepted that expired
    before that. *)
Theorem C96_expired_partial : forall E O fuel me a s s' g (z : Z), checks_expiry g (e_lib E) ->
  (exists md, parse_oidc E O fuel me a s = (s', Ok md)) \/ (exists md, parse_oauth E O fuel me a s = (s', Ok md)) ->
  s_exp (an_claims a) = Some z -> (e_clock E (st_tick (f_col s)) < z + g)%Z.
Proof.
  intros E O fuel me a s s' g z HC H Hz.
  assert (X : exists ta s1, open_response E fuel a s = (s1, Ok (an_claims a, ta))).
  { destruct H as [[md H]|[md H]].
    - destruct (oidc_inv _ _ _ _ _ _ _ _ H) as (ta & s1 & _ & _ & _ & _ & _ & _ & _ & _ & _ & Ho & _). eauto.
    - destruct (oauth_inv _ _ _ _ _ _ _ _ H) as (ta & s1 & c & Ho & _). eauto. }
  destruct X as (ta & s1 & Ho). destruct (open_inv _ _ _ _ _ _ _ Ho) as (_ & _ & _ & _ & V & _).
  exact (HC _ _ _ V Hz).
Qed.
Print Assumptions C96_expired_partial.

(** Missing: OAuth 2.  With OIDC a response without expiry time is refused. *)
Theorem C96_some_expiry_partial : forall E O fuel me a s s' md,
  parse_oidc E O fuel me a s = (s', Ok md) -> exists z, s_exp (an_claims a) = Some z.
Proof.
  intros E O fuel me a s s' md H.
  destruct (oidc_inv _ _ _ _ _ _ _ _ H) as (ta & s1 & s2 & chains & leaf & kj & pre & ch & post & tc & c
    & _ & _ & _ & _ & Hv & _).
  apply call_ok in Hv. destruct Hv as (Hv & Hx & _). apply verified_iff in Hv. destruct Hv as (_ & Eves & _).
  assert (Hin : In (an_claims a) (tc_verified tc)).
  { rewrite Eves, FederationProps.jws_app, map_app. apply in_or_app. right. left. reflexivity. }
  assert (G : forall l x y, expires_from x l = Ok y -> forall p, In p l -> exists z, s_exp p = Some z).
  { induction l as [|q l IH]; intros x y Hl p Hp; [destruct Hp|]. cbn [expires_from] in Hl.
    destruct (s_exp q) as [e|] eqn:Eq; [|discriminate]. destruct Hp as [<-|Hp]; [eauto|]. exact (IH _ _ Hl p Hp). }
  exact (G _ _ _ Hx _ Hin).
Qed.
Print Assumptions C96_some_expiry_partial.

Example C96_ex : snd (parse_oidc small id_order 3 "rp"
    (mkAnswer 4 (mkStmt "op" "rp" None (Some [4]) (Some [("openid_relying_party", [("client_id", VStr "rp")])]) None None None)
       (Some "ta")) (fresh [("ta", [1])])) = Err KeyError.
Proof. vm_compute. reflexivity. Qed.

(** ** C97 *)

(** the metadata the client goes on with is what the policies of a chain of the client, one that comes from the anchor
    named in the response, leave of the metadata in the response *)
Definition C97_full : Prop := forall E O fuel me a s s' md,
  parse_oidc E O fuel me a s = (s', Ok md) ->
  exists ta s1 chains l, an_anchor a = Some ta /\ fst (open_response E fuel a s) = s1 /\
    chains_found E fuel me ta s1 chains /\ In l chains /\
    client_metadata O (map snd (jws l)) (an_claims a) md /\
    exists p rest, map snd (jws l) = p :: rest /\ s_iss p = ta.

(** rp is below tb, op below ta; the response names ta *)
Definition apart : cenv := ex_env
  [("rp/wk", TJws 3 (ec "rp" 3 1000 (Some ["tb"]))); ("op/wk", TJws 4 (ec "op" 4 1000 (Some ["ta"; "tb"])));
   ("ta/wk", TJws 1 (ec "ta" 1 1000 None)); ("tb/wk", TJws 2 (ec "tb" 2 1000 None))]
  [("tb/fetch rp", TJws 2 (est "tb" "rp" 900 [3])); ("ta/fetch op", TJws 1 (est "ta" "op" 900 [4]));
   ("tb/fetch op", TJws 2 (est "tb" "op" 900 [4]))]
  ["ta"; "tb"].

Theorem C97_policies_of_named_anchor_refuted : ~ C97_full.
Proof.
  intros H. destruct (parse_oidc apart id_order 4 "rp" good (fresh [("ta", [1]); ("tb", [2])])) as [s' r] eqn:E.
  assert (R : r = Ok [("client_id", VStr "rp")]) by (vm_compute in E; injection E as _ <-; reflexivity).
  subst r. apply H in E. destruct E as (ta & s1 & chains & l & Ha & Es & (lf & Hc) & Hl & _ & p & rest & Ep & Hp).
  injection Ha as <-. rewrite <- Es in Hc. vm_compute in Hc. injection Hc as <- _.
  destruct Hl as [<-|[]]. vm_compute in Ep. injection Ep as <- _. discriminate Hp.
Qed.
Print Assumptions C97_policies_of_named_anchor_refuted.

(** Missing: that the chain comes from the anchor named.  What holds: the policies of some chain of the client are
    applied to the metadata of the response. *)
Theorem C97_policies_applied_partial : forall E O fuel me a s s' md,
  parse_oidc E O fuel me a s = (s', Ok md) ->
  exists ta s1 chains l, an_anchor a = Some ta /\ fst (open_response E fuel a s) = s1 /\
    chains_found E fuel me ta s1 chains /\ In l chains /\ client_metadata O (map snd (jws l)) (an_claims a) md.
Proof.
  intros E O fuel me a s s' md H.
  destruct (oidc_inv _ _ _ _ _ _ _ _ H) as (ta & s1 & s2 & chains & leaf & kj & pre & ch & post & tc & c
    & Ho & Hc & Ech & _ & Hv & Ha & Ht & _).
  destruct (open_inv _ _ _ _ _ _ _ Ho) as (_ & Hta & _).
  exists ta, s1, chains, ch. split; [exact Hta|]. split; [rewrite Ho; reflexivity|].
  split; [exists leaf; rewrite Hc; reflexivity|]. split; [rewrite Ech; apply in_elt|].
  apply call_ok in Hv. destruct Hv as (Hv & _). apply verified_iff in Hv. destruct Hv as (_ & Eves & _).
  rewrite FederationProps.jws_app, map_app in Eves. cbn [jws an_tok flat_map app map snd] in Eves.
  unfold apply_to_chain in Ha. rewrite Eves in Ha.
  destruct (policy_call_chain O _) as [[m ves]|x] eqn:Ep; [|discriminate]. cbn [bind fst snd] in Ha. injection Ha as <-.
  unfold type_of_chain in Ht. cbn [ch_md] in Ht.
  unfold policy_call_chain in Ep. rewrite rev_unit in Ep. unfold client_metadata.
  destruct (map snd (jws ch)) as [|p l] eqn:El.
  - cbn [rev is_nil] in Ep. destruct (s_metadata (an_claims a)) as [m0|]; [|discriminate]. cbn [bind] in Ep. unfold dindex in Ep.
    destruct (dget "" m0) as [d|] eqn:Ed; [|discriminate]. cbn [bind] in Ep. injection Ep as <- _.
    exists m0, d. split; [reflexivity|]. split; [exact Ed|]. unfold dindex in Ht.
    destruct (dget _ d) as [[| | | | |v]|]; try discriminate. injection Ht as <-. reflexivity.
  - destruct (is_nil (rev (p :: l))) eqn:En.
    { cbn [rev] in En. destruct (rev l); discriminate. }
    rewrite rev_involutive in Ep. destruct (policy_call O (p :: l) (an_claims a)) as [[m0 lf]|x]; [|discriminate].
    cbn [bind fst snd] in Ep. injection Ep as <- _. exists m0, lf. split; [reflexivity|].
    unfold dindex in Ht. destruct (dget _ m0); [congruence|discriminate].
Qed.
Print Assumptions C97_policies_applied_partial.

(** ta does not want clients to have a secret; op gives them one *)
Definition C97_pol : dict mpolicy := [("openid_relying_party", [("token_endpoint_auth_method", [("value", VStr "private_key_jwt")])])].

Definition C97_world : cenv := ex_env
  [("rp/wk", TJws 3 (ec "rp" 3 1000 (Some ["ta"]))); ("op/wk", TJws 4 (ec "op" 4 1000 (Some ["ta"])));
   ("ta/wk", TJws 1 (ec "ta" 1 1000 None))]
  [("ta/fetch rp", TJws 1 (mkStmt "ta" "rp" (Some 900%Z) (Some [3]) None (Some C97_pol) None None));
   ("ta/fetch op", TJws 1 (est "ta" "op" 900 [4]))]
  ["ta"].

Definition secretive : answer :=
  mkAnswer 4 (mkStmt "op" "rp" (Some 1000%Z) (Some [4])
                (Some [("openid_relying_party", [("token_endpoint_auth_method", VStr "client_secret_basic")])]) None None None)
    (Some "ta").

Example C97_ex : snd (parse_oidc C97_world id_order 3 "rp" secretive (fresh [("ta", [1])]))
  = Ok [("token_endpoint_auth_method", VStr "private_key_jwt")].
Proof. vm_compute. reflexivity. Qed.

(** ** C98 *)

(** handling a response does not change what is known about the keys of the trust anchors *)
Definition C98_full : Prop := forall E O fuel me a s s' md e,
  parse_oidc E O fuel me a s = (s', Ok md) -> In e (e_anchors E) -> dget e (f_keys s') = dget e (f_keys s).

(** op answers with a response about ta: from then on what op signs passes for ta's *)
Theorem C98_anchor_keys_refuted : ~ C98_full.
Proof.
  intros H. destruct (parse_oidc small id_order 3 "rp" (response "op" "ta" "ta" 4 1000) (fresh [("ta", [1])])) as [s' r] eqn:E.
  vm_compute in E. injection E as Es Er. symmetry in Er. subst r.
  specialize (H small id_order 3 "rp" (response "op" "ta" "ta" 4 1000) (fresh [("ta", [1])]) s' _ "ta" ltac:(vm_compute; rewrite Es; reflexivity)).
  specialize (H (or_introl eq_refl)). rewrite <- Es in H. vm_compute in H. discriminate H.
Qed.
Print Assumptions C98_anchor_keys_refuted.

(** nor are keys filed for the client itself that no superior vouches for *)
Definition C98_own_full : Prop := forall E O fuel me a s s' md k,
  parse_oidc E O fuel me a s = (s', Ok md) -> s_sub (an_claims a) = me -> holds (f_keys s') me k ->
  exists ta s1 chains1 chains2, an_anchor a = Some ta /\ fst (open_response E fuel a s) = s1 /\
    chains_found E fuel (s_iss (an_claims a)) ta s chains1 /\ chains_found E fuel me ta s1 chains2 /\
    traceable (f_keys s) (flat_map jws (chains1 ++ chains2)) me k.

(** the jwks of an ordinary response is the OP's *)
Theorem C98_own_keys_refuted : ~ C98_own_full.
Proof.
  intros H. destruct (parse_oidc small id_order 3 "rp" good (fresh [("ta", [1])])) as [s' r] eqn:E.
  assert (K : holds (f_keys s') "rp" 4 /\ r = Ok [("client_id", VStr "rp")]).
  { vm_compute in E. injection E as <- <-. split; [|reflexivity]. eexists. split; [reflexivity|]. vm_compute. tauto. }
  destruct K as [K ->]. destruct (H _ _ _ _ _ _ _ _ _ E eq_refl K) as (ta & s1 & c1 & c2 & Ha & Es & (l1 & H1) & (l2 & H2) & T).
  injection Ha as <-. rewrite <- Es in H2. vm_compute in H1, H2. injection H1 as <- _. injection H2 as <- _.
  assert (N : forall e k, traceable (f_keys (fresh [("ta", [1])])) [(1, est "ta" "op" 900 [4]); (1, est "ta" "rp" 900 [3])] e k ->
            e = "rp" -> k = 3).
  { intros e k T'. induction T' as [e k (l & Hl & Hin)|k0 p jw k Hin _ _ Hj Hk]; intros He.
    - subst e. discriminate Hl.
    - destruct Hin as [[= <- <-]|[[= <- <-]|[]]]; [discriminate He|]. cbn in Hj. injection Hj as <-. destruct Hk as [<-|[]]. reflexivity. }
  discriminate (N _ _ T eq_refl).
Qed.
Print Assumptions C98_own_keys_refuted.

(** Missing: that the response itself vouches for nothing.  What holds: what is known afterwards can be traced over
    the statements collected for the OP and for the client and the response; about entities none of them is about
    nothing changes; no key is lost. *)
Theorem C98_keys_partial : forall E O fuel me a s s' md,
  parse_oidc E O fuel me a s = (s', Ok md) ->
  exists ta s1 chains1 chains2, an_anchor a = Some ta /\ fst (open_response E fuel a s) = s1 /\
    chains_found E fuel (s_iss (an_claims a)) ta s chains1 /\ chains_found E fuel me ta s1 chains2 /\
    let all := an_jws a :: flat_map jws (chains1 ++ chains2) in
    (forall e k, holds (f_keys s') e k -> traceable (f_keys s) all e k) /\
    (forall e, (forall k p, In (k, p) all -> s_sub p <> e) -> dget e (f_keys s') = dget e (f_keys s)) /\
    (forall e k, holds (f_keys s) e k -> holds (f_keys s') e k).
Proof.
  intros E O fuel me a s s' md H.
  destruct (oidc_inv _ _ _ _ _ _ _ _ H) as (ta & s1 & s2 & chains & leaf & kj & pre & ch & post & tc & c
    & Ho & Hc & _ & Hv & _ & _ & _ & Es').
  destruct (open_inv _ _ _ _ _ _ _ Ho) as (_ & Ha & _ & _ & _ & s0 & chs & lf & tcs & kj0 & Hc0 & _ & Hv0 & Es1).
  exists ta, s1, chs, chains. split; [exact Ha|]. split; [rewrite Ho; reflexivity|].
  split; [exists lf; rewrite Hc0; reflexivity|]. split; [exists leaf; rewrite Hc; reflexivity|].
  assert (Hkj : f_keys s' = after_calls (e_lib E) (f_keys s) (chs ++ map (fun c => c ++ [an_tok a]) chains)).
  { rewrite Es'. cbn [f_keys]. rewrite (verify_all_keys _ _ _ _ _ _ Hv), after_calls_app. f_equal.
    rewrite Es1. cbn [f_keys]. rewrite (verify_all_keys _ _ _ _ _ _ Hv0). f_equal.
    etransitivity; [apply map_ext; intros x; apply app_nil_r|]. apply map_id. }
  assert (I : incl (flat_map jws (chs ++ map (fun c => c ++ [an_tok a]) chains)) (an_jws a :: flat_map jws (chs ++ chains))).
  { intros x Hx. apply in_flat_map in Hx. destruct Hx as (l & Hl & Hx). apply in_app_or in Hl. destruct Hl as [Hl|Hl].
    - right. apply in_flat_map. exists l. split; [apply in_or_app; left; exact Hl|exact Hx].
    - apply in_map_iff in Hl. destruct Hl as (l' & <- & Hl). rewrite FederationProps.jws_app in Hx. apply in_app_or in Hx.
      destruct Hx as [Hx|[<-|[]]]; [|left; reflexivity]. right. apply in_flat_map. exists l'.
      split; [|exact Hx]. apply in_or_app. right. exact Hl. }
  rewrite Hkj. split; [|split].
  - intros e k Hh. apply history_traceable in Hh. exact (traceable_mono _ _ _ _ _ I Hh).
  - intros e He. apply after_calls_other. intros k p Hin. exact (He k p (I _ Hin)).
  - intros e k Hh. apply holds_after, Hh.
Qed.
Print Assumptions C98_keys_partial.

Example C98_ex : exists s', parse_oidc small id_order 3 "rp" (response "op" "ta" "ta" 4 1000) (fresh [("ta", [1])])
    = (s', Ok [("client_id", VStr "ta")]) /\ dget "ta" (f_keys s') = Some [1; 4] /\
  snd (verifier_call (e_lib small) (f_keys s') [TJws 4 (est "ta" "rp" 900 [9])]) <> Ok None.
Proof. eexists. split; [vm_compute; reflexivity|]. split; [reflexivity|]. vm_compute. discriminate. Qed.

(** ** C99 *)

Record fine (E : cenv) (W : world) (ta op me : string) (rank : string -> nat) (fuel : nat) (s : fstate) (a : answer) : Prop := mkFine {
  fi_quiet : quiet E op /\ quiet E me;
  fi_visited : visited E (f_col s);
  fi_run : well_run W E ta op /\ well_run W E ta me;
  fi_rank : ranked W ta op rank /\ ranked W ta me rank /\ rank op < fuel /\ rank me < fuel;
  fi_jar : jar_ok W (fun e => reaches W ta op e \/ reaches W ta me e) (f_keys s);
  fi_anchor : In ta (e_anchors E);
  fi_answer : honest_answer W ta op me a;
  fi_op : exists r, route W ta op r /\ r <> [] /\ known (f_keys s) (end_of op r);
  fi_clear : clear_up W (f_keys s) ta op [] /\ clear_up W (f_keys s) ta me [an_claims a];
  fi_valid : lib_valid (e_lib E) (e_clock E 0) (an_claims a) = true
}.

(** a client takes the answer of an OP if they have a trust anchor in common and the policies leave some metadata *)
Definition C99_full : Prop := forall E O W ta op me rank fuel s a rt md,
  fine E W ta op me rank fuel s a -> allows W (f_keys s) ta me a rt ->
  (forall r md', allows W (f_keys s) ta me a r -> client_metadata O (claims_up W me r) (an_claims a) md' -> md' = md) ->
  client_metadata O (claims_up W me rt) (an_claims a) md -> md <> [] ->
  snd (parse_oidc E O fuel me a s) = Ok md.

(** Missing: clients with several routes to known anchors.  With one such route the answer is taken. *)
Theorem C99_honest_answer_partial : forall E O W ta op me rank fuel s a rt md,
  fine E W ta op me rank fuel s a -> allows W (f_keys s) ta me a rt ->
  (forall r, allows W (f_keys s) ta me a r -> r = rt) ->
  client_metadata O (claims_up W me rt) (an_claims a) md -> md <> [] ->
  snd (parse_oidc E O fuel me a s) = Ok md.
Proof.
  intros E O W ta op me rank fuel s a rt md [(Qo & Qm) V (WO & WM) (RO & RM & FO & FM) J HA
    (A1 & A2 & A3 & A4 & (ks & A5 & A6) & z & A7) (ro & Ro & No & Ko) (CO & CM) LV] (T1 & T2 & T3 & T4) U HM Hmd.
  assert (HF := proj1 (proj2 Qo)).
  (* the response opens *)
  assert (Es : verify_self_signed E (e_clock E 0) (Some (an_tok a)) = Ok (an_tok a, an_claims a)).
  { unfold verify_self_signed, an_tok. rewrite A5.
    assert (K : kmem (an_signer a) (filter (lib_picks (e_lib E) (TJws (an_signer a) (an_claims a))) ks) = true).
    { apply kmem_In, filter_In. split; [rewrite A4; exact A6|]. apply (wr_picks _ _ _ _ WO). }
    rewrite K, LV. reflexivity. }
  destruct (collect_routes E W ta op rank fuel s Qo V WO RO FO) as (s1 & chains & C1 & C2 & C3 & C4 & _ & C5).
  assert (Jo : jar_right W ta op (f_keys s)) by (intros e k R; apply J; left; exact R).
  assert (CO' : forall r, route W ta op r -> r <> [] -> known (f_keys s) (end_of op r) ->
            exists b, meets_restrictions (map snd (jws (along W op r))) = Ok b).
  { intros r H1 H2 H3. destruct (CO r H1 H2 H3) as [b Hb]. exists b. unfold claims_up in Hb. rewrite app_nil_r in Hb. exact Hb. }
  destruct (verify_bare E W ta op WO HF (f_keys s) chains CO' (fun c h => proj1 (C5 c) h) (f_keys s) [] Jo (fun e _ => eq_refl))
    as (kj1 & tcs1 & V1 & _ & V3 & _ & V5).
  assert (Hne : chains <> []).
  { intros X. assert (Hin : In (along W op ro) chains) by (apply C5; eauto). rewrite X in Hin. destruct Hin. }
  assert (Ho : open_response E fuel a s = (mkFed (f_col s1) kj1 (f_chains s1), Ok (an_claims a, ta))).
  { unfold open_response. rewrite opened_fed, (proj2 (proj1 Qo) (st_tick (f_col s))), Es. cbn [snd]. unfold mbind at 1, lift at 1. rewrite A1.
    rewrite (proj2 (smem_In _ _) HA). cbn [negb]. unfold mbind at 1, signature_verifies, mbind at 1. rewrite A2, C1. cbn [fst].
    destruct chains as [|c chains]; [contradiction|]. cbn [is_nil]. unfold mbind at 1, on_keys. rewrite C2.
    unfold verify_trust_chains. unfold verify_step in V1. rewrite V1. reflexivity. }
  (* the keys after that *)
  assert (Ea : kj1 = after_calls (e_lib E) (f_keys s) (map (fun c => c ++ []) chains)).
  { apply (verify_all_keys E [] chains (f_keys s) kj1 tcs1). exact V1. }
  assert (J1 : jar_ok W (fun e => reaches W ta op e \/ reaches W ta me e) kj1).
  { rewrite Ea. apply after_calls_jar; [exact J|]. intros k p Hin. apply in_flat_map in Hin. destruct Hin as (c & Hc & Hin).
    apply in_map_iff in Hc. destruct Hc as (c' & <- & Hc). rewrite app_nil_r in Hin. apply C5 in Hc.
    destruct Hc as (r & Hr & _ & ->). exact (along_vouch E W ta op WO r op k p (reaches_self W ta op) Hr Hin). }
  assert (Hh : holds kj1 (s_iss (an_claims a)) (an_signer a)).
  { destruct (V5 ro Ro No Ko) as [l Hl]; [apply C5; eauto|]. rewrite A2, A4. exists l. split; [exact Hl|].
    apply (J1 op l); [left; constructor|exact Hl]. }
  set (s1' := mkFed (f_col s1) kj1 (f_chains s1)).
  destruct (collect_routes E W ta me rank fuel s1' Qm C4 WM RM FM) as (s2 & chains2 & D1 & D2 & _ & _ & D3 & D4).
  assert (Jm : jar_right W ta me kj1) by (intros e k R; apply J1; right; exact R).
  assert (He : s_exp (an_claims a) <> None) by congruence.
  destruct (verify_answers E W ta me WM HF (f_keys s) (an_signer a) (an_claims a) ks chains2 rt A3 A5 He CM T1 T2 T3 T4
              (fun r h1 h2 h3 h4 => U r (conj h1 (conj h2 (conj h3 h4)))) (fun c h => proj1 (D4 c) h) D3 kj1 [] Jm V3 Hh)
    as (kj2 & new & N1 & _ & N2).
  destruct N2 as (tc & -> & N3); [apply D4; eauto|].
  unfold parse_oidc, mbind at 1. rewrite Ho. cbn [fst snd]. unfold mbind at 1. fold s1'. rewrite D1. unfold mbind at 1, on_keys.
  rewrite D2. cbn [f_keys s1' fst]. change (verify_trust_chains E chains2 [an_tok a] kj1) with
    (mfold (verify_step E [TJws (an_signer a) (an_claims a)]) chains2 [] kj1). rewrite N1. cbn [app].
  assert (Htc : (match given_metadata (an_claims a) with Some m => set_leaf_metadata m tc | None => Ok tc end) = Ok tc).
  { destruct (given_metadata (an_claims a)) as [m|] eqn:Eg; [|reflexivity].
    exact (set_leaf_same m tc _ _ N3 (given_same _ _ Eg)). }
  unfold mbind at 1, lift at 1. rewrite Htc. cbn beta iota.
  fold (claims_up W me rt) in N3.
  assert (Hl : claims_up W me rt <> []).
  { unfold claims_up. destruct (first_issuer E W ta me WM rt me (reaches_self W ta me) T1 T2) as (k & p & l & -> & _).
    cbn [jws map]. discriminate. }
  unfold client_metadata in HM. unfold mbind at 1, lift at 1, apply_to_chain. rewrite N3. unfold policy_call_chain. rewrite rev_unit.
  destruct (claims_up W me rt) as [|q l]; [contradiction|].
  destruct (is_nil (rev (q :: l))) eqn:En.
  { cbn [rev] in En. destruct (rev l); discriminate. }
  rewrite rev_involutive. destruct HM as (m & leaf' & HM & Hd). rewrite HM. cbn [bind fst snd].
  unfold mbind at 1, lift at 1, type_of_chain, dindex. cbn [ch_md]. rewrite Hd.
  destruct md as [|x md]; [contradiction|]. reflexivity.
Qed.
Print Assumptions C99_honest_answer_partial.

(** rp is below ta and tb, op below ta *)
Definition duo_key (e : string) : key :=
  if String.eqb e "rp" then 3 else if String.eqb e "op" then 4 else if String.eqb e "ta" then 1
  else if String.eqb e "tb" then 5 else 0.

Definition duo_above (e : string) : option (list string) :=
  if String.eqb e "rp" then Some ["ta"; "tb"] else if String.eqb e "op" then Some ["ta"] else None.

Definition duo_world : world :=
  mkWorld (fun e => ec e (duo_key e) 1000 (duo_above e)) (fun a e => est a e 900 [duo_key e]) duo_key.

Definition duo : cenv := ex_env
  (map (fun e => ((e ++ "/wk")%string, own duo_world e)) ["rp"; "op"; "ta"; "tb"])
  (map (fun p => ((fst p ++ "/fetch " ++ snd p)%string, TJws (duo_key (fst p)) (w_about duo_world (fst p) (snd p))))
     [("ta", "rp"); ("tb", "rp"); ("ta", "op")])
  ["ta"; "tb"].

Definition duo_rank (e : string) : nat := if smem e ["rp"; "op"] then 1 else 0.

Lemma duo_reaches id e : In id ["rp"; "op"] -> reaches duo_world "ta" id e -> In e ["rp"; "op"; "ta"; "tb"].
Proof.
  intros Hid. apply reaches_in; [destruct Hid as [<-|[<-|[]]]; simpl; tauto|].
  intros x a Hx Ha. repeat destruct Hx as [<-|Hx]; try destruct Hx; vm_compute in Ha; simpl; tauto.
Qed.

Lemma duo_well_run id : In id ["rp"; "op"] -> well_run duo_world duo "ta" id.
Proof.
  intros Hid. constructor.
  - intros e R. apply (duo_reaches id e Hid) in R. repeat destruct R as [<-|R]; try destruct R;
      (split; [left; reflexivity|]; split; [reflexivity|]; split; [reflexivity|]; split; [discriminate|];
       eexists; split; [reflexivity|left; reflexivity]).
  - intros e a R Ha. apply (duo_reaches id e Hid) in R.
    repeat destruct R as [<-|R]; try destruct R; vm_compute in Ha; repeat destruct Ha as [<-|Ha]; try destruct Ha;
      (split; [reflexivity|]; split; [reflexivity|]; split; [eexists; split; [reflexivity|left; reflexivity]|];
       eexists; split; [eexists _, _; split; [reflexivity|]; split; reflexivity|]; split; [discriminate|reflexivity]).
  - reflexivity.
  - reflexivity.
Qed.

Lemma duo_net n q t : e_net duo n q = RText (Some t) ->
  (exists e, In e ["rp"; "op"; "ta"; "tb"] /\ t = own duo_world e) \/
  (exists a e, t = TJws (duo_key a) (est a e 900 [duo_key e])).
Proof.
  unfold duo, ex_env, static_net. cbn [e_net]. destruct q as [u|ep i x].
  - intros H. left. destruct (dget u _) as [t0|] eqn:Ed; [|discriminate]. injection H as ->.
    apply dget_In in Ed. apply in_map_iff in Ed. destruct Ed as (e & [= _ <-] & Hin). eauto.
  - intros H. right. destruct (dget _ _) as [t0|] eqn:Ed; [|discriminate]. injection H as ->.
    apply dget_In in Ed. apply in_map_iff in Ed. destruct Ed as ([a e] & [= _ <-] & Hin). eauto.
Qed.

Lemma duo_quiet id : In id ["rp"; "op"] -> quiet duo id.
Proof.
  intros Hid. split; [split; reflexivity|]. split; [|split].
  - intros n q k p H. destruct (duo_net n q _ H) as [(e & _ & [= _ ->])|(a & e & [= _ ->])];
      (eexists; split; [reflexivity|reflexivity]).
  - intros i c hints a [(t & n & _ & Hs & k & ks & -> & _)|(e & He & _)] Hh Ha; [|discriminate].
    assert (D : exists e, In e ["rp"; "op"; "ta"; "tb"] /\ TJws k c = own duo_world e).
    { destruct Hs as [Hs|Hs]; (destruct (duo_net n _ _ Hs) as [D|(a' & e' & X)]; [exact D|]);
        injection X as _ ->; cbn in Hh; discriminate. }
    destruct D as (e & Hin & X). injection X as _ ->.
    repeat destruct Hin as [<-|Hin]; try destruct Hin; vm_compute in Hh; try discriminate Hh; injection Hh as <-;
      repeat destruct Ha as [<-|Ha]; try destruct Ha; reflexivity.
  - destruct Hid as [<-|[<-|[]]]; reflexivity.
Qed.

Lemma duo_route e r : route duo_world "ta" e r -> In e ["rp"; "op"; "ta"; "tb"] ->
  In (e, r) [("rp", ["ta"]); ("rp", ["tb"]); ("op", ["ta"]); ("ta", []); ("tb", [])].
Proof.
  intros H. induction H as [e He|e a r Ha Hr IH]; intros Hin.
  - repeat destruct Hin as [<-|Hin]; try destruct Hin; vm_compute in He; try discriminate He; simpl; tauto.
  - repeat destruct Hin as [<-|Hin]; try destruct Hin; vm_compute in Ha; repeat destruct Ha as [<-|Ha]; try destruct Ha;
      (destruct IH as [X|IH]; [simpl; tauto|try discriminate X; injection X as <-; simpl; tauto|]);
      repeat (destruct IH as [X|IH]; [try discriminate X; injection X as <-; simpl; tauto|]); destruct IH.
Qed.

Lemma duo_rp r : route duo_world "ta" "rp" r -> r = ["ta"] \/ r = ["tb"].
Proof.
  intros H. apply duo_route in H; [|simpl; tauto]. repeat (destruct H as [X|H]; [try discriminate X; injection X as <-; tauto|]).
  destruct H.
Qed.

Lemma duo_op r : route duo_world "ta" "op" r -> r = ["ta"].
Proof.
  intros H. apply duo_route in H; [|simpl; tauto]. repeat (destruct H as [X|H]; [try discriminate X; injection X as <-; tauto|]).
  destruct H.
Qed.

Lemma duo_up id a : In id ["rp"; "op"] -> In a (above duo_world "ta" id) -> route duo_world "ta" id [a].
Proof.
  intros Hid Ha. constructor; [exact Ha|]. constructor.
  destruct Hid as [<-|[<-|[]]]; vm_compute in Ha; repeat destruct Ha as [<-|Ha]; try destruct Ha; reflexivity.
Qed.

Lemma duo_fine kj : dget "ta" kj = Some [1] -> (forall e ks, dget e kj = Some ks -> ks = [duo_key e]) ->
  fine duo duo_world "ta" "op" "rp" duo_rank 2 (fresh kj) good.
Proof.
  intros Hta Hk. assert (Io : In "op" ["rp"; "op"]) by (simpl; tauto). assert (Ir : In "rp" ["rp"; "op"]) by (simpl; tauto).
  assert (RK : forall id, In id ["rp"; "op"] -> ranked duo_world "ta" id duo_rank).
  { intros id Hid e a R Ha. apply (duo_reaches id e Hid) in R.
    repeat destruct R as [<-|R]; try destruct R; vm_compute in Ha; repeat destruct Ha as [<-|Ha]; try destruct Ha; vm_compute; auto. }
  constructor.
  - split; apply duo_quiet; assumption.
  - constructor.
  - split; apply duo_well_run; assumption.
  - split; [apply RK, Io|]. split; [apply RK, Ir|]. split; vm_compute; auto.
  - intros e ks _ H. rewrite (Hk e ks H). left. reflexivity.
  - simpl. tauto.
  - split; [reflexivity|]. split; [reflexivity|]. split; [reflexivity|]. split; [reflexivity|].
    split; [exists [4]; split; [reflexivity|left; reflexivity]|eexists; reflexivity].
  - exists ["ta"]. split; [apply duo_up; [exact Io|left; reflexivity]|]. split; [discriminate|]. exists [1]. exact Hta.
  - split.
    + intros r Hr _ _. apply duo_op in Hr. subst r. exists true. vm_compute. reflexivity.
    + intros r Hr _ _. apply duo_rp in Hr. destruct Hr as [->| ->]; exists true; vm_compute; reflexivity.
  - reflexivity.
Qed.

Lemma duo_allows kj a : In a ["ta"; "tb"] -> known kj a -> allows duo_world kj "ta" "rp" good [a].
Proof.
  intros Ha K. split; [apply duo_up; [left; reflexivity|exact Ha]|]. split; [discriminate|]. split; [exact K|].
  destruct Ha as [<-|[<-|[]]]; vm_compute; reflexivity.
Qed.

Definition two_jar : keyjar := [("ta", [1]); ("tb", [5])].

Theorem C99_honest_answer_refuted : ~ C99_full.
Proof.
  intros H.
  specialize (H duo id_order duo_world "ta" "op" "rp" duo_rank 2 (fresh two_jar) good ["ta"] [("client_id", VStr "rp")]).
  assert (X : snd (parse_oidc duo id_order 2 "rp" good (fresh two_jar)) = Err SystemError) by (vm_compute; reflexivity).
  rewrite X in H. discriminate H.
  - apply duo_fine; [reflexivity|]. intros e ks. unfold two_jar. cbn [dget].
    destruct (String.eqb_spec e "ta") as [->|_]; [intros [= <-]; reflexivity|].
    destruct (String.eqb_spec e "tb") as [->|_]; intros [= <-]; reflexivity.
  - apply duo_allows; [simpl; tauto|]. eexists. reflexivity.
  - intros r md' (Hr & _) Hm. apply duo_rp in Hr. destruct Hr as [->| ->]; vm_compute in Hm; destruct Hm as (m & l & [= <- _] & Hd);
      injection Hd as <-; reflexivity.
  - vm_compute. eexists _, _. split; reflexivity.
  - discriminate.
Qed.
Print Assumptions C99_honest_answer_refuted.

Example C99_ex : fine duo duo_world "ta" "op" "rp" duo_rank 2 (fresh [("ta", [1])]) good /\
  allows duo_world [("ta", [1])] "ta" "rp" good ["ta"] /\
  (forall r, allows duo_world [("ta", [1])] "ta" "rp" good r -> r = ["ta"]) /\
  client_metadata id_order (claims_up duo_world "rp" ["ta"]) (an_claims good) [("client_id", VStr "rp")].
Proof.
  split; [|split; [|split]].
  - apply duo_fine; [reflexivity|]. intros e ks. cbn [dget]. destruct (String.eqb_spec e "ta") as [->|_]; intros [= <-]; reflexivity.
  - apply duo_allows; [simpl; tauto|]. eexists. reflexivity.
  - intros r (Hr & _ & [l Hl] & _). apply duo_rp in Hr. destruct Hr as [->| ->]; [reflexivity|discriminate Hl].
  - vm_compute. eexists _, _. split; reflexivity.
Qed.

(** ** C100 *)

(** what client and OP know about the client is the same after an explicit registration *)
Definition C100_full : Prop := forall E O fuel R P prio n p s s1 a f f' md ci k v,
  keeps_id R -> passed_on R "client_id" -> plain_claim R k ->
  answer_oidc E O fuel R P prio (TJws n p) s = (s1, Ok (Some a)) ->
  parse_oidc E O fuel (s_sub p) a f = (f', Ok md) ->
  dget (s_sub p) (r_cdb (a_reg s1)) = Some ci -> dget k md = Some v -> dget k ci = Some v.

(** the configuration of rp asks for a secret, ta's policy does not allow that *)
Definition asking : stmt := mkStmt "rp" "rp" (Some 1000%Z) (Some [3])
  (Some [("openid_relying_party", [("token_endpoint_auth_method", VStr "client_secret_basic")])]) None None (Some ["ta"]).

Definition the_op : op := mkOp "op" 4 [4] ["ta"] 0 1000.

Definition C100_world : cenv := ex_env
  [("rp/wk", TJws 3 asking); ("op/wk", TJws 4 (ec "op" 4 1000 (Some ["ta"]))); ("ta/wk", TJws 1 (ec "ta" 1 1000 None))]
  [("ta/fetch rp", TJws 1 (mkStmt "ta" "rp" (Some 900%Z) (Some [3]) None (Some C97_pol) None None));
   ("ta/fetch op", TJws 1 (est "ta" "op" 900 [4]))]
  ["ta"].

Lemma C100_case : exists s1 a f' md ci,
  answer_oidc C100_world id_order 3 ex_reg the_op ["ta"] (TJws 3 asking) (mkA (fresh [("ta", [1])]) ex_start) = (s1, Ok (Some a)) /\
  parse_oidc C100_world id_order 3 "rp" a (fresh [("ta", [1])]) = (f', Ok md) /\
  dget "rp" (r_cdb (a_reg s1)) = Some ci /\
  dget "token_endpoint_auth_method" md = Some (VStr "private_key_jwt") /\
  dget "token_endpoint_auth_method" ci = Some (VStr "client_secret_basic").
Proof.
  eexists. eexists. eexists. eexists. eexists. split; [vm_compute; reflexivity|]. split; [vm_compute; reflexivity|].
  split; [reflexivity|]. split; reflexivity.
Qed.

Theorem C100_same_metadata_refuted : ~ C100_full.
Proof.
  intros H. destruct C100_case as (s1 & a & f' & md & ci & H1 & H2 & H3 & H4 & H5).
  assert (PC : plain_claim ex_reg "token_endpoint_auth_method").
  { split; [reflexivity|]. split; simpl; intuition discriminate. }
  assert (X := H C100_world id_order 3 ex_reg the_op ["ta"] 3 asking _ s1 a _ f' md ci _ _ ex_keeps eq_refl PC H1 H2 H3 H4).
  rewrite H5 in X. discriminate X.
Qed.
Print Assumptions C100_same_metadata_refuted.

(** nothing is said about the claims [k] by composing and splitting URIs *)
Definition untouched (R : reg_env) (k : string) : Prop :=
  forall d, NoDup (dkeys d) -> NoDup (dkeys (rg_comb R d)) /\ dget k (rg_comb R d) = dget k d.

Lemma answer_inv E O fuel R P prio k p s s1 a : answer_oidc E O fuel R P prio (TJws k p) s = (s1, Ok (Some a)) ->
  exists m ty md args c f1, s_metadata p = Some m /\ dget ty m = Some md /\
    step2_process_request O R (dset "client_id" (VStr (s_sub p)) (request_of md)) false true [] (a_reg s)
      = (a_reg s1, Ok (Done args)) /\
    get_verified_trust_chains E O fuel (s_sub p) (a_fed s) = (f1, Ok c) /\
    an_claims a = mkStmt (op_id P) (s_iss p) (Some (op_now P + op_lifetime P)%Z) (Some (op_jwks P))
      (Some [(ty, answer_metadata R (dset "client_id" (VStr (s_sub p)) (request_of md)) args)]) None None
      (if is_nil (op_hints P) then None else Some (op_hints P)) /\
    an_signer a = op_key P /\ exists x, In x c /\ an_anchor a = Some (ch_anchor x).
Proof.
  unfold answer_oidc. rewrite opened.
  destruct (verify_self_signed E _ (Some (TJws k p))) as [[t' p']|e] eqn:EV; [|discriminate]. cbn [snd].
  assert (p' = p).
  { apply verify_self_signed_ok in EV. destruct EV as [[= <-] (k' & ks & [= _ <-] & _)]. reflexivity. }
  subst p'. unfold mbind at 1, lift at 1. destruct (metadata_of p) as [m|] eqn:Em; [|discriminate].
  unfold mbind at 1, lift at 1. destruct (opponent_type O (dkeys m)) as [ty|e] eqn:EO; [|discriminate].
  unfold mbind at 1, on_fed at 1.
  destruct (get_verified_trust_chains E O fuel (s_sub p) (a_fed s)) as [f1 [cs|e]] eqn:EG; [|discriminate].
  destruct cs as [|c0 cs]; [discriminate|]. cbn [is_nil].
  unfold mbind at 1, lift at 1. destruct (pick_trust_chain prio (c0 :: cs)) as [c|e] eqn:Ep; [|discriminate].
  unfold mbind at 1, lift at 1. unfold dindex at 1. destruct (dget ty m) as [md|] eqn:Ed; [|discriminate].
  unfold mbind at 1, on_reg at 1. cbn [a_reg].
  destruct (step2_process_request O R _ false true [] (a_reg s)) as [r2 [[|args]|e]] eqn:E2; try discriminate.
  intros [= <- <-]. exists m, ty, md, args, (c0 :: cs), f1. cbn [a_reg an_claims an_signer an_anchor].
  split. { unfold metadata_of in Em. destruct (s_metadata p) as [m'|]; [|discriminate]. injection Em as <-. reflexivity. }
  split; [exact Ed|]. split; [exact E2|]. split; [reflexivity|]. split; [reflexivity|]. split; [reflexivity|].
  exists c. split; [|reflexivity]. exact (pick_In _ _ _ Ep).
Qed.

Lemma client_info_nodup R request ci0 ci : client_info R request ci0 = Ok (Done ci) -> NoDup (dkeys ci0) -> NoDup (dkeys ci).
Proof.
  intros H N. destruct (client_info_done _ _ _ _ H) as (c1 & c2 & c3 & c4 & H1 & H2 & H3 & H4 & H5).
  assert (N0 : NoDup (dkeys (base_info request ci0))).
  { clear - N. unfold base_info. revert N. generalize ci0. induction request as [|[k v] l IH]; intros c N; cbn [fold_left]; [exact N|].
    apply IH. destruct (smem (fst (k, v)) ignored); [exact N|]. apply NoDup_dset, N. }
  assert (N1 : NoDup (dkeys c1)) by (destruct H1 as [->|[l ->]]; [exact N0|apply NoDup_dset, N0]).
  assert (N2 : NoDup (dkeys c2)) by (destruct H2 as [[_ ->]|[l [_ ->]]]; [exact N1|apply NoDup_dset, N1]).
  assert (N3 : NoDup (dkeys c3)) by (destruct H3 as [->|[l ->]]; [exact N2|apply NoDup_dset, N2]).
  assert (N4 : NoDup (dkeys c4)).
  { unfold verify_other_uris in H4. assert (G : match Done c4 with Done c => NoDup (dkeys c) | Failed => True end); [|exact G].
    match type of H4 with foldM ?f ?l _ = _ =>
      apply (foldM_inv _ _ f (fun o : outcome (dict val) => match o with Done c => NoDup (dkeys c) | Failed => True end) l (Done c3) (Done c4));
        [|exact N3|exact H4] end.
    intros [|c] item o _ Hc S; [injection S as <-; exact Logic.I|].
    destruct (dget item request); [|injection S as <-; exact Hc].
    destruct (dindex "redirect_uris" c) as [rs|]; [|discriminate]. cbn [bind] in S. injection S as <-.
    destruct (rg_verify_url R v rs); [apply NoDup_dset, Hc|exact Logic.I]. }
  unfold check_algs in H5.
  match type of H5 with foldM ?f ?l _ = _ =>
    apply (foldM_inv _ _ f (fun c => NoDup (dkeys c)) l c4 ci); [|exact N4|exact H5] end.
  intros c item c' _ Hc S. destruct (dget item request) as [alg|]; [|injection S as <-; exact Hc].
  destruct (dindex item (rg_preferred R)) as [claim|]; [|discriminate]. cbn [bind] in S.
  assert (D : forall x, (if dmem item c then Ok (ddel item c) else Err KeyError) = Ok x -> NoDup (dkeys x)).
  { intros x. destruct (dmem item c); [|discriminate]. intros [= <-]. apply NoDup_ddel, Hc. }
  destruct (dget claim (rg_provider R)) as [sup|]; [|apply D, S].
  destruct sup; try (apply D, S);
    (match type of S with (let* b := ?q in _) = _ => destruct q as [b'|]; [|discriminate] end; cbn [bind] in S;
     destruct (b' && negb (rg_signing R alg)); [apply D, S|injection S as <-; exact Hc]).
Qed.

(** Missing: the policies, which the client applies to the answer and the OP to nothing.  What holds: the answer tells
    the client what the OP has stored. *)
Theorem C100_told_partial : forall E O fuel R P prio n p s s1 a k,
  keeps_id R -> passed_on R "client_id" -> plain_claim R k -> untouched R k ->
  (forall m ty md, s_metadata p = Some m -> dget ty m = Some md -> NoDup (dkeys md)) ->
  ~ In k ["jwks"; "jwks_uri"; "signed_jwks_uri"; "application_type"; "redirect_uris"] ->
  answer_oidc E O fuel R P prio (TJws n p) s = (s1, Ok (Some a)) ->
  exists ty md ci, s_metadata (an_claims a) = Some [(ty, md)] /\ dget (s_sub p) (r_cdb (a_reg s1)) = Some ci /\
    dget k md = dget k ci.
Proof.
  intros E O fuel R P prio n p s s1 a k KI PC PL UT ND NK H.
  destruct (answer_inv _ _ _ _ _ _ _ _ _ _ _ H) as (m & ty & md & args & c & f1 & Em & Ed & E2 & _ & Ec & _).
  specialize (ND m ty md Em Ed).
  set (req := dset "client_id" (VStr (s_sub p)) (request_of md)) in *.
  assert (NR : NoDup (dkeys req)) by (apply NoDup_dset, request_nodup).
  destruct (step2_stored O R md req false true [] _ _ _ (fun _ => request_get "client_id" (VStr (s_sub p)) md ND) NR KI E2)
    as (id & ci & D1 & D2 & CL & SF & _).
  specialize (CL PC). unfold client_of in CL.
  assert (id = s_sub p) by (unfold req in CL; rewrite dget_dset_same in CL; congruence). subst id.
  exists ty, (answer_metadata R req args), ci. rewrite Ec. split; [reflexivity|]. split; [exact D2|].
  destruct (step2_done _ _ _ _ _ _ _ _ _ E2) as (req0 & id & req' & ci' & kj & A & ID & C & K & Es & Ea).
  assert (Hci : ci' = ci /\ NoDup (dkeys ci')).
  { split.
    - assert (CL' := identified_client _ _ _ _ _ _ _ _ _ NR PC A ID). unfold client_of in CL'.
      assert (id = s_sub p) by (unfold req in CL'; rewrite dget_dset_same in CL'; congruence). subst id.
      rewrite Es in D2. cbn [r_cdb] in D2. rewrite dget_dset_same in D2. congruence.
    - apply (client_info_nodup _ _ _ _ C). unfold first_entry. cbn [negb]. unfold add_client_secret.
      repeat (try match goal with |- context [if ?b then _ else _] => destruct b end); repeat apply NoDup_dset;
        repeat constructor; simpl; intuition discriminate. }
  destruct Hci as [-> Nci].
  assert (NF : NoDup (dkeys (filter (fun e => smem (fst e) (rg_response R)) ci))) by (apply NoDup_filter_keys, Nci).
  destruct (UT _ NF) as [U1 U2]. unfold answer_metadata.
  rewrite (dget_filter_key (fun k => negb (smem k dropped))).
  assert (Hd : smem k dropped = false).
  { destruct (smem k dropped) eqn:X; [|reflexivity]. apply smem_In in X. exfalso. apply NK. simpl in *. tauto. }
  rewrite Hd. cbn [negb]. rewrite dget_dupdate by (rewrite Ea; exact U1). rewrite Ea, U2.
  rewrite (dget_filter_key (fun k => smem k (rg_response R))).
  rewrite (SF ND k PL).
  rewrite !dget_ddel_other by (intros ->; apply NK; simpl; tauto).
  assert (Hb : dget k (filter (fun e => negb (rg_blank R (snd e))) req)
             = match dget k md with Some v => if rg_blank R v then None else Some v | None => None end).
  { assert (Nk : k <> "client_id") by (intros ->; destruct PL as (_ & _ & X); apply X; left; reflexivity).
    rewrite <- (request_get "client_id" (VStr (s_sub p)) md ND k Nk). fold req. clearbody req. clear - NR.
    induction req as [|[k' v'] l IH]; [reflexivity|]. inversion NR as [|? ? Hx NR']; subst. cbn [filter snd dget].
    destruct (String.eqb_spec k k') as [->|Hne].
    - destruct (rg_blank R v'); cbn [negb dget]; [|rewrite String.eqb_refl; reflexivity].
      rewrite IH by exact NR'. destruct (dget k' l) as [w|] eqn:Ew; [|reflexivity].
      exfalso. apply Hx. apply dget_In in Ew. apply (in_map fst) in Ew. exact Ew.
    - destruct (rg_blank R v'); cbn [negb dget]; [apply IH, NR'|].
      destruct (String.eqb_spec k k'); [contradiction|]. apply IH, NR'. }
  rewrite Hb. destruct (smem k (rg_response R)); [|reflexivity]. destruct (dget k md) as [v|]; [|reflexivity].
  destruct (rg_blank R v); reflexivity.
Qed.
Print Assumptions C100_told_partial.

Example C100_ex : plain_claim ex_reg "token_endpoint_auth_method" /\ untouched ex_reg "token_endpoint_auth_method" /\
  exists s1 a, answer_oidc C100_world id_order 3 ex_reg the_op ["ta"] (TJws 3 asking) (mkA (fresh [("ta", [1])]) ex_start) = (s1, Ok (Some a)) /\
    s_metadata (an_claims a) = Some [("openid_relying_party",
      [("token_endpoint_auth_method", VStr "client_secret_basic"); ("client_id", VStr "rp"); ("client_secret", VStr "secret")])].
Proof.
  split; [split; [reflexivity|]; split; simpl; intuition discriminate|]. split; [intros d N; split; [exact N|reflexivity]|].
  eexists. eexists. split; vm_compute; reflexivity.
Qed.
