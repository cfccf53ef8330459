(** Relying parties under attack (C149). *)
From Verif Require Import PyFacts CollectorProps FederationProps RegistrationFacts RpProps AttackProps AttackServerProps AttackClientFacts.

(** ** C149 *)

(** an answer is accepted, in one of the two ways *)
Definition answer_accepted (E : cenv) (O : iter_order) (fuel : nat) (me : string) (a : answer) (s : rp) : Prop :=
  (exists md, snd (parse_oidc E O fuel me a (p_fed s)) = Ok md) \/ (exists md, snd (parse_oauth E O fuel me a (p_fed s)) = Ok md).

Definition C149_full : Prop := forall W E O fuel me jwks wta K prio acts a s,
  unforgeable W -> truthful W -> discreet W -> exposed W E -> sound W O (p_fed s) -> store_genuine W O (p_store s) ->
  (forall b, In b acts -> ract_from W b) -> wire W (an_tok a) ->
  answer_accepted E O fuel me a (after_rp E O fuel me jwks wta K prio acts s) -> genuine W (an_claims a).

(** a federation of ta, op and rp, and a registration response in the name of op, made by somebody else *)
Definition op_conf : stmt := mkStmt "op" "op" (Some 1000%Z) (Some [4])
  (Some [("openid_provider", [("issuer", VStr "op"); ("jwks", VInt 4)])]) None None (Some ["ta"]).
Definition small_docs : dict token :=
  [("rp/wk", TJws 3 (ec "rp" 3 1000 (Some ["ta"]))); ("op/wk", TJws 4 op_conf); ("ta/wk", TJws 1 (ec "ta" 1 1000 None))].
Definition small_fetches : dict token := [("ta/fetch rp", TJws 1 (est "ta" "rp" 900 [3])); ("ta/fetch op", TJws 1 (est "ta" "op" 900 [4]))].
Definition small_env : cenv := ex_env small_docs small_fetches ["ta"].
Definition forged : answer := RpProps.response "op" "rp" "ta" 9 1000.

Definition small_world : world :=
  mkWorld (fun e => smem e ["ta"; "op"; "rp"]) (fun e k => if String.eqb e "ta" then k = 1 else if String.eqb e "op" then k = 4 else k = 3 \/ k = 4)
          (fun _ p => In p [ec "rp" 3 1000 (Some ["ta"]); op_conf; ec "ta" 1 1000 None; est "ta" "rp" 900 [3]; est "ta" "op" 900 [4];
                            mkStmt "op" "rp" (Some 1000%Z) (Some [4]) (Some [("openid_relying_party", [("client_id", VStr "rp")])]) None None None])
          (fun _ => False)
          (fun t => t = an_tok forged \/ t = an_tok good \/ served small_docs small_fetches t).

Lemma small_unforgeable : unforgeable small_world.
Proof.
  intros k p Hw Ei Hk. unfold small_world, served in Hw. cbn [wire map snd app small_docs small_fetches] in Hw.
  destruct Hw as [Hw|Hw]; [injection Hw as -> ->; discriminate Hk|].
  repeat (destruct Hw as [Hw|Hw]; [injection Hw as -> ->; cbn; tauto|]).
  repeat (destruct Hw as [Hw|Hw]; [injection Hw as <- <-; cbn; tauto|]).
  destruct Hw.
Qed.

Lemma small_truthful : truthful small_world.
Proof.
  intros e p _ Hs jw k Ej Hk. cbn [said small_world] in Hs.
  repeat (destruct Hs as [<-|Hs]; [injection Ej as <-; destruct Hk as [<-|[]]; vm_compute; auto|]). destruct Hs.
Qed.

Lemma small_closed : closed small_world.
Proof. intros k []. Qed.

Lemma small_discreet : discreet small_world.
Proof. intros k p _ _ []. Qed.

Lemma small_exposed : exposed small_world small_env.
Proof. intros n q t H. right. right. exact (served_exposed (fun _ => true) (fun _ _ => True) (fun _ _ => True) (fun _ => True) small_docs small_fetches ["ta"] n q t H). Qed.

Definition small_keys : key_sources := mkSources (fun _ => []) (fun v => match v with VInt z => Ok [Z.to_nat z] | _ => Err KeyError end).
Definition small_rp : rp := mkRp only_ta [] [] "op" None [].

Lemma no_store W O : store_genuine W O None.
Proof. intros d ent m ta c H. discriminate H. Qed.

(** whoever wants to can register a client with OAuth2 in the name of a provider *)
Theorem C149_oauth_refuted : ~ C149_full.
Proof.
  intros H.
  destruct (H small_world small_env id_order 9 "rp" VNull false small_keys [] [] forged small_rp) as [G1 G2].
  - exact small_unforgeable.
  - exact small_truthful.
  - exact small_discreet.
  - exact small_exposed.
  - apply only_ta_sound. reflexivity.
  - apply no_store.
  - intros b [].
  - left. reflexivity.
  - right. eexists. vm_compute. reflexivity.
  - assert (G := G1 (G2 small_closed)). clear - G. cbn [said small_world] in G.
    repeat (destruct G as [G|G]; [discriminate G|]). destruct G.
Qed.

(** Missing: OAuth2.  An OpenID Connect registration response that is accepted, at any time, is by its issuer, if that is a member; the
    metadata are what the policies of genuine statements leave of those in the response. *)
Theorem C149_oidc_partial : forall W E O fuel me jwks wta K prio acts a s s' md,
  unforgeable W -> truthful W -> discreet W -> exposed W E -> sound W O (p_fed s) -> store_genuine W O (p_store s) ->
  (forall b, In b acts -> ract_from W b) -> wire W (an_tok a) ->
  parse_oidc E O fuel me a (p_fed (after_rp E O fuel me jwks wta K prio acts s)) = (s', Ok md) ->
  genuine W (an_claims a) /\
  exists tc l c, tc_verified tc = l ++ [an_claims a] /\ (forall q, In q l -> genuine W q) /\
    apply_to_chain O tc = Ok c /\ type_of_chain c "openid_relying_party" = Ok (Some md).
Proof.
  intros W E O fuel me jwks wta K prio acts a s s' md U T D X S ST A Hw H.
  assert (I : ri W O K (p_keys s) (p_info s) s).
  { split; [exact S|]. split; [intros iss k Hk; left; exact Hk|]. split; [left; reflexivity|exact ST]. }
  assert (I' := after_rp_genuine W E X U T D O fuel K prio (p_keys s) (p_info s) me jwks wta acts s A I).
  destruct (k_parse_oidc W E X U T D O fuel me a Hw _ (proj1 I')) as [_ G]. rewrite H in G.
  destruct (G _ eq_refl) as (tc & c & (p & l & Ev & _ & Hg) & (l' & He) & Ha & Hmd).
  rewrite He in Ev. rewrite <- Ev in Hg.
  split; [apply Hg; apply in_or_app; right; left; reflexivity|].
  exists tc, l', c. split; [exact He|]. split; [intros q Hq; apply Hg, in_or_app; left; exact Hq|]. split; assumption.
Qed.

(** What is known about the provider, and its keys, at any time *)
Theorem C149_provider_partial : forall W E O fuel me jwks wta K prio acts s,
  unforgeable W -> truthful W -> discreet W -> exposed W E -> sound W O (p_fed s) -> store_genuine W O (p_store s) ->
  (forall b, In b acts -> ract_from W b) ->
  let s' := after_rp E O fuel me jwks wta K prio acts s in
  info_genuine W O (p_info s) (p_info s') /\ op_keys_genuine W O K (p_keys s) (p_keys s').
Proof.
  intros W E O fuel me jwks wta K prio acts s U T D X S ST A s'.
  assert (I : ri W O K (p_keys s) (p_info s) s).
  { split; [exact S|]. split; [intros iss k Hk; left; exact Hk|]. split; [left; reflexivity|exact ST]. }
  destruct (after_rp_genuine W E X U T D O fuel K prio (p_keys s) (p_info s) me jwks wta acts s A I) as (_ & G2 & G3 & _).
  split; assumption.
Qed.

(** A login is completed only if what is known about the provider is as configured, or genuine and about the issuer that was asked *)
Theorem C149_login_partial : forall W E O fuel me jwks wta K prio acts s state,
  unforgeable W -> truthful W -> discreet W -> exposed W E -> sound W O (p_fed s) -> store_genuine W O (p_store s) ->
  (forall b, In b acts -> ract_from W b) ->
  let s' := after_rp E O fuel me jwks wta K prio acts s in
  snd (finalize_auth state s') = Ok tt ->
  p_info s' = p_info s \/
  exists iss c, dget state (p_asked s') = Some iss /\ made_of W O c /\ chain_metadata c "openid_provider" = Ok (p_info s') /\
    (dget "issuer" (p_info s') = Some (VStr iss) \/ dget "issuer" (p_info s') = None /\ iss = p_issuer s').
Proof.
  intros W E O fuel me jwks wta K prio acts s state U T D X S ST A s' H.
  destruct (C149_provider_partial W E O fuel me jwks wta K prio acts s U T D X S ST A) as [[G|(c & Hm & Hc)] _]; [left; exact G|].
  fold s' in Hc. right. unfold finalize_auth, mbind, StateM.get, lift in H. cbn [snd] in H.
  destruct (dindex state (p_asked s')) as [iss|x] eqn:Ed; [|discriminate]. apply dindex_ok in Ed.
  destruct (py_eqb _ _) eqn:Ee; [|discriminate]. exists iss, c. repeat (split; [assumption|]).
  unfold provider_issuer in Ee. destruct (dget "issuer" (p_info s')) as [v|].
  - left. destruct v; try discriminate Ee. cbn in Ee. apply String.eqb_eq in Ee. subst. reflexivity.
  - right. split; [reflexivity|]. cbn in Ee. apply String.eqb_eq in Ee. exact Ee.
Qed.

(** the response of op is accepted with OpenID Connect, the other one is not; the key of op is known, and the login completed *)
Definition small_acts : list ract := [AnswerOIDC forged; AnswerOAuth forged; Party (Find "op"); Learn; Ask_user "st"].
Example C149_ex :
  unforgeable small_world /\ truthful small_world /\ discreet small_world /\ exposed small_world small_env /\
  sound small_world id_order (p_fed small_rp) /\ (forall b, In b small_acts -> ract_from small_world b) /\ wire small_world (an_tok good) /\
  snd (parse_oidc small_env id_order 9 "rp" forged (p_fed small_rp)) = Err BadSignature /\
  let s' := after_rp small_env id_order 9 "rp" VNull false small_keys [] small_acts small_rp in
  (exists s2, parse_oidc small_env id_order 9 "rp" good (p_fed s') = (s2, Ok [("client_id", VStr "rp")])) /\
  ckeys_of (p_keys s') "op" = [KPub 4] /\ dget "issuer" (p_info s') = Some (VStr "op") /\ snd (finalize_auth "st" s') = Ok tt.
Proof.
  split; [exact small_unforgeable|]. split; [exact small_truthful|]. split; [exact small_discreet|]. split; [exact small_exposed|].
  split; [apply only_ta_sound; reflexivity|].
  split. { intros b [<-|[<-|[<-|[<-|[<-|[]]]]]]; cbn; tauto. }
  split; [right; left; reflexivity|]. split; [vm_compute; reflexivity|].
  split; [eexists; vm_compute; reflexivity|]. split; [vm_compute; reflexivity|]. split; vm_compute; reflexivity.
Qed.

Print Assumptions C149_oauth_refuted.
Print Assumptions C149_oidc_partial.
Print Assumptions C149_provider_partial.
Print Assumptions C149_login_partial.
