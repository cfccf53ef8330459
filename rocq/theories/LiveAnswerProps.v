(** Explicit registration between members of a federation whose entities run this library (C143). *)
From Verif Require Import PyFacts ExampleKit CollectorProps FederationProps.
From Verif Require Import ClientFacts ClientProps RegistrationFacts RegistrationProps RegistrationGrantProps.
From Verif Require Import RpSpec RpFacts RpProps.
From Verif Require Import LiveFacts LiveExample LiveResolveProps LiveRegisterProps.
From Coq Require Import Lia.

(** the entity configuration of [id] *)
Definition config (jwks_of : val -> option (list key)) (F : list member) (E : cenv) (id : string) : stmt :=
  w_config (library_world jwks_of F (e_clock E 0)) id.

(** the entity configuration of [id] as a document *)
Definition asking_token (jwks_of : val -> option (list key)) (F : list member) (E : cenv) (id : string) : token :=
  own (library_world jwks_of F (e_clock E 0)) id.

(** a document with which the member [m] asks to be registered: it is about [m] and signed by it, has not expired and
    has the metadata that [m] publishes *)
Definition asks (jwks_of : val -> option (list key)) (F : list member) (E : cenv) (m : member) (t : token) : Prop :=
  exists p z, t = TJws (m_key m) p /\ s_iss p = m_id m /\ s_sub p = m_id m /\
    s_metadata p = s_metadata (config jwks_of F E (m_id m)) /\ vouches_for p (m_key m) /\
    s_exp p = Some z /\ (e_clock E 0 < z)%Z.

(** the OP is the member [m] *)
Definition is_member (P : op) (m : member) : Prop :=
  op_id P = m_id m /\ op_key P = m_key m /\ In (m_key m) (op_jwks P).

(** the metadata for relying parties [d], with no metadata of another type but federation_entity *)
Definition only_client (md : option (dict metadata)) (d : dict val) : Prop :=
  exists m, md = Some m /\ NoDup (dkeys m) /\ dget "openid_relying_party" m = Some d /\
    forall t, In t (dkeys m) -> t = "openid_relying_party" \/ t = "federation_entity".

(** the constraints above [id] can be evaluated without its configuration *)
Definition checkable_above (jwks_of : val -> option (list key)) (F : list member) (E : cenv) (top id : string) : Prop :=
  forall rt, upto F top id rt -> rt <> [] -> exists b, meets_restrictions (removelast (said jwks_of F E id rt)) = Ok b.

(** what the policies along [rt] leave of the metadata of the answer *)
Definition left_over (O : iter_order) (jwks_of : val -> option (list key)) (F : list member) (E : cenv) (id : string)
    (rt : list string) (a : RpModel.answer) (md : metadata) : Prop :=
  exists m leaf', policy_call O (removelast (said jwks_of F E id rt)) (an_claims a) = Ok (m, leaf') /\
                  dget "openid_relying_party" m = Some (Some md).

(** ** Lemmas *)

Lemma only_client_type O (m : dict metadata) d : NoDup (dkeys m) -> dget "openid_relying_party" m = Some d ->
  (forall t, In t (dkeys m) -> t = "openid_relying_party" \/ t = "federation_entity") ->
  opponent_type O (dkeys m) = Ok "openid_relying_party".
Proof.
  intros N D H. apply dget_In, (in_map fst) in D. cbn [fst] in D. change (map fst m) with (dkeys m) in D.
  set (l := dkeys m) in *. clearbody l.
  assert (Fl : filter (fun t => negb (String.eqb t "federation_entity")) l = ["openid_relying_party"]).
  { clear - N D H. induction l as [|t l IH]; [destruct D|]. inversion N as [|? ? N1 N2]; subst.
    cbn [filter]. destruct (H t (or_introl eq_refl)) as [-> | ->].
    - cbn. f_equal. assert (Z : forall x, In x l -> x = "federation_entity").
      { intros x Ix. destruct (H x (or_intror Ix)) as [->|X]; [contradiction|exact X]. }
      clear - Z. induction l as [|x l IH]; [reflexivity|]. cbn [filter]. rewrite (Z x (or_introl eq_refl)). cbn.
      apply IH. intros y Iy. apply Z. right. exact Iy.
    - cbn. apply IH; [exact N2| |intros x Ix; apply H; right; exact Ix].
      destruct D as [D|D]; [discriminate D|exact D]. }
  unfold opponent_type. destruct l as [|t [|t' l]].
  - destruct D.
  - destruct D as [->|[]]. reflexivity.
  - rewrite Fl. unfold some_of. destruct (ios O ["openid_relying_party"]) as [|x r] eqn:Ei.
    + assert (X : In "openid_relying_party" (ios O ["openid_relying_party"])) by (apply ios_In; left; reflexivity).
      rewrite Ei in X. destruct X.
    + assert (X : In x (ios O ["openid_relying_party"])) by (rewrite Ei; left; reflexivity).
      apply ios_In in X. destruct X as [<-|[]]. reflexivity.
Qed.

(** only the subject of the last statement matters *)
Lemma last_subject l x y : s_sub x = s_sub y -> meets_restrictions (l ++ [x]) = meets_restrictions (l ++ [y]).
Proof. intros H. unfold meets_restrictions. rewrite !rev_app_distr. cbn [rev app]. rewrite H. reflexivity. Qed.

Lemma pick_some prio cs : cs <> [] -> exists c, pick_trust_chain prio cs = Ok c.
Proof.
  intros H. destruct cs as [|c cs]; [contradiction|]. unfold pick_trust_chain. destruct cs; [eexists; reflexivity|].
  destruct (pick_by_priority _ _); eexists; reflexivity.
Qed.

Section Answers.
Context (jwks_of : val -> option (list key)) (F : list member) (E : cenv) (rank : string -> nat).
Hypothesis L : library_run jwks_of F E.
Hypothesis HR : hierarchy F rank.

Notation W := (library_world jwks_of F (e_clock E 0)).

Lemma said_front id rt : removelast (said jwks_of F E id rt) = claims_up W id rt.
Proof.
  unfold said, claims_along, chain_along, claims_up. rewrite jws_app, map_app. cbn [jws map own]. apply removelast_last.
Qed.

Lemma said_split id rt : said jwks_of F E id rt = claims_up W id rt ++ [config jwks_of F E id].
Proof. unfold said, claims_along, chain_along, claims_up. rewrite jws_app, map_app. reflexivity. Qed.

Lemma answer_constraints m rt a : In m F -> s_sub (an_claims a) = m_id m ->
  meets_restrictions (claims_up W (m_id m) rt ++ [an_claims a]) = meets_restrictions (said jwks_of F E (m_id m) rt).
Proof.
  intros Hm Hs. rewrite said_split. apply last_subject. rewrite Hs.
  destruct (wr_config _ _ _ _ (upto_run jwks_of F E rank L HR "" m Hm) (m_id m) (reaches_self _ _ _)) as (_ & _ & X & _).
  symmetry. exact X.
Qed.

(** what an OP of the federation says about a member is taken by the member *)
Lemma member_fine ta mo mr fuel s a :
  In mo F -> In mr F -> rank (m_id mo) < fuel -> rank (m_id mr) < fuel ->
  visited E (f_col s) -> right_keys F (f_keys s) -> In ta (e_anchors E) ->
  an_anchor a = Some ta -> s_iss (an_claims a) = m_id mo -> s_sub (an_claims a) = m_id mr -> an_signer a = m_key mo ->
  vouches_for (an_claims a) (m_key mo) -> (exists z, s_exp (an_claims a) = Some z /\ (e_clock E 0 < z)%Z) ->
  (exists ro, upto F ta (m_id mo) ro /\ ro <> [] /\ VerifierSpec.known (f_keys s) (end_of (m_id mo) ro)) ->
  checkable_above jwks_of F E ta (m_id mo) -> checkable_upto jwks_of F E ta (m_id mr) ->
  fine E W ta (m_id mo) (m_id mr) rank fuel s a.
Proof.
  intros Ho Hr Fo Fr V K HA A1 A2 A3 A4 A5 (z6 & A6 & A7) (ro & U1 & U2 & U3) CO CR.
  assert (Eo : w_key W (m_id mo) = m_key mo) by (cbn [library_world w_key]; rewrite (by_id_In _ _ _ L mo Ho); reflexivity).
  constructor.
  - split; [exact (library_quiet _ _ _ L mo Ho) | exact (library_quiet _ _ _ L mr Hr)].
  - exact V.
  - split; [exact (upto_run jwks_of F E rank L HR ta mo Ho) | exact (upto_run jwks_of F E rank L HR ta mr Hr)].
  - split; [exact (upto_ranked jwks_of F E rank L HR ta mo Ho)|]. split; [exact (upto_ranked jwks_of F E rank L HR ta mr Hr)|]. split; assumption.
  - intros e ks [Re|Re] D; [exact (upto_jar jwks_of F E L ta mo _ Ho K e ks Re D) | exact (upto_jar jwks_of F E L ta mr _ Hr K e ks Re D)].
  - exact HA.
  - unfold honest_answer. rewrite Eo. repeat (split; [assumption|]). exists z6. exact A6.
  - exists ro. split; [exact (upto_route jwks_of F E L ta _ _ U1)|]. split; assumption.
  - split; intros r R1 R2 R3.
    + rewrite app_nil_r, <- said_front. apply CO; [|exact R2]. exact (route_upto jwks_of F E L ta _ _ R1 mo Ho eq_refl).
    + rewrite (answer_constraints mr r a Hr A3). apply CR. exact (route_upto jwks_of F E L ta _ _ R1 mr Hr eq_refl).
  - exact (lf_valid _ _ _ L _ _ _ A6 A7).
Qed.

Lemma allows_usable ta m kj a rt : In m F -> s_sub (an_claims a) = m_id m ->
  (allows W kj ta (m_id m) a rt <-> usable_upto jwks_of F E kj ta (m_id m) rt).
Proof.
  intros Hm Hs. unfold allows, usable_upto, accepted. rewrite (answer_constraints m rt a Hm Hs).
  split; intros (G1 & G2 & G3 & G4).
  - split; [exact (route_upto jwks_of F E L ta _ _ G1 m Hm eq_refl)|auto].
  - split; [exact (upto_route jwks_of F E L ta _ _ G1)|auto].
Qed.

End Answers.

(** The OP [mo] answers a member [mr] that has a usable path, names the anchor at the end of such a path and stores the
    metadata that [mr] published, as far as it supports it (C141). *)
Theorem C143_answered : forall jwks_of F E O rank fuel R P prio mo mr d t s,
  asks jwks_of F E mr t -> library_run jwks_of F E -> hierarchy F rank -> checkable jwks_of F E (m_id mr) -> In mr F -> rank (m_id mr) < fuel ->
  visited E (f_col (a_fed s)) -> right_keys F (f_keys (a_fed s)) -> keeps_id R -> is_member P mo ->
  only_client (s_metadata (config jwks_of F E (m_id mr))) d -> good_client R false (m_id mr) d ->
  (exists rt, usable jwks_of F E (f_keys (a_fed s)) (m_id mr) rt) ->
  (forall rt, usable jwks_of F E (f_keys (a_fed s)) (m_id mr) rt -> exists md, adjusted O jwks_of F E (m_id mr) rt md) ->
  exists s' a rt ci md,
    answer_oidc E O fuel R P prio t s = (s', Ok (Some a)) /\
    usable jwks_of F E (f_keys (a_fed s)) (m_id mr) rt /\ an_anchor a = Some (end_of (m_id mr) rt) /\
    s_iss (an_claims a) = m_id mo /\ s_sub (an_claims a) = m_id mr /\ an_signer a = m_key mo /\
    vouches_for (an_claims a) (m_key mo) /\ s_exp (an_claims a) = Some (op_now P + op_lifetime P)%Z /\
    s_metadata (an_claims a) = Some [("openid_relying_party", md)] /\
    dget (m_id mr) (r_cdb (a_reg s')) = Some ci /\
    (forall k v, dget k d = Some v -> ~ In k checked ->
       ~ In k ["client_id"; "client_salt"; "client_id_issued_at"; "client_secret"; "client_secret_expires_at"] ->
       granted R k v (dget k ci)).
Proof.
  intros jwks_of F E O rank fuel R P prio mo mr d t s (pt & zt & -> & T1 & T2 & T3 & (kt & T4 & T5) & T6 & T7) L HR CC Hm Hf V Hk KI (P1 & P2 & P3) (m & Em & Nm & Dm & Tm) Hgood [rt0 Hu0] HG.
  destruct (library_chains jwks_of F E rank L HR O fuel mr (a_fed s) Hm Hf V (right_jar jwks_of F E L mr _ Hm Hk) CC)
    as (f1 & tcs & G1 & _ & _ & _ & _ & G6 & G7).
  destruct (applied_total O tcs) as [cs Ec].
  { intros tc Ht. destruct (G6 tc Ht) as (_ & rt & Hu & _ & B2 & _). destruct (HG rt Hu) as (md & [ves Ha]).
    rewrite B2. eexists. exact Ha. }
  destruct (applied_of O tcs cs Ec) as [A1 A2].
  assert (Hcs : cs <> []).
  { intros ->. destruct (G7 rt0 Hu0) as (tc & Ht & _). destruct (A2 tc Ht) as (c & [] & _). }
  destruct (pick_some prio cs Hcs) as [c Hc].
  destruct (A1 c (pick_In prio cs c Hc)) as (tc & Ht & Ean & _).
  destruct (G6 tc Ht) as (_ & rt & Hu & _ & _ & B3).
  destruct (good_step O R false true (m_id mr) d (a_reg s) KI Hgood) as (r2 & args & rid & ci & H2 & Di & CL & D2 & K2 & _).
  assert (rid = m_id mr).
  { unfold client_of in CL. unfold request_for in CL. rewrite dget_dset_same in CL. congruence. }
  subst rid.
  eexists (mkA f1 r2), _, rt, ci, _. split.
  { unfold answer_oidc. rewrite opened, (lf_clock _ _ _ L).
    unfold verify_self_signed. rewrite T4.
    assert (K : kmem (m_key mr) (filter (lib_picks (e_lib E) (TJws (m_key mr) pt)) kt) = true).
    { apply kmem_In, filter_In. split; [exact T5|]. apply (lf_picks _ _ _ L). }
    rewrite K, (lf_valid _ _ _ L _ _ _ T6 T7). cbv zeta. cbn [snd].
    unfold mbind at 1, lift at 1, metadata_of. rewrite T3, Em.
    unfold mbind at 1, lift at 1. rewrite (only_client_type O m d Nm Dm Tm).
    unfold mbind at 1, on_fed. rewrite T2, G1, Ec. destruct (is_nil cs) eqn:En; [destruct cs; [contradiction|discriminate En]|].
    unfold mbind at 1, lift at 1. rewrite Hc. unfold mbind at 1, lift at 1, dindex. rewrite Dm.
    fold (request_for (m_id mr) d). unfold mbind at 1, on_reg. cbn [a_reg a_fed]. rewrite H2. reflexivity. }
  split; [exact Hu|]. cbn [an_anchor an_claims an_signer s_iss s_sub s_exp s_metadata]. rewrite P1, T1, P2.
  split; [congruence|]. split; [reflexivity|]. split; [reflexivity|]. split; [reflexivity|].
  split; [exists (op_jwks P); split; [reflexivity|exact P3]|]. split; [reflexivity|]. split; [reflexivity|].
  split; [exact D2|exact K2].
Qed.
Print Assumptions C143_answered.

(** The relying party [mr] takes such an answer before it expires if it trusts the anchor, knows its keys, finds [mo] below it and has one
    usable path; it ends up with what the policies leave of the metadata in the answer. *)
Theorem C143_round_trip : forall jwks_of F E O rank fuel R P prio mo mr d t so sr rt ro ta,
  asks jwks_of F E mr t -> library_run jwks_of F E -> hierarchy F rank -> In mo F -> In mr F -> rank (m_id mo) < fuel -> rank (m_id mr) < fuel ->
  checkable jwks_of F E (m_id mr) -> checkable_upto jwks_of F E ta (m_id mr) -> checkable_above jwks_of F E ta (m_id mo) ->
  visited E (f_col (a_fed so)) -> right_keys F (f_keys (a_fed so)) -> visited E (f_col sr) -> right_keys F (f_keys sr) ->
  keeps_id R -> is_member P mo -> (e_clock E 0 < op_now P + op_lifetime P)%Z ->
  only_client (s_metadata (config jwks_of F E (m_id mr))) d -> good_client R false (m_id mr) d ->
  (exists r, usable jwks_of F E (f_keys (a_fed so)) (m_id mr) r) ->
  (forall r, usable jwks_of F E (f_keys (a_fed so)) (m_id mr) r -> end_of (m_id mr) r = ta /\
             exists md, adjusted O jwks_of F E (m_id mr) r md) ->
  In ta (e_anchors E) -> usable_upto jwks_of F E (f_keys sr) ta (m_id mr) rt ->
  (forall r, usable_upto jwks_of F E (f_keys sr) ta (m_id mr) r -> r = rt) ->
  upto F ta (m_id mo) ro -> ro <> [] -> VerifierSpec.known (f_keys sr) (end_of (m_id mo) ro) ->
  exists so' a,
    answer_oidc E O fuel R P prio t so = (so', Ok (Some a)) /\
    dmem (m_id mr) (r_cdb (a_reg so')) = true /\
    forall md, left_over O jwks_of F E (m_id mr) rt a md -> md <> [] -> snd (parse_oidc E O fuel (m_id mr) a sr) = Ok md.
Proof.
  intros jwks_of F E O rank fuel R P prio mo mr d t so sr rt ro ta TA L HR Ho Hm Fo Fr CC CU CA V1 K1 V2 K2 KI PM NX OC HG EX HU HA U1 U2 R1 R2 R3.
  destruct (C143_answered jwks_of F E O rank fuel R P prio mo mr d t so TA L HR CC Hm Fr V1 K1 KI PM OC HG EX (fun r h => proj2 (HU r h)))
    as (so' & a & r & ci & md0 & G0 & G1 & G2 & G3 & G4 & G5 & G6 & G7 & _ & G8 & _).
  exists so', a. split; [exact G0|]. split; [unfold dmem; rewrite G8; reflexivity|].
  rewrite (proj1 (HU r G1)) in G2.
  assert (FI := member_fine jwks_of F E rank L HR ta mo mr fuel sr a Ho Hm Fo Fr V2 K2 HA G2 G3 G4 G5 G6 (ex_intro _ _ (conj G7 NX))
                  (ex_intro _ ro (conj R1 (conj R2 R3))) CA CU).
  intros md HM Hne. apply (C99_honest_answer_partial E O _ ta (m_id mo) (m_id mr) rank fuel sr a rt md FI).
  - apply (allows_usable jwks_of F E rank L HR ta mr _ a rt Hm G4), U1.
  - intros r' Hr'. apply U2, (allows_usable jwks_of F E rank L HR ta mr _ a r' Hm G4), Hr'.
  - unfold left_over in HM. rewrite said_front in HM. unfold client_metadata.
    destruct U1 as (U11 & U12 & _). apply (upto_route jwks_of F E L) in U11.
    destruct (first_issuer E _ ta (m_id mr) (upto_run jwks_of F E rank L HR ta mr Hm) rt (m_id mr) (reaches_self _ _ _) U11 U12)
      as (k & p & l & X & _).
    destruct (claims_up _ (m_id mr) rt) as [|q l'] eqn:Eq; [|exact HM].
    unfold claims_up in Eq. rewrite X in Eq. discriminate Eq.
  - exact Hne.
Qed.
Print Assumptions C143_round_trip.

(** [tmi] is an OP, too, and [rp] registers with it *)
Definition v_op : op := mkOp "tmi" 5 [5] ["ta"] 1100%Z 3600%Z.

Definition v_published : dict val :=
  [("redirect_uris", VList [VStr "https://rp/cb"]); ("jwks", VInt 4); ("response_types", VList [VStr "code"])].

Lemma v_published_good : good_client ex_reg false "rp" v_published.
Proof.
  split; [apply nodupb_sound; reflexivity|]. split; [|split].
  - constructor.
    + apply nodupb_sound. reflexivity.
    + reflexivity.
    + intros k v H. apply dget_In in H. simpl in H. split; [reflexivity|].
      repeat destruct H as [H|H]; try contradiction; injection H as <- <-; try (eexists; apply granted_passed; reflexivity).
      exists (Some (VList (map VStr ["code"]))). apply (granted_common _ _ _ "response_types_supported" ["code"; "id_token"] ["code"]);
        try reflexivity; [discriminate | repeat constructor; simpl; tauto |].
      intros x; simpl; split; [intros [<-|[]]; auto | intros [[<-|[]] _]; auto].
    + intros k Hk. simpl in Hk. repeat (destruct Hk as [<-|Hk]; [reflexivity|]). destruct Hk.
    + intros _. exists "rp". split; [reflexivity | discriminate].
    + intros v H; injection H as <-; exists ["https://rp/cb"]; split; [reflexivity|]; intros u [<-|[]]; right;
      split; [discriminate|]; split; [reflexivity|]; left; reflexivity.
    + intros v H; discriminate H.
    + intros k v Hk H; simpl in Hk; destruct Hk as [<-|[<-|[<-|[]]]]; discriminate H.
    + intros v H; discriminate H.
    + intros v H; eexists; reflexivity.
  - intros k v Hk H. unfold algs in Hk. simpl in Hk. destruct Hk as [<-|[<-|[]]]; discriminate H.
  - exists "jwks". split; [simpl; tauto | reflexivity].
Qed.

Lemma v_upto m rt : In m v_fed -> upto v_fed "ta" (m_id m) rt -> rt = [] \/ rt = ["ta"].
Proof.
  intros Hm H. inversion H as [m0 Hm0 Hs Em Er|m0 a r Hm0 Hn Ha Hr Em Er]; subst; [left; reflexivity|right].
  assert (a = "ta") as -> by (live_members; simpl in Ha; repeat destruct Ha as [<-|Ha]; try destruct Ha; reflexivity).
  f_equal. inversion Hr as [m1 Hm1 Hs1 E1 E2|m1 a1 r1 Hm1 Hn1 Ha1 Hr1 E1 E2]; [reflexivity|]. contradiction.
Qed.

Lemma v_upto_ta m : In m v_fed -> m_id m <> "ta" -> upto v_fed "ta" (m_id m) ["ta"].
Proof.
  intros Hm Hn. apply upto_up; [exact Hm|exact Hn| |].
  - live_members; [contradiction Hn; reflexivity|left; reflexivity|left; reflexivity].
  - apply (upto_end _ _ v_ta); [left; reflexivity|left; reflexivity].
Qed.

Example C143_ex :
  (* the hypotheses of C143_round_trip *)
  (asks ex_jwks v_fed v_env v_rp (asking_token ex_jwks v_fed v_env "rp") /\
   library_run ex_jwks v_fed v_env /\ hierarchy v_fed v_rank /\ In v_tmi v_fed /\ In v_rp v_fed /\
   checkable ex_jwks v_fed v_env "rp" /\ checkable_upto ex_jwks v_fed v_env "ta" "rp" /\ checkable_above ex_jwks v_fed v_env "ta" "tmi" /\
   right_keys v_fed (f_keys v_start) /\ keeps_id ex_reg /\ is_member v_op v_tmi /\ (e_clock v_env 0 < op_now v_op + op_lifetime v_op)%Z /\
   only_client (s_metadata (config ex_jwks v_fed v_env "rp")) v_published /\ good_client ex_reg false "rp" v_published /\
   (forall r, usable ex_jwks v_fed v_env [("ta", [1])] "rp" r -> end_of "rp" r = "ta" /\
              exists md, adjusted id_order ex_jwks v_fed v_env "rp" r md) /\
   usable_upto ex_jwks v_fed v_env [("ta", [1])] "ta" "rp" ["ta"] /\
   (forall r, usable_upto ex_jwks v_fed v_env [("ta", [1])] "ta" "rp" r -> r = ["ta"]) /\
   upto v_fed "ta" "tmi" ["ta"]) /\
  (* and what happens *)
  exists so a, answer_oidc v_env id_order 2 ex_reg v_op [] (asking_token ex_jwks v_fed v_env "rp") v_server = (so, Ok (Some a)) /\
    snd (parse_oidc v_env id_order 2 "rp" a v_start)
    = Ok [("response_types", VList [VStr "code"]); ("client_id", VStr "rp"); ("client_secret", VStr "secret");
          ("contacts", VList [VStr "ta"])].
Proof.
  assert (Hr : In v_rp v_fed) by (simpl; auto). assert (Ht : In v_tmi v_fed) by (simpl; auto).
  split.
  - split.
    { eexists _, _. split; [vm_compute; reflexivity|]. repeat (split; [reflexivity|]).
      split; [eexists; split; [reflexivity|left; reflexivity]|]. split; [reflexivity|]. vm_compute. reflexivity. }
    split; [exact v_run|]. split; [exact v_hierarchy|]. split; [exact Ht|]. split; [exact Hr|].
    split; [exact (v_checkable v_rp Hr)|]. split.
    { intros rt Hp. destruct (v_upto v_rp rt Hr Hp) as [-> | ->]; eexists; vm_compute; reflexivity. }
    split.
    { intros rt Hp Hn. destruct (v_upto v_tmi rt Ht Hp) as [-> | ->]; [contradiction Hn; reflexivity|eexists; vm_compute; reflexivity]. }
    split; [exact v_keys|]. split; [exact ex_keeps_id|].
    split; [split; [reflexivity|split; [reflexivity|left; reflexivity]]|]. split; [reflexivity|].
    split.
    { eexists. split; [vm_compute; reflexivity|]. split; [apply nodupb_sound; reflexivity|]. split; [reflexivity|].
      intros t [<-|[]]. left. reflexivity. }
    split; [exact v_published_good|]. split.
    { intros r (Hp & Hn & _). destruct (v_path v_rp r Hr Hp) as [-> | ->]; [contradiction Hn; reflexivity|].
      split; [reflexivity|]. destruct v_adjusted as (md & H & _). exists md. exact H. }
    split.
    { destruct (v_usable v_rp Hr ltac:(discriminate)) as (_ & U2 & U3 & U4).
      split; [exact (v_upto_ta v_rp Hr ltac:(discriminate))|]. split; [exact U2|]. split; [exact U3|exact U4]. }
    split.
    { intros r (Hp & Hn & _). destruct (v_upto v_rp r Hr Hp) as [-> | ->]; [contradiction Hn; reflexivity|reflexivity]. }
    exact (v_upto_ta v_tmi Ht ltac:(discriminate)).
  - eexists _, _. split; [vm_compute; reflexivity|]. vm_compute. reflexivity.
Qed.
