(** What client and OP know about a registration while requests fail and time passes (C180). *)
From Verif Require Import PyFacts ExampleKit ClientFacts ClientProps RegistrationFacts RegistrationProps RegistrationGrantProps RpSpec RpFacts RpProps LiveExample LiveResolveProps LiveRegisterProps LiveAnswerProps ClientsRightProps.
From Verif Require Export AnswersRightProps.
From Coq Require Import Lia.

(** [a] is the answer of an OP with the keys [good] to a request that names [me] as issuer and subject, whoever sent it and wherever,
    whenever and in which state the OP answered; [s1] is what the OP knows then *)
Definition given_to (R : reg_env) (good : key -> Prop) (me : string) (a : RpModel.answer) (s1 : astate) : Prop :=
  exists E O fuel P prio n p s, s_iss p = me /\ s_sub p = me /\ (forall x, In x (op_jwks P) -> good x) /\
    (forall m ty md, s_metadata p = Some m -> dget ty m = Some md -> NoDup (dkeys md)) /\
    answer_oidc E O fuel R P prio (TJws n p) s = (s1, Ok (Some a)).

(** answers leave these out *)
Definition not_told : list string := ["jwks"; "jwks_uri"; "signed_jwks_uri"; "application_type"; "redirect_uris"].

Lemma given_form R good me a s1 : given_to R good me a s1 ->
  s_sub (an_claims a) = me /\ forall ks x, s_jwks (an_claims a) = Some ks -> In x ks -> good x.
Proof.
  intros (E & O & fuel & P & prio & n & p & s & Hi & _ & Hg & _ & H).
  destruct (answer_inv _ _ _ _ _ _ _ _ _ _ _ H) as (m & ty & md & args & c & f1 & _ & _ & _ & _ & -> & _).
  cbn [s_sub s_jwks]. split; [exact Hi|]. intros ks x [= <-]. apply Hg.
Qed.

(** C180: whatever happened before and whoever forges, what a client takes from a registration response is what the policies along one
    of its ways up leave of what an OP had stored about it when it answered *)
Theorem C180_agreement : forall jwks_of F E O rank R (good : key -> Prop) m s0 evs fuel a s' md,
  library_shaky jwks_of F E -> hierarchy F rank -> In m F -> newborn s0 -> right_keys F (f_keys s0) ->
  keeps_id R -> passed_on R "client_id" ->
  (forall x, handed_out jwks_of F E x -> good x) -> (forall e x, VerifierSpec.holds (f_keys s0) e x -> good x) ->
  let made := fun a => exists s1, given_to R good (m_id m) a s1 in
  events_about F rank good made (m_id m) evs -> may_arrive F rank good made (m_id m) fuel a ->
  parse_oidc E O fuel (m_id m) a (after_events E O (m_id m) evs s0) = (s', Ok md) ->
  exists s1 ty told ci, given_to R good (m_id m) a s1 /\ s_metadata (an_claims a) = Some [(ty, told)] /\
    dget (m_id m) (r_cdb (a_reg s1)) = Some ci /\
    (forall k, plain_claim R k -> untouched R k -> ~ In k not_told -> dget k told = dget k ci) /\
    exists ta rt, upto F ta (m_id m) rt /\ accepted (said jwks_of F E (m_id m) rt) /\ trusted F (f_keys s0) (end_of (m_id m) rt) /\
      left_over O jwks_of F E (m_id m) rt a md.
Proof.
  intros jwks_of F E O rank R good m s0 evs fuel a s' md L HR Hm NB RK KI PC G1 G2 made EV MA H.
  assert (SM : signatures_mean jwks_of F E good made (m_id m) (f_keys s0)).
  { split; [exact G1|]. split; [exact G2|]. intros b (s1 & Hb). exact (given_form R good _ b s1 Hb). }
  destruct (C179_only_right_answers jwks_of F E O rank good made m s0 evs fuel a s' md L HR Hm NB RK SM EV MA H)
    as ((s1 & Hg) & _ & ta & ro & rt & _ & _ & _ & _ & _ & R1 & _ & R3 & R4 & R5).
  assert (Hg' := Hg). destruct Hg' as (E1 & O1 & f1 & P & prio & n & p & s & Hi & Hs & _ & ND & HA).
  destruct (answer_inv _ _ _ _ _ _ _ _ _ _ _ HA) as (mm & ty & md' & args & c & f2 & Em & Ed & E2 & _ & Ec & _).
  assert (D : exists ci, dget (m_id m) (r_cdb (a_reg s1)) = Some ci).
  { specialize (ND mm ty md' Em Ed). set (req := dset "client_id" (VStr (s_sub p)) (request_of md')) in *.
    assert (NR : NoDup (dkeys req)) by (apply NoDup_dset, request_nodup).
    destruct (step2_stored O1 R md' req false true [] _ _ _ (fun _ => request_get "client_id" (VStr (s_sub p)) md' ND) NR KI E2)
      as (id & ci & D1 & D2 & CL & _). specialize (CL PC). unfold client_of in CL.
    assert (id = s_sub p) by (unfold req in CL; rewrite dget_dset_same in CL; congruence). subst id. rewrite Hs in D2. exists ci. exact D2. }
  destruct D as [ci D]. assert (Ea : exists told, s_metadata (an_claims a) = Some [(ty, told)]) by (rewrite Ec; eexists; reflexivity).
  destruct Ea as [told Ea]. exists s1, ty, told, ci. split; [exact Hg|]. split; [exact Ea|]. split; [exact D|]. split.
  - intros k PL UT NK. destruct (C100_told_partial E1 O1 f1 R P prio n p s s1 a k KI PC PL UT ND NK HA) as (ty' & md2 & ci2 & X1 & X2 & X3).
    rewrite Hs in X2. congruence.
  - exists ta, rt. auto.
Qed.
Print Assumptions C180_agreement.

(** The federation of C175: tmi answers rp, which at first cannot reach anybody, and then gets an answer of an outsider *)
Definition ag_op : op := mkOp "tmi" 5 [5] ["ta"] 1100%Z 86400%Z.
Definition ag_reply : astate * res (option RpModel.answer) :=
  answer_oidc v_env id_order 2 ex_reg ag_op [] (asking_token ex_jwks v_fed v_env "rp") v_server.
Definition ag_answer : RpModel.answer := match snd ag_reply with Ok (Some a) => a | _ => aw_answer 9 "rp" end.
Definition ag_made (a : RpModel.answer) : Prop := exists s1, given_to ex_reg aw_good "rp" a s1.
Definition ag_events : list event := [Arrive 2 ag_answer; Arrive 2 (aw_answer 9 "ta"); Other Wait; Arrive 2 (aw_answer 9 "rp")].

Lemma ag_given : given_to ex_reg aw_good "rp" ag_answer (fst ag_reply).
Proof.
  assert (T : exists p, asking_token ex_jwks v_fed v_env "rp" = TJws 3 p /\ s_iss p = "rp" /\ s_sub p = "rp" /\
    forall m ty md, s_metadata p = Some m -> dget ty m = Some md -> NoDup (dkeys md)).
  { eexists. split; [vm_compute; reflexivity|]. split; [reflexivity|]. split; [reflexivity|]. intros m ty md [= <-] D. apply dget_In in D.
    destruct D as [[= <- <-]|[]]. apply nodupb_sound. reflexivity. }
  destruct T as (p & Ep & Hi & Hs & Hd). exists v_env, id_order, 2, ag_op, [], 3, p, v_server.
  split; [exact Hi|]. split; [exact Hs|]. split; [intros x [<-|[]]; unfold aw_good; cbn; auto|]. split; [exact Hd|]. rewrite <- Ep.
  assert (X : exists s1 a, ag_reply = (s1, Ok (Some a))) by (eexists _, _; vm_compute; reflexivity). destruct X as (s1 & a & X).
  unfold ag_answer. change (ag_reply = (fst ag_reply, Ok (Some match snd ag_reply with Ok (Some a) => a | _ => aw_answer 9 "rp" end))).
  rewrite X. reflexivity.
Qed.

Lemma ag_may a : (a = ag_answer \/ exists sub, a = aw_answer 9 sub) -> may_arrive v_fed v_rank aw_good ag_made "rp" 2 a.
Proof.
  intros H. split.
  { exists v_tmi. split; [right; left; reflexivity|]. split; [destruct H as [->|[sub ->]]; vm_compute; reflexivity|vm_compute; lia]. }
  split; [vm_compute; lia|]. intros G. destruct H as [->|[sub ->]]; [exists (fst ag_reply); exact ag_given|].
  cbn in G. destruct G as [G|[G|[G|[]]]]; discriminate G.
Qed.

Example C180_ex : library_shaky ex_jwks v_fed cr_env /\ hierarchy v_fed v_rank /\ In v_rp v_fed /\ newborn v_start /\
  keeps_id ex_reg /\ passed_on ex_reg "client_id" /\
  (forall x, handed_out ex_jwks v_fed cr_env x -> aw_good x) /\ (forall e x, VerifierSpec.holds (f_keys v_start) e x -> aw_good x) /\
  events_about v_fed v_rank aw_good ag_made "rp" ag_events /\ may_arrive v_fed v_rank aw_good ag_made "rp" 2 ag_answer /\
  (* what the OP has stored and what the client takes *)
  (exists ci, dget "rp" (r_cdb (a_reg (fst ag_reply))) = Some ci /\ dget "response_types" ci = Some (VList [VStr "code"])) /\
  snd (parse_oidc cr_env id_order 2 "rp" ag_answer v_start) = Err ConnectionError /\
  snd (parse_oidc cr_env id_order 2 "rp" ag_answer (after_events cr_env id_order "rp" ag_events v_start))
    = Ok [("response_types", VList [VStr "code"]); ("client_id", VStr "rp"); ("client_secret", VStr "secret");
          ("contacts", VList [VStr "ta"])].
Proof.
  split; [exact cr_shaky|]. split; [exact v_hierarchy|]. split; [right; right; left; reflexivity|]. split; [repeat split|].
  split; [exact ex_keeps_id|]. split; [reflexivity|]. split; [exact (proj1 aw_mean)|]. split; [exact (proj1 (proj2 aw_mean))|]. split.
  { intros ev [<-|[<-|[<-|[<-|[]]]]]; try (apply ag_may; eauto); exact I. }
  split; [apply ag_may; left; reflexivity|]. split; [eexists; split; vm_compute; reflexivity|]. split; vm_compute; reflexivity.
Qed.
