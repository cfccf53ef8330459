(** Which trust anchor an answer to a request for explicit registration relies on (C196). *)
From Verif Require Import PyFacts ExampleKit CollectorProps CollectorRepeatProps FederationProps LiveFacts WellRunFacts.
From Verif Require Import ClientFacts ClientProps RegistrationFacts RegistrationProps RegistrationGrantProps RpSpec RpFacts RpProps.
From Verif Require Import LiveExample LiveResolveProps LiveRegisterProps LiveAnswerProps GetInProps TakenProps.
From Verif Require Import OauthModel OauthProps.
From Verif Require Export AuthenticProps.
From Coq Require Import Lia.

(** [a] relies on a way up from [m] to somebody whose keys are in [kj] from the beginning, and the policies along that way were applied to
    the metadata in [p] *)
Definition relies_on_anchor (jwks_of : val -> option (list key)) (F : list member) (E : cenv) (O : iter_order) (kj : keyjar) (m : member)
    (p : stmt) (a : RpModel.answer) : Prop :=
  exists rt md, left_of jwks_of F E O kj m p rt md /\ an_anchor a = Some (end_of (m_id m) rt).

(** the whole claim: members have asked before, and a member asks for itself and signs with its own key *)
Definition C196_full : Prop := forall jwks_of F E O R rank s0 cs fuel P prio m p s' a,
  library_shaky jwks_of F E -> hierarchy F rank -> all_checkable jwks_of F E -> keeps_id R -> passed_on R "client_id" ->
  newborn (a_fed s0) -> right_keys F (f_keys (a_fed s0)) -> ocalls_about jwks_of F E rank cs ->
  In m F -> rank (m_id m) < fuel -> s_sub p = m_id m -> s_iss p = m_id m ->
  answer_oauth E O fuel R P prio (TJws (m_key m) p) (after_ocalls E O R cs s0) = (s', Ok (Some a)) ->
  relies_on_anchor jwks_of F E O (f_keys (a_fed s0)) m p a.

(** The client asks once as it should. Then it asks again with other metadata and names the server itself as its superior, which has no
    fetch endpoint: the trust chain is the request alone. Its keys are known by now. Of a chain of one statement, the metadata under ""
    is used. *)
Definition an_calls : list ocall := oo_calls ++ [OEnlist 2 oa_op [] oo_token].
Definition an_request : stmt :=
  mkStmt "client" "client" (Some 87000%Z) (Some [3])
    (Some [("", [("", VDict [("redirect_uris", VList [VStr "https://rp/cb"]); ("jwks", VInt 4); ("contacts", VList [VStr "me"])])])])
    None None (Some ["as"]).
Definition an_reg : reg_env := with_newid fresh_id ex_reg.
Definition an_after : astate := after_ocalls oo_env id_order an_reg an_calls oa_server.
Definition an_ask : astate * res (option RpModel.answer) := answer_oauth oo_env id_order 2 an_reg oa_op [] (TJws 3 an_request) an_after.

Lemma an_about : ocalls_about ex_jwks oa_fed oo_env oa_rank an_calls.
Proof. destruct C194_ex as (_ & _ & _ & _ & _ & _ & _ & _ & _ & _ & A & _). exact A. Qed.

Theorem C196_trust_anchor_refuted : ~ C196_full.
Proof.
  intros C. destruct C190_ex as (F1 & _ & F3 & F4 & F5 & F6 & F7 & F8 & _).
  assert (G : exists a, snd an_ask = Ok (Some a) /\ an_anchor a = Some "client") by (eexists; split; vm_compute; reflexivity).
  destruct G as (a & G1 & G2). destruct an_ask as [s' v] eqn:EA. cbn [snd] in G1. subst v.
  destruct (C ex_jwks oa_fed oo_env id_order an_reg oa_rank oa_server an_calls 2 oa_op [] oa_client an_request s' a F1 F3 F4 ex_keeps_id F6 F7 F8 an_about
              (or_intror (or_intror (or_introl eq_refl))) ltac:(vm_compute; lia) eq_refl eq_refl EA) as (rt & md & (H1 & H2 & _) & H3).
  destruct (oa_path oa_client rt (or_intror (or_intror (or_introl eq_refl))) H1) as [-> | ->]; [contradiction H2; reflexivity|].
  rewrite G2 in H3. vm_compute in H3. discriminate H3.
Qed.
Print Assumptions C196_trust_anchor_refuted.

(** As long as requests name superiors of their subject or others that do not answer for it (may_name), it is a trust anchor, whoever has asked before and whoever asks now. What is
    missing: requests with other authority hints. *)
Theorem C196_trust_anchor_partial : forall jwks_of F E O R rank s0 cs fuel P prio m k p s' a,
  library_shaky jwks_of F E -> hierarchy F rank -> all_checkable jwks_of F E -> keeps_id R -> passed_on R "client_id" ->
  newborn (a_fed s0) -> right_keys F (f_keys (a_fed s0)) -> ocalls_any F E rank cs ->
  In m F -> rank (m_id m) < fuel -> in_name_of F E m (TJws k p) ->
  answer_oauth E O fuel R P prio (TJws k p) (after_ocalls E O R cs s0) = (s', Ok (Some a)) ->
  relies_on_anchor jwks_of F E O (f_keys (a_fed s0)) m p a.
Proof.
  intros jwks_of F E O R rank s0 cs fuel P prio m k p s' a L HR HU KI PC HB Hk HA Hm Hf HN H.
  destruct (fcalls_keep jwks_of F E rank L HR HU O R KI PC _ _ _ cs [] s0 HA (fkeeping_start jwks_of F E O R s0 HB Hk)) as (V & _).
  destruct (oanswer_cases E O R _ _ _ _ _ _ _ H) as [[_ [x X]]|(k' & p' & ks & f1 & rc & [= <- <-] & EJ & IK & EV & EG & X)]; [discriminate X|].
  destruct HN as (k' & p' & [= <- <-] & Es & Hh). rewrite Es in EG.
  destruct X as [[_ [x X]]|(l & c & mm & ty & md & r2 & o & -> & Ic & _ & _ & _ & _ & _ & _ & _ & X)]; [discriminate X|].
  destruct o as [|args]; [discriminate X|]. destruct X as (a' & [= <-] & Ea & _).
  destruct (forged_looked jwks_of F E rank L HR O _ _ fuel m k p _ f1 _ Hm Hf V Es Hh EV EG) as (_ & _ & A).
  destruct (A l c eq_refl Ic) as (rt & Lf & An). exists rt, (ch_md c). split; [exact Lf|]. rewrite Ea, An. reflexivity.
Qed.
Print Assumptions C196_trust_anchor_partial.

(** The client, asking as it should, and as above; what it gets *)
Example C196_ex : ocalls_any oa_fed oo_env oa_rank an_calls /\ in_name_of oa_fed oo_env oa_client oo_token /\
  (exists s' a, answer_oauth oo_env id_order 2 an_reg oa_op [] oo_token an_after = (s', Ok (Some a)) /\ an_anchor a = Some "ta") /\
  (exists a, snd an_ask = Ok (Some a) /\ an_anchor a = Some "client") /\
  (exists ci, dget "op1x" (r_cdb (a_reg (fst an_ask))) = Some ci /\ dget "contacts" ci = Some (VList [VStr "ta"])) /\
  exists ci, dget "op1op1xx" (r_cdb (a_reg (fst an_ask))) = Some ci /\ dget "contacts" ci = Some (VList [VStr "me"]).
Proof.
  destruct C190_ex as (_ & _ & _ & _ & _ & _ & _ & _ & _ & _ & F11 & _).
  split; [exact (about_any ex_jwks oa_fed oo_env oa_rank oo_shaky oa_hierarchy an_calls an_about)|].
  split; [exact (sends_named ex_jwks oa_fed oo_env oa_rank oo_shaky oa_hierarchy oa_client _ ltac:(simpl; auto) F11)|].
  split; [eexists _, _; split; vm_compute; reflexivity|]. split; [eexists; split; vm_compute; reflexivity|].
  split; eexists; split; vm_compute; reflexivity.
Qed.
