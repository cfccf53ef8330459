(** Whether a request for explicit registration can change the keys of a trust anchor (C197). *)
From Verif Require Import PyFacts ExampleKit CollectorProps CollectorRepeatProps FederationProps LiveFacts WellRunFacts.
From Verif Require Import ClientFacts ClientProps RegistrationFacts RegistrationProps RegistrationGrantProps RpSpec RpFacts RpProps.
From Verif Require Import LiveExample LiveResolveProps LiveRegisterProps LiveAnswerProps GetInProps TakenProps.
From Verif Require Import OauthModel OauthProps.
From Verif Require Export AnchorProps.
From Coq Require Import Lia.

(** the whole claim: members have asked before; whatever comes now, the keys of those at the top stay what they were *)
Definition C197_full : Prop := forall jwks_of F E O R rank s0 cs fuel P prio t x,
  library_shaky jwks_of F E -> hierarchy F rank -> all_checkable jwks_of F E -> keeps_id R -> passed_on R "client_id" ->
  newborn (a_fed s0) -> right_keys F (f_keys (a_fed s0)) -> ocalls_about jwks_of F E rank cs ->
  In x F -> superiors_of x = [] ->
  dget (m_id x) (f_keys (a_fed (fst (answer_oauth E O fuel R P prio t (after_ocalls E O R cs s0))))) = dget (m_id x) (f_keys (a_fed s0)).

(** The client has registered as it should, so that its keys are known. It sends a request about the trust anchor with a key of its own
    making, and names the server as the superior of the trust anchor. *)
Definition ak_request : token :=
  TJws 3 (mkStmt "client" "ta" (Some 87000%Z) (Some [3; 9]) (Some [("oauth_client", [])]) None None (Some ["as"])).
Definition ak_ask : astate * res (option RpModel.answer) := answer_oauth oo_env id_order 2 an_reg oa_op [] ak_request an_after.

Theorem C197_anchor_keys_refuted : ~ C197_full.
Proof.
  intros C. destruct C190_ex as (F1 & _ & F3 & F4 & F5 & F6 & F7 & F8 & _).
  assert (H := C ex_jwks oa_fed oo_env id_order an_reg oa_rank oa_server an_calls 2 oa_op [] ak_request oa_ta F1 F3 F4 ex_keeps_id F6 F7 F8 an_about
              (or_introl eq_refl) eq_refl).
  vm_compute in H. discriminate H.
Qed.
Print Assumptions C197_anchor_keys_refuted.

(** Whatever was asked before in the name of members, a request that names none but those of may_name leaves the keys of those at
    the top alone. So does one that is not signed with a key in it. What is missing: requests with other authority hints. *)
Theorem C197_anchor_keys_partial : forall jwks_of F E O R rank s0 cs fuel P prio t x,
  library_shaky jwks_of F E -> hierarchy F rank -> all_checkable jwks_of F E -> keeps_id R -> passed_on R "client_id" ->
  newborn (a_fed s0) -> right_keys F (f_keys (a_fed s0)) -> ocalls_any F E rank cs ->
  (exists m, In m F /\ rank (m_id m) < fuel /\ in_name_of F E m t) \/ (forall k p ks, t = TJws k p -> s_jwks p = Some ks -> ~ In k ks) ->
  In x F -> superiors_of x = [] ->
  dget (m_id x) (f_keys (a_fed (fst (answer_oauth E O fuel R P prio t (after_ocalls E O R cs s0))))) = dget (m_id x) (f_keys (a_fed s0)).
Proof.
  intros jwks_of F E O R rank s0 cs fuel P prio t x L HR HU KI PC HB Hk HA HT Hx Hs.
  assert (HA' : ocalls_any F E rank (cs ++ [OEnlist fuel P prio t])).
  { intros c Hc. apply in_app_or in Hc. destruct Hc as [Hc|[<-|[]]]; [exact (HA c Hc)|exact HT]. }
  destruct (C192_no_harm jwks_of F E O R rank s0 _ L HR HU KI PC HB Hk HA') as (A & _).
  specialize (A x Hx Hs). unfold after_ocalls in A |- *. rewrite fold_left_app in A. exact A.
Qed.
Print Assumptions C197_anchor_keys_partial.

(** With the key it has put there, the client speaks for the trust anchor: a chain for [evil] of its own making is refused before the
    request and accepted after it. *)
Definition ak_chain : list token :=
  [TJws 9 (mkStmt "ta" "evil" (Some 87000%Z) (Some [10]) None None None None);
   TJws 10 (mkStmt "evil" "evil" (Some 87000%Z) (Some [10]) (Some [("oauth_client", [])]) None None (Some ["ta"]))].

Example C197_ex : superiors_of oa_ta = [] /\ f_keys (a_fed an_after) = [("ta", [1]); ("client", [3])] /\
  (exists x, snd ak_ask = Err x) /\ f_keys (a_fed (fst ak_ask)) = [("ta", [1; 3; 9]); ("client", [3])] /\
  (forall tc, snd (verifier_call (e_lib oo_env) (f_keys (a_fed an_after)) ak_chain) <> Ok (Some tc)) /\
  (exists tc, snd (verifier_call (e_lib oo_env) (f_keys (a_fed (fst ak_ask))) ak_chain) = Ok (Some tc) /\ tc_anchor tc = "ta") /\
  (exists m, In m oa_fed /\ oa_rank (m_id m) < 2 /\ in_name_of oa_fed oo_env m oo_token) /\
  dget "ta" (f_keys (a_fed (fst (answer_oauth oo_env id_order 2 an_reg oa_op [] oo_token an_after)))) = Some [1].
Proof.
  destruct C196_ex as (_ & A & _).
  split; [reflexivity|]. split; [vm_compute; reflexivity|]. split; [eexists; vm_compute; reflexivity|]. split; [vm_compute; reflexivity|].
  split; [intros tc H; vm_compute in H; discriminate H|]. split; [eexists; split; vm_compute; reflexivity|].
  split; [exists oa_client; split; [simpl; auto|split; [vm_compute; lia|exact A]]|]. vm_compute. reflexivity.
Qed.
