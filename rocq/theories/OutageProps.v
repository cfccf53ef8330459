(** Outages in a federation of entities that run this library (C173). *)
From Verif Require Import PyFacts ExampleKit CollectorProps MotionProps.
From Verif Require Export MotionLive.
From Coq Require Import Lia.

(** ** C173: requests that fail leave no traces *)

(** what may come out of asking about [m], by somebody who started with the keys [kj]; [n] and [n'] count the requests made
    before and after it *)
Definition right_or_failed (jwks_of : val -> option (list key)) (F : list member) (E : cenv) (O : iter_order) (kj : keyjar) (m : member)
    (n n' : nat) (r : res (list tchain)) : Prop :=
  as_it_should jwks_of F E O kj m r \/ (outage jwks_of F E n n' /\ exists x, net_error x /\ r = Err x).

Definition C173_full : Prop := forall jwks_of F E O rank fuel m s0 steps s' r,
  library_shaky jwks_of F E -> forwards E -> hierarchy F rank -> all_checkable jwks_of F E -> In m F -> rank (m_id m) < fuel ->
  newborn s0 -> right_keys F (f_keys s0) -> about_members F rank steps ->
  get_verified_trust_chains E O fuel (m_id m) (after_steps E O steps s0) = (s', r) ->
  right_or_failed jwks_of F E O (f_keys s0) m (st_tick (f_col (after_steps E O steps s0))) (st_tick (f_col s')) r.

(** not even if no request ever fails *)
Theorem C173_no_traces_refuted : ~ C173_full.
Proof.
  intros H. apply C172_keeps_working_refuted. intros jwks_of F E O rank fuel m s0 steps s' r L HF HR HU Hm Hf HB Hk HA G.
  destruct (H jwks_of F E O rank fuel m s0 steps s' r (moving_shaky _ _ _ L) HF HR HU Hm Hf HB Hk HA G) as [A|[A _]]; [exact A|].
  exfalso. exact (moving_no_outage _ _ _ _ _ L A).
Qed.
Print Assumptions C173_no_traces_refuted.

(** Missing: the TypeError of C172.  Whatever failed before, who asks finds what there is to find, unless one of the requests they
    make now fails; then they are told so. *)
Theorem C173_no_traces_partial : forall jwks_of F E O rank fuel m s0 steps s' r,
  library_shaky jwks_of F E -> forwards E -> hierarchy F rank -> all_checkable jwks_of F E -> In m F -> rank (m_id m) < fuel ->
  newborn s0 -> right_keys F (f_keys s0) -> about_members F rank steps ->
  get_verified_trust_chains E O fuel (m_id m) (after_steps E O steps s0) = (s', r) ->
  right_or_failed jwks_of F E O (f_keys s0) m (st_tick (f_col (after_steps E O steps s0))) (st_tick (f_col s')) r \/
  (r = Err TypeError /\ (e_clock E (st_tick (f_col s0)) + 86400 - e_delta E <= e_clock E (st_tick (f_col s')))%Z).
Proof.
  intros jwks_of F E O rank fuel m s0 steps s' r L HF HR HU Hm Hf HB Hk HA H.
  destruct (shaky_found jwks_of F E rank L HR HU O fuel m s0 steps s' r HF Hm Hf HB Hk HA H) as [A|[A|A]];
    [left; left; exact A|left; right; exact A|right; exact A].
Qed.
Print Assumptions C173_no_traces_partial.

(** The same when trust chains that were found before are taken from the store. *)
Theorem C173_no_traces_in_the_store_partial : forall jwks_of F E O rank fuel m s0 steps s' r,
  library_shaky jwks_of F E -> forwards E -> hierarchy F rank -> all_checkable jwks_of F E -> In m F -> rank (m_id m) < fuel ->
  newborn s0 -> right_keys F (f_keys s0) -> about_members F rank steps ->
  get_trust_chains E O fuel (m_id m) (after_steps E O steps s0) = (s', r) ->
  right_or_failed jwks_of F E O (f_keys s0) m (st_tick (f_col (after_steps E O steps s0))) (st_tick (f_col s')) r \/
  (r = Err TypeError /\ (e_clock E (st_tick (f_col s0)) + 86400 - e_delta E <= e_clock E (st_tick (f_col s')))%Z).
Proof.
  intros jwks_of F E O rank fuel m s0 steps s' r L HF HR HU Hm Hf HB Hk HA H.
  destruct (shaky_asked jwks_of F E rank L HR HU O fuel m s0 steps s' r HF Hm Hf HB Hk HA H) as [A|[A|A]];
    [left; left; exact A|left; right; exact A|right; exact A].
Qed.
Print Assumptions C173_no_traces_in_the_store_partial.

(** The federation of C172.  The second request fails, and so do the fourth, the fifth and
    all from the eleventh on. *)
Definition ou_net (n : nat) (q : request) : response :=
  if Nat.eqb n 1 then RNoConnection else if Nat.eqb n 3 then R404 else if Nat.eqb n 4 then RStatus else if Nat.leb 10 n then RNoConnection
  else library_net ex_jwks mo_fed mo_clock n q.

Definition ou_env : cenv := mkEnv 300 ["ta"] ou_net mo_clock all_keys wk_url tenant_url.

Lemma home_length m : In m mo_fed -> String.length (m_home m) = 5.
Proof. intros H. mo_members; reflexivity. Qed.

Lemma length_app a b : String.length (a ++ b) = String.length a + String.length b.
Proof. induction a as [|c a IH]; cbn; [reflexivity|]. rewrite IH. reflexivity. Qed.

Lemma ou_shaky : library_shaky ex_jwks mo_fed ou_env.
Proof.
  constructor.
  - exact (lm_run _ _ _ mo_moving).
  - intros n q. cbn [e_net ou_env]. unfold ou_net, failed. destruct (Nat.eqb n 1); [auto|]. destruct (Nat.eqb n 3); [auto|].
    destruct (Nat.eqb n 4); [auto|]. destruct (Nat.leb 10 n); [auto|]. left. reflexivity.
  - exact (lm_slow _ _ _ mo_moving).
  - intros id m m' n I1 I2 H1 H2 _. exfalso. cbn [e_wk e_tenant ou_env] in H1, H2. unfold wk_url in H1. unfold tenant_url in H2.
    apply (f_equal String.length) in H1, H2. rewrite home_length, length_app in H1, H2 by assumption. cbn in H1, H2. lia.
Qed.

(** what comes of asking four times *)
Definition ou_kj : keyjar := [("ta", [1])].
Definition ou_after (n : nat) : fstate := after_steps ou_env id_order (repeat (Look 3 "rp") n) (mo_start ou_kj).

Example C173_ex : library_shaky ex_jwks mo_fed ou_env /\ forwards ou_env /\ about_members mo_fed mo_rank (repeat (Look 3 "rp") 3) /\
  snd (get_verified_trust_chains ou_env id_order 3 "rp" (ou_after 0)) = Err ConnectionError /\
  snd (get_verified_trust_chains ou_env id_order 3 "rp" (ou_after 1)) = Err MissingPage /\
  snd (get_verified_trust_chains ou_env id_order 3 "rp" (ou_after 2)) = Err FailedConfigurationRetrieval /\
  (exists c s', get_verified_trust_chains ou_env id_order 3 "rp" (ou_after 3) = (s', Ok [c]) /\ runs_along c "rp" ["im"; "ta"]) /\
  outage ex_jwks mo_fed ou_env 0 2.
Proof.
  split; [exact ou_shaky|]. split; [exact mo_forwards|]. split.
  { intros st [<-|[<-|[<-|[]]]]; (split; [exists mo_rp; simpl; auto 10|vm_compute; lia]). }
  split; [vm_compute; reflexivity|]. split; [vm_compute; reflexivity|]. split; [vm_compute; reflexivity|]. split.
  - eexists _, _. split; [vm_compute; reflexivity|]. split; vm_compute; reflexivity.
  - exists 1, (QDoc "im/wk"). split; [lia|]. split; [lia|]. split; [right; right; reflexivity|]. vm_compute. discriminate.
Qed.
