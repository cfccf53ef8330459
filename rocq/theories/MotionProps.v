(** A federation of entities that run this library, while time passes (C172). *)
From Verif Require Import PyFacts ExampleKit CollectorProps MotionLive.
From Coq Require Import Lia.

(** ** C172: a federation keeps working as time passes *)
Definition C172_full : Prop := forall jwks_of F E O rank fuel m s0 steps s' r,
  library_moving jwks_of F E -> forwards E -> hierarchy F rank -> all_checkable jwks_of F E -> In m F -> rank (m_id m) < fuel ->
  newborn s0 -> right_keys F (f_keys s0) -> about_members F rank steps ->
  get_verified_trust_chains E O fuel (m_id m) (after_steps E O steps s0) = (s', r) ->
  as_it_should jwks_of F E O (f_keys s0) m r.

(** rp and rq below im below ta *)
Definition mo_ta : member := mkMember
  (mkFserver "ta" (VInt 1) [("federation_entity", VDict [("federation_fetch_endpoint", VStr "ta/fetch")])] None [])
  None SrcNone [("im", [("jwks", VInt 2)])] 1 "ta/wk" "ta/fetch".

Definition mo_im : member := mkMember
  (mkFserver "im" (VInt 2) [("federation_entity", VDict [("federation_fetch_endpoint", VStr "im/fetch")])]
     (Some (VList [VStr "ta"])) [])
  None SrcNone [("rp", [("jwks", VInt 3)]); ("rq", [("jwks", VInt 4)])] 2 "im/wk" "im/fetch".

Definition mo_rp : member := mkMember
  (mkFserver "rp" (VInt 3) [("openid_relying_party", VDict [("scope", VStr "openid")])] (Some (VList [VStr "im"])) [])
  None SrcNone [] 3 "rp/wk" "".

Definition mo_rq : member := mkMember
  (mkFserver "rq" (VInt 4) [("openid_relying_party", VDict [("scope", VStr "openid")])] (Some (VList [VStr "im"])) [])
  None SrcNone [] 4 "rq/wk" "".

Definition mo_fed : list member := [mo_ta; mo_im; mo_rp; mo_rq].

(** five requests at the beginning, the next ones after eleven hours, the others nearly a day after the first *)
Definition mo_clock (n : nat) : Z := if Nat.ltb n 5 then 0%Z else if Nat.ltb n 8 then 40000%Z else 86200%Z.

Definition mo_env : cenv := mkEnv 300 ["ta"] (library_net ex_jwks mo_fed mo_clock) mo_clock all_keys wk_url tenant_url.

Definition mo_rank (e : string) : nat :=
  if String.eqb e "rp" then 2 else if String.eqb e "rq" then 2 else if String.eqb e "im" then 1 else 0.

Definition mo_start (kj : keyjar) : fstate := mkFed (mkState [] [] 0) kj [].

Ltac mo_members := repeat match goal with H : In _ mo_fed |- _ => destruct H as [<-|[<-|[<-|[<-|[]]]]] end.

Lemma mo_moving : library_moving ex_jwks mo_fed mo_env.
Proof.
  constructor.
  2: reflexivity.
  2: { intros n. unfold mo_env, e_clock, mo_clock.
       destruct (Nat.ltb_spec (S n) 5), (Nat.ltb_spec n 5), (Nat.ltb_spec (S n) 8), (Nat.ltb_spec n 8); lia. }
  constructor.
  - reflexivity.
  - reflexivity.
  - reflexivity.
  - intros n p z Hz Hn. cbn. unfold within_skew. rewrite Hz. apply Z.ltb_lt. lia.
  - reflexivity.
  - intros m m' Hm Hm' H. mo_members; try reflexivity; discriminate H.
  - intros m m' Hm Hm' H. mo_members; try reflexivity; discriminate H.
  - intros m m' Hm Hm' H N. mo_members; try reflexivity; try discriminate H; contradiction N; reflexivity.
  - intros m Hm. mo_members; left; reflexivity.
  - intros m Hm. mo_members; (apply mkSound;
      [split; [discriminate|reflexivity]
      |eexists; split; [reflexivity|left; reflexivity]
      |split; intros x e H; apply dget_In in H; simpl in H;
        repeat destruct H as [H|H]; try contradiction; injection H as <- <-; apply nodupb_sound; reflexivity
      |intros x p k H Hk; apply dget_In in H; simpl in H;
        repeat destruct H as [H|H]; try contradiction; injection H as <- <-; simpl in Hk; intuition auto
      |eexists; reflexivity
      |intros p Hp; vm_compute in Hp; injection Hp as <-; vm_compute; discriminate
      |intros a Ha; simpl in Ha; repeat destruct Ha as [<-|Ha]; try destruct Ha; reflexivity
      |intros sub e v H Hv; apply dget_In in H; simpl in H; repeat destruct H as [H|H]; try contradiction;
        injection H as <- <-; vm_compute in Hv; try discriminate Hv; injection Hv as <-;
        refine (ex_intro _ _ (conj eq_refl (conj eq_refl eq_refl)))]).
  - intros m a Hm Ha. mo_members; simpl in Ha; repeat destruct Ha as [<-|Ha]; try destruct Ha;
      [exists mo_ta|exists mo_im|exists mo_im]; (split; [simpl; auto|]); (split; [reflexivity|]);
      (constructor;
        [apply locationb_sound; reflexivity
        |eexists; split; reflexivity
        |eexists _, _, _; split; [split; [reflexivity|discriminate]|]; split; [|split; [reflexivity|split; [reflexivity|left; reflexivity]]];
         split; [intros k Hk; simpl in Hk; repeat destruct Hk as [<-|Hk]; try destruct Hk; reflexivity|];
         split; [intros v Hv; discriminate Hv|]; split; [intros v Hv; discriminate Hv|]; intros p k v Hp; discriminate Hp
        |intros p Hp; vm_compute in Hp; injection Hp as <-; vm_compute; discriminate]).
Qed.

Lemma mo_forwards : forwards mo_env.
Proof.
  intros n m H. unfold mo_env, e_clock, mo_clock.
  destruct (Nat.ltb_spec n 5), (Nat.ltb_spec m 5), (Nat.ltb_spec n 8), (Nat.ltb_spec m 8); lia.
Qed.

Lemma mo_hierarchy : hierarchy mo_fed mo_rank.
Proof. intros m a Hm Ha. mo_members; simpl in Ha; repeat destruct Ha as [<-|Ha]; try destruct Ha; vm_compute; lia. Qed.

Lemma mo_unconstrained : unconstrained mo_fed.
Proof.
  intros m sub e Hm H. apply dget_In in H. mo_members; simpl in H; repeat destruct H as [H|H]; try contradiction;
    injection H as <- <-; reflexivity.
Qed.

Lemma mo_checkable : all_checkable ex_jwks mo_fed mo_env.
Proof. intros m Hm. exact (unconstrained_checkable _ _ _ mo_rank (lm_run _ _ _ mo_moving) mo_hierarchy m Hm mo_unconstrained). Qed.

Definition mo_steps : list step := [Look 3 "rp"; Look 3 "rq"; Wait].

Lemma mo_about : about_members mo_fed mo_rank mo_steps.
Proof.
  intros st [<-|[<-|[<-|[]]]]; [| |exact I].
  - split; [exists mo_rp; simpl; auto 10|vm_compute; lia].
  - split; [exists mo_rq; simpl; auto 10|vm_compute; lia].
Qed.

(** In the cache are what im says about rq, from eleven hours after the start, and its configuration, from the start. The
    configuration is nearly over and removed when it is asked for; what is then there in its place is None. *)
Theorem C172_keeps_working_refuted : ~ C172_full.
Proof.
  intros H.
  assert (G : exists s', get_verified_trust_chains mo_env id_order 3 (m_id mo_rq)
                           (after_steps mo_env id_order mo_steps (mo_start [])) = (s', Err TypeError)).
  { eexists. vm_compute. reflexivity. }
  destruct G as (s' & G).
  assert (X := H ex_jwks mo_fed mo_env id_order mo_rank 3 mo_rq (mo_start []) mo_steps s' (Err TypeError) mo_moving mo_forwards mo_hierarchy
    mo_checkable).
  destruct X as (rt & (_ & _ & X & _) & _); [simpl; auto|vm_compute; lia|split; [reflexivity|split; reflexivity]| |exact mo_about|exact G|].
  - intros m ks Hm D. discriminate D.
  - destruct X as (l & X). discriminate X.
Qed.
Print Assumptions C172_keeps_working_refuted.

(** Missing: when everything that is needed from the cache was put there less than a day ago.  Whoever starts with the right
    keys and asks about members, as often and in whatever order, while time goes by, finds the trust chains along all the
    ways up that end at somebody they hold keys of and meet the constraints, and no others, with the right metadata - or gets a TypeError, and never one in the
    first day. *)
Theorem C172_keeps_working_partial : forall jwks_of F E O rank fuel m s0 steps s' r,
  library_moving jwks_of F E -> forwards E -> hierarchy F rank -> all_checkable jwks_of F E -> In m F -> rank (m_id m) < fuel ->
  newborn s0 -> right_keys F (f_keys s0) -> about_members F rank steps ->
  get_verified_trust_chains E O fuel (m_id m) (after_steps E O steps s0) = (s', r) ->
  as_it_should jwks_of F E O (f_keys s0) m r \/
  (r = Err TypeError /\ (e_clock E (st_tick (f_col s0)) + 86400 - e_delta E <= e_clock E (st_tick (f_col s')))%Z).
Proof.
  intros jwks_of F E O rank fuel m s0 steps s' r L HF HR HU Hm Hf HB Hk HA H.
  destruct (shaky_found jwks_of F E rank (moving_shaky _ _ _ L) HR HU O fuel m s0 steps s' r HF Hm Hf HB Hk HA H) as [A|[A|A]]; [left; exact A| |right; exact A].
  exfalso. exact (moving_no_outage _ _ _ _ _ L (proj1 A)).
Qed.
Print Assumptions C172_keeps_working_partial.

(** the chains are found at the beginning and after eleven hours, and those of the one and the other are in the way of
    finding them later *)
Example C172_ex : library_moving ex_jwks mo_fed mo_env /\ forwards mo_env /\ hierarchy mo_fed mo_rank /\ all_checkable ex_jwks mo_fed mo_env /\
  newborn (mo_start [("ta", [1])]) /\ right_keys mo_fed [("ta", [1])] /\ about_members mo_fed mo_rank mo_steps /\
  (exists s' c, get_verified_trust_chains mo_env id_order 3 "rq" (after_steps mo_env id_order [Look 3 "rp"] (mo_start [("ta", [1])])) = (s', Ok [c]) /\
     runs_along c "rq" ["im"; "ta"] /\ e_clock mo_env (st_tick (f_col s')) = 40000%Z) /\
  (exists s', get_verified_trust_chains mo_env id_order 3 "rq" (after_steps mo_env id_order mo_steps (mo_start [("ta", [1])])) = (s', Err TypeError)) /\
  (exists s' c, get_verified_trust_chains mo_env id_order 3 "rp" (after_steps mo_env id_order mo_steps (mo_start [("ta", [1])])) = (s', Ok [c]) /\
     runs_along c "rp" ["im"; "ta"]).
Proof.
  split; [exact mo_moving|]. split; [exact mo_forwards|]. split; [exact mo_hierarchy|]. split; [exact mo_checkable|].
  split; [split; [reflexivity|split; reflexivity]|]. split.
  { intros m ks Hm H. mo_members; vm_compute in H; try discriminate H. injection H as <-. left. reflexivity. }
  split; [exact mo_about|]. split; [|split].
  - eexists _, _. split; [vm_compute; reflexivity|]. split; [split; vm_compute; reflexivity|vm_compute; reflexivity].
  - eexists. vm_compute. reflexivity.
  - eexists _, _. split; [vm_compute; reflexivity|]. split; vm_compute; reflexivity.
Qed.
