(** Answers about members of a federation whose requests fail while time passes (C174). *)
From Verif Require Import PyFacts ExampleKit CollectorProps MotionProps OutageProps.
From Verif Require Import LiveFacts.
From Verif Require Export MotionLive.
From Coq Require Import Lia.

(** ** C174: whatever fails and however time passes, no wrong answer is given *)

(** The metadata that are given for [m] are what the policies along a way up to somebody whose keys are in [kj] make of
    those of [m]; if none are given there is no such way. *)
Definition metadata_right (jwks_of : val -> option (list key)) (F : list member) (E : cenv) (O : iter_order) (kj : keyjar) (m : member)
    (o : option tc_metadata) : Prop :=
  match o with
  | Some md => exists rt, usable jwks_of F E kj (m_id m) rt /\ adjusted O jwks_of F E (m_id m) rt md
  | None => forall rt, ~ usable jwks_of F E kj (m_id m) rt
  end.

Theorem C174_never_wrong : forall jwks_of F E O rank fuel m s0 steps s',
  library_shaky jwks_of F E -> hierarchy F rank -> all_checkable jwks_of F E -> In m F -> rank (m_id m) < fuel ->
  newborn s0 -> right_keys F (f_keys s0) -> about_members F rank steps ->
  (forall cs, get_verified_trust_chains E O fuel (m_id m) (after_steps E O steps s0) = (s', Ok cs) -> as_it_should jwks_of F E O (f_keys s0) m (Ok cs)) /\
  (forall cs, get_trust_chains E O fuel (m_id m) (after_steps E O steps s0) = (s', Ok cs) -> as_it_should jwks_of F E O (f_keys s0) m (Ok cs)) /\
  (forall o, get_verified_metadata E O fuel (m_id m) (after_steps E O steps s0) = (s', Ok o) -> metadata_right jwks_of F E O (f_keys s0) m o).
Proof.
  intros jwks_of F E O rank fuel m s0 steps s' L HR HU Hm Hf HB Hk HA.
  assert (V := living_steps jwks_of F E rank L HR HU _ _ O steps _ (living_start jwks_of F E s0 HB Hk) HA).
  assert (S0 : stored_right jwks_of F E O (f_keys s0) s0) by (intros x cs Hx D; rewrite (proj2 (proj2 HB)) in D; discriminate D).
  assert (S := stored_steps jwks_of F E rank L HR HU _ _ O steps _ (living_start jwks_of F E s0 HB Hk) S0 HA).
  assert (P1 : forall s2 cs, get_verified_trust_chains E O fuel (m_id m) (after_steps E O steps s0) = (s2, Ok cs) ->
                             as_it_should jwks_of F E O (f_keys s0) m (Ok cs)).
  { intros s2 cs H. destruct (looked_should jwks_of F E rank L HR HU _ _ O fuel m _ s2 (Ok cs) Hm Hf V H) as [A|[(_ & x & _ & A)|[_ A]]];
      [exact A|discriminate A|discriminate A]. }
  assert (P2 : forall s2 cs, get_trust_chains E O fuel (m_id m) (after_steps E O steps s0) = (s2, Ok cs) ->
                             as_it_should jwks_of F E O (f_keys s0) m (Ok cs)).
  { intros s2 cs H. destruct (asked jwks_of F E rank L HR HU _ _ O fuel m _ s2 (Ok cs) Hm Hf V S H) as (_ & [A|[(_ & x & _ & A)|[_ A]]]);
      [exact A|discriminate A|discriminate A]. }
  split; [apply P1|]. split; [apply P2|].
  assert (P3 : forall cs, as_it_should jwks_of F E O (f_keys s0) m (Ok cs) ->
                          metadata_right jwks_of F E O (f_keys s0) m (match cs with [] => None | c :: _ => Some (ch_md c) end)).
  { intros [|c cs] (A1 & A2 & _); cbn.
    - intros rt U. destruct (A1 rt U) as (c & [] & _).
    - destruct (A2 c (or_introl eq_refl)) as (rt & U & _ & Ad). exists rt. auto. }
  intros o. unfold get_verified_metadata. unfold mbind at 1. unfold StateM.get at 1.
  destruct (dget (m_id m) (f_chains (after_steps E O steps s0))) as [cs|] eqn:Ed.
  - specialize (P3 cs (S m cs Hm Ed)). unfold mbind, ret. destruct cs; intros [= <- <-]; exact P3.
  - unfold mbind. destruct (get_verified_trust_chains E O fuel (m_id m) (after_steps E O steps s0)) as [s1 [cs|x]] eqn:Eg; [|discriminate].
    specialize (P3 cs (P1 s1 cs eq_refl)). destruct cs; cbn [is_nil]; unfold ret, store_trust_chain, modify; intros [= <- <-]; exact P3.
Qed.
Print Assumptions C174_never_wrong.

(** the federation and the failures of C173: metadata come out of the fourth attempt, without asking again of a later one,
    and none for somebody who holds no keys *)
Definition nw_steps : list step := [Look 3 "rp"; Look 3 "rp"; Look 3 "rp"; Ask 3 "rp"].

Example C174_ex : library_shaky ex_jwks mo_fed ou_env /\ about_members mo_fed mo_rank nw_steps /\
  (exists s' md, get_verified_metadata ou_env id_order 3 "rp" (after_steps ou_env id_order nw_steps (mo_start ou_kj)) = (s', Ok (Some md)) /\
     s' = after_steps ou_env id_order nw_steps (mo_start ou_kj)) /\
  (exists s', get_verified_metadata ou_env id_order 3 "rp" (after_steps ou_env id_order (firstn 3 nw_steps) (mo_start [])) = (s', Ok None)) /\
  (exists s', get_verified_metadata ou_env id_order 3 "rq" (after_steps ou_env id_order nw_steps (mo_start ou_kj)) = (s', Err ConnectionError)).
Proof.
  split; [exact ou_shaky|]. split.
  { intros st [<-|[<-|[<-|[<-|[]]]]]; (split; [exists mo_rp; simpl; auto 10|vm_compute; lia]). }
  split; [|split].
  - eexists _, _. split; vm_compute; reflexivity.
  - eexists. vm_compute. reflexivity.
  - eexists. vm_compute. reflexivity.
Qed.
