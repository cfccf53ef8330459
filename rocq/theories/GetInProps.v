(** Clients get in as soon as requests do not fail any more (C181). *)
From Verif Require Import PyFacts ExampleKit CollectorProps.
From Verif Require Import ClientFacts ClientProps RegistrationFacts RegistrationProps RegistrationGrantProps LiveExample LiveRegisterProps.
From Verif Require Export ClientsRightProps.
From Coq Require Import Lia.

(** an old automatic registration is dropped first *)
Lemma auth_forget E O fuel R Fl new id s : registers Fl id s ->
  client_authentication E O fuel R Fl new true id [] s = client_authentication E O fuel R Fl new true id [] (forget Fl id s) /\
  dget id (r_cdb (a_reg (forget Fl id s))) = None /\ a_fed (forget Fl id s) = a_fed s.
Proof.
  unfold registers, forget. destruct (dget id (r_cdb (a_reg s))) as [ci|] eqn:D; [|auto]. destruct Fl; try contradiction. intros Hf.
  assert (D0 : dget id (ddel id (r_cdb (a_reg s))) = None) by apply dget_ddel_same.
  split; [|auto]. unfold client_authentication, mbind, StateM.get. cbn [a_reg r_cdb a_fed]. rewrite D, D0, Hf. reflexivity.
Qed.

(** no trust chains *)
Lemma auth_failed E O fuel R Fl new id s f1 x : dget id (r_cdb (a_reg s)) = None ->
  chains_for E O fuel id [] (a_fed s) = (f1, Err x) -> client_authentication E O fuel R Fl new true id [] s = (mkA f1 (a_reg s), Err x).
Proof.
  intros D EC. unfold client_authentication, mbind at 1, StateM.get. rewrite D. cbn [orb].
  replace (match Fl with OIDC => false | _ => false end) with false by (destruct Fl; reflexivity). cbn [orb].
  unfold mbind at 1. unfold on_reg at 1, modify. cbn [a_reg a_fed]. unfold mbind at 1. unfold do_automatic_registration. unfold mbind at 1, on_fed at 1.
  cbn [a_fed a_reg]. rewrite EC. reflexivity.
Qed.

(** Nothing is wrong with what the policies along the ways of [m] up to somebody whose keys are in [kj] make of its metadata, and there is
    such a way. *)
Definition acceptable (jwks_of : val -> option (list key)) (F : list member) (E : cenv) (O : iter_order) (R : reg_env) (kj : keyjar)
    (Fl : flavour) (new : bool) (m : member) : Prop :=
  (exists rt, usable jwks_of F E kj (m_id m) rt) /\
  forall rt, usable jwks_of F E kj (m_id m) rt -> exists md d,
    adjusted O jwks_of F E (m_id m) rt md /\ claims_for md (kind_of Fl) d /\ good_client R (new_name Fl new) (m_id m) d.

(** [m] is stored as [rid], with what the policies along one of its ways up make of its metadata, as far as the server supports it, and
    with the keys in it *)
Definition let_in (jwks_of : val -> option (list key)) (F : list member) (E : cenv) (O : iter_order) (R : reg_env) (kj : keyjar)
    (Fl : flavour) (m : member) (rid : string) (s' : astate) : Prop :=
  exists rt md d ci, usable jwks_of F E kj (m_id m) rt /\ adjusted O jwks_of F E (m_id m) rt md /\ claims_for md (kind_of Fl) d /\
    dget rid (r_cdb (a_reg s')) = Some ci /\ dget (m_id m) (r_cdb (a_reg s')) = Some ci /\
    (forall k v, dget k d = Some v -> ~ In k RegistrationFacts.checked ->
       ~ In k ["client_id"; "client_salt"; "client_id_issued_at"; "client_secret"; "client_secret_expires_at";
               "automatic_registered"; "entity_id"] ->
       granted R k v (dget k ci)) /\
    (forall ks k, keys_inside R d ks -> In k ks -> In (KPub k) (ckeys_of (r_keys (a_reg s')) (m_id m))).

(** nobody but [id] lost anything *)
Definition others_kept (id : string) (s s' : astate) : Prop :=
  (forall x, x <> id -> dget x (r_cdb (a_reg s')) = dget x (r_cdb (a_reg s))) /\ r_keys (a_reg s') = r_keys (a_reg s).

Lemma forget_others Fl id s : others_kept id s (forget Fl id s).
Proof.
  unfold forget, others_kept. destruct (dget id (r_cdb (a_reg s))); [|auto]. cbn [a_reg r_cdb r_keys]. split; [|reflexivity].
  intros x N. apply dget_ddel_other, N.
Qed.

(** C181: whatever failed before, a member that may be registered and has nothing wrong about it gets in, unless one of the requests
    that are made for it now fails; then this is what the caller is told, and nobody else's registration is touched. *)
Theorem C181_gets_in : forall jwks_of F E O R rank s0 vs Fl new fuel m s' v,
  library_shaky jwks_of F E -> forwards E -> hierarchy F rank -> all_checkable jwks_of F E -> keeps_id R -> passed_on R "client_id" ->
  newborn (a_fed s0) -> right_keys F (f_keys (a_fed s0)) -> by_members F rank vs -> In m F -> rank (m_id m) < fuel ->
  acceptable jwks_of F E O R (f_keys (a_fed s0)) Fl new m ->
  let s := after_visits E O R vs s0 in
  client_authentication E O fuel R Fl new true (m_id m) [] s = (s', v) ->
  (* less than a day after the beginning *)
  (e_clock E (st_tick (f_col (a_fed s'))) < e_clock E (st_tick (f_col (a_fed s0))) + 86400 - e_delta E)%Z ->
  (registers Fl (m_id m) s /\ exists rid, v = Ok (Use rid) /\ let_in jwks_of F E O R (f_keys (a_fed s0)) Fl m rid s') \/
  (~ registers Fl (m_id m) s /\ v = Ok (Use (m_id m)) /\ s' = s) \/
  (outage jwks_of F E (st_tick (f_col (a_fed s))) (st_tick (f_col (a_fed s'))) /\ (exists x, net_error x /\ v = Err x) /\ others_kept (m_id m) s s').
Proof.
  intros jwks_of F E O R rank s0 vs Fl new fuel m s' v L HF HR HU KI PC HB Hk HA Hm Hf [[rt0 Hu0] AC] s H HT.
  destruct (visits_right jwks_of F E rank L HR HU O R KI PC (st_tick (f_col (a_fed s0))) (f_keys (a_fed s0)) (r_cdb (a_reg s0)) vs s0 HA) as (V & S & _).
  { split; [exact (living_start jwks_of F E _ HB Hk)|]. split; [|intros x ci D; left; exact D].
    intros x cs Hx D. rewrite (proj2 (proj2 HB)) in D. discriminate D. }
  fold s in V, S.
  destruct (authentication_cases _ _ _ _ _ _ _ _ _ _ _ _ H) as [(N & -> & ->)|[(_ & X & _)|(RG & _)]];
    [right; left; auto|discriminate X|].
  destruct (auth_forget E O fuel R Fl new (m_id m) s RG) as (E1 & D0 & Ef).
  destruct (chains_for E O fuel (m_id m) [] (a_fed (forget Fl (m_id m) s))) as [f1 rc] eqn:EC.
  assert (EC' := EC). rewrite Ef in EC'. unfold chains_for in EC'. cbn [is_nil] in EC'.
  destruct (looked_should jwks_of F E rank L HR HU _ _ O fuel m _ f1 rc Hm Hf V EC') as [A|[(OU & x & NE & ->)|[AG ->]]].
  - (* chains are found *)
    destruct rc as [cs|x].
    + destruct A as (A1 & A2 & _). destruct (A1 rt0 Hu0) as (c0 & I0 & _). destruct cs as [|c rest]; [destruct I0|].
      destruct (A2 c (or_introl eq_refl)) as (rt & U & _ & Ad). destruct (AC rt U) as (md & d & Ad' & CF & GC).
      assert (md = ch_md c) by exact (adjusted_fun O jwks_of F E (m_id m) rt md (ch_md c) Ad' Ad). subst md.
      destruct (chain_registered E O fuel R Fl new (m_id m) (forget Fl (m_id m) s) f1 c rest d KI D0 EC CF GC)
        as (s2 & rid & ci & X1 & _ & X3 & X4 & X5 & X6).
      rewrite E1, X1 in H. injection H as <- <-. left. split; [exact RG|]. exists rid. split; [reflexivity|].
      exists rt, (ch_md c), d, ci. auto 10.
    + exfalso. destruct A as (rt & U & PE). destruct (AC rt U) as (md & d & [w Ad] & _). congruence.
  - (* a request failed *)
    right. right. rewrite E1, (auth_failed _ _ _ _ _ _ _ _ _ _ D0 EC) in H. injection H as <- <-. cbn [a_fed].
    split; [exact OU|]. split; [eauto|]. exact (forget_others Fl (m_id m) s).
  - (* more than a day *)
    exfalso. rewrite E1, (auth_failed _ _ _ _ _ _ _ _ _ _ D0 EC) in H. injection H as <- _. cbn [a_fed] in HT.
    assert (Z := aged_day jwks_of F E L _ _ HF AG). lia.
Qed.
Print Assumptions C181_gets_in.

(** The federation of C175: rp comes twice without success, then gets in, and then again *)
Lemma cr_forwards : forwards cr_env.
Proof.
  intros n m Hn. cbn [e_clock cr_env]. unfold cr_clock. destruct (Nat.ltb_spec n 6), (Nat.ltb_spec m 6); try lia.
Qed.

Lemma cr_acceptable : acceptable ex_jwks v_fed cr_env id_order ex_reg [("ta", [1])] OIDC false v_rp.
Proof.
  assert (Hr : In v_rp v_fed) by (right; right; left; reflexivity). split.
  - exists ["ta"]. exact (v_usable v_rp Hr ltac:(discriminate)).
  - intros rt (Hp & Hn & _). destruct (v_path v_rp rt Hr Hp) as [-> | ->]; [contradiction Hn; reflexivity|].
    destruct v_adjusted as (md & H1 & H2). exists md, v_claims. split; [exact H1|]. split; [exact H2 | exact v_good].
Qed.

Definition gi_after (n : nat) : astate := after_visits cr_env id_order ex_reg (firstn n cr_visits) v_server.
Definition gi_knock (s : astate) : astate * res verdict := client_authentication cr_env id_order 2 ex_reg OIDC false true "rp" [] s.

Example C181_ex : library_shaky ex_jwks v_fed cr_env /\ forwards cr_env /\ all_checkable ex_jwks v_fed cr_env /\
  acceptable ex_jwks v_fed cr_env id_order ex_reg (f_keys (a_fed v_server)) OIDC false v_rp /\ by_members v_fed v_rank cr_visits /\
  (* the first two attempts *)
  snd (gi_knock (gi_after 0)) = Err ConnectionError /\ snd (gi_knock (gi_after 1)) = Err FailedConfigurationRetrieval /\
  registers OIDC "rp" (gi_after 3) /\ snd (gi_knock (gi_after 3)) = Ok (Use "rp") /\
  (* the next one, with an automatic registration there *)
  dmem "rp" (r_cdb (a_reg (gi_after 4))) = true /\ registers OIDC "rp" (gi_after 4) /\ snd (gi_knock (gi_after 4)) = Ok (Use "rp") /\
  (e_clock cr_env (st_tick (f_col (a_fed (fst (gi_knock (gi_after 4)))))) < e_clock cr_env (st_tick (f_col (a_fed v_server))) + 86400 - e_delta cr_env)%Z.
Proof.
  split; [exact cr_shaky|]. split; [exact cr_forwards|]. split; [exact cr_checkable|]. split; [exact cr_acceptable|]. split.
  { intros v [<-|[<-|[<-|[<-|[<-|[]]]]]]; cbn; try exact I; (split; [|vm_compute; lia]).
    1-3: exists v_rp; split; [right; right; left; reflexivity|reflexivity].
    exists v_tmi. split; [right; left; reflexivity|reflexivity]. }
  do 2 (split; [vm_compute; reflexivity|]).
  split; [vm_compute; first [exact I | reflexivity]|].
  do 2 (split; [vm_compute; reflexivity|]).
  split; [vm_compute; first [exact I | reflexivity]|].
  split; [vm_compute; reflexivity|]. vm_compute. reflexivity.
Qed.
