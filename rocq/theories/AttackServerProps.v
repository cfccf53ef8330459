(** Registrations under attack (C148). *)
From Verif Require Import PyFacts CollectorProps FederationProps RegistrationFacts RegistrationProps AttackProps AttackServerFacts.

(** ** C148 *)

(** the absence of keys gives no keys *)
Definition no_keys_in_nothing (R : reg_env) : Prop := forall ks, ks_jwks (rg_keys R) VNull = Ok ks -> ks = [].
Definition claims_passed_on (R : reg_env) : Prop := forall x, In x ["jwks"; "jwks_uri"; "redirect_uris"] -> passed_on R x.

Definition C148_full : Prop := forall W E O fuel me jwks wta R prio acts s,
  unforgeable W -> truthful W -> discreet W -> exposed W E -> no_keys_in_nothing R -> claims_passed_on R ->
  (forall a, In a acts -> sact_from W a) -> sound W O (a_fed s) -> clients_genuine W O R (a_reg s) ->
  clients_genuine W O R (a_reg (after_served E O fuel me jwks wta R prio acts s)).

(** a federation of ta and rp, whose metadata have its key and redirect URI *)
Definition rp_with (k : key) (uri : string) : stmt := mkStmt "rp" "rp" (Some 1000%Z) (Some [k])
  (Some [("openid_relying_party", [("jwks", VInt (Z.of_nat k)); ("redirect_uris", VList [VStr uri])])]) None None (Some ["ta"]).
Definition web_docs : dict token := [("rp/wk", TJws 3 (rp_with 3 "https://rp/cb")); ("ta/wk", TJws 1 (ec "ta" 1 1000 None))].
Definition web_fetches : dict token := [("ta/fetch rp", TJws 1 (est "ta" "rp" 900 [3]))].
Definition web_env : cenv := ex_env web_docs web_fetches ["ta"].

(** a configuration of rp, made by somebody else *)
Definition stolen : token := TJws 9 (rp_with 9 "https://ev/cb").

Definition web_world : world :=
  mkWorld (fun e => smem e ["ta"; "rp"]) (fun e k => k = if String.eqb e "ta" then 1 else 3)
          (fun _ p => In p [rp_with 3 "https://rp/cb"; ec "ta" 1 1000 None; est "ta" "rp" 900 [3]]) (fun _ => False)
          (fun t => t = stolen \/ served web_docs web_fetches t).

Definition web_reg : reg_env := mkRegEnv
  (mkSources (fun _ => []) (fun v => match v with VInt z => Ok [Z.to_nat z] | _ => Err KeyError end))
  (fun _ => mkUrl "https" "h" "" "") (fun u => (u, VNull)) (fun _ _ => true) (fun u => VStr u)
  (fun _ => true) (fun _ => false) [] [] [] ["client_id"; "redirect_uris"] (fun d => d) (fun _ => true)
  (fun reserved => "client1") "salt" (fun _ => "secret") (VBool true) 86400 1000.

Definition web_start : astate := mkA only_ta (mkRState [] []).

Lemma web_unforgeable : unforgeable web_world.
Proof.
  intros k p Hw Ei Hk. unfold web_world, served, stolen in Hw. cbn [wire map snd app web_docs web_fetches] in Hw.
  destruct Hw as [Hw|Hw]; [injection Hw as -> ->; discriminate Hk|].
  repeat (destruct Hw as [Hw|Hw]; [injection Hw as <- <-; try discriminate Ei; try discriminate Hk; cbn; tauto|]).
  destruct Hw.
Qed.

Lemma web_truthful : truthful web_world.
Proof.
  intros e p _ Hs jw k Ej Hk. cbn [said web_world] in Hs.
  repeat (destruct Hs as [<-|Hs]; [injection Ej as <-; destruct Hk as [<-|[]]; reflexivity|]). destruct Hs.
Qed.

Lemma web_closed : closed web_world.
Proof. intros k []. Qed.

Lemma web_exposed : exposed web_world web_env.
Proof. intros n q t H. right. exact (served_exposed (fun _ => true) (fun _ _ => True) (fun _ _ => True) (fun _ => True) web_docs web_fetches ["ta"] n q t H). Qed.

Lemma only_ta_sound W O : fair W "ta" 1 -> sound W O only_ta.
Proof.
  intros H. split; [|split].
  - intros e k (ks & Ek & Hk). simpl in Ek. destruct (String.eqb_spec e "ta") as [->|]; [|discriminate].
    injection Ek as <-. destruct Hk as [<-|[]]. exact H.
  - split; intros; discriminate.
  - intros; discriminate.
Qed.

Lemma web_passes : claims_passed_on web_reg.
Proof. intros x _. reflexivity. Qed.

Lemma web_nothing : no_keys_in_nothing web_reg.
Proof. intros ks H. discriminate. Qed.

Lemma nobody_genuine W O R : clients_genuine W O R (mkRState [] []).
Proof. split; cbn; [intros id k []|intros id ci v H; discriminate]. Qed.

(** anybody can register a member with keys and redirect URIs of their own *)
Theorem C148_stolen_refuted : ~ C148_full.
Proof.
  intros H.
  destruct (H web_world web_env id_order 9 "op" VNull false web_reg [] [ExplicitOIDC stolen] web_start) as [K _].
  - exact web_unforgeable.
  - exact web_truthful.
  - intros k p _ _ [].
  - exact web_exposed.
  - exact web_nothing.
  - exact web_passes.
  - intros a [<-|[]]. left. reflexivity.
  - apply only_ta_sound. reflexivity.
  - apply nobody_genuine.
  - assert (G : In (KPub 9) (ckeys_of (r_keys (a_reg (after_served web_env id_order 9 "op" VNull false web_reg [] [ExplicitOIDC stolen] web_start))) "rp")).
    { vm_compute. auto. }
    destruct (K _ _ G) as (md & (c & ty & (tc & p & l & Ev & Ei & Ha & Hg) & Hmd) & Hk). clear K G H.
    set (P := fun e : string * val => (fst e = "jwks" -> snd e = VInt 3) /\ forall d, snd e <> VDict d).
    assert (N : forall q, In q (tc_verified tc) -> plain_stmt P q).
    { rewrite Ev. intros q Hq. destruct (Hg q Hq) as [G1 G2]. destruct (G1 (G2 web_closed)) as [<-|[<-|[<-|[]]]]; (split; [reflexivity|]);
        intros m t md' [= <-] Hd; cbn in Hd; (destruct (String.eqb t _); [|discriminate]); injection Hd as <-;
        repeat constructor; cbn; intros; try reflexivity; discriminate. }
    apply (applied_plain P) in Ha; [|exact N].
    assert (F : Forall P md).
    { unfold chain_metadata in Hmd. destruct (ch_md c) as [d|m]; cbn in Ha.
      - apply bind_ok in Hmd. destruct Hmd as (o & Ho & Hmd). apply dindex_ok in Ho. destruct o as [md'|]; [|discriminate].
        injection Hmd as <-. exact (Ha _ _ Ho).
      - apply bind_ok in Hmd. destruct Hmd as (v & Hv & Hmd). apply dindex_ok in Hv. apply dget_In in Hv. rewrite Forall_forall in Ha.
        destruct (Ha _ Hv) as [_ A]. destruct v; try discriminate. destruct (A _ eq_refl). }
    rewrite Forall_forall in F. destruct Hk as (v & [[_ []]|(Hv & ks & Ek & Hk)]). destruct (F _ Hv) as [A _]. specialize (A eq_refl).
    cbn [snd] in A. subst v. injection Ek as <-. destruct Hk as [Hk|[]]. discriminate Hk.
Qed.
Print Assumptions C148_stolen_refuted.

(** Without explicit OIDC registration requests: whatever the server is asked and the network answers, the keys and redirect URIs
    of its clients are out of metadata of chains that are made of genuine statements. *)
Theorem C148_genuine_partial : forall W E O fuel me jwks wta R prio acts s,
  unforgeable W -> truthful W -> discreet W -> exposed W E -> no_keys_in_nothing R -> claims_passed_on R ->
  (forall a, In a acts -> sact_from W a) -> (forall t, ~ In (ExplicitOIDC t) acts) ->
  sound W O (a_fed s) -> clients_genuine W O R (a_reg s) ->
  clients_genuine W O R (a_reg (after_served E O fuel me jwks wta R prio acts s)).
Proof.
  intros W E O fuel me jwks wta R prio acts s U TR D HE Hn Hp Ha Hx S G.
  exact (proj2 (after_served_genuine W E HE U TR D O fuel R prio Hn Hp me jwks wta acts s Ha Hx (conj S G))).
Qed.
Print Assumptions C148_genuine_partial.

(** Where all keys of members stay with them, nobody can register a client with a key that no member has said: the metadata with the key
    are made from the statements of a chain that are all said by their issuers, which all are members. *)
Theorem C148_closed_partial : forall W E O fuel me jwks wta R prio acts s,
  unforgeable W -> truthful W -> closed W -> exposed W E -> no_keys_in_nothing R -> claims_passed_on R ->
  (forall a, In a acts -> sact_from W a) -> (forall t, ~ In (ExplicitOIDC t) acts) ->
  sound W O (a_fed s) -> clients_genuine W O R (a_reg s) ->
  forall id k, In (KPub k) (ckeys_of (r_keys (a_reg (after_served E O fuel me jwks wta R prio acts s))) id) ->
  exists c ty md tc, chain_metadata c ty = Ok md /\ key_in (rg_keys R) md k /\ apply_to_chain O tc = Ok c /\
    forall q, In q (tc_verified tc) -> said W (s_iss q) q.
Proof.
  intros W E O fuel me jwks wta R prio acts s U TR C HE Hn Hp Ha Hx S G id k Hk.
  assert (D : discreet W) by (intros x p _ _ Hc; destruct (C x Hc)).
  destruct (proj1 (C148_genuine_partial W E O fuel me jwks wta R prio acts s U TR D HE Hn Hp Ha Hx S G) id k Hk)
    as (md & (c & ty & (tc & p & l & Ev & Ei & Hap & Hg) & Hmd) & Hin).
  exists c, ty, md, tc. split; [exact Hmd|]. split; [exact Hin|]. split; [exact Hap|].
  rewrite Ev. intros q Hq. destruct (Hg q Hq) as [G1 G2]. exact (G1 (G2 C)).
Qed.
Print Assumptions C148_closed_partial.

(** the stolen configuration brings nothing as a chain provided by the client, and rp is registered with its own key and URI *)
Definition web_acts : list sact := [Authorize OIDC true true "rp" [stolen; stolen]; ExplicitOAuth stolen; Authorize OIDC true true "rp" []].
Example C148_ex :
  (forall a, In a web_acts -> sact_from web_world a) /\ (forall t, ~ In (ExplicitOIDC t) web_acts) /\
  let r := a_reg (after_served web_env id_order 9 "op" VNull false web_reg [] web_acts web_start) in
  ckeys_of (r_keys r) "rp" = [KPub 3] /\
  match dget "rp" (r_cdb r) with Some ci => dget "redirect_uris" ci | None => None end = Some (VList [VList [VStr "https://rp/cb"; VDict []]]).
Proof.
  split; [|split].
  - intros a [<-|[<-|[<-|[]]]]; cbn; [intros t [<-|[<-|[]]]; auto|auto|intros t []].
  - intros t [H|[H|[H|[]]]]; discriminate.
  - split; vm_compute; reflexivity.
Qed.
