(** Trust marks under attack (C147). *)
From Verif Require Import PyFacts CollectorProps FederationProps AttackMarkFacts AttackProps.

(** ** C147 *)

(** nobody but a member issues trust marks with its keys *)
Definition unforged (W : world) (issued : string -> tmark -> Prop) (a : mact) : Prop :=
  forall k p iss, shown a = Some (TMJws k p) -> dget "iss" p = Some (VStr iss) ->
    in_fed W iss = true -> key_of W iss k -> issued iss p.

(** as far as the statement [conf] goes, the owner of the trust mark has signed the delegation, or there is no owner *)
Definition delegation_ok (V : tmenv) (conf : stmt) (id d : string) : Prop := forall m fe owners info,
  s_metadata conf = Some m -> dget "federation_entity" m = Some fe ->
  dget "trust_mark_owners" fe = Some (VDict owners) -> dget id owners = Some (VDict info) ->
  exists jw keys k o, dget "jwks" info = Some jw /\ dget "sub" info = Some (VStr o) /\ tm_jwks V jw = Ok keys /\
    tm_deleg V d = Some (k, o) /\ In k keys.

Definition C147_full : Prop :=
  forall W issued E O fuel me jwks wta V ask acts t anchor s s' p,
  unforgeable W -> truthful W -> discreet W -> separate W -> exposed W E -> sound_own W O s ->
  (forall b, In b acts -> mact_from W b) -> unforged W issued (Check t anchor) ->
  mark_act E O fuel me jwks wta V ask (Check t anchor) (after_marks E O fuel me jwks wta V ask acts s) = (s', Ok (Some p)) ->
  exists iss, dget "iss" p = Some (VStr iss) /\ (in_fed W iss = true -> issued iss p) /\ (closed W -> in_fed W iss = true) /\
    forall id d, dget "id" p = Some (VStr id) -> dget "delegation" p = Some (VStr d) -> in_fed W anchor = true ->
      exists conf, said W anchor conf /\ delegation_ok V conf id d.

(** tmi takes part; the anchor has named own as the owner of the trust mark, but the network gives another configuration
    in the name of the anchor, which is not verified *)
Definition ta_false : stmt := mkStmt "ta" "ta" (Some 1000%Z) (Some [9])
  (Some [("federation_entity", [("federation_fetch_endpoint", VStr "ta/fetch");
      ("trust_mark_issuers", VDict [("owned", VList [VStr "tmi"])]);
      ("trust_mark_owners", VDict [("owned", VDict [("sub", VStr "tmi"); ("jwks", VInt 9)])])])])
  None None None.
Definition ta_said : stmt := mkStmt "ta" "tmi" (Some 900%Z) (Some [5])
  (Some [("federation_entity", [("trust_mark_owners", VDict [("owned", VDict [("sub", VStr "own"); ("jwks", VInt 8)])])])])
  None None None.
Definition spoofed_docs : dict token := [("tmi/wk", TJws 5 tmi_ec); ("ta/wk", TJws 9 ta_false)].
Definition spoofed_fetches : dict token := [("ta/fetch tmi", TJws 1 ta_said)].
Definition spoofed_env : cenv := ex_env spoofed_docs spoofed_fetches ["ta"].

Definition spoofed_world : world :=
  mkWorld (String.eqb "ta") (fun _ k => k = 1) (fun _ p => p = ta_ec \/ p = ta_said) (fun k => k = 5)
          (served spoofed_docs spoofed_fetches).

Definition spoof_tmenv : tmenv := mkTMEnv (fun _ _ => true)
  (fun v => match v with VInt z => Ok [Z.to_nat z] | _ => Err KeyError end)
  (fun d => if String.eqb d "self-made" then Some (9, "tmi") else None).

Definition self_delegated : tmark :=
  [("iss", VStr "tmi"); ("sub", VStr "rp"); ("id", VStr "owned"); ("iat", VInt 0); ("delegation", VStr "self-made")].

Lemma spoofed_unforgeable : unforgeable spoofed_world.
Proof.
  intros k p Hw Ei Hk. unfold spoofed_world, served in Hw. cbn [wire map snd app spoofed_docs spoofed_fetches] in Hw.
  repeat (destruct Hw as [Hw|Hw]; [injection Hw as <- <-; try discriminate Ei; try discriminate Hk; cbn; tauto|]).
  destruct Hw.
Qed.

Lemma spoofed_discreet : discreet spoofed_world.
Proof.
  intros k p Hw Ei Hk jw k' Ej Hk'. unfold spoofed_world, served in Hw. cbn [wire map snd app spoofed_docs spoofed_fetches] in Hw.
  repeat (destruct Hw as [Hw|Hw]; [injection Hw as <- <-; try discriminate Ei; injection Ej as <-; destruct Hk' as [<-|[]]; reflexivity|]).
  destruct Hw.
Qed.

Lemma only_ta_own W O : fair W "ta" 1 -> sound_own W O only_ta.
Proof.
  intros H. split; [|split].
  - intros e k (ks & Ek & Hk). simpl in Ek. destruct (String.eqb_spec e "ta") as [->|]; [|discriminate].
    injection Ek as <-. destruct Hk as [<-|[]]. exact H.
  - split; intros; discriminate.
  - intros; discriminate.
Qed.

Theorem C147_delegation_refuted : ~ C147_full.
Proof.
  intros H.
  assert (G : exists s', mark_act spoofed_env id_order 9 "me" VNull false spoof_tmenv (fun _ _ _ => Err KeyError)
                (Check (TMJws 5 self_delegated) "ta")
                (after_marks spoofed_env id_order 9 "me" VNull false spoof_tmenv (fun _ _ _ => Err KeyError) [] only_ta)
              = (s', Ok (Some self_delegated))).
  { eexists. vm_compute. reflexivity. }
  destruct G as [s' G].
  destruct (fun U T D S X I A N => H spoofed_world (fun _ _ => False) spoofed_env id_order 9 "me" VNull false spoof_tmenv
              (fun _ _ _ => Err KeyError) [] (TMJws 5 self_delegated) "ta" only_ta s' self_delegated U T D S X I A N G)
    as (iss & _ & _ & _ & Hd).
  - exact spoofed_unforgeable.
  - intros e p _ [->| ->] jw k [= <-] [<-|[]]; reflexivity.
  - exact spoofed_discreet.
  - intros e e' k H1 H2 Hi. unfold fair in *. rewrite Hi in H1. cbn [in_fed key_of loose spoofed_world] in H1, Hi, H2. apply String.eqb_eq in Hi. subst e.
    destruct (String.eqb_spec "ta" e') as [|N]; [assumption|]. subst k. discriminate.
  - apply served_exposed.
  - apply only_ta_own. reflexivity.
  - intros b [].
  - intros k p iss [= <- <-] [= <-] Hi. discriminate Hi.
  - destruct (Hd "owned" "self-made" eq_refl eq_refl eq_refl) as (conf & [->| ->] & Hok);
      destruct (Hok _ _ _ _ eq_refl eq_refl eq_refl eq_refl) as (jw & keys & k & o & _ & [= <-] & _ & Hk & _); discriminate.
Qed.

(** Missing: delegations, and participants that lie about the keys of members.  What holds otherwise, whatever comes in. *)
Theorem C147_issued_partial : forall W issued E O fuel me jwks wta V ask acts a s s' p,
  unforgeable W -> truthful W -> discreet W -> separate W -> exposed W E -> sound_own W O s ->
  (forall b, In b (a :: acts) -> mact_from W b) -> unforged W issued a ->
  mark_act E O fuel me jwks wta V ask a (after_marks E O fuel me jwks wta V ask acts s) = (s', Ok (Some p)) ->
  exists iss, dget "iss" p = Some (VStr iss) /\ (in_fed W iss = true -> issued iss p) /\ (closed W -> in_fed W iss = true).
Proof.
  intros W issued E O fuel me jwks wta V ask acts a s s' p U T D S X I A N H.
  assert (S' := after_marks_sound W E X U T D S O fuel V me jwks wta ask acts s (fun b Hb => A b (or_intror Hb)) I).
  destruct (k_mark_act W E X U T D S O fuel V me jwks wta ask a (A a (or_introl eq_refl)) _ S') as [_ G].
  rewrite H in G. destruct (G _ eq_refl p eq_refl) as (t & Ht & k & iss & -> & Ei & Hf).
  exists iss. split; [exact Ei|]. unfold fair in Hf. split.
  - intros Hi. rewrite Hi in Hf. exact (N k p iss Ht Ei Hi Hf).
  - intros C. destruct (in_fed W iss); [reflexivity|]. destruct (C k Hf).
Qed.

(** the chains of C146 are still made of genuine statements after trust marks have been looked at *)
Theorem C147_chains_partial : forall W E O fuel me jwks wta V ask acts a s s' cs c,
  unforgeable W -> truthful W -> discreet W -> separate W -> exposed W E -> sound_own W O s ->
  (forall b, In b acts -> mact_from W b) -> act_from W a ->
  perform E O fuel me jwks wta a (after_marks E O fuel me jwks wta V ask acts s) = (s', Ok cs) -> In c cs -> made_of W O c.
Proof.
  intros W E O fuel me jwks wta V ask acts a s s' cs c U T D S X I A Ha H Hc.
  assert (S' := after_marks_sound W E X U T D S O fuel V me jwks wta ask acts s A I).
  destruct (k_perform (self_made W) W E X (self_made_wire W) (self_made_mine W E) U T D O fuel me jwks wta a Ha _ S') as [_ G].
  rewrite H in G. exact (G cs eq_refl c Hc).
Qed.

(** tmi is a member; the network gives a configuration for the anchor that is not by it, and ev makes marks in the name
    of tmi.  These are refused, also after chains for ev were looked for; the mark by tmi is accepted *)
Definition tmi_docs : dict token :=
  [("tmi/wk", TJws 5 tmi_ec); ("ta/wk", TJws 9 ta_false); ("ev/wk", TJws 9 (ec "ev" 9 1000 (Some ["ta"])))].
Definition tmi_fetches : dict token := [("ta/fetch tmi", TJws 1 ta_said); ("ta/fetch ev", TJws 9 (est "ta" "ev" 900 [9]))].
Definition tmi_env : cenv := ex_env tmi_docs tmi_fetches ["ta"].
Definition tmi_world : world :=
  mkWorld (fun e => smem e ["ta"; "tmi"]) (fun e k => k = if String.eqb e "ta" then 1 else 5)
          (fun e p => In p [ta_ec; ta_said; tmi_ec]) (fun _ => False) (served tmi_docs tmi_fetches).
Definition tmi_issued (e : string) (p : tmark) : Prop := p = a_mark [].
Definition no_status : string -> string -> string -> res (dict val) := fun _ _ _ => Err KeyError.

Example C147_ex : unforgeable tmi_world /\ truthful tmi_world /\ discreet tmi_world /\ separate tmi_world /\ closed tmi_world /\
  exposed tmi_world tmi_env /\ sound_own tmi_world id_order only_ta /\
  unforged tmi_world tmi_issued (Verify (TMJws 5 (a_mark [])) false) /\
  let acts := [Fed (Find "ev"); Check (TMJws 9 (a_mark [])) "ta"; Verify (TMJws 9 (a_mark [])) false] in
  (exists s', mark_act tmi_env id_order 9 "me" VNull false ex_tmenv no_status (Verify (TMJws 5 (a_mark [])) false)
                (after_marks tmi_env id_order 9 "me" VNull false ex_tmenv no_status acts only_ta) = (s', Ok (Some (a_mark [])))) /\
  snd (mark_act tmi_env id_order 9 "me" VNull false ex_tmenv no_status (Check (TMJws 9 (a_mark [])) "ta")
         (after_marks tmi_env id_order 9 "me" VNull false ex_tmenv no_status acts only_ta)) = Ok None.
Proof.
  split; [|split; [|split; [|split; [|split; [|split; [|split; [|split]]]]]]].
  - intros k p Hw Ei Hk. unfold tmi_world, served in Hw. cbn [wire map snd app tmi_docs tmi_fetches] in Hw.
    repeat (destruct Hw as [Hw|Hw]; [injection Hw as <- <-; try discriminate Ei; try discriminate Hk; cbn; tauto|]).
    destruct Hw.
  - intros e p _ Hs jw k Ej Hk. cbn [said tmi_world] in Hs.
    repeat (destruct Hs as [<-|Hs]; [injection Ej as <-; destruct Hk as [<-|[]]; reflexivity|]). destruct Hs.
  - intros k p _ _ [].
  - intros e e' k H1 H2 Hi. unfold fair in *. rewrite Hi in H1.
    destruct (in_fed tmi_world e') eqn:Hi'; [|destruct H2]. cbn [key_of tmi_world] in *.
    cbn [in_fed tmi_world smem existsb] in Hi, Hi'.
    destruct (String.eqb_spec e "ta") as [->|N1]; destruct (String.eqb_spec e' "ta") as [->|N2]; try congruence; try (subst; discriminate).
    rewrite !orb_false_r in Hi, Hi'. cbn in Hi, Hi'. apply String.eqb_eq in Hi, Hi'. congruence.
  - intros k [].
  - apply served_exposed.
  - apply only_ta_own. reflexivity.
  - intros k p iss [= _ <-] _ _ _. reflexivity.
  - split; [eexists|]; vm_compute; reflexivity.
Qed.

Print Assumptions C147_delegation_refuted.
Print Assumptions C147_issued_partial.
Print Assumptions C147_chains_partial.
