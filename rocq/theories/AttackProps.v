(** Trust chains under attack (C146). *)
From Verif Require Import PyFacts CollectorProps FederationProps AttackFacts.

(** ** C146 *)

Definition C146_full : Prop := forall W E O fuel me jwks wta acts a s s' cs c,
  unforgeable W -> truthful W -> exposed W E -> sound W O s ->
  (forall b, In b (a :: acts) -> act_from W b) ->
  perform E O fuel me jwks wta a (after E O fuel me jwks wta acts s) = (s', Ok cs) -> In c cs -> made_of W O c.

(** Networks that answer with fixed documents *)
Definition served (docs fetches : dict token) (t : token) : Prop := In t (map snd (docs ++ fetches)).

Lemma served_exposed M K S L docs fetches anchors :
  exposed (mkWorld M K S L (served docs fetches)) (ex_env docs fetches anchors).
Proof.
  assert (G : forall (d : dict token) k t, dget k d = Some t -> In t (map snd d)).
  { intros d k t H. apply dget_In in H. apply in_map_iff. exists (k, t). auto. }
  intros n q t. cbn [e_net ex_env]. unfold static_net. cbn [wire]. unfold served. rewrite map_app. intros H.
  apply in_or_app. destruct q as [u|ep i sub].
  - destruct (dget u docs) as [t'|] eqn:Ed; [|discriminate]. injection H as <-. left. exact (G _ _ _ Ed).
  - destruct (dget _ fetches) as [t'|] eqn:Ed; [|discriminate]. injection H as <-. right. exact (G _ _ _ Ed).
Qed.

(** bad is registered with the trust anchor.  x and y are made up by bad; when it is asked about x it talks about the
    trust anchor, and when it is asked about y it hands out a statement in the name of the anchor *)
Definition insider_docs : dict token :=
  [("x/wk", TJws 6 (ec "x" 6 1000 (Some ["bad"]))); ("y/wk", TJws 6 (ec "y" 6 1000 (Some ["bad"])));
   ("bad/wk", TJws 5 (ec "bad" 5 1000 (Some ["ta"]))); ("ta/wk", TJws 1 (ec "ta" 1 1000 None))].
Definition insider_fetches : dict token :=
  [("bad/fetch x", TJws 5 (est "bad" "ta" 900 [6])); ("bad/fetch y", TJws 6 (est "ta" "y" 900 [6]));
   ("ta/fetch bad", TJws 1 (est "ta" "bad" 900 [5]))].
Definition insider_env : cenv := ex_env insider_docs insider_fetches ["ta"].

Definition insider_world : world :=
  mkWorld (String.eqb "ta") (fun _ k => k = 1)
          (fun _ p => p = ec "ta" 1 1000 None \/ p = est "ta" "bad" 900 [5]) (fun k => k = 5)
          (served insider_docs insider_fetches).

(** a registered entity makes itself keys for the trust anchor; the statements of the anchor itself are
    all as they should be, and nobody interferes with the requests to others *)
Theorem C146_insider_refuted : ~ C146_full.
Proof.
  intros H.
  assert (G : exists s' c, perform insider_env id_order 9 "me" VNull false (Find "y")
                (after insider_env id_order 9 "me" VNull false [Find "x"] only_ta) = (s', Ok [c]) /\
              map s_iss (ch_verified c) = ["ta"; "ta"; "y"] /\ map s_sub (ch_verified c) = ["bad"; "y"; "y"]).
  { eexists. eexists. split; [vm_compute; reflexivity|]. split; reflexivity. }
  destruct G as (s' & c & G & Ei & Es).
  destruct (fun U T X S A => H insider_world insider_env id_order 9 "me" VNull false [Find "x"] (Find "y") only_ta
              s' [c] c U T X S A G (or_introl eq_refl)) as (tc & p & l & Ev & _ & Ha & Hg).
  - intros k p Hw Ei' Hk. unfold insider_world, served in Hw. cbn [wire map snd app insider_docs insider_fetches] in Hw. cbn [said insider_world].
    repeat (destruct Hw as [Hw|Hw]; [injection Hw as <- <-; try discriminate Ei'; try discriminate Hk; auto|]).
    destruct Hw.
  - intros e p _ [->| ->] jw k [= <-] [<-|[]]; reflexivity.
  - apply served_exposed.
  - split; [|split].
    + intros e k (ks & Ek & Hk). simpl in Ek. destruct (String.eqb_spec e "ta") as [->|]; [|discriminate].
      injection Ek as <-. destruct Hk as [<-|[]]. reflexivity.
    + split; intros; discriminate.
    + intros; discriminate.
  - intros b [<-|[<-|[]]]; exact Logic.I.
  - apply apply_keeps in Ha. destruct Ha as (_ & _ & _ & _ & A5 & A6).
    rewrite Ei, Ev in A5. rewrite Es, Ev in A6. destruct l as [|q [|r l]]; [discriminate A5|discriminate A5|].
    cbn [map] in A5, A6. injection A5 as Hp Hq Hr _. injection A6 as Gp Gq Gr _.
    destruct (Hg q (or_intror (or_introl eq_refl))) as [Hs _]. rewrite <- Hq in Hs.
    destruct (Hs eq_refl) as [->| ->]; discriminate Gq.
Qed.

(** Missing: participants that lie about the keys of members.  What holds otherwise, whatever else comes in over the
    network or is provided, and whatever else was done before. *)
Theorem C146_genuine_partial : forall W E O fuel me jwks wta acts a s s' cs c,
  unforgeable W -> truthful W -> discreet W -> exposed W E -> sound W O s ->
  (forall b, In b (a :: acts) -> act_from W b) ->
  perform E O fuel me jwks wta a (after E O fuel me jwks wta acts s) = (s', Ok cs) -> In c cs -> made_of W O c.
Proof.
  intros W E O fuel me jwks wta acts a s s' cs c U T D X S A H Hc.
  assert (S' : sound W O (after E O fuel me jwks wta acts s)).
  { apply (after_sound (wire W) W E X (fun t h => h) (fun n t tp h _ => h) U T D). - intros b Hb. apply A. right. exact Hb. - exact S. }
  destruct (k_perform (wire W) W E X (fun t h => h) (fun n t tp h _ => h) U T D O fuel me jwks wta a (A a (or_introl eq_refl)) _ S') as [_ G].
  rewrite H in G. exact (G cs eq_refl c Hc).
Qed.

(** An attacker who only controls the network, in a federation all of whose participants can be relied on *)
Theorem C146_network_attacker : forall W E O fuel me jwks wta acts a s s' cs c,
  unforgeable W -> truthful W -> closed W -> exposed W E -> sound W O s ->
  (forall b, In b (a :: acts) -> act_from W b) ->
  perform E O fuel me jwks wta a (after E O fuel me jwks wta acts s) = (s', Ok cs) -> In c cs ->
  exists tc p l, tc_verified tc = p :: l /\ s_iss p = ch_anchor c /\ apply_to_chain O tc = Ok c /\
    forall q, In q (p :: l) -> in_fed W (s_iss q) = true /\ said W (s_iss q) q.
Proof.
  intros W E O fuel me jwks wta acts a s s' cs c U T C X S A H Hc.
  assert (D : discreet W). { intros k p _ _ Hl. destruct (C k Hl). }
  destruct (C146_genuine_partial W E O fuel me jwks wta acts a s s' cs c U T D X S A H Hc) as (tc & p & l & H1 & H2 & H3 & H4).
  exists tc, p, l. repeat (split; [assumption|]). intros q Hq. destruct (H4 q Hq) as [G1 G2].
  split; [exact (G2 C)|exact (G1 (G2 C))].
Qed.

Definition right_key (e : string) : key := if String.eqb e "ta" then 1 else if String.eqb e "im" then 2 else 3.

(** The chains found for an entity are about that entity: not so, even where all participants can be relied on *)
Definition C146_attributed : Prop := forall W E O fuel me jwks wta acts id s s' cs c,
  unforgeable W -> truthful W -> closed W -> exposed W E -> sound W O s -> (forall b, In b acts -> act_from W b) ->
  perform E O fuel me jwks wta (Find id) (after E O fuel me jwks wta acts s) = (s', Ok cs) -> In c cs ->
  exists l q, ch_verified c = l ++ [q] /\ s_sub q = id.

(** whoever asks for rp is given what members have said about im *)
Definition swapped_docs : dict token := [("rp/wk", TJws 2 (ec "im" 2 1000 (Some ["ta"]))); ("ta/wk", TJws 1 (ec "ta" 1 1000 None))].
Definition swapped_fetches : dict token := [("ta/fetch rp", TJws 1 (est "ta" "im" 800 [2]))].
Definition swapped_world : world :=
  mkWorld (fun e => smem e ["ta"; "im"; "rp"]) (fun e k => k = right_key e)
          (fun e p => In p [ec "rp" 3 1000 (Some ["im"]); ec "im" 2 1000 (Some ["ta"]); ec "ta" 1 1000 None;
                            est "im" "rp" 900 [3]; est "ta" "im" 800 [2]]) (fun _ => False)
          (served swapped_docs swapped_fetches).

Theorem C146_swapped_refuted : ~ C146_attributed.
Proof.
  intros H.
  assert (G : exists s' c, perform (ex_env swapped_docs swapped_fetches ["ta"]) id_order 9 "me" VNull false (Find "rp") only_ta = (s', Ok [c]) /\
              map s_sub (ch_verified c) = ["im"; "im"]).
  { eexists. eexists. split; [vm_compute; reflexivity|]. reflexivity. }
  destruct G as (s' & c & G & Es).
  destruct (fun U T C X S A => H swapped_world (ex_env swapped_docs swapped_fetches ["ta"]) id_order 9 "me" VNull false [] "rp" only_ta
              s' [c] c U T C X S A G (or_introl eq_refl)) as (l & q & Ev & Hq).
  - intros k p Hw Ei Hk. unfold swapped_world, served in Hw. cbn [wire map snd app swapped_docs swapped_fetches] in Hw.
    repeat (destruct Hw as [Hw|Hw]; [injection Hw as <- <-; cbn; tauto|]). destruct Hw.
  - intros e p _ Hs jw k Ej Hk. cbn [said swapped_world] in Hs.
    repeat (destruct Hs as [<-|Hs]; [injection Ej as <-; destruct Hk as [<-|[]]; reflexivity|]). destruct Hs.
  - intros k [].
  - apply served_exposed.
  - split; [|split].
    + intros e k (ks & Ek & Hk). simpl in Ek. destruct (String.eqb_spec e "ta") as [->|]; [|discriminate].
      injection Ek as <-. destruct Hk as [<-|[]]. reflexivity.
    + split; intros; discriminate.
    + intros; discriminate.
  - intros b [].
  - rewrite Ev, map_app in Es. cbn [map] in Es. rewrite Hq in Es. destruct l as [|x [|y l]]; try discriminate Es.
    destruct l; discriminate Es.
Qed.

(** The metadata given for an entity and the answers of a resolver, at any time *)
Theorem C146_metadata_partial : forall W E O fuel me jwks wta acts s s' id m,
  unforgeable W -> truthful W -> discreet W -> exposed W E -> sound W O s -> (forall b, In b acts -> act_from W b) ->
  get_verified_metadata E O fuel id (after E O fuel me jwks wta acts s) = (s', Ok (Some m)) ->
  exists c, made_of W O c /\ ch_md c = m.
Proof.
  intros W E O fuel me jwks wta acts s s' id m U T D X S A H.
  assert (S' := after_sound (wire W) W E X (fun t h => h) (fun n t tp h _ => h) U T D O fuel me jwks wta acts s A S).
  destruct (k_get_metadata (wire W) W E X (fun t h => h) (fun n t tp h _ => h) U T D O fuel id _ S') as [_ G]. rewrite H in G. exact (G _ eq_refl m eq_refl).
Qed.

Theorem C146_resolver_partial : forall W E O fuel me jwks wta acts s s' q resp,
  unforgeable W -> truthful W -> discreet W -> exposed W E -> sound W O s -> (forall b, In b acts -> act_from W b) ->
  resolve E O fuel me jwks wta q (after E O fuel me jwks wta acts s) = (s', Ok resp) ->
  exists a sub c md n, rq_anchor q = Some a /\ rq_sub q = Some sub /\ made_of W O c /\ ch_anchor c = a /\
    ResolveFacts.asked_for (ch_md c) (rq_type q) md /\
    create_entity_statement n me sub jwks [("metadata", md)] = Ok (rr_claims resp).
Proof.
  intros W E O fuel me jwks wta acts s s' q resp U T D X S A H.
  assert (S' := after_sound (wire W) W E X (fun t h => h) (fun n t tp h _ => h) U T D O fuel me jwks wta acts s A S).
  destruct (k_resolve (wire W) W E X (fun t h => h) (fun n t tp h _ => h) U T D O fuel me jwks wta q _ S') as [_ G]. rewrite H in G. exact (G _ eq_refl).
Qed.

(** The attacker has key 9, answers for ev and provides chains in the name of the anchor; ev is refused, and rp found *)
Definition attacked_docs : dict token :=
  [("rp/wk", TJws 3 (ec "rp" 3 1000 (Some ["im"]))); ("im/wk", TJws 2 (ec "im" 2 1000 (Some ["ta"])));
   ("ta/wk", TJws 1 (ec "ta" 1 1000 None)); ("ev/wk", TJws 9 (ec "ev" 9 1000 (Some ["ta"])))].
Definition attacked_fetches : dict token :=
  [("im/fetch rp", TJws 2 (est "im" "rp" 900 [3])); ("ta/fetch im", TJws 1 (est "ta" "im" 800 [2]));
   ("ta/fetch ev", TJws 9 (est "ta" "ev" 900 [9]))].
Definition attacked_env : cenv := ex_env attacked_docs attacked_fetches ["ta"].

Definition attacked_world : world :=
  mkWorld (fun e => smem e ["ta"; "im"; "rp"]) (fun e k => k = right_key e)
          (fun e p => In p [ec "rp" 3 1000 (Some ["im"]); ec "im" 2 1000 (Some ["ta"]); ec "ta" 1 1000 None;
                            est "im" "rp" 900 [3]; est "ta" "im" 800 [2]]) (fun _ => False)
          (served attacked_docs attacked_fetches).

Definition attacks : list act :=
  [Find "ev"; Provided [TJws 9 (est "ta" "ev" 900 [9]); TJws 9 (ec "ev" 9 1000 (Some ["ta"]))];
   Resolve (mkRreq (Some "ta") (Some "rp") None); Lookup "ev"].

Lemma attacked_unforgeable : unforgeable attacked_world.
Proof.
  intros k p Hw Ei Hk. unfold attacked_world, served in Hw. cbn [wire map snd app attacked_docs attacked_fetches] in Hw.
  repeat (destruct Hw as [Hw|Hw]; [injection Hw as <- <-; try discriminate Ei; try discriminate Hk; cbn; tauto|]).
  destruct Hw.
Qed.

Lemma attacked_truthful : truthful attacked_world.
Proof.
  intros e p _ Hs jw k Ej Hk. unfold attacked_world in Hs. cbn [said] in Hs.
  repeat (destruct Hs as [<-|Hs]; [injection Ej as <-; destruct Hk as [<-|[]]; reflexivity|]). destruct Hs.
Qed.

Lemma attacked_sound O : sound attacked_world O only_ta.
Proof.
  split; [|split].
  - intros e k (ks & Ek & Hk). simpl in Ek. destruct (String.eqb_spec e "ta") as [->|]; [|discriminate].
    injection Ek as <-. destruct Hk as [<-|[]]. reflexivity.
  - split; intros; discriminate.
  - intros; discriminate.
Qed.

Example C146_ex : unforgeable attacked_world /\ truthful attacked_world /\ closed attacked_world /\
  exposed attacked_world attacked_env /\ sound attacked_world id_order only_ta /\
  (forall b, In b (Find "rp" :: attacks) -> act_from attacked_world b) /\
  snd (perform attacked_env id_order 9 "me" VNull false (Find "ev") only_ta) = Err BadSignature /\
  exists s' c, perform attacked_env id_order 9 "me" VNull false (Find "rp")
                 (after attacked_env id_order 9 "me" VNull false attacks only_ta) = (s', Ok [c]) /\
    map s_iss (ch_verified c) = ["ta"; "im"; "rp"].
Proof.
  split; [exact attacked_unforgeable|]. split; [exact attacked_truthful|]. split; [intros k []|].
  split; [apply served_exposed|]. split; [apply attacked_sound|]. split.
  { intros b [<-|[<-|[<-|[<-|[<-|[]]]]]]; try exact Logic.I. intros t [<-|[<-|[]]]; cbn; tauto. }
  split; [vm_compute; reflexivity|].
  eexists. eexists. split; [vm_compute; reflexivity|reflexivity].
Qed.

Print Assumptions C146_insider_refuted.
Print Assumptions C146_swapped_refuted.
Print Assumptions C146_genuine_partial.
Print Assumptions C146_network_attacker.
Print Assumptions C146_metadata_partial.
Print Assumptions C146_resolver_partial.
