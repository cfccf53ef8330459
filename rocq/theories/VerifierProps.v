(** Properties C23-C30: verification of trust chains. *)
From Verif Require Import VerifierFacts.
From Coq Require Import Lia.

(** ** The federation the examples use: every entity has the key jar entry shown *)

Definition any_lib : keyjar_lib := mkLib (fun _ _ => true) true (fun _ _ => true).

Definition es (iss sub : string) (exp : Z) (jw : option (list key)) : stmt :=
  mkStmt iss sub (Some exp) jw None None None None.

(** ta (key 1) about im (key 2), im about rp (key 3), rp about itself *)
Definition ex_jar : keyjar := [("ta", [1])].
Definition ex_tokens : list token :=
  [TJws 1 (es "ta" "im" 300 (Some [2])); TJws 2 (es "im" "rp" 200 (Some [3]));
   TJws 3 (es "rp" "rp" 400 None)].
Definition ex_ves : list stmt := map snd (jws ex_tokens).

Lemma ex_verified : verified any_lib ex_jar ex_tokens ex_ves.
Proof. split; [reflexivity|discriminate]. Qed.

(** ** C23 *)

Theorem C23_only_properly_signed : forall L kj ts ves,
  verified L kj ts ves -> ves = map snd (jws ts) /\ properly_signed kj (jws ts).
Proof. intros L kj ts ves H. apply verified_iff in H. tauto. Qed.

(** exactly which lists of tokens verify *)
Theorem C23_accepted_exactly : forall L kj ts ves,
  verified L kj ts ves <->
  (exists k p ts', ts = TJws k p :: ts') /\ ves = map snd (jws ts) /\
  properly_signed kj (jws ts) /\ picked L (jws ts) /\ jwks_ok 0 (length ts - 1) (jws ts) /\
  accepted ves.
Proof. exact verified_iff. Qed.

Example C23_ex : verified any_lib ex_jar ex_tokens ex_ves /\ length ex_ves = 3 /\
  ~ verified any_lib ex_jar [TJws 1 (es "ta" "im" 300 (Some [2])); TJws 3 (es "im" "rp" 200 (Some [3]));
                             TJws 3 (es "rp" "rp" 400 None)] ex_ves.
Proof. split; [exact ex_verified|]. split; [reflexivity|]. intros [H _]. discriminate. Qed.

(** ** C24 *)

Theorem C24_keys_traceable : forall L calls kj e k,
  holds (after_calls L kj calls) e k -> traceable kj (flat_map jws calls) e k.
Proof. exact history_traceable. Qed.

Example C24_ex : holds (after_calls any_lib ex_jar [ex_tokens; [TJws 9 (es "ta" "x" 1 (Some [8]))];
                                                    [TJws 2 (es "im" "op" 200 (Some [4]))]]) "op" 4 /\
  ~ holds (after_calls any_lib ex_jar [[TJws 9 (es "ta" "x" 1 (Some [8]))]]) "x" 8.
Proof.
  split; [exists [4]; split; [reflexivity|left; reflexivity]|].
  intros (l & E & _). discriminate.
Qed.

(** ** C25 *)

Theorem C25_keys_stay : forall L kj ts e k,
  holds kj e k -> holds (fst (verifier_call L kj ts)) e k.
Proof. exact holds_after_step. Qed.

Theorem C25_keys_stay_over_histories : forall L calls kj e,
  (forall k, holds kj e k -> holds (after_calls L kj calls) e k) /\
  (known kj e -> known (after_calls L kj calls) e).
Proof. intros L calls kj e. split; [intros k; apply holds_after|apply known_after]. Qed.

Example C25_ex : holds ex_jar "ta" 1 /\
  snd (verifier_call any_lib ex_jar [TJws 1 (es "ta" "ta" 300 (Some [7])); TJws 5 (es "ta" "x" 1 None)])
  = Err BadSignature.
Proof. split; [exists [1]; split; [reflexivity|left; reflexivity]|reflexivity]. Qed.

(** ** C26 *)

Definition C26_full : Prop := forall L kj calls ts s l,
  verified L (after_calls L kj calls) ts (s :: l) -> known kj (s_iss s).

(** after one chain through im has been verified, im is accepted as a trust anchor *)
Theorem C26_first_issuer_configured_refuted : ~ C26_full.
Proof.
  intros H.
  destruct (H any_lib ex_jar [ex_tokens]
             [TJws 2 (es "im" "evil" 300 (Some [6])); TJws 6 (es "evil" "evil" 300 None)]
             (es "im" "evil" 300 (Some [6])) [es "evil" "evil" 300 None]) as [l E].
  - split; [reflexivity|discriminate].
  - discriminate.
Qed.

(** Missing: that the first issuer is itself configured after the first call.  What holds: it is on the
    first call, and in every history its key is traceable to the configured keys. *)
Theorem C26_first_issuer_configured_partial : forall L kj calls ts s l,
  verified L (after_calls L kj calls) ts (s :: l) ->
  (calls = [] -> known kj (s_iss s)) /\
  exists k ts', ts = TJws k s :: ts' /\ traceable kj (flat_map jws calls) (s_iss s) k.
Proof.
  intros L kj calls ts s l H. apply verified_iff in H.
  destruct H as ((k & p & ts' & ->) & E & Hs & _). cbn [jws map snd] in E. injection E as -> _.
  destruct (Hs [] k p (jws ts') eq_refl) as [Hh|(k2 & p2 & jw2 & [] & _)]. split.
  - intros ->. destruct Hh as (ks & Ek & _). exists ks. exact Ek.
  - exists k, ts'. split; [reflexivity|]. apply history_traceable in Hh. exact Hh.
Qed.

Example C26_ex : verified any_lib (after_calls any_lib ex_jar []) ex_tokens ex_ves.
Proof. exact ex_verified. Qed.

(** ** C27 *)

Definition C27_full : Prop := forall L kj ts pre x y post,
  verified L kj ts (pre ++ x :: y :: post) -> s_sub x = s_iss y.

(** a statement about one subordinate followed by the anchor's statement about another *)
Theorem C27_linked_refuted : ~ C27_full.
Proof.
  intros H.
  specialize (H any_lib ex_jar
               [TJws 1 (es "ta" "im" 300 (Some [2])); TJws 1 (es "ta" "rp" 200 (Some [3]));
                TJws 3 (es "rp" "rp" 400 None)]
               [] (es "ta" "im" 300 (Some [2])) (es "ta" "rp" 200 (Some [3]))
               [es "rp" "rp" 400 None]).
  assert (V : verified any_lib ex_jar
               [TJws 1 (es "ta" "im" 300 (Some [2])); TJws 1 (es "ta" "rp" 200 (Some [3]));
                TJws 3 (es "rp" "rp" 400 None)]
               [es "ta" "im" 300 (Some [2]); es "ta" "rp" 200 (Some [3]); es "rp" "rp" 400 None])
    by (split; [reflexivity|discriminate]).
  specialize (H V). discriminate.
Qed.

(** Missing: that the subject of the statement right before is the issuer.  What holds: the issuer is
    the subject of some earlier statement of the chain or was known before. *)
Theorem C27_linked_partial : forall L kj ts pre y post,
  verified L kj ts (pre ++ y :: post) ->
  known kj (s_iss y) \/ exists x, In x pre /\ s_sub x = s_iss y.
Proof.
  intros L kj ts pre y post H. apply verified_iff in H.
  destruct H as (_ & E & Hs & _). symmetry in E. apply map_eq_app in E.
  destruct E as (l1 & l2 & E & <- & E2). destruct l2 as [|[k q] l2]; [discriminate|].
  cbn [map snd] in E2. injection E2 as <- <-.
  destruct (links _ _ _ _ _ _ Hs E) as [Hk|(k0 & x & Hx & Hsub)]; [left; exact Hk|right].
  exists x. split; [|exact Hsub]. apply (in_map snd) in Hx. exact Hx.
Qed.

(** in particular: when only the trust anchor is known beforehand *)
Theorem C27_single_anchor : forall L ta ks ts pre y post,
  verified L [(ta, ks)] ts (pre ++ y :: post) ->
  s_iss y = ta \/ exists x, In x pre /\ s_sub x = s_iss y.
Proof.
  intros L ta ks ts pre y post H.
  destruct (C27_linked_partial _ _ _ _ _ _ H) as [[l E]|Hx]; [left|right; exact Hx].
  simpl in E. destruct (String.eqb_spec (s_iss y) ta); [assumption|discriminate].
Qed.

Example C27_ex : verified any_lib [("ta", [1])] ex_tokens
  ([es "ta" "im" 300 (Some [2])] ++ es "im" "rp" 200 (Some [3]) :: [es "rp" "rp" 400 None]).
Proof. exact ex_verified. Qed.

(** ** C28 *)

Definition C28_full : Prop := forall chain m,
  chain <> [] -> trust_chain_expires_at chain = Ok m -> minimum m (exps chain).

(** a negative expiry time is taken for "not set yet" *)
Theorem C28_expiry_is_minimum_refuted : ~ C28_full.
Proof.
  intros H. destruct (H [es "a" "b" (-5) None; es "b" "b" 10 None] 10%Z) as [_ Hm];
    [discriminate|reflexivity|].
  specialize (Hm (-5)%Z (or_introl eq_refl)). lia.
Qed.

(** Missing: negative expiry times. *)
Theorem C28_expiry_is_minimum_partial : forall chain m,
  chain <> [] -> (forall s e, In s chain -> s_exp s = Some e -> (0 <= e)%Z) ->
  trust_chain_expires_at chain = Ok m ->
  minimum m (exps chain) /\ (forall s, In s chain -> s_exp s <> None).
Proof. exact expires_minimum. Qed.

(** a trust chain is reported as expired exactly when one of its statements has expired *)
Theorem C28_expired_partial : forall L kj ts tc now,
  snd (verifier_call L kj ts) = Ok (Some tc) ->
  (forall s e, In s (tc_verified tc) -> s_exp s = Some e -> (0 <= e)%Z) ->
  (is_expired tc now = true <->
   exists s e, In s (tc_verified tc) /\ s_exp s = Some e /\ (e < now)%Z).
Proof.
  intros L kj ts tc now H Hn. apply call_ok in H. destruct H as ([_ Hne] & He & _).
  destruct (expires_minimum _ _ Hne Hn He) as [[Hin Hmin] _].
  unfold is_expired. rewrite Z.ltb_lt. split.
  - intros Hlt. apply exps_In in Hin. destruct Hin as (s & Hs & Es). exists s, (tc_exp tc). auto.
  - intros (s & e & Hs & Es & Hlt). apply Z.le_lt_trans with e; [|exact Hlt].
    apply Hmin. apply exps_In. exists s. auto.
Qed.

Definition ex_tc : trust_chain :=
  mkTC "ta" ex_tokens 200 ["rp"; "im"; "ta"] ex_ves.

Example C28_ex : snd (verifier_call any_lib ex_jar ex_tokens) = Ok (Some ex_tc) /\
  is_expired ex_tc 201 = true /\ is_expired ex_tc 200 = false /\
  (forall s e, In s (tc_verified ex_tc) -> s_exp s = Some e -> (0 <= e)%Z).
Proof.
  split; [reflexivity|]. split; [reflexivity|]. split; [reflexivity|].
  intros s e H. simpl in H. destruct H as [<-|[<-|[<-|[]]]]; intros E; injection E as <-; lia.
Qed.

(** ** C29 *)

Theorem C29_trust_chain_describes_verified_chain : forall L kj ts tc,
  snd (verifier_call L kj ts) = Ok (Some tc) ->
  verified L kj ts (tc_verified tc) /\
  (exists s l, tc_verified tc = s :: l /\ tc_anchor tc = s_iss s) /\
  tc_iss_path tc = rev (map s_iss (tc_verified tc)) /\
  (exists p, tc_iss_path tc = p ++ [tc_anchor tc]) /\
  tc_chain tc = ts.
Proof.
  intros L kj ts tc H. apply call_ok in H. destruct H as (H1 & _ & H3 & H4 & H5).
  split; [exact H1|]. split; [exact H3|]. split; [exact H4|]. split; [|exact H5].
  destruct H3 as (s & l & E1 & E2). rewrite H4, E1, E2. exists (rev (map s_iss l)). reflexivity.
Qed.

(** a trust chain is returned for every verified list whose statements all have an expiry time *)
Theorem C29_trust_chain_exactly_when_verified : forall L kj ts,
  (forall k s, In (k, s) (jws ts) -> s_exp s <> None) ->
  ((exists tc, snd (verifier_call L kj ts) = Ok (Some tc)) <-> exists ves, verified L kj ts ves).
Proof.
  intros L kj ts He. split.
  - intros [tc H]. apply call_ok in H. destruct H as [H _]. eauto.
  - intros [ves H]. destruct (call_some L kj ts ves H) as (tc & E & _); [|eauto].
    intros s Hs. destruct (C23_only_properly_signed _ _ _ _ H) as [-> _].
    apply in_map_iff in Hs. destruct Hs as ([k q] & <- & Hi). exact (He k q Hi).
Qed.

(** None is returned for an unknown anchor, or when the restrictions are not met *)
Theorem C29_none : forall L kj ts,
  snd (verifier_call L kj ts) = Ok None <-> snd (verify_trust_chain L kj ts) = Ok [].
Proof. exact call_none. Qed.

Example C29_ex : snd (verifier_call any_lib ex_jar ex_tokens) = Ok (Some ex_tc) /\
  snd (verifier_call any_lib [] ex_tokens) = Ok None.
Proof. split; reflexivity. Qed.

(** ** C30 *)

Definition C30_full : Prop := forall L kj ts,
  (forall tc, snd (verifier_call L kj ts) <> Ok (Some tc)) -> fst (verifier_call L kj ts) = kj.

(** the keys of the statements before the offending one stay in the key jar *)
Theorem C30_rejected_without_effect_refuted : ~ C30_full.
Proof.
  intros H.
  specialize (H any_lib ex_jar [TJws 1 (es "ta" "im" 300 (Some [2])); TJws 9 (es "im" "rp" 200 None)]).
  assert (E : fst (verifier_call any_lib ex_jar
                [TJws 1 (es "ta" "im" 300 (Some [2])); TJws 9 (es "im" "rp" 200 None)]) = ex_jar)
    by (apply H; intros tc; discriminate).
  discriminate.
Qed.

(** Missing: lists rejected after their first statement was verified.  What holds: without a key of its
    issuer for the first statement nothing changes; and whatever the outcome, only keys a properly
    signed initial part of the list vouches for are added, and the entries of other entities stay
    as they are. *)
Theorem C30_rejected_without_effect_partial : forall L kj ts,
  ((forall k p r, jws ts = (k, p) :: r -> ~ holds kj (s_iss p) k) ->
   fst (verifier_call L kj ts) = kj) /\
  exists pre post, jws ts = pre ++ post /\ properly_signed kj pre /\
    (forall e k, holds (fst (verifier_call L kj ts)) e k <-> holds kj e k \/ vouched pre e k) /\
    (forall e, (forall k p, In (k, p) pre -> s_sub p <> e) ->
               dget e (fst (verifier_call L kj ts)) = dget e kj).
Proof.
  intros L kj ts. rewrite call_fst. split; [apply first_unsigned_no_effect|].
  destruct (verify_effect L kj ts) as (pre & post & E & Hps & Hh & _ & Hd & _).
  exists pre, post. auto.
Qed.

(** after an accepted list the key jar holds exactly the old keys and those vouched for *)
Theorem C30_accepted_effect : forall L kj ts tc e k,
  snd (verifier_call L kj ts) = Ok (Some tc) ->
  (holds (fst (verifier_call L kj ts)) e k <-> holds kj e k \/ vouched (jws ts) e k).
Proof.
  intros L kj ts tc e k H. rewrite call_fst. apply call_ok in H. destruct H as [Hv _].
  destruct (verify_effect L kj ts) as (pre & post & E & _ & Hh & _ & _ & Hp).
  rewrite (Hp _ Hv), app_nil_r in E. rewrite E. apply Hh.
Qed.

Example C30_ex : fst (verifier_call any_lib ex_jar [TJws 9 (es "ta" "im" 300 (Some [2]))]) = ex_jar /\
  fst (verifier_call any_lib ex_jar ex_tokens) = [("ta", [1]); ("im", [2]); ("rp", [3])] /\
  (forall k p r, jws [TJws 9 (es "ta" "im" 300 (Some [2]))] = (k, p) :: r ->
                 ~ holds ex_jar (s_iss p) k).
Proof.
  split; [reflexivity|]. split; [reflexivity|].
  intros k p r E (l & El & Hl). injection E as <- <- _. injection El as <-.
  destruct Hl as [Hl|[]]. discriminate.
Qed.

Print Assumptions C23_only_properly_signed.
Print Assumptions C23_accepted_exactly.
Print Assumptions C24_keys_traceable.
Print Assumptions C25_keys_stay_over_histories.
Print Assumptions C26_first_issuer_configured_refuted.
Print Assumptions C26_first_issuer_configured_partial.
Print Assumptions C27_linked_refuted.
Print Assumptions C27_linked_partial.
Print Assumptions C28_expiry_is_minimum_refuted.
Print Assumptions C28_expiry_is_minimum_partial.
Print Assumptions C28_expired_partial.
Print Assumptions C29_trust_chain_describes_verified_chain.
Print Assumptions C29_trust_chain_exactly_when_verified.
Print Assumptions C30_rejected_without_effect_refuted.
Print Assumptions C30_rejected_without_effect_partial.
Print Assumptions C30_accepted_effect.
