(** What the pages of an entity say about it (C167). *)
From Verif Require Import PyFacts ExampleKit.
From Verif Require Export FetchFacts FetchProps ViewModel.
From Coq Require Import Lia.

Local Open Scope string_scope.
Local Open Scope list_scope.

(** ** Vocabulary *)

(** two documents with the same claims, or none *)
Definition says_the_same (r r' : res (dict val)) : Prop :=
  match r, r' with
  | Ok p, Ok p' => forall k, dget k p = dget k p'
  | Err _, Err _ => True
  | _, _ => False
  end.

(** the page of trust anchors and the endpoint *)
Definition C167_full : Prop := forall file cx jw md now, cx_lifetime cx = 86400%Z ->
  says_the_same (wkof_context file cx jw md now) (wkof_endpoint file cx jw md now).

(** trust marks that are a list, or are called for and are there *)
Definition marks_given (s : source) : Prop :=
  match s with
  | SrcFile _ => False
  | SrcCall (Ok v) => truthy v = true
  | _ => True
  end.

(** superiors that are a list, or are in a file or called for and are there *)
Definition hints_given (file : string -> res val) (s : source) : Prop :=
  forall v, get_authority_hints file s = Ok v -> truthy v = true \/ s = SrcList [].

(** the entity with the client in place of the handler *)
Definition in_place (client : dict val) (parts : dict part) : dict part :=
  map (fun p => (fst p, match snd p with PHandler => PMeta (fun _ => client) | x => x end)) parts.

(** ** Lemmas *)

Lemma create_same now iss sub jw a b :
  NoDup (dkeys a) -> NoDup (dkeys b) -> creatable a = creatable b ->
  (forall k, claim_of now iss sub jw a k = claim_of now iss sub jw b k) ->
  says_the_same (create_entity_statement now iss sub jw a) (create_entity_statement now iss sub jw b).
Proof.
  intros Na Nb G C. assert (Oa := create_outcome now iss sub jw a). assert (Ob := create_outcome now iss sub jw b).
  destruct (create_entity_statement now iss sub jw a) as [p|x] eqn:Ea;
    destruct (create_entity_statement now iss sub jw b) as [p'|x'] eqn:Eb; simpl; [|destruct Ob; congruence|destruct Oa; congruence|exact I].
  intros k. rewrite (create_claims _ _ _ _ _ _ Na Ea), (create_claims _ _ _ _ _ _ Nb Eb). apply C.
Qed.

(** ** C167 *)

(** trust marks in a file: the page of a trust anchor has the marks, the endpoint the name of the file; superiors in a
    file without any: the page has the name of the file, the endpoint none *)
Theorem C167_refuted : ~ C167_full /\
  exists file cx jw md now p p', cx_lifetime cx = 86400%Z /\ cx_marks cx = SrcNone /\
    wkof_context file cx jw md now = Ok p /\ wkof_endpoint file cx jw md now = Ok p' /\
    dget "authority_hints" p = Some (VStr "superiors.json") /\ dget "authority_hints" p' = None.
Proof.
  split.
  - intros H.
    specialize (H (fun _ => Ok (VList [VStr "a mark"])) (mkContext "im" 86400 (SrcFile "marks.json") RtNone (SrcList [VStr "ta"]) [])
                  (VStr "keys") [] 0%Z eq_refl).
    vm_compute in H. specialize (H "trust_marks"). discriminate H.
  - exists (fun _ => Ok (VList [])), (mkContext "im" 86400 SrcNone RtNone (SrcFile "superiors.json") []), (VStr "keys"), [], 0%Z.
    eexists _, _. repeat split; vm_compute; reflexivity.
Qed.
Print Assumptions C167_refuted.

(** Missing: trust marks in a file, and superiors in a file or to call for that turn out to be none.  Otherwise the page of
    trust anchors, intermediates, trust mark issuers and wallet providers says what the endpoint says. *)
Theorem C167_partial : forall file cx jw md now,
  cx_lifetime cx = 86400%Z -> marks_given (cx_marks cx) -> hints_given file (cx_hints cx) ->
  says_the_same (wkof_context file cx jw md now) (wkof_endpoint file cx jw md now).
Proof.
  intros file cx jw md now HL HM HH. unfold wkof_context, wkof_endpoint.
  destruct (get_authority_hints file (cx_hints cx)) as [h|x] eqn:Eh; [|exact I]. cbn [bind].
  specialize (HH h Eh). unfold entity_configuration. cbn [fs_id fs_jwks fs_hints fs_metadata published_metadata].
  (* the marks *)
  assert (K : (exists x y, get_trust_marks file (cx_marks cx) = Err x /\ marks_args (cx_marks cx) = Err y) \/
              (exists v m, get_trust_marks file (cx_marks cx) = Ok v /\ marks_args (cx_marks cx) = Ok m /\
                 ((truthy v = false /\ m = []) \/ (truthy v = true /\ m = [("trust_marks", v)])))).
  { unfold marks_given in HM. destruct (cx_marks cx) as [|l|path|r|]; cbn [get_trust_marks marks_args].
    - right. eexists _, _. split; [reflexivity|]. split; [reflexivity|]. left. split; reflexivity.
    - right. destruct l as [|a l]; eexists _, _; (split; [reflexivity|]; split; [reflexivity|]); [left|right]; split; reflexivity.
    - destruct HM.
    - destruct r as [v|e]; cbn [bind]; [|left; eauto]. right. eexists _, _. split; [reflexivity|]. split; [reflexivity|]. right. auto.
    - left. eauto. }
  unfold ctx_statement. rewrite HL.
  set (args := [("metadata", VDict md); ("authority_hints", h); ("lifetime", VInt 86400)]).
  change (with_jwks args) with args. cbv zeta. change (filled "lifetime" args) with (Some (VInt 86400)). cbv iota.
  change (filled "trust_marks" args) with (@None val). cbv iota.
  destruct K as [(x & y & -> & ->)|(v & m & -> & -> & K)]; [exact I|]. cbn [bind].
  set (args1 := if truthy v then dset "trust_marks" v args else args).
  assert (A1 : args1 = ("metadata", VDict md) :: ("authority_hints", h) :: ("lifetime", VInt 86400) :: m).
  { unfold args1. destruct K as [[-> ->]|[-> ->]]; reflexivity. }
  assert (C : forall h', (truthy h' = false -> truthy h = false) -> (truthy h' = true -> h' = h) ->
     says_the_same (create_entity_statement now (cx_id cx) (cx_id cx) jw
                      (("metadata", VDict md) :: ("authority_hints", h') :: ("lifetime", VInt 86400) :: m))
                   (create_entity_statement now (cx_id cx) (cx_id cx) jw (("metadata", VDict md) :: [("authority_hints", h)] ++ m))).
  { intros h' Hf Ht. apply create_same.
    - destruct K as [[_ ->]|[_ ->]]; apply nodupb_sound; reflexivity.
    - destruct K as [[_ ->]|[_ ->]]; apply nodupb_sound; reflexivity.
    - destruct K as [[_ ->]|[_ ->]]; reflexivity.
    - assert (HT : if_truthy (Some h') = if_truthy (Some h)).
      { unfold if_truthy. destruct (truthy h') eqn:T; [rewrite (Ht eq_refl) in *; rewrite T; reflexivity|rewrite (Hf eq_refl); reflexivity]. }
      intros k. unfold claim_of, arg_or.
      destruct K as [[_ ->]|[_ ->]]; cbn [app dget smem existsb filtered orb];
        repeat match goal with |- context [String.eqb k ?c] => destruct (String.eqb_spec k c) as [->|?]; cbn -[if_truthy truthy Z.add];
          try congruence; try reflexivity; try exact HT end. }
  rewrite A1. unfold filled. cbn [dget String.eqb Ascii.eqb Bool.eqb].
  destruct (truthy h) eqn:Th.
  - apply C; [intros X; rewrite Th in X; discriminate X|reflexivity].
  - destruct HH as [HH|HH]; [discriminate HH|]. rewrite HH in Eh |- *. cbn [raw_hints bind].
    change (dset "authority_hints" (VList []) (("metadata", VDict md) :: ("authority_hints", h) :: ("lifetime", VInt 86400) :: m))
      with (("metadata", VDict md) :: ("authority_hints", VList []) :: ("lifetime", VInt 86400) :: m).
    assert (X := C (VList []) (fun _ => eq_refl) ltac:(discriminate)). revert X.
    generalize (create_entity_statement now (cx_id cx) (cx_id cx) jw
                  (("metadata", VDict md) :: ("authority_hints", VList []) :: ("lifetime", VInt 86400) :: m)).
    intros [p|x] X; exact X.
Qed.
Print Assumptions C167_partial.

(** the page of a relying party says what the endpoint would if the client was a part of the entity *)
Theorem C167_party : forall file cx jw client parts now,
  says_the_same (wkof_party file cx jw client parts now) (context_configuration file cx jw (in_place client parts) now).
Proof.
  intros file cx jw client parts now. unfold wkof_party, context_configuration, entity_configuration.
  assert (P : client_metadata_of (Some client) parts = combo_metadata (in_place client parts)).
  { unfold client_metadata_of, combo_metadata, in_place. generalize (@nil (string * val)).
    induction parts as [|[k x] parts IH]; intros acc; [reflexivity|]. cbn [fold_left map fst snd]. destruct x; apply IH. }
  destruct (marks_args (cx_marks cx)) as [m|x] eqn:Em; cbn [bind]; destruct (get_authority_hints file (cx_hints cx)) as [h|y];
    cbn [bind]; try exact I.
  cbn [fs_id fs_jwks fs_hints published_metadata app]. rewrite P.
  destruct (create_entity_statement _ _ _ _ _); simpl; auto.
Qed.
Print Assumptions C167_party.

Definition pg_cx (marks : source) : context := mkContext "im" 86400 marks RtNone (SrcFile "superiors.json") [].
Definition pg_file : string -> res val := fun _ => Ok (VList [VStr "ta"]).

Example C167_ex :
  marks_given (SrcList [VStr "mark"]) /\ hints_given pg_file (SrcFile "superiors.json") /\
  (exists p, wkof_context pg_file (pg_cx (SrcList [VStr "mark"])) (VStr "keys") [("federation_entity", VDict [])] 5%Z = Ok p /\
     dget "trust_marks" p = Some (VList [VStr "mark"]) /\ dget "authority_hints" p = Some (VList [VStr "ta"]) /\
     dget "exp" p = Some (VInt 86405)) /\
  (exists p, wkof_party pg_file (pg_cx SrcNone) (VStr "keys") [("openid_relying_party", VDict [("a", VInt 1)])]
       [("federation_entity", PMeta (fun _ => [("federation_entity", VDict [])])); ("openid_relying_party", PHandler)] 5%Z = Ok p /\
     dget "metadata" p = Some (VDict [("federation_entity", VDict []); ("openid_relying_party", VDict [("a", VInt 1)])])).
Proof.
  split; [exact I|]. split; [intros v Hv; injection Hv as <-; left; reflexivity|].
  split; eexists; repeat split; vm_compute; reflexivity.
Qed.
