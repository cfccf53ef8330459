(** A federation of entities that run this library, for the examples of C139-C143: below the trust anchor ta are tmi, who
    issues trust marks, and the relying party rp. *)
From Verif Require Import PyFacts ExampleKit CollectorProps.
From Verif Require Export LiveFacts.
From Coq Require Import Lia.

Definition v_ta : member := mkMember
  (mkFserver "ta" (VInt 1) [("federation_entity", VDict [("federation_fetch_endpoint", VStr "ta/fetch")])] None
     [("openid_relying_party", [("metadata_policy", VDict [("contacts", VDict [("add", VList [VStr "ta"])])])])])
  None SrcNone
  [("tmi", [("jwks", VInt 5)]);
   ("rp", [("jwks", VInt 3); ("entity_types", VList [VStr "openid_relying_party"]);
           ("constraints", VDict [("max_path_length", VInt 0)])])]
  1 "ta/wk" "ta/fetch".

Definition v_tmi : member := mkMember
  (mkFserver "tmi" (VInt 5)
     [("federation_entity", VDict [("federation_trust_mark_status_endpoint", VStr "tmi/status")])]
     (Some (VList [VStr "ta"])) [])
  None SrcNone [] 5 "tmi/wk" "".

Definition v_rp_parts : dict part :=
  [("openid_relying_party", PMeta (fun type => [(type, VDict [("redirect_uris", VList [VStr "https://rp/cb"]); ("jwks", VInt 4);
                                                              ("response_types", VList [VStr "code"])])]))].

Definition v_rp : member := mkMember
  (mkFserver "rp" (VInt 3)
     [] (Some (VList [VStr "ta"])) [])
  (Some v_rp_parts) SrcNone [] 3 "rp/wk" "".

Definition v_fed : list member := [v_ta; v_tmi; v_rp].

Definition v_env : cenv :=
  mkEnv 300 ["ta"] (library_net ex_jwks v_fed (fun _ => 1100%Z)) (fun _ => 1100%Z) all_keys wk_url tenant_url.

Definition v_rank (e : string) : nat := if String.eqb e "ta" then 0 else 1.

Definition v_start : fstate := mkFed (mkState [] [] 0) [("ta", [1])] [].

Ltac live_members := repeat match goal with H : In _ v_fed |- _ => destruct H as [<-|[<-|[<-|[]]]] end.

Lemma v_run : library_run ex_jwks v_fed v_env.
Proof.
  constructor.
  - reflexivity.
  - reflexivity.
  - reflexivity.
  - intros n p z Hz Hn. cbn. unfold within_skew. rewrite Hz. apply Z.ltb_lt. lia.
  - reflexivity.
  - intros m m' Hm Hm' H. live_members; try reflexivity; discriminate H.
  - intros m m' Hm Hm' H. live_members; try reflexivity; discriminate H.
  - intros m m' Hm Hm' H N. live_members; try reflexivity; try discriminate H; cbn in N; contradiction N; reflexivity.
  - intros m Hm. live_members; left; reflexivity.
  - intros m Hm. live_members; (apply mkSound;
      [split; [discriminate|reflexivity]
      |eexists; split; [reflexivity|left; reflexivity]
      |split; intros x e H; apply dget_In in H; simpl in H;
        repeat destruct H as [H|H]; try contradiction; injection H as <- <-; apply nodupb_sound; reflexivity
      |intros x p k H Hk; apply dget_In in H; simpl in H;
        repeat destruct H as [H|H]; try contradiction; injection H as <- <-; simpl in Hk; intuition auto
      |eexists; reflexivity
      |intros p Hp; vm_compute in Hp; injection Hp as <-; vm_compute; discriminate
      |intros a Ha; simpl in Ha; repeat destruct Ha as [<-|Ha]; try destruct Ha; reflexivity
      |intros sub e v H Hv; apply dget_In in H; simpl in H; repeat destruct H as [H|H]; try contradiction;
        injection H as <- <-; vm_compute in Hv; discriminate Hv]).
  - intros m a Hm Ha. live_members; simpl in Ha; repeat destruct Ha as [<-|Ha]; try destruct Ha.
    + exists v_ta. split; [left; reflexivity|]. split; [reflexivity|]. constructor.
      * apply locationb_sound. reflexivity.
      * eexists. split; reflexivity.
      * eexists _, _, _. split; [split; [reflexivity|discriminate]|]. split; [|split; [reflexivity|split; [reflexivity|left; reflexivity]]].
        split; [intros k Hk; simpl in Hk; repeat destruct Hk as [<-|Hk]; try destruct Hk; reflexivity|].
        split; [intros v Hv; discriminate Hv|]. split; [intros v Hv; discriminate Hv|]. intros p k v Hp; discriminate Hp.
      * intros p Hp. vm_compute in Hp; injection Hp as <-; vm_compute; discriminate.
    + exists v_ta. split; [left; reflexivity|]. split; [reflexivity|]. constructor.
      * apply locationb_sound. reflexivity.
      * eexists. split; reflexivity.
      * eexists _, _, _. split; [split; [reflexivity|discriminate]|]. split; [|split; [reflexivity|split; [reflexivity|left; reflexivity]]].
        split; [intros k Hk; simpl in Hk; repeat destruct Hk as [<-|Hk]; try destruct Hk; reflexivity|].
        split; [intros v Hv; discriminate Hv|].
        split; [intros v Hv; injection Hv as <-; exists ["openid_relying_party"]; reflexivity|].
        intros p k v Hp; discriminate Hp.
      * intros p Hp. vm_compute in Hp; injection Hp as <-; vm_compute; discriminate.
Qed.

Lemma v_hierarchy : hierarchy v_fed v_rank.
Proof. intros m a Hm Ha. live_members; simpl in Ha; repeat destruct Ha as [<-|Ha]; try destruct Ha; vm_compute; lia. Qed.

Lemma v_path m rt : In m v_fed -> path v_fed (m_id m) rt -> rt = [] \/ rt = ["ta"].
Proof.
  intros Hm H. inversion H as [m0 Hm0 Hs Em Er|m0 a r Hm0 Ha Hr Em Er]; subst; [left; reflexivity|right].
  assert (a = "ta") as -> by (live_members; simpl in Ha; repeat destruct Ha as [<-|Ha]; try destruct Ha; reflexivity).
  f_equal. inversion Hr as [m1 Hm1 Hs1 E1 E2|m1 a1 r1 Hm1 Ha1 Hr1 E1 E2]; [reflexivity|].
  exfalso. live_members; try discriminate E1; destruct Ha1.
Qed.

Lemma v_up m : In m v_fed -> m_id m <> "ta" -> path v_fed (m_id m) ["ta"].
Proof.
  intros Hm Hn. apply path_up; [exact Hm| |].
  - live_members; [contradiction Hn; reflexivity|left; reflexivity|left; reflexivity].
  - apply (path_end _ v_ta); [left; reflexivity|reflexivity].
Qed.

Lemma v_checkable m : In m v_fed -> checkable ex_jwks v_fed v_env (m_id m).
Proof.
  intros Hm rt Hp. destruct (v_path m rt Hm Hp) as [-> | ->].
  - live_members; eexists; vm_compute; reflexivity.
  - live_members; eexists; vm_compute; reflexivity.
Qed.

Lemma v_usable m : In m v_fed -> m_id m <> "ta" -> usable ex_jwks v_fed v_env [("ta", [1])] (m_id m) ["ta"].
Proof.
  intros Hm Hn. split; [exact (v_up m Hm Hn)|]. split; [discriminate|]. split; [exists [1]; reflexivity|].
  live_members; [contradiction Hn; reflexivity|vm_compute; reflexivity|vm_compute; reflexivity].
Qed.

Lemma v_keys : right_keys v_fed [("ta", [1])].
Proof.
  intros m ks Hm H. live_members; cbn in H; [injection H as <-; left; reflexivity|discriminate H|discriminate H].
Qed.

Lemma v_visited : visited v_env (f_col v_start).
Proof. constructor. Qed.
