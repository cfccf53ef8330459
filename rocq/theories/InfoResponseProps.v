(** Whether the answers to registration requests are what they have to be (C201). *)
From Verif Require Import PyFacts.
From Verif Require Import RegistrationFacts.
From Verif Require Export RegistrationProps InfoResponseModel.

(** ** Vocabulary *)

(** the claim is one of client information responses, and comb_uri leaves it alone *)
Definition answered_with (R : reg_env) (k : string) : Prop :=
  forall ci, dget k (rg_comb R (filter (fun e => smem (fst e) (rg_response R)) ci)) = dget k ci.

Definition information_claims : list string := ["client_id"; "client_secret"; "client_secret_expires_at"].

(** the request leaves the secret to the server *)
Definition no_own_secret (request : dict val) : Prop :=
  dget "client_secret" request = None /\ dget "client_secret_expires_at" request = None.

(** secrets expire, and not at the beginning of time *)
Definition secrets_expire (R : reg_env) : Prop := truthy (rg_secret_expires R) = true /\ (rg_now R + rg_secret_in R <> 0)%Z.

(** ** Lemmas *)
Lemma first_entry_expires R id new_id :
  dget "client_secret_expires_at" (first_entry R id new_id true) =
  (if Z.eqb (client_secret_expiration_time R) 0 then None else Some (VInt (client_secret_expiration_time R))).
Proof.
  unfold first_entry, add_client_secret. destruct (Z.eqb _ _); [|apply dget_dset_same].
  rewrite dget_dset_other by discriminate. destruct new_id; reflexivity.
Qed.

Lemma first_entry_bare R id new_id k : In k ["client_secret"; "client_secret_expires_at"] -> dget k (first_entry R id new_id false) = None.
Proof. intros [<-|[<-|[]]]; unfold first_entry; destruct new_id; reflexivity. Qed.

(** the answer *)
Lemma answer_claims O R request new_id set_secret reserved s s' args :
  step2_process_request O R request new_id set_secret reserved s = (s', Ok (Done args)) ->
  NoDup (dkeys request) -> passed_on R "client_id" -> (forall k, In k information_claims -> answered_with R k) -> no_own_secret request ->
  exists id, client_of R new_id reserved s request id /\ dget "client_id" args = Some (VStr id) /\
    dget "client_secret" args = (if set_secret then Some (VStr (rg_secret R id)) else None) /\
    dget "client_secret_expires_at" args =
      (if set_secret then if Z.eqb (client_secret_expiration_time R) 0 then None else Some (VInt (client_secret_expiration_time R)) else None).
Proof.
  intros H N PC AW [NS NE]. destruct (step2_done _ _ _ _ _ _ _ _ _ H) as (req & id & req' & ci & kj & A & ID & C & _ & _ & ->).
  exists id. split; [exact (identified_client _ _ _ _ _ _ _ _ _ N PC A ID)|].
  destruct (accepted_get _ _ _ _ A N) as [NR G]. assert (NR' := identified_nodup _ _ _ _ _ _ _ ID NR).
  rewrite !AW by (simpl; tauto).
  assert (B : forall k, In k ["client_secret"; "client_secret_expires_at"] -> dget k request = None ->
            dget k ci = dget k (first_entry R id new_id set_secret)).
  { intros k Hk Dk. rewrite (client_info_get _ _ _ _ k C) by (simpl in *; intuition (subst; discriminate)).
    rewrite base_info_get by exact NR'. rewrite (identified_get _ _ _ _ _ _ _ _ ID) by (intros ->; simpl in Hk; intuition discriminate).
    specialize (G k). rewrite Dk in G. rewrite G. destruct (smem k ignored); reflexivity. }
  split; [|split].
  - rewrite (client_info_get _ _ _ _ "client_id" C) by (simpl; intuition discriminate).
    rewrite base_info_get by exact NR'. cbn [smem ignored existsb]. rewrite first_entry_id.
    unfold identified in ID. destruct new_id.
    + destruct ID as [_ ->]. rewrite dget_ddel_same. reflexivity.
    + destruct ID as (D & _ & ->). rewrite D. reflexivity.
  - rewrite (B "client_secret" (or_introl eq_refl) NS). destruct set_secret; [apply first_entry_secret|apply first_entry_bare; simpl; tauto].
  - rewrite (B "client_secret_expires_at" (or_intror (or_introl eq_refl)) NE).
    destruct set_secret; [apply first_entry_expires|apply first_entry_bare; simpl; tauto].
Qed.

(** ** C201: the answer to a registration request is a client information response *)

(** full statement *)
Definition C201_full : Prop := forall O R request new_id set_secret reserved s s' args base,
  step2_process_request O R request new_id set_secret reserved s = (s', Ok (Done args)) ->
  NoDup (dkeys request) -> passed_on R "client_id" -> (forall k, In k information_claims -> answered_with R k) -> no_own_secret request ->
  base args = Ok tt -> information_verify base args = Ok tt.

(** a server whose secrets do not expire *)
Definition lasting (expires : bool) : reg_env := mkRegEnv ex_sources ex_parse (fun u => (u, VNull)) (fun _ _ => true) (fun u => VStr u)
  (fun _ => true) (fun _ => false) [("response_types", "response_types_supported"); ("grant_types", "grant_types_supported")]
  [("response_types_supported", VList [VStr "code"; VStr "id_token"])]
  [("response_types", true); ("grant_types", true)]
  ["client_id"; "client_secret"; "client_secret_expires_at"; "redirect_uris"; "response_types"] (fun d => d) (fun _ => true)
  (fun reserved => "client1") "salt" (fun _ => "secret") (VBool expires) 86400 1000.

Lemma lasting_answers b k : In k information_claims -> answered_with (lasting b) k.
Proof.
  intros Hk ci. cbn [lasting rg_comb rg_response].
  rewrite (dget_filter_key (fun k => smem k ["client_id"; "client_secret"; "client_secret_expires_at"; "redirect_uris"; "response_types"]) k ci).
  simpl in Hk. destruct Hk as [<-|[<-|[<-|[]]]]; reflexivity.
Qed.

Lemma web_nodup : NoDup (dkeys ex_web).
Proof. repeat constructor; simpl; intuition discriminate. Qed.

Theorem C201_lasting_refuted : ~ C201_full.
Proof.
  intros F. destruct (step2_process_request id_order (lasting false) ex_web true true [] ex_start) as [s' r] eqn:E.
  assert (X : exists args, r = Ok (Done args) /\ information_verify (fun _ => Ok tt) args = Err OtherException).
  { vm_compute in E. injection E as _ <-. eexists. split; vm_compute; reflexivity. }
  destruct X as (args & -> & X).
  assert (Y := F id_order (lasting false) ex_web true true [] ex_start s' args (fun _ => Ok tt) E web_nodup eq_refl (lasting_answers false)
    (conj eq_refl eq_refl) eq_refl). rewrite X in Y. discriminate Y.
Qed.
Print Assumptions C201_lasting_refuted.

(** The answer is one if no secret is given out, or if secrets expire; then it says when. Missing: where secrets do not expire no answer with
    a secret is a client information response. *)
Theorem C201_information_partial : forall O R request new_id set_secret reserved s s' args base,
  step2_process_request O R request new_id set_secret reserved s = (s', Ok (Done args)) ->
  NoDup (dkeys request) -> passed_on R "client_id" -> (forall k, In k information_claims -> answered_with R k) -> no_own_secret request ->
  base args = Ok tt ->
  (set_secret = false -> information_verify base args = Ok tt /\ dget "client_secret" args = None) /\
  (set_secret = true -> secrets_expire R ->
     information_verify base args = Ok tt /\ dget "client_secret_expires_at" args = Some (VInt (rg_now R + rg_secret_in R))) /\
  (set_secret = true -> ~ secrets_expire R -> information_verify base args = Err OtherException) /\
  exists id, client_of R new_id reserved s request id /\ dget "client_id" args = Some (VStr id) /\
    (set_secret = true -> dget "client_secret" args = Some (VStr (rg_secret R id))).
Proof.
  intros O R request new_id set_secret reserved s s' args base H N PC AW NS B.
  destruct (answer_claims _ _ _ _ _ _ _ _ _ H N PC AW NS) as (id & CL & D1 & D2 & D3).
  unfold information_verify, dmem. rewrite D1, D2, D3, B. cbn [negb bind]. unfold secrets_expire, client_secret_expiration_time.
  split; [|split; [|split]].
  - intros ->. auto.
  - intros -> [T Z0]. rewrite T. apply Z.eqb_neq in Z0. rewrite Z0. auto.
  - intros -> NX. destruct (truthy (rg_secret_expires R)) eqn:T; [|reflexivity].
    destruct (Z.eqb_spec (rg_now R + rg_secret_in R) 0) as [Z0|Z0]; [reflexivity|]. destruct NX. auto.
  - exists id. split; [exact CL|]. split; [reflexivity|]. intros ->. reflexivity.
Qed.
Print Assumptions C201_information_partial.

Example C201_ex : (forall k, In k information_claims -> answered_with (lasting true) k) /\ secrets_expire (lasting true) /\
  NoDup (dkeys ex_web) /\ no_own_secret ex_web /\
  exists s' args, step2_process_request id_order (lasting true) ex_web true true [] ex_start = (s', Ok (Done args)) /\
    information_verify (fun _ => Ok tt) args = Ok tt /\ dget "client_secret_expires_at" args = Some (VInt 87400) /\
    dget "client_secret" args = Some (VStr "secret").
Proof.
  split; [exact (lasting_answers true)|]. split; [split; [reflexivity|vm_compute; discriminate]|]. split; [exact web_nodup|].
  split; [split; reflexivity|]. eexists. eexists. split; [vm_compute; reflexivity|]. repeat split.
Qed.
