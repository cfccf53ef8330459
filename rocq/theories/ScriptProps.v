(** The commands that set up a federation and look at it (C163-C165). *)
From Verif Require Import PyFacts PolicyProps ExampleKit CollectorProps PublishFacts PublishProps ScriptModel.
From Coq Require Import Lia.

(** ** Reading configurations *)

Lemma document_inv E q s s' r : get_document E q s = (s', r) ->
  st_cfg s' = st_cfg s /\ st_es s' = st_es s /\ st_tick s' = S (st_tick s) /\
  (forall t, r = Ok t -> e_net E (st_tick s) q = RText t).
Proof.
  unfold get_document. intros H. injection H as <- <-. cbn. split; [reflexivity|]. split; [reflexivity|]. split; [reflexivity|].
  intros t Ht. destruct (e_net E (st_tick s) q); try discriminate. congruence.
Qed.

Lemma configuration_served E id s s' t : get_entity_configuration E id s = (s', Ok (Some t)) ->
  exists n, st_tick s <= n /\ serves_config E n id t.
Proof.
  unfold get_entity_configuration. destruct (get_document E (QDoc (e_wk E id)) s) as [s1 r1] eqn:E1.
  destruct (document_inv _ _ _ _ _ E1) as (_ & _ & T1 & D1). intros H.
  destruct r1 as [t1|x].
  - injection H as <- ->. exists (st_tick s). split; [lia|]. left. apply D1. reflexivity.
  - destruct x; try discriminate. destruct (String.eqb (e_tenant E id) (e_wk E id)); [discriminate|].
    destruct (document_inv _ _ _ _ _ H) as (_ & _ & T2 & D2). exists (st_tick s1). split; [lia|]. right. apply D2. reflexivity.
Qed.

(** what was read is a configuration that the entity's location had, and that is signed with a key in it *)
Lemma read_inv E id s s' c : read_configuration E id s = (s', Ok c) ->
  exists t, config_from E (st_tick s) id t c /\ lib_valid (e_lib E) (e_clock E (st_tick s')) c = true.
Proof.
  unfold read_configuration, mbind. destruct (get_entity_configuration E id s) as [s1 [ot|x]] eqn:E1; [|discriminate].
  unfold open_self_signed. destruct (verify_self_signed E (e_clock E (st_tick s1)) ot) as [[t p]|x] eqn:E2; [|discriminate].
  unfold ret. intros H. injection H as <- <-. cbn [snd].
  unfold verify_self_signed in E2. destruct ot as [[|k q]|]; try discriminate.
  destruct (s_jwks q) as [ks|] eqn:Ek; [|discriminate].
  destruct (kmem k _) eqn:Em; [|discriminate]. destruct (lib_valid _ _ q) eqn:Ev; [|discriminate].
  injection E2 as <- <-. destruct (configuration_served _ _ _ _ _ E1) as (n & N1 & N2).
  exists (TJws k q). split; [|exact Ev]. exists n. split; [exact N1|]. split; [exact N2|].
  exists k, ks. split; [reflexivity|]. split; [exact Ek|]. apply kmem_In, filter_In in Em. apply Em.
Qed.

(** ** C163: get_info reports the keys and the types of the entity it is asked about *)

Definition C163_full : Prop := forall E jwks_val s s' id d ks,
  get_info E jwks_val true false id s = (s', Ok (AnchorInfo d)) -> dget id d = Some ks ->
  exists t c, config_from E (st_tick s) id t c /\ s_jwks c = Some ks /\ s_sub c = id.

(** the document at the location of the entity may be somebody else's *)
Definition borrowed : cenv := mkEnv 300 []
  (fun _ q => match q with
              | QDoc _ => RText (Some (TJws 2 (mkStmt "b" "b" None (Some [2]) (Some [("federation_entity", [])]) None None None)))
              | QFetch _ _ _ => R404
              end)
  (fun _ => 0%Z) all_keys wk_url tenant_url.

Theorem C163_own_refuted : ~ C163_full.
Proof.
  intros H.
  destruct (H borrowed (fun _ => VNull) (mkState [] [] 0) (mkState [] [] 1) "a" [("a", [2])] [2]) as (t & c & (n & _ & Hs & Hss) & _ & Hc).
  - vm_compute. reflexivity.
  - reflexivity.
  - destruct Hs as [Hs|Hs]; cbn in Hs; injection Hs as <-; destruct Hss as (k & ks & Hk & _); injection Hk as _ <-; discriminate Hc.
Qed.
Print Assumptions C163_own_refuted.

(** the claims of a registration *)
Definition reports (jwks_val : list key -> val) (c : stmt) (ks : list key) (e : dict val) : Prop :=
  exists m fe, s_metadata c = Some m /\ dget "federation_entity" m = Some fe /\
    dget "jwks" e = Some (jwks_val ks) /\ dget "entity_types" e = Some (VList (map VStr (dkeys m))) /\
    dget "intermediate" e = (if dmem "federation_list_endpoint" fe then Some (VBool true) else None) /\
    (forall k, dget k e <> None -> In k ["jwks"; "entity_types"; "intermediate"]).

Lemma dget_present A k (d : dict A) : dget k d <> None -> In k (dkeys d).
Proof. destruct (dget k d) as [v|] eqn:E; [intros _; exact (dget_In_key _ _ _ _ E)|congruence]. Qed.

Lemma entry_reports jwks_val c e : subordinate_entry jwks_val c = Ok e ->
  exists ks, s_jwks c = Some ks /\ reports jwks_val c ks e /\ NoDup (dkeys e).
Proof.
  unfold subordinate_entry, keys_in_statement. destruct (s_metadata c) as [m|] eqn:Em; [|discriminate]. cbn [bind].
  destruct (s_jwks c) as [ks|]; [|discriminate]. cbn [bind]. intros H. apply bind_ok in H. destruct H as (fe & Hf & H).
  apply dindex_ok in Hf. injection H as <-. exists ks. split; [reflexivity|]. split.
  - exists m, fe. split; [exact Em|]. split; [exact Hf|].
    destruct (dmem "federation_list_endpoint" fe); cbn [app]; (split; [reflexivity|]); (split; [reflexivity|]); (split; [reflexivity|]);
      intros k Hk; apply dget_present in Hk; simpl in Hk |- *; tauto.
  - apply nodupb_sound. destruct (dmem "federation_list_endpoint" fe); reflexivity.
Qed.

(** Missing: that the document is about the entity.  It is one that was to be had at the location of the entity, it is
    signed with one of the keys that are reported, the library took its times to be right, and the keys, the types and
    whether it lists others are what it says; nothing else is reported. *)
Theorem C163_signed_partial : forall E jwks_val anchor subordinate s s' id i,
  get_info E jwks_val anchor subordinate id s = (s', Ok i) ->
  exists t c ks, config_from E (st_tick s) id t c /\ lib_valid (e_lib E) (e_clock E (st_tick s')) c = true /\
    s_jwks c = Some ks /\
    match anchor, subordinate with
    | true, false => i = AnchorInfo [(id, ks)]
    | false, true => exists e, i = SubordinateInfo [(id, e)] /\ reports jwks_val c ks e
    | _, _ => i = NoInfo
    end.
Proof.
  intros E jwks_val anchor subordinate s s' id i H. unfold get_info, mbind at 1 in H.
  destruct (read_configuration E id s) as [s1 [c|x]] eqn:E1; [|discriminate].
  destruct (read_inv _ _ _ _ _ E1) as (t & Hc & Hv).
  assert (K : exists ks, s_jwks c = Some ks).
  { destruct Hc as (n & _ & _ & k & ks & _ & Hk & _). eauto. }
  destruct K as [ks Hk]. exists t, c, ks. destruct anchor, subordinate; cbn [andb negb] in H; unfold mbind, lift, ret in H.
  - injection H as <- <-. auto.
  - unfold keys_in_statement in H. rewrite Hk in H. injection H as <- <-. auto.
  - destruct (subordinate_entry jwks_val c) as [e|x] eqn:Ee; [|discriminate]. injection H as <- <-.
    destruct (entry_reports _ _ _ Ee) as (ks' & Hk' & Hr & _). replace ks' with ks in Hr by congruence.
    split; [exact Hc|]. split; [exact Hv|]. split; [exact Hk|]. exists e. auto.
  - injection H as <- <-. auto.
Qed.
Print Assumptions C163_signed_partial.

Example C163_ex : exists s s' e,
  get_info (lib_env []) (fun ks => VList (map (fun k => VInt (Z.of_nat k)) ks)) true false "ta" (mkState [] [] 0) =
    (s, Ok (AnchorInfo [("ta", [1])])) /\
  get_info (lib_env []) (fun ks => VList (map (fun k => VInt (Z.of_nat k)) ks)) false true "im" (mkState [] [] 0) =
    (s', Ok (SubordinateInfo [("im", e)])) /\
  dget "jwks" e = Some (VList [VInt 2]) /\
  dget "entity_types" e = Some (VList [VStr "federation_entity"; VStr "openid_relying_party"]).
Proof. eexists _, _, _. split; [vm_compute; reflexivity|]. split; [vm_compute; reflexivity|]. split; reflexivity. Qed.
