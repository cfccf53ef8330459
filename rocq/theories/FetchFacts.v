(** Facts about entity statements as they are created and fetched. *)
From Verif Require Export PyFacts FetchModel.

(** ** create_entity_statement *)

Lemma dget_filter A k (f : string -> bool) (d : dict A) :
  dget k (filter (fun e => f (fst e)) d) = if f k then dget k d else None.
Proof.
  induction d as [|[k' v] d IH]; simpl; [destruct (f k); reflexivity|].
  destruct (String.eqb_spec k k') as [->|N].
  - destruct (f k') eqn:E; simpl; [rewrite String.eqb_refl; reflexivity|exact IH].
  - destruct (f k'); simpl; [|exact IH].
    destruct (String.eqb_spec k k'); [contradiction|exact IH].
Qed.

Lemma dget_extra k args : dget k (extra_args args) = if smem k stmt_params then None else dget k args.
Proof. unfold extra_args. rewrite (dget_filter _ k (fun x => negb (smem x stmt_params))). destruct (smem k stmt_params); reflexivity. Qed.

Lemma NoDup_filter_keys A (f : string * A -> bool) (d : dict A) : NoDup (dkeys d) -> NoDup (dkeys (filter f d)).
Proof.
  induction d as [|[k v] d IH]; simpl; intros H; [constructor|].
  inversion H as [|? ? Hn Hd]; subst. destruct (f (k, v)); simpl; [|auto].
  constructor; [|auto]. intros Hi. apply Hn. unfold dkeys in *. apply in_map_iff in Hi.
  destruct Hi as ([k' v'] & E & Hi). apply filter_In in Hi. apply in_map_iff. exists (k', v'). tauto.
Qed.

(** a claim that is left out if it is empty *)
Definition if_truthy (o : option val) : option val :=
  match o with Some v => if truthy v then Some v else None | None => None end.

Lemma dget_claim_if k name args msg :
  dget k (claim_if name args msg) =
  if String.eqb k name then match if_truthy (dget name args) with Some v => Some v | None => dget k msg end
  else dget k msg.
Proof.
  unfold claim_if, if_truthy. destruct (dget name args) as [v|]; [|destruct (String.eqb k name); reflexivity].
  destruct (truthy v); [|destruct (String.eqb k name); reflexivity].
  destruct (String.eqb_spec k name) as [->|N]; [apply dget_dset_same|apply dget_dset_other; exact N].
Qed.

(** the claims of the statement that are not among the arguments that have to be non-empty *)
Definition filtered : list string := ["metadata"; "metadata_policy"; "authority_hints"; "aud"; "constraints"].

(** what a statement says, claim by claim *)
Definition claim_of (now : Z) (iss sub : string) (own_jwks : val) (args : dict val) (k : string) : option val :=
  if String.eqb k "iss" then Some (VStr iss)
  else if String.eqb k "sub" then Some (VStr sub)
  else if String.eqb k "iat" then Some (VInt now)
  else if smem k filtered then if_truthy (dget k args)
  else if String.eqb k "lifetime" || String.eqb k "include_jwks" then None
  else if String.eqb k "jwks" then
    match dget "jwks" args with
    | Some v => Some v
    | None => if truthy (arg_or "include_jwks" (VBool true) args) then Some own_jwks else None
    end
  else if String.eqb k "exp" then
    match arg_or "lifetime" (VInt 86400) args with
    | VInt z => if Z.eqb z 0 then dget "exp" args else Some (VInt (now + z))
    | VBool true => Some (VInt (now + 1))
    | _ => dget "exp" args
    end
  else dget k args.

Lemma create_claims now iss sub jw args p :
  NoDup (dkeys args) -> create_entity_statement now iss sub jw args = Ok p ->
  forall k, dget k p = claim_of now iss sub jw args k.
Proof.
  intros ND H k. unfold create_entity_statement in H. apply bind_ok in H. destruct H as (msg & Hm & Hs).
  unfold statement_msg in Hm.
  destruct (dmem "iss" args) eqn:E1; [discriminate|]. destruct (dmem "sub" args) eqn:E2; [discriminate|].
  destruct (dmem "key_jar" args) eqn:E3; [discriminate|]. cbn [orb] in Hm. injection Hm as <-.
  apply dmem_false in E1, E2, E3.
  assert (NE : NoDup (dkeys (extra_args args))) by (apply NoDup_filter_keys; exact ND).
  set (m0 := claim_if "constraints" args _) in *.
  assert (H0 : forall k, dget k m0 = if smem k filtered then if_truthy (dget k args)
                                     else if String.eqb k "sub" then Some (VStr sub) else None).
  { intros x. unfold m0. rewrite !dget_claim_if. cbn [smem existsb filtered dget].
    repeat match goal with |- context [String.eqb x ?c] => destruct (String.eqb_spec x c) as [->|?]; cbn -[dget if_truthy];
      try (destruct (if_truthy _); reflexivity) end; reflexivity. }
  set (m1 := dupdate m0 (extra_args args)) in *.
  assert (H1 : forall k, dget k m1 = if smem k stmt_params then dget k m0
                                     else match dget k args with Some v => Some v | None => dget k m0 end).
  { intros x. unfold m1. rewrite dget_dupdate by exact NE. rewrite dget_extra. destruct (smem x stmt_params); reflexivity. }
  set (m2 := if truthy (arg_or "include_jwks" _ args) then _ else m1) in *.
  assert (H2 : forall k, dget k m2 = if String.eqb k "jwks" then claim_of now iss sub jw args "jwks" else dget k m1).
  { intros x. unfold m2, claim_of. cbn -[dget truthy arg_or]. rewrite dget_extra. change (smem "jwks" stmt_params) with false. cbv iota.
    destruct (truthy (arg_or "include_jwks" (VBool true) args)).
    - destruct (String.eqb_spec x "jwks") as [->|N]; [rewrite dget_dset_same; destruct (dget "jwks" args); reflexivity|apply dget_dset_other; exact N].
    - destruct (String.eqb_spec x "jwks") as [->|N]; [|reflexivity].
      rewrite H1, H0. cbn -[dget]. destruct (dget "jwks" args); reflexivity. }
  unfold sign_claims in Hs.
  set (m3 := dset "iat" (VInt now) (dset "iss" (VStr iss) m2)) in *.
  assert (H3 : forall k, dget k m3 = if String.eqb k "iat" then Some (VInt now)
                                     else if String.eqb k "iss" then Some (VStr iss) else dget k m2).
  { intros x. unfold m3. rewrite !dget_dset. reflexivity. }
  assert (H4 : forall k, k <> "exp" -> dget k m3 = claim_of now iss sub jw args k).
  { intros x Hx. rewrite H3, H2, H1, H0. unfold claim_of. cbn [smem existsb filtered stmt_params orb].
    repeat match goal with |- context [String.eqb x ?c] => destruct (String.eqb_spec x c) as [->|?]; cbn -[dget if_truthy truthy arg_or];
      try congruence; try reflexivity end.
    - rewrite E2. reflexivity.
    - destruct (dget x args); reflexivity. }
  assert (H5 : dget "exp" m3 = dget "exp" args).
  { rewrite H3, H2, H1, H0. cbn -[dget]. destruct (dget "exp" args); reflexivity. }
  destruct (String.eqb_spec k "exp") as [->|N].
  - unfold claim_of. cbn -[dget arg_or].
    destruct (arg_or "lifetime" (VInt 86400) args) as [|b|z|s|l|d] eqn:El; cbn [truthy] in Hs.
    + injection Hs as <-. exact H5.
    + destruct b; injection Hs as <-; [rewrite dget_dset_same; reflexivity|exact H5].
    + destruct (Z.eqb z 0); injection Hs as <-; [exact H5|rewrite dget_dset_same; reflexivity].
    + destruct (negb (String.eqb s "")); [discriminate|]. injection Hs as <-. exact H5.
    + destruct (negb (is_nil l)); [discriminate|]. injection Hs as <-. exact H5.
    + destruct (negb (is_nil d)); [discriminate|]. injection Hs as <-. exact H5.
  - rewrite <- H4 by exact N.
    destruct (truthy (arg_or "lifetime" (VInt 86400) args)); [|injection Hs as <-; reflexivity].
    destruct (arg_or "lifetime" (VInt 86400) args); try discriminate; injection Hs as <-; apply dget_dset_other; exact N.
Qed.

(** ** fetch *)

(** the registration after authority hints were added *)
Definition with_hints (iss : string) (e : dict val) : dict val :=
  if dmem "authority_hints" e then e else dset "authority_hints" (VList [VStr iss]) e.

(** the policy for the entity itself *)
Definition own_policy (S : fserver) (sub : string) : option (dict val) := find_filled sub (fs_policy S).

(** what is kept of a registration after a request *)
Definition kept (S : fserver) (iss sub : string) (e : dict val) : dict val :=
  match own_policy S sub with
  | Some p => dupdate (with_hints iss e) p
  | None => with_hints iss e
  end.

(** the arguments for the statement; the registration already has hints and the entity's own policy *)
Definition stmt_args (S : fserver) (sub : string) (e : dict val) : res (dict val) :=
  match own_policy S sub with
  | Some p => Ok e
  | None =>
      match dget "entity_types" e with
      | None => Ok e
      | Some ts =>
          let* types := py_list ts in
          let* (m, mp) := type_policies (fs_policy S) types in
          Ok (if is_nil m && is_nil mp then ddel "entity_types" e
              else dupdate (ddel "entity_types" e) [("metadata", VDict m); ("metadata_policy", VDict mp)])
      end
  end.

(** the request is for the entity's own configuration *)
Definition own_request (S : fserver) (q : freq) : bool :=
  match fq_sub q with
  | None => true
  | Some sub => String.eqb sub "" || String.eqb sub (issuer_of S q)
  end.

Definition own_args (S : fserver) : dict val :=
  ("metadata", VDict (fs_metadata S)) ::
  match fs_hints S with Some h => [("authority_hints", h)] | None => [] end.

Lemma fetch_eq S now q db : fetch S now q db =
  if own_request S q then (db, create_entity_statement now (fs_id S) (fs_id S) (fs_jwks S) (own_args S))
  else match fq_sub q with
       | None => (db, Err UnknownEntity)
       | Some sub =>
           match find_filled sub db with
           | None => (db, Err UnknownEntity)
           | Some e =>
               (dset sub (kept S (issuer_of S q) sub e) db,
                let* args := stmt_args S sub (kept S (issuer_of S q) sub e) in
                create_entity_statement now (issuer_of S q) sub (fs_jwks S) args)
           end
       end.
Proof.
  unfold fetch, own_request. destruct (fq_sub q) as [sub|]; [|reflexivity].
  destruct (String.eqb sub "" || String.eqb sub (issuer_of S q)); [reflexivity|].
  unfold mbind at 1, StateM.get. destruct (find_filled sub db) as [e|]; [|reflexivity].
  unfold mbind at 1, put. unfold kept, stmt_args, own_policy.
  change (if dmem "authority_hints" e then e else _) with (with_hints (issuer_of S q) e).
  destruct (find_filled sub (fs_policy S)) as [p|]; [reflexivity|].
  destruct (dget "entity_types" (with_hints (issuer_of S q) e)) as [ts|]; [|reflexivity].
  unfold lift. f_equal. destruct (py_list ts) as [l|x]; [|reflexivity]. cbn [bind].
  destruct (type_policies (fs_policy S) l) as [[m mp]|x]; reflexivity.
Qed.
