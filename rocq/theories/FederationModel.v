(** Model of the functions that put collection, verification and policies together
    (src/fedservice/entity/function/__init__.py), of the trust chain stores
    (src/fedservice/__init__.py, src/fedservice/entity_statement/statement.py) and of the methods of
    FederationEntity that use them (src/fedservice/entity/__init__.py).

    [tr_priority] is a list of anchors.  The attribute combined_policy is left out, a TrustChain is a
    value: where an object is modified in place the functions return the modified one. *)
From Verif Require Export CollectorModel PolicyModel.

(** a TrustChain (statement.py:12-58) with its metadata; [ByType []] before policies are applied *)
Record tchain := mkTChain {
  ch_tc : trust_chain;
  ch_md : tc_metadata
}.

Definition ch_anchor (c : tchain) : string := tc_anchor (ch_tc c).
Definition ch_verified (c : tchain) : list stmt := tc_verified (ch_tc c).

(** the parts of a FederationEntity the functions change: the collector's caches, the key jar and the trust
    chains (entity/__init__.py:268-283) *)
Record fstate := mkFed {
  f_col : cstate;
  f_keys : keyjar;
  f_chains : dict (list tchain)
}.

Definition on_col {A} (m : M cstate A) : M fstate A := fun s =>
  match m (f_col s) with
  | (c, r) => (mkFed c (f_keys s) (f_chains s), r)
  end.

Definition on_keys {A} (m : M keyjar A) : M fstate A := fun s =>
  match m (f_keys s) with
  | (k, r) => (mkFed (f_col s) k (f_chains s), r)
  end.

(** a value in the tree as a token; an expiry time, which can only be there when cache keys clash, is
    not a JWS *)
Definition tok_of (v : esval) : token := match v with ESTok t => t | ESExp _ => TJunk end.

Section Federation.
Context (E : cenv) (O : iter_order) (fuel : nat).

(** function/__init__.py:65-98 without signed_entity_configuration *)
Definition collect_trust_chains (id stop_at : string) : M fstate (list (list token) * option token) :=
  do r <- on_col (collect E fuel stop_at id) in
  match r with
  | None => ret ([], None)
  | Some (tr, t) => ret (map (map tok_of) (tree2chains tr), Some t)
  end.

(** function/__init__.py:65-98 with signed_entity_configuration; [hints] is authority_hints, [[]] if
    not given *)
Definition collect_trust_chains_signed (id : string) (signed : token) (stop_at : string)
    (hints : list string) : M fstate (list (list token) * option token) :=
  do tp <- on_col (open_self_signed E (Some signed)) in
  let c := snd tp in
  let c' := if is_nil hints then c
            else mkStmt (s_iss c) (s_sub c) (s_exp c) (s_jwks c) (s_metadata c) (s_policy c)
                        (s_constraints c) (Some hints) in
  do tr <- on_col (collect_tree E fuel stop_at id (Some c')) in
  ret (map (map tok_of) (tree2chains tr), Some signed).

(** function/__init__.py:116-121 and verifier.py:115-138 *)
Definition run_verifier (ts : list token) : M keyjar (option trust_chain) :=
  fun kj => verifier_call (e_lib E) kj ts.

(** function/__init__.py:101-113 *)
Definition verify_trust_chains (chains : list (list token)) (extra : list token)
  : M keyjar (list trust_chain) :=
  mfold (fun acc c =>
           do tc <- run_verifier (c ++ extra) in
           ret (match tc with Some t => acc ++ [t] | None => acc end)) chains [].

(** policy.py:373-386 on a TrustChain *)
Definition apply_to_chain (tc : trust_chain) : res tchain :=
  let* r := policy_call_chain O (tc_verified tc) in
  Ok (mkTChain (mkTC (tc_anchor tc) (tc_chain tc) (tc_exp tc) (tc_iss_path tc) (snd r)) (fst r)).

(** function/__init__.py:124-138 *)
Definition apply_policies (tcs : list trust_chain) : res (list tchain) := mapM apply_to_chain tcs.

(** function/__init__.py:154-161.  When collection returned nothing there are no chains either. *)
Definition get_verified_trust_chains (id : string) : M fstate (list tchain) :=
  do r <- collect_trust_chains id "" in
  match r with
  | ([], _) => ret []
  | (_, None) => ret []
  | (chains, Some leaf) =>
      do tcs <- on_keys (verify_trust_chains chains [leaf]) in
      lift (apply_policies tcs)
  end.

(** entity/__init__.py:279-283 *)
Definition store_trust_chain (id : string) (cs : list tchain) : M fstate unit :=
  modify (fun s => mkFed (f_col s) (f_keys s) (dset id cs (f_chains s))).

(** entity/__init__.py:268-277 *)
Definition get_trust_chains (id : string) : M fstate (list tchain) :=
  do s <- StateM.get in
  match dget id (f_chains s) with
  | Some cs => ret cs
  | None =>
      do cs <- get_verified_trust_chains id in
      if is_nil cs then ret []
      else do _ <- store_trust_chain id cs in ret cs
  end.

(** entity/__init__.py:285-295 *)
Definition get_verified_metadata (id : string) : M fstate (option tc_metadata) :=
  do s <- StateM.get in
  do cs <- match dget id (f_chains s) with
           | Some cs => ret cs
           | None =>
               do cs <- get_verified_trust_chains id in
               if is_nil cs then ret cs
               else do _ <- store_trust_chain id cs in ret cs
           end in
  match cs with
  | [] => ret None
  | c :: _ => ret (Some (ch_md c))
  end.

End Federation.

(** ** Storing and picking *)

(** statement.py:95-111 *)
Definition chains2dict (cs : list tchain) : dict tchain :=
  fold_left (fun acc c =>
               match dget (ch_anchor c) acc with
               | Some old =>
                   if Nat.ltb (length (ch_verified c)) (length (ch_verified old))
                   then dset (ch_anchor c) c acc else acc
               | None => dset (ch_anchor c) c acc
               end) cs [].

(** federation_context.trust_chain: entity -> anchor -> chain; None if there is no such attribute *)
Definition chain_store := dict (dict tchain).

(** src/fedservice/__init__.py:9-19 *)
Definition save_trust_chains (ctx : option chain_store) (cs : list tchain) : res chain_store :=
  let start := match ctx with Some d => d | None => [] end in
  foldM (fun d p =>
           match tc_iss_path (ch_tc (snd p)) with
           | [] => Err IndexError
           | ent :: _ =>
               Ok (match dget ent d with
                   | None => dset ent [p] d
                   | Some m => dset ent (dset (fst p) (snd p) m) d
                   end)
           end) (chains2dict cs) start.

(** src/fedservice/__init__.py:22-30 *)
Inductive stored := SNone | SOne (c : tchain) | SAll (m : dict tchain).

Definition get_trust_chain (ctx : chain_store) (id anchor : string) : stored :=
  match dget id ctx with
  | None | Some [] => SNone
  | Some m =>
      if String.eqb anchor "" then SAll m
      else match dget anchor m with Some c => SOne c | None => SNone end
  end.

(** entity/__init__.py:209-229 *)
Fixpoint pick_by_priority (prio : list string) (cs : list tchain) : option tchain :=
  match prio with
  | [] => None
  | fid :: prio' =>
      match find (fun c => String.eqb (ch_anchor c) fid) cs with
      | Some c => Some c
      | None => pick_by_priority prio' cs
      end
  end.

Definition pick_trust_chain (prio : list string) (cs : list tchain) : res tchain :=
  match cs with
  | [] => Err IndexError
  | [c] => Ok c
  | c0 :: _ => match pick_by_priority prio cs with Some c => Ok c | None => Ok c0 end
  end.

(** entity/__init__.py:231-241; the variable of the inner loop shadows that of the outer one, and the
    inner loop returns in its first round *)
Fixpoint stored_loop (prio : list string) (tas : list string) : option string :=
  match prio with
  | [] => None
  | _ :: prio' => match tas with
                  | ta_id :: _ => Some ta_id
                  | [] => stored_loop prio' tas
                  end
  end.

Definition pick_from_stored_trust_chains (prio : list string) (ctx : chain_store) (id : string)
  : res tchain :=
  let* m := dindex id ctx in
  match dkeys m with
  | [] => Err IndexError
  | [ta] => dindex ta m
  | ta :: tas => match stored_loop prio (ta :: tas) with
                 | Some ta' => dindex ta' m
                 | None => dindex ta m
                 end
  end.

(** statement.py:86-92: the list is reversed in place; the result is the attribute itself *)
Definition export_chain (tc : trust_chain) : trust_chain * list stmt :=
  let l := rev (tc_verified tc) in
  (mkTC (tc_anchor tc) (tc_chain tc) (tc_exp tc) (tc_iss_path tc) l, l).
