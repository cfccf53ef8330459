(** Model of what a trust chain says about the policy that was applied to it: combined_policy in
    src/fedservice/entity/function/policy.py:358-386 and entity_statement/statement.py:18-63. *)
From Verif Require Export PolicyModel.

(** what of a TrustChain instance (statement.py:18-63) the application of policies reads and writes: the last statement of verified_chain,
    metadata and combined_policy *)
Record chain_state := mkChainState {
  cs_leaf : stmt;
  cs_metadata : dict (option metadata);
  cs_combined : dict rule
}.

(** policy.py:358-371 and the assignment of the result in 380 or 383; combined_policy is written before the policy is applied. As in
    [apply_metadata_policy] what an operator that raises has done to the metadata before is not modelled. *)
Definition record_type (O : iter_order) (front : list stmt) (t : string) (s : chain_state) : chain_state * res unit :=
  match gather_policies O front t with
  | Err e => (s, Err e)
  | Ok p =>
      match match s_metadata (cs_leaf s) with Some m => dget t m | None => None end with
      | None => (mkChainState (cs_leaf s) (dset t None (cs_metadata s)) (cs_combined s), Ok tt)
      | Some md =>
          let combined := dset t p (cs_combined s) in
          match apply_policy O md p with
          | Err e => (mkChainState (cs_leaf s) (cs_metadata s) combined, Err e)
          | Ok r => (mkChainState (if snd r then set_type_metadata (cs_leaf s) t (fst r) else cs_leaf s)
                       (dset t (Some (fst r)) (cs_metadata s)) combined, Ok tt)
          end
      end
  end.

(** policy.py:382-383 *)
Fixpoint record_types (O : iter_order) (front : list stmt) (ts : list string) (s : chain_state) : chain_state * res unit :=
  match ts with
  | [] => (s, Ok tt)
  | t :: ts' =>
      match record_type O front t s with
      | (s', Ok _) => record_types O front ts' s'
      | (s', Err e) => (s', Err e)
      end
  end.

(** policy.py:373-383 for chains of at least two statements, [front] being all but the last *)
Definition record_call (O : iter_order) (front : list stmt) (t : string) (s : chain_state) : chain_state * res unit :=
  if String.eqb t "" then
    match s_metadata (cs_leaf s) with
    | None => (s, Err KeyError)
    | Some m => record_types O front (dkeys m) s
    end
  else record_type O front t s.
