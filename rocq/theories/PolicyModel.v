(** Model of src/fedservice/entity/function/policy.py and policy_operator.py. *)
From Verif Require Export Stmt.

(** policy.py:36 POLICY_FUNCTIONS *)
Definition policy_functions : list string :=
  ["subset_of"; "superset_of"; "one_of"; "add"; "value"; "default"; "essential"].

(** policy.py:12-13 *)
Definition combine_subset_of (O : iter_order) (s1 s2 : val) : res val :=
  let* a := py_set s1 in let* b := py_set s2 in Ok (VList (iov O (set_inter a b))).

(** policy.py:16-17 (intersection, as in the code) *)
Definition combine_superset_of (O : iter_order) (s1 s2 : val) : res val :=
  let* a := py_set s1 in let* b := py_set s2 in Ok (VList (iov O (set_inter a b))).

(** policy.py:20-21 *)
Definition combine_one_of (O : iter_order) (s1 s2 : val) : res val :=
  let* a := py_set s1 in let* b := py_set s2 in Ok (VList (iov O (set_inter a b))).

(** policy.py:24-33 *)
Definition combine_add (O : iter_order) (s1 s2 : val) : res val :=
  let* a := set_or_single s1 in let* b := set_or_single s2 in
  Ok (VList (iov O (set_union a b))).

(** policy.py:38-43 OP2FUNC; only called with the four keys *)
Definition op2func (O : iter_order) (p : string) : val -> val -> res val :=
  if String.eqb p "subset_of" then combine_subset_of O
  else if String.eqb p "superset_of" then combine_superset_of O
  else if String.eqb p "one_of" then combine_one_of O
  else if String.eqb p "add" then combine_add O
  else fun _ _ => Err KeyError.

(** policy.py:46-56; Python's implicit [None] is [VNull] *)
Definition do_sub_one_super_add (O : iter_order) (sup child : claim_policy) (p : string)
  : res val :=
  match dget p sup, dget p child with
  | Some a, Some b =>
      let* comb := op2func O p a b in
      if truthy comb then Ok comb else Err PolicyError
  | Some a, None => Ok a
  | None, Some b => Ok b
  | None, None => Ok VNull
  end.

(** policy.py:59-68 *)
Definition do_value (sup child : claim_policy) (p : string) : res val :=
  match dget p sup, dget p child with
  | Some a, Some b => if py_eqb a b then Ok a else Err PolicyError
  | Some a, None => Ok a
  | None, Some b => Ok b
  | None, None => Ok VNull
  end.

(** policy.py:71-81 *)
Definition do_default (sup child : claim_policy) (p : string) : res val :=
  match dget p sup, dget p child with
  | Some a, Some b => if py_eqb a b then Ok a else Err PolicyError
  | Some a, None => Ok a
  | None, Some b => Ok b
  | None, None => Ok VNull
  end.

(** policy.py:84-98 *)
Definition do_essential (sup child : claim_policy) (p : string) : res val :=
  match dget p sup, dget p child with
  | Some a, Some b => if negb (truthy a) && truthy b then Ok (VBool true) else Ok a
  | Some a, None => Ok a
  | None, Some b => Ok b
  | None, None => Ok VNull
  end.

(** policy.py:101-109 DO_POLICY *)
Definition do_policy (O : iter_order) (p : string) : claim_policy -> claim_policy -> res val :=
  fun sup child =>
  if String.eqb p "value" then do_value sup child p
  else if String.eqb p "default" then do_default sup child p
  else if String.eqb p "essential" then do_essential sup child p
  else do_sub_one_super_add O sup child p.

(** policy.py:122-123: the operators of a claim policy the code knows *)
Definition known_ops (p : claim_policy) : list string :=
  nodup string_dec (filter (fun k => smem k policy_functions) (dkeys p)).

(** [a == b] for sets of strings *)
Definition same_ops (a b : list string) : bool :=
  forallb (fun x => smem x b) a && forallb (fun x => smem x a) b.

(** [set(rule[a]).difference(set(rule[b]))] is non-empty *)
Definition differs (a b : val) : res bool :=
  let* sa := py_set a in let* sb := py_set b in Ok (negb (is_nil (set_diff sa sb))).

Definition reject_if (r : res bool) : res unit :=
  let* b := r in if b then Err PolicyError else Ok tt.

(** policy.py:157-187: consistency checks, only for exactly these operator sets *)
Definition rule_check (comb : list string) (rule : claim_policy) : res unit :=
  if same_ops comb ["superset_of"; "subset_of"] then
    let* sup := dindex "superset_of" rule in let* sub := dindex "subset_of" rule in
    reject_if (differs sup sub)
  else if same_ops comb ["superset_of"; "subset_of"; "default"] then
    let* sup := dindex "superset_of" rule in let* sub := dindex "subset_of" rule in
    let* def := dindex "default" rule in
    let* _ := reject_if (differs sup sub) in
    let* _ := reject_if (differs def sub) in
    reject_if (differs sup def)
  else if same_ops comb ["subset_of"; "default"] then
    let* sub := dindex "subset_of" rule in let* def := dindex "default" rule in
    reject_if (differs def sub)
  else if same_ops comb ["superset_of"; "default"] then
    let* sup := dindex "superset_of" rule in let* def := dindex "default" rule in
    reject_if (differs sup def)
  else if same_ops comb ["one_of"; "default"] then
    let* one := dindex "one_of" rule in let* def := dindex "default" rule in
    let* d := set_or_single def in let* o := py_set one in
    if is_nil (set_diff d o) then Ok tt else Err PolicyError
  else if same_ops comb ["subset_of"; "add"] then
    let* sub := dindex "subset_of" rule in let* add := dindex "add" rule in
    reject_if (differs add sub)
  else if same_ops comb ["superset_of"; "add"] then
    let* sup := dindex "superset_of" rule in let* add := dindex "add" rule in
    reject_if (differs sup add)
  else Ok tt.

(** policy.py:142-188, superior without "value" *)
Definition combine_no_value (O : iter_order) (sup child : claim_policy) : res claim_policy :=
  let sup_set := known_ops sup in
  let child_set := known_ops child in
  let* _ :=
    (if smem "essential" sup_set && smem "essential" child_set then
       match dget "essential" sup, dget "essential" child with
       | Some a, Some b =>
           if negb (py_eqb a b) && (match b with VBool false => true | _ => false end)
           then Err PolicyError else Ok tt
       | _, _ => Ok tt
       end
     else Ok tt) in
  let comb := nodup string_dec (sup_set ++ child_set) in
  if smem "one_of" comb && (smem "subset_of" comb || smem "superset_of" comb)
  then Err PolicyError
  else
    let* rule := foldM (fun rule p => let* v := do_policy O p sup child in Ok (dset p v rule))
                       (ios O comb) [] in
    let* _ := rule_check comb rule in
    Ok rule.

(** policy.py:112-188 *)
Definition combine_claim_policy (O : iter_order) (sup child : claim_policy)
  : res claim_policy :=
  let sup_set := known_ops sup in
  let child_set := known_ops child in
  if smem "value" sup_set then
    if negb (is_nil child_set) then
      if smem "essential" child_set then
        if Nat.eqb (length child_set) 1 then
          let* v := dindex "value" sup in let* e := dindex "essential" child in
          Ok [("value", v); ("essential", e)]
        else Err PolicyError
      else if smem "value" child_set then
        let* cv := dindex "value" child in let* sv := dindex "value" sup in
        if negb (py_eqb cv sv) then Err PolicyError else Ok sup
      else Err PolicyError
    else Ok sup
  else combine_no_value O sup child.

(** policy.py:191-206.  The loop over the overlapping keys only raises PolicyError, so its
    order is immaterial. *)
Definition combine_metadata (sup sub : metadata) : res metadata :=
  if is_nil sub then Ok sup
  else
    if forallb (fun k => match dget k sup, dget k sub with
                         | Some a, Some b => py_eqb a b
                         | _, _ => true
                         end) (dkeys sub)
    then Ok (dupdate sup sub)
    else Err PolicyError.

(** the two-key dictionaries policy.py handles: 'metadata_policy' and 'metadata'.
    A missing key reads as the empty dictionary everywhere (policy.py:216,221-222). *)
Record rule := mkRule { r_policy : mpolicy; r_metadata : metadata }.

Definition string_set (l : list string) : list string := nodup string_dec l.

(** policy.py:209-242 *)
Definition combine (O : iter_order) (sup sub : rule) : res rule :=
  let* md := combine_metadata (r_metadata sup) (r_metadata sub) in
  let md := if is_nil md then r_metadata sup else md in
  if is_nil (r_policy sub) then Ok (mkRule (r_policy sup) md)
  else
    let super_set := string_set (dkeys (r_policy sup)) in
    let child_set := string_set (dkeys (r_policy sub)) in
    let* both :=
      foldM (fun acc claim =>
               let* a := dindex claim (r_policy sup) in
               let* b := dindex claim (r_policy sub) in
               let* c := combine_claim_policy O a b in Ok (dset claim c acc))
            (ios O (filter (fun c => smem c child_set) super_set)) [] in
    let* withsup :=
      foldM (fun acc claim => let* a := dindex claim (r_policy sup) in Ok (dset claim a acc))
            (ios O (filter (fun c => negb (smem c child_set)) super_set)) both in
    let* all :=
      foldM (fun acc claim => let* b := dindex claim (r_policy sub) in Ok (dset claim b acc))
            (ios O (filter (fun c => negb (smem c super_set)) child_set)) withsup in
    Ok (mkRule all md).

(** policy_operator.py:3 POLICY_APPLICATION_ORDER; construct_evaluation_sequence (127-128)
    creates one operator per name, with the default [next] *)
Definition operators : list string :=
  ["value"; "add"; "default"; "one_of"; "subset_of"; "superset_of"; "essential"].

(** policy_operator.py:30-37 *)
Definition op_value (claim : string) (md : metadata) (operand : val)
  : res (metadata * option string) :=
  Ok (dset claim operand md, Some "essential").

(** policy_operator.py:40-54 *)
Definition op_one_of (claim : string) (md : metadata) (operand : val)
  : res (metadata * option string) :=
  match dget claim md with
  | None => Ok (md, None)
  | Some v =>
      if is_list v then Ok (md, None)
      else let* b := py_in v operand in
           if b then Ok (md, Some "essential") else Err PolicyError
  end.

(** policy_operator.py:57-65, union 6-16 *)
Definition op_add (O : iter_order) (claim : string) (md : metadata) (operand : val)
  : res (metadata * option string) :=
  match dget claim md with
  | Some v =>
      let* base := set_or_single v in let* ext := set_or_single operand in
      Ok (dset claim (VList (iov O (set_union base ext))) md, None)
  | None => Ok (dset claim operand md, None)
  end.

(** policy_operator.py:67-73 *)
Definition op_default (claim : string) (md : metadata) (operand : val)
  : res (metadata * option string) :=
  match dget claim md with
  | Some _ => Ok (md, None)
  | None => Ok (dset claim operand md, None)
  end.

(** policy_operator.py:76-93.  Line 85 tests a scalar for membership in the claim's policy
    dictionary, i.e. among the operator names. *)
Definition op_subset_of (O : iter_order) (claim : string) (md : metadata) (pol : claim_policy)
  (operand : val) : res (metadata * option string) :=
  match dget claim md with
  | None => Ok (md, None)
  | Some v =>
      let* l :=
        (if is_list v then
           let* a := py_set operand in let* b := py_set v in Ok (iov O (set_inter a b))
         else
           let* b := py_in v (VDict pol) in
           if b then (if truthy v then py_list v else Ok []) else Err PolicyError) in
      if is_nil l then Err PolicyError else Ok (dset claim (VList l) md, None)
  end.

(** policy_operator.py:96-103 *)
Definition op_superset_of (claim : string) (md : metadata) (operand : val)
  : res (metadata * option string) :=
  match dget claim md with
  | None => Ok (md, None)
  | Some v => let* d := differs operand v in
              if d then Err PolicyError else Ok (md, None)
  end.

(** policy_operator.py:106-113 *)
Definition op_essential (claim : string) (md : metadata) (operand : val)
  : res (metadata * option string) :=
  match dget claim md with
  | Some _ => Ok (md, None)
  | None => if py_eqb operand (VBool true) then Err PolicyError else Ok (md, None)
  end.

(** policy_operator.py:116-124: call of the operator named [name]; [pol] is
    [metadata_policy[claim]] and contains [name] *)
Definition op_call (O : iter_order) (name claim : string) (md : metadata) (pol : claim_policy)
  : res (metadata * option string) :=
  let* operand := dindex name pol in
  if String.eqb name "value" then op_value claim md operand
  else if String.eqb name "add" then op_add O claim md operand
  else if String.eqb name "default" then op_default claim md operand
  else if String.eqb name "one_of" then op_one_of claim md operand
  else if String.eqb name "subset_of" then op_subset_of O claim md pol operand
  else if String.eqb name "superset_of" then op_superset_of claim md operand
  else op_essential claim md operand.

(** policy.py:245-253, on the list of operators from the index on: the rest of the operator
    sequence starting with the named operator *)
Fixpoint op_place (name : string) (ops : list string) : option (list string) :=
  match ops with
  | [] => None
  | o :: ops' => if String.eqb o name then Some ops else op_place name ops'
  end.

(** policy.py:265-276: the while loop for one claim.  [ops] are the operators from index [i]
    on.  If [op_place] returned None, the next iteration would index a list with None
    (TypeError).  Fuel exhaustion is RecursionError; the loop never needs more than
    [2 * length ops] rounds (lemma in PolicyFacts). *)
Fixpoint run_ops (fuel : nat) (O : iter_order) (claim : string) (pol : claim_policy)
  (ops : list string) (md : metadata) {struct fuel} : res metadata :=
  match fuel with
  | 0 => Err RecursionError
  | S fuel' =>
      match ops with
      | [] => Ok md
      | op :: ops' =>
          if dmem op pol then
            match op_call O op claim md pol with
            | Err e => Err e
            | Ok (md', None) => run_ops fuel' O claim pol ops' md'
            | Ok (md', Some next) =>
                match op_place next ops with
                | None => Err TypeError
                | Some ops'' => run_ops fuel' O claim pol ops'' md'
                end
            end
          else run_ops fuel' O claim pol ops' md
      end
  end.

Definition apply_claim (O : iter_order) (claim : string) (pol : claim_policy) (md : metadata)
  : res metadata :=
  run_ops (2 * length operators) O claim pol operators md.

(** policy.py:255-291.  The metadata dictionary is updated in place in the code; if an operator
    raises, the partial update of the dictionary is not modelled. *)
Definition apply_metadata_policy (O : iter_order) (md : metadata) (mp : mpolicy)
  : res metadata :=
  foldM (fun md claim =>
           apply_claim O claim (match dget claim mp with Some p => p | None => [] end) md)
        (ios O (string_set (dkeys mp))) md.

(** policy.py:308-313 and 316-321: the part of a statement for one entity type *)
Definition stmt_rule (s : stmt) (entity_type : string) : rule :=
  mkRule
    (match s_policy s with
     | Some p => match dget entity_type p with Some m => m | None => [] end
     | None => [] end)
    (match s_metadata s with
     | Some p => match dget entity_type p with Some m => m | None => [] end
     | None => [] end).

(** policy.py:301-332 *)
Definition gather_policies (O : iter_order) (chain : list stmt) (entity_type : string)
  : res rule :=
  match chain with
  | [] => Err IndexError
  | first :: rest =>
      foldM (fun acc es =>
               let sub := stmt_rule es entity_type in
               if is_nil (r_policy sub) && is_nil (r_metadata sub) then Ok acc
               else if existsb (fun k => dmem k (r_metadata sub)) (dkeys (r_policy sub))
               then Err PolicyError
               else combine O acc sub)
            rest (stmt_rule first entity_type)
  end.

(** policy.py:334-356.  The boolean tells whether the metadata dictionary passed in (the one
    inside the leaf statement) is the one that was updated in place. *)
Definition apply_policy (O : iter_order) (md : metadata) (r : rule) : res (metadata * bool) :=
  let in_place := is_nil (r_metadata r) in
  let md := if in_place then md else dupdate (r_metadata r) md in
  if is_nil (r_policy r) then Ok (md, in_place)
  else let* md' := apply_metadata_policy O md (r_policy r) in Ok (md', in_place).

(** the leaf statement with the metadata of one entity type replaced (in place update) *)
Definition set_type_metadata (s : stmt) (entity_type : string) (md : metadata) : stmt :=
  match s_metadata s with
  | None => s
  | Some m => mkStmt (s_iss s) (s_sub s) (s_exp s) (s_jwks s)
                     (Some (dset entity_type md m)) (s_policy s) (s_constraints s) (s_hints s)
  end.

(** policy.py:358-371 for a verified chain [front ++ [leaf]]; None is returned when the leaf has no
    metadata of this type.  Also returns the leaf after the call. *)
Definition policy_type (O : iter_order) (front : list stmt) (leaf : stmt) (entity_type : string)
  : res (option metadata * stmt) :=
  let* combined := gather_policies O front entity_type in
  match s_metadata leaf with
  | None => Ok (None, leaf)
  | Some m =>
      match dget entity_type m with
      | None => Ok (None, leaf)
      | Some md =>
          let* r := apply_policy O md combined in
          Ok (Some (fst r),
              if snd r then set_type_metadata leaf entity_type (fst r) else leaf)
      end
  end.

(** policy.py:373-386 with entity_type '' on a chain of at least two statements
    ([front] non-empty).  Result: TrustChain.metadata and the leaf statement afterwards. *)
Definition policy_call (O : iter_order) (front : list stmt) (leaf : stmt)
  : res (dict (option metadata) * stmt) :=
  match s_metadata leaf with
  | None => Err KeyError
  | Some m =>
      foldM (fun acc t =>
               let* r := policy_type O front (snd acc) t in
               Ok (dset t (fst r) (fst acc), snd r))
            (dkeys m) ([], leaf)
  end.

(** TrustChain.metadata: per entity type, or (single statement chains) one metadata *)
Inductive tc_metadata :=
| ByType (m : dict (option metadata))
| Flat (m : metadata).

(** policy.py:373-386 for any verified chain, entity_type ''.  A chain of one statement indexes the
    metadata with '' (line 385). *)
Definition policy_call_chain (O : iter_order) (chain : list stmt)
  : res (tc_metadata * list stmt) :=
  match rev chain with
  | [] => Err IndexError
  | leaf :: rfront =>
      if is_nil rfront then
        let* m := match s_metadata leaf with Some m => Ok m | None => Err KeyError end in
        let* md := dindex "" m in
        Ok (Flat md, chain)
      else
        let* r := policy_call O (rev rfront) leaf in
        Ok (ByType (fst r), rev rfront ++ [snd r])
  end.

(** policy.py:389-403 *)
Definition diff2policy (O : iter_order) (new old : metadata) : mpolicy :=
  let common := ios O (filter (fun k => dmem k old) (string_set (dkeys new))) in
  let fresh := ios O (filter (fun k => negb (dmem k old)) (string_set (dkeys new))) in
  let res1 :=
    fold_left (fun acc k =>
                 match dget k new, dget k old with
                 | Some a, Some b => if py_eqb a b then acc else dset k [("value", a)] acc
                 | _, _ => acc
                 end) common [] in
  fold_left (fun acc k =>
               match dget k new with
               | Some a => if String.eqb k "contacts" then dset k [("add", a)] acc
                           else dset k [("value", a)] acc
               | None => acc
               end) fresh res1.
