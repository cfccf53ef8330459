(** Model of src/fedservice/entity_statement/constraints.py. *)
From Verif Require Export Stmt.

(** [s.split('.')] *)
Fixpoint split_dot (s : string) : list string :=
  match s with
  | EmptyString => [""]
  | String c s' =>
      if Ascii.eqb c "."%char then "" :: split_dot s'
      else match split_dot s' with
           | [] => [String c EmptyString]
           | w :: ws => String c w :: ws
           end
  end.

(** [s[n:]] *)
Fixpoint str_drop (n : nat) (s : string) : string :=
  match n, s with
  | S n', String _ s' => str_drop n' s'
  | _, _ => s
  end.

(** constraints.py:30-36 *)
Definition remove_scheme (url : string) : res string :=
  if String.prefix "https://" url then Ok (str_drop 8 url)
  else if String.prefix "http://" url then Ok (str_drop 7 url)
  else Err ValueError.

(** constraints.py:45-50: the loop over the zipped reversed labels *)
Fixpoint zip_labels (a b : list string) : bool :=
  match a, b with
  | x :: a', y :: b' =>
      if String.eqb x y then zip_labels a' b' else String.eqb y ""
  | _, _ => true
  end.

(** constraints.py:39-51 *)
Definition more_specific (a b : string) : res bool :=
  let* ra := remove_scheme a in
  let* rb := remove_scheme b in
  let a_part := split_dot ra in
  let b_part := split_dot rb in
  if Nat.leb (length b_part) (length a_part)
  then Ok (zip_labels (rev a_part) (rev b_part))
  else Ok false.

(** constraints.py:10-27; constraints is the content of the claim 'constraints' *)
Definition calculate_path_length (c : constraints) (current : Z) (max_assigned : bool) : Z :=
  match c_max_path_length c with
  | None => if max_assigned then current - 1 else 0
  | Some m =>
      if max_assigned then
        let new_current := current - 1 in
        if Z.ltb m new_current then m else new_current
      else m
  end%Z.

(** constraints.py:69-76: inner loop; the elements appended for one old element *)
Fixpoint replacements (news : list string) (old : string) : res (list string) :=
  match news with
  | [] => Ok []
  | n :: news' =>
      let* b := more_specific n old in
      let* l := replacements news' old in
      Ok (if b then n :: l else l)
  end.

(** constraints.py:65-77 *)
Fixpoint update_specs (news olds : list string) : res (list string) :=
  match olds with
  | [] => Ok []
  | old :: olds' =>
      let* l := replacements news old in
      let* rest := update_specs news olds' in
      Ok ((if is_nil l then [old] else l) ++ rest)
  end.

(** The accumulated naming constraints.  None and [] are only tested for truth, so None is
    modelled as []. *)
Record names := mkNames { permitted_names : list string; excluded_names : list string }.

(** constraints.py:82-91 for one of the two keys: [new] is the value of the key, if present *)
Definition add_constraint (new : option (list string)) (acc : list string) : res (list string) :=
  if is_nil acc then
    match new with Some l => Ok l | None => Ok acc end
  else
    match new with
    | None => Err KeyError
    | Some [] => Ok acc
    | Some l => update_specs l acc
    end.

(** constraints.py:80-93 *)
Definition add_constraints (new : naming) (acc : names) : res names :=
  let* p := add_constraint (n_permitted new) (permitted_names acc) in
  let* e := add_constraint (n_excluded new) (excluded_names acc) in
  Ok (mkNames p e).

(** constraints.py:96-105 *)
Definition update_naming_constraints (c : constraints) (acc : names) : res names :=
  match c_naming c with
  | None => Ok acc
  | Some n => add_constraints n acc
  end.

(** constraints.py:108-112 and 115-119 *)
Fixpoint in_names (subject : string) (l : list string) : res bool :=
  match l with
  | [] => Ok false
  | x :: l' => let* b := more_specific subject x in if b then Ok true else in_names subject l'
  end.

Definition excluded (subject : string) (l : list string) : res bool := in_names subject l.
Definition permitted (subject : string) (l : list string) : res bool := in_names subject l.

(** constraints.py:152-160 and 164-172 *)
Definition name_ok (subject : string) (acc : names) : res bool :=
  let* ex := (if is_nil (excluded_names acc) then Ok false
              else excluded subject (excluded_names acc)) in
  if ex then Ok false
  else if is_nil (permitted_names acc) then Ok true
       else permitted subject (permitted_names acc).

(** constraints.py:138-160: the loop; None is an early [return False].  [max_assigned] is set to
    False in line 132 and never assigned again, so it is the constant here. *)
Fixpoint check_upper (l : list stmt) (current : Z) (acc : names) : res (option names) :=
  match l with
  | [] => Ok (Some acc)
  | s :: l' =>
      match s_constraints s with
      | None => check_upper l' current acc
      | Some c =>
          let current' := calculate_path_length c current false in
          if Z.ltb current' 0 then Ok None
          else
            let* acc' := update_naming_constraints c acc in
            let* ok := name_ok (s_sub s) acc' in
            if ok then check_upper l' current' acc' else Ok None
      end
  end.

(** constraints.py:122-174 *)
Definition meets_restrictions (chain : list stmt) : res bool :=
  match rev chain with
  | [] => Err IndexError
  | leaf :: rupper =>
      let* r := check_upper (rev rupper) 0%Z (mkNames [] []) in
      match r with
      | None => Ok false
      | Some acc => name_ok (s_sub leaf) acc
      end
  end.
