(** Python values, exceptions, dictionaries and sets, as far as the fedservice code uses them.

    This file models the language and the JSON documents the code handles, not a file of the
    repository.  Floats and non-ASCII strings are not modelled (a string is a sequence of
    8-bit characters). *)
From Coq Require Export String Ascii ZArith List Bool Permutation.
Export ListNotations.
Open Scope string_scope.
Open Scope list_scope.

(** ** Exceptions *)
Inductive exn :=
| PolicyError | KeyError | TypeError | ValueError | IndexError | AttributeError
| MissingKey | BadSignature | RecursionError | UnknownEntity
| MissingPage | FailedConfigurationRetrieval | FailedInformationRetrieval | ConnectionError
| WrongSubject | Expired | UnknownCriticalExtension | NoTrustedChains
| SignatureFailure | SystemError | OtherException.

Inductive res (A : Type) := Ok (a : A) | Err (e : exn).
Arguments Ok {A} _.
Arguments Err {A} _.

Definition bind {A B} (r : res A) (f : A -> res B) : res B :=
  match r with Ok a => f a | Err e => Err e end.

Notation "'let*' x ':=' r 'in' k" := (bind r (fun x => k))
  (at level 200, x pattern, r at level 100, k at level 200).

Definition is_ok {A} (r : res A) : bool := match r with Ok _ => true | Err _ => false end.

(** ** Dictionaries: association lists, the first entry of a key counts *)
Definition dict (A : Type) := list (string * A).

Fixpoint dget {A} (k : string) (d : dict A) : option A :=
  match d with
  | [] => None
  | (k', v) :: d' => if String.eqb k k' then Some v else dget k d'
  end.

Definition dmem {A} (k : string) (d : dict A) : bool :=
  match dget k d with Some _ => true | None => false end.

(** [d[k] = v]: an existing entry keeps its place *)
Fixpoint dset {A} (k : string) (v : A) (d : dict A) : dict A :=
  match d with
  | [] => [(k, v)]
  | (k', v') :: d' => if String.eqb k k' then (k, v) :: d' else (k', v') :: dset k v d'
  end.

(** [del d[k]] (the caller checks presence) *)
Fixpoint ddel {A} (k : string) (d : dict A) : dict A :=
  match d with
  | [] => []
  | (k', v) :: d' => if String.eqb k k' then ddel k d' else (k', v) :: ddel k d'
  end.

Definition dkeys {A} (d : dict A) : list string := map fst d.

(** [d.update(e)] *)
Definition dupdate {A} (d e : dict A) : dict A :=
  fold_left (fun acc kv => dset (fst kv) (snd kv) acc) e d.

(** [d[k]] *)
Definition dindex {A} (k : string) (d : dict A) : res A :=
  match dget k d with Some v => Ok v | None => Err KeyError end.

Definition is_nil {A} (l : list A) : bool := match l with [] => true | _ => false end.

(** ** Values *)
Inductive val :=
| VNull
| VBool (b : bool)
| VInt (z : Z)
| VStr (s : string)
| VList (l : list val)
| VDict (d : list (string * val)).

(** [bool(v)] *)
Definition truthy (v : val) : bool :=
  match v with
  | VNull => false
  | VBool b => b
  | VInt z => negb (Z.eqb z 0)
  | VStr s => negb (String.eqb s "")
  | VList l => negb (is_nil l)
  | VDict d => negb (is_nil d)
  end.

Definition b2z (b : bool) : Z := if b then 1%Z else 0%Z.

(** [a == b]: booleans are the integers 0 and 1, dictionaries compare without order *)
Fixpoint py_eqb (a b : val) {struct a} : bool :=
  match a, b with
  | VNull, VNull => true
  | VBool x, VBool y => Bool.eqb x y
  | VBool x, VInt z => Z.eqb (b2z x) z
  | VInt z, VBool x => Z.eqb z (b2z x)
  | VInt x, VInt y => Z.eqb x y
  | VStr x, VStr y => String.eqb x y
  | VList l1, VList l2 =>
      (fix go (l1 l2 : list val) {struct l1} : bool :=
         match l1, l2 with
         | [], [] => true
         | x :: l1', y :: l2' => py_eqb x y && go l1' l2'
         | _, _ => false
         end) l1 l2
  | VDict d1, VDict d2 =>
      Nat.eqb (length d1) (length d2) &&
      (fix go (d1 : list (string * val)) {struct d1} : bool :=
         match d1 with
         | [] => true
         | (k, v) :: d1' =>
             match dget k d2 with
             | Some w => py_eqb v w
             | None => false
             end && go d1'
         end) d1
  | _, _ => false
  end.

(** values a set or a dictionary key can hold; tuples do not occur in JSON *)
Definition hashable (v : val) : bool :=
  match v with VList _ | VDict _ => false | _ => true end.

Definition is_list (v : val) : bool := match v with VList _ => true | _ => false end.

(** membership of a list of values with [==] *)
Definition vmem (x : val) (l : list val) : bool := existsb (py_eqb x) l.

(** ** Sets: duplicate free lists of hashable values *)
Fixpoint dedup (l : list val) : list val :=
  match l with
  | [] => []
  | x :: l' => x :: filter (fun y => negb (py_eqb x y)) (dedup l')
  end.

Fixpoint chars (s : string) : list val :=
  match s with
  | EmptyString => []
  | String c s' => VStr (String c EmptyString) :: chars s'
  end.

(** [set(l)] for a list [l] *)
Definition set_of_list (l : list val) : res (list val) :=
  if forallb hashable l then Ok (dedup l) else Err TypeError.

(** [set(v)]: lists by element, strings by character, dictionaries by key; other values are
    not iterable *)
Definition py_set (v : val) : res (list val) :=
  match v with
  | VList l => set_of_list l
  | VStr s => Ok (dedup (chars s))
  | VDict d => Ok (dedup (map (fun k => VStr k) (dkeys d)))
  | _ => Err TypeError
  end.

(** [set(v)] if [v] is a list, [{v}] otherwise (policy.py:24-33, policy_operator.py:6-16) *)
Definition set_or_single (v : val) : res (list val) :=
  match v with
  | VList l => set_of_list l
  | _ => if hashable v then Ok [v] else Err TypeError
  end.

(** Set operations.  Which of two equal representatives (1 and True) ends up in the
    result is not modelled faithfully: it is always the one of the first set. *)
Definition set_inter (s t : list val) : list val := filter (fun x => vmem x t) s.
Definition set_diff (s t : list val) : list val := filter (fun x => negb (vmem x t)) s.
Definition set_union (s t : list val) : list val := s ++ set_diff t s.

(** Substring test, [a in b] for strings *)
Fixpoint str_in (a b : string) : bool :=
  String.prefix a b ||
  match b with EmptyString => false | String _ b' => str_in a b' end.

(** [a in b] *)
Definition py_in (a b : val) : res bool :=
  match b with
  | VList l => Ok (vmem a l)
  | VStr s => match a with VStr t => Ok (str_in t s) | _ => Err TypeError end
  | VDict d =>
      match a with
      | VStr k => Ok (dmem k d)
      | _ => if hashable a then Ok false else Err TypeError
      end
  | _ => Err TypeError
  end.

(** [list(v)] *)
Definition py_list (v : val) : res (list val) :=
  match v with
  | VList l => Ok l
  | VStr s => Ok (chars s)
  | VDict d => Ok (map (fun k => VStr k) (dkeys d))
  | _ => Err TypeError
  end.

(** ** Iteration order of sets

    CPython iterates over a set in an order that depends on the hash seed and the history of
    the set.  An [iter_order] fixes such an order for sets of values and sets of strings; all
    functions that turn a set into a list or loop over a set take one, and the theorems
    quantify over it.  (The same set is iterated in the same order each time; the theorems
    below do not depend on this.) *)
Record iter_order := {
  iov : list val -> list val;
  ios : list string -> list string;
  iov_perm : forall l, Permutation (iov l) l;
  ios_perm : forall l, Permutation (ios l) l
}.

Definition smem (x : string) (l : list string) : bool := existsb (String.eqb x) l.

(** for loop with exceptions *)
Fixpoint foldM {A B} (f : B -> A -> res B) (l : list A) (b : B) : res B :=
  match l with
  | [] => Ok b
  | x :: l' => match f b x with Ok b' => foldM f l' b' | Err e => Err e end
  end.

Fixpoint mapM {A B} (f : A -> res B) (l : list A) : res (list B) :=
  match l with
  | [] => Ok []
  | x :: l' => match f x with
               | Ok y => match mapM f l' with Ok ys => Ok (y :: ys) | Err e => Err e end
               | Err e => Err e
               end
  end.
