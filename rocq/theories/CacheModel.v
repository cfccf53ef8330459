(** Model of src/fedservice/entity_statement/cache.py (ESCache). *)
From Verif Require Export Py.

(** What [isinstance(statement, dict)] sees: a dictionary, a Message (a mapping with claims which is
    not a dict), or something without claims (a string, a number). *)
Inductive vclass := CDict | CMessage | CPlain.

Section ESCache.
Context {A : Type}.
(** the Python class of a stored value, and its exp claim *)
Context (class_of : A -> vclass) (exp_of : A -> option Z).

Definition cache := dict A.

(** cache.py:22-23 *)
Definition cache_set (k : string) (v : A) (c : cache) : cache := dset k v c.

(** cache.py:25-40; an outdated dictionary is removed, a dictionary without exp raises KeyError *)
Definition cache_getitem (delta now : Z) (k : string) (c : cache) : cache * res (option A) :=
  match dget k c with
  | None => (c, Ok None)
  | Some v =>
      match class_of v with
      | CDict =>
          match exp_of v with
          | None => (c, Err KeyError)
          | Some e => if Z.ltb now (e - delta) then (c, Ok (Some v)) else (ddel k c, Ok None)
          end
      | _ => (c, Ok (Some v))
      end
  end.

(** cache.py:42-43 *)
Definition cache_delitem (k : string) (c : cache) : cache * res unit :=
  if dmem k c then (ddel k c, Ok tt) else (c, Err KeyError).

(** cache.py:51-52 *)
Definition cache_contains (k : string) (c : cache) : bool := dmem k c.

(** cache.py:54-55: no expiry *)
Definition cache_get (k : string) (c : cache) : option A := dget k c.

(** the operations of a client, each at some time *)
Inductive cop := OpSet (k : string) (v : A) | OpGetitem (k : string) | OpDel (k : string).

Definition cache_step (delta : Z) (c : cache) (o : Z * cop) : cache :=
  match snd o with
  | OpSet k v => cache_set k v c
  | OpGetitem k => fst (cache_getitem delta (fst o) k c)
  | OpDel k => fst (cache_delitem k c)
  end.

(** the state after some operations (oldest first), whatever their results *)
Definition cache_run (delta : Z) (ops : list (Z * cop)) (c : cache) : cache :=
  fold_left (cache_step delta) ops c.

End ESCache.
