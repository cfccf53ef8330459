(** Model of the tree of superiors and of tree2chains,
    src/fedservice/entity/function/__init__.py:42-62. *)
From Verif Require Export Py.

(** authority -> None, or a signed statement and the authority's superiors *)
Inductive tree (A : Type) := T (branches : list (string * option (A * tree A))).
Arguments T {A} branches.

Definition branches {A} (t : tree A) := match t with T bs => bs end.

(** function/__init__.py:42-62.  The lists of [_lists] are extended in place; each is held by
    one variable only. *)
Fixpoint tree2chains {A} (t : tree A) : list (list A) :=
  match t with
  | T bs =>
      flat_map (fun b =>
                  match snd b with
                  | None => [[]]
                  | Some (statement, unit) =>
                      match unit with
                      | T [] => [[statement]]
                      | T _ => map (fun l => l ++ [statement]) (tree2chains unit)
                      end
                  end) bs
  end.
