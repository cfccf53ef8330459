(** Configuration values taken from files: src/fedservice/utils.py:285-322.

    The file system is a function from paths to contents ([None]: os.path.isfile is false), and
    json.loads a function from texts to values.  The code writes the new values into the
    dictionaries it was given; the model returns the new dictionaries.  What a caller sees of
    the old ones after an exception is not modelled. *)
From Verif Require Export Py.
From Verif Require Import ConstraintsModel.

Section Config.
  Context (fs : string -> option string) (json : string -> res val).

  (** [s.endswith(e)] *)
  Definition endswith (e s : string) : bool :=
    String.eqb (str_drop (String.length s - String.length e) s) e.

  (** utils.py:285-298 [_import] *)
  Definition import_file (s : string) : res val :=
    match fs (str_drop 5 s) with
    | None => Ok VNull
    | Some dat =>
        if endswith ".json" s then json dat
        else if endswith ".py" s then Ok (VStr dat)
        else Err ValueError
    end.

  (** utils.py:301-322 [load_values_from_file].  The test for a reference among the items of a
      list (line 313) looks at the list, not at the item, and is never true. *)
  Fixpoint load (config : val) : res val :=
    match config with
    | VDict d =>
        let* d' :=
          (fix entries (d : list (string * val)) : res (list (string * val)) :=
             match d with
             | [] => Ok []
             | (k, v) :: d' =>
                 let* w :=
                   match v with
                   | VStr s => if String.prefix "file:" s then import_file s else Ok (VStr s)
                   | VDict _ => load v
                   | VList l =>
                       let* l' :=
                         (fix items (l : list val) : res (list val) :=
                            match l with
                            | [] => Ok []
                            | x :: l' =>
                                let* y := match x with VDict _ => load x | _ => Ok x end in
                                let* ys := items l' in
                                Ok (y :: ys)
                            end) l in
                       Ok (VList l')
                   | _ => Ok v
                   end in
                 let* rest := entries d' in
                 Ok ((k, w) :: rest)
             end) d in
        Ok (VDict d')
    | _ => Err AttributeError
    end.
End Config.
