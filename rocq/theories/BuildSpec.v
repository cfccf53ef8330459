(** Vocabulary for the properties about building entities. *)
From Verif Require Import StateM VerifierModel BuildModel.
Local Open Scope string_scope.
Local Open Scope list_scope.

(** [P] holds for each trust anchor object in the arguments of an item *)
Definition item_refs (P : object -> Prop) (it : item) : Prop :=
  forall kw k o, it_kwargs it = Some kw -> In (k, KAnchors o) kw -> P o.

Definition settings_refs (P : object -> Prop) (s : settings) : Prop :=
  forall n d k o, In (n, d) s -> In (k, KAnchors o) d -> P o.

Definition defs_refs (P : object -> Prop) (d : dict item) : Prop :=
  forall n it, In (n, it) d -> item_refs P it.

Definition items_refs (P : object -> Prop) (i : items) : Prop :=
  match i with
  | INone => True
  | IList l => forall d, In (WDefs d) l -> defs_refs P d
  | IDict d => defs_refs P d
  end.

(** ... in the settings and the definitions a caller passes *)
Definition args_refs (P : object -> Prop) (a : margs) : Prop :=
  forall p, items_refs P (a_items a p)
            /\ settings_refs P (a_init a p)
            /\ settings_refs P (a_args a p).

(** the operation does not hand out the object [o] *)
Definition apart (o : object) (x : op) : Prop :=
  match x with
  | Make a => args_refs (fun q => q <> o) a /\ a_anchors a <> Some o
  | AddAnchor _ _ _ => True
  | SetAnchors _ q => q <> o
  end.

(** somebody assigns to the trust_anchors of entity [i] *)
Definition assigns (i : nat) (x : op) : Prop :=
  match x with SetAnchors j _ => j = i | _ => False end.

(** The anchors that entity [i] is given by add_trust_anchor, in order. *)
Definition added_to (i : nat) (ops : list op) : list (string * list key) :=
  flat_map (fun x => match x with
                     | AddAnchor j id ks => if Nat.eqb j i then [(id, ks)] else []
                     | _ => []
                     end) ops.

(** what a dictionary holds after those: the latest for each name *)
Definition with_additions (l : list (string * list key)) (d : dict (list key)) : dict (list key) :=
  fold_left (fun d e => dset (fst e) (snd e) d) l d.

(** all keys that came with the name [id] *)
Definition keys_given (id : string) (l : list (string * list key)) : list key :=
  flat_map (fun e => if String.eqb (fst e) id then snd e else []) l.

(** A call that gives the entity trust anchors of its own: a dictionary with
    something in it, not the default one; and no trust anchors by another way. *)
Definition explicit (h : object -> dict (list key)) (x : op) : Prop :=
  match x with
  | Make a =>
      args_refs (fun _ => False) a
      /\ exists o, a_anchors a = Some o /\ o <> default_anchors /\ h o <> []
  | AddAnchor _ _ _ => True
  | SetAnchors _ q => q <> default_anchors
  end.

(** a call without settings for items *)
Definition no_settings (x : op) : Prop :=
  match x with
  | Make a => forall p, a_init a p = [] /\ a_args a p = []
  | _ => True
  end.

(** argument [k] of the item *)
Definition argument (it : item) (k : string) : option kval :=
  match it_kwargs it with Some kw => dget k kw | None => None end.

(** Python dictionaries have each key once *)
Definition wf_settings (s : settings) : Prop :=
  NoDup (dkeys s) /\ forall n d, In (n, d) s -> NoDup (dkeys d).

(** the value set for argument [k] of item [n] *)
Definition setting (s : settings) (n k : string) : option kval :=
  match dget n s with Some d => dget k d | None => None end.

(** the names in a list of names and definitions *)
Definition asked (l : list want) : list string :=
  flat_map (fun w => match w with WName n => [n] | WDefs d => dkeys d end) l.
