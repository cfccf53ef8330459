(** Model of the commands for setting up and looking at a federation: dc4eu_federation/get_info.py and add_info.py (the
    same in setup_federation), setup_federation/command.sh, and script/tree.py.

    Every command works with a new federation entity, so with empty caches.  What is printed is what the command
    returns.  The directories that add_info writes to are dictionaries (AbstractFileSystem with its conversions of keys
    and values is idpyoidc's).  Keys are written as a JWKS by a function.  The option for insecure connections does not
    show. *)
From Verif Require Export PublishModel TrawlModel.

(** get_info.py:25-27 and tree.py:10-15 *)
Definition read_configuration (E : cenv) (id : string) : M cstate stmt :=
  do t <- get_entity_configuration E id in
  do tp <- open_self_signed E t in
  ret (snd tp).

(** what get_info prints *)
Inductive info :=
| AnchorInfo (d : dict (list key))
| SubordinateInfo (d : dict (dict val))
| NoInfo.

(** add_info.py:23-24 *)
Definition add_info {A} (source target : dict A) : dict A :=
  fold_left (fun t e => dset (fst e) (snd e) t) source target.

Section Commands.
Context (E : cenv) (jwks_val : list key -> val).

Definition keys_in_statement (c : stmt) : res (list key) :=
  match s_jwks c with Some ks => Ok ks | None => Err KeyError end.

(** get_info.py:35-41 *)
Definition subordinate_entry (c : stmt) : res (dict val) :=
  let* m := match s_metadata c with Some m => Ok m | None => Err KeyError end in
  let* ks := keys_in_statement c in
  let* fe := dindex "federation_entity" m in
  Ok ([("entity_types", VList (map VStr (dkeys m))); ("jwks", jwks_val ks)] ++
      (if dmem "federation_list_endpoint" fe then [("intermediate", VBool true)] else [])).

(** get_info.py:25-49 *)
Definition get_info (anchor subordinate : bool) (id : string) : M cstate info :=
  do c <- read_configuration E id in
  if anchor && negb subordinate then do ks <- lift (keys_in_statement c) in ret (AnchorInfo [(id, ks)])
  else if subordinate && negb anchor then do e <- lift (subordinate_entry c) in ret (SubordinateInfo [(id, e)])
  else ret NoInfo.

(** tree.py:18-34: what was found, and the errors that were printed; [n] is the recursion depth Python allows.  The
    endpoint is known, so nothing is looked up for the list request (client/list.py:32-57). *)
Definition do_list_at (L : lenv) (u : val) : M cstate (list string) := fun s =>
  match u with
  | VStr ep => (mkState (st_cfg s) (st_es s) (S (st_tick s)), names_in (l_net L (st_tick s) ep LAll))
  | _ => (s, Err OtherException)
  end.

Fixpoint do_subordinates (L : lenv) (n : nat) (id superior : string)
  : M cstate (dict unit * list (string * string)) :=
  match n with
  | 0 => raise RecursionError
  | S n' =>
      do c <- read_configuration E id in
      do wrong <- (if String.eqb superior "" then ret []
                   else match s_hints c with
                        | None => raise KeyError
                        | Some hs => ret (if smem superior hs then [] else [(superior, id)])
                        end) in
      do m <- lift (match s_metadata c with Some m => Ok m | None => Err KeyError end) in
      do fe <- lift (dindex "federation_entity" m) in
      match dget "federation_list_endpoint" fe with
      | Some u =>
          do subs <- do_list_at L u in
          mfold (fun acc sub =>
                   do r <- do_subordinates L n' sub id in
                   ret (dupdate (fst acc) (fst r), snd acc ++ snd r)) subs ([], wrong)
      | None => ret ([(id, tt)], wrong)
      end
  end.

End Commands.

(** the two messages of find_trust_chain, tree.py:36-48: no chain at all is reported as both *)
Inductive verdict := NoChain | NoAnchor | Found.

Section Check.
Context (E : cenv) (O : iter_order) (fuel : nat).

(** tree.py:36-48; what do_subordinates returns has no further subordinates (tree.py:47) *)
Definition find_trust_chain (items : dict unit) (anchor : string) : M fstate (list (string * verdict)) :=
  mfold (fun acc e =>
           do cs <- get_verified_trust_chains E O fuel (fst e) in
           ret (acc ++ (if is_nil cs then [(fst e, NoChain)] else []) ++
                [(fst e, if is_nil (filter (fun c => String.eqb (ch_anchor c) anchor) cs) then NoAnchor else Found)]))
    items [].

End Check.

(** tree.py:64-67: the entity at the top is the only trust anchor *)
Definition trusting (E : cenv) (root : string) : cenv :=
  mkEnv (e_delta E) [root] (e_net E) (e_clock E) (e_lib E) (e_wk E) (e_tenant E).

(** tree.py:50-79: what was found, the errors, and with -c the verdicts.  The federation entity's own keys are left out
    of the key jar. *)
Definition tree (E : cenv) (L : lenv) (O : iter_order) (n fuel : nat) (checks : bool) (root : string)
  : M cstate (dict unit * list (string * string) * list (string * verdict)) :=
  do c <- read_configuration E root in
  do ks <- lift (keys_in_statement c) in
  do r <- do_subordinates (trusting E root) L n root "" in
  if checks then fun s =>
    let (f, x) := find_trust_chain (trusting E root) O fuel (fst r) root (mkFed s [(root, ks)] []) in
    (f_col f, let* v := x in Ok (fst r, snd r, v))
  else ret (fst r, snd r, []).

(** ** Setting up a federation (setup_federation/command.sh, README_wallet.rst:93-150) *)

Section Setup.
Context (jwks_of : val -> option (list key)) (jwks_val : list key -> val) (E : cenv).

(** the network as it is with these entities *)
Definition with_members (F : list member) : cenv :=
  mkEnv (e_delta E) (e_anchors E) (library_net jwks_of F (e_clock E)) (e_clock E) (e_lib E) (e_wk E) (e_tenant E).

Definition put_subs (m : member) (db : subs) : member :=
  mkMember (m_srv m) (m_whole m) (m_marks m) db (m_key m) (m_home m) (m_fetch m).

(** command.sh:16-17: get_info.py -s sub > tmp.json; add_info.py -s tmp.json -t sup/subordinates.  The state is the
    entities and the number of requests. *)
Definition enrol (sup sub : string) : M (list member * nat) unit := fun st =>
  match get_info (with_members (fst st)) jwks_val false true sub (mkState [] [] (snd st)) with
  | (s, Ok (SubordinateInfo d)) =>
      ((map (fun m => if String.eqb (m_id m) sup then put_subs m (add_info d (m_subs m)) else m) (fst st), st_tick s), Ok tt)
  | (s, Ok _) => ((fst st, st_tick s), Err ValueError)
  | (s, Err x) => ((fst st, st_tick s), Err x)
  end.

Definition set_up (commands : list (string * string)) : M (list member * nat) unit :=
  mfold (fun _ c => enrol (fst c) (snd c)) commands tt.

End Setup.
