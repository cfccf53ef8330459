(** Vocabulary for C171: an entity that comes back to a federation after a long time. *)
From Verif Require Export RevokeSpec.

(** what the caller of a step gets *)
Definition result_of (E : cenv) (O : iter_order) (s : fstate) (st : step) : option (res (list tchain)) :=
  match st with
  | Look fuel id => Some (snd (get_verified_trust_chains E O fuel id s))
  | Ask fuel id => Some (snd (get_trust_chains E O fuel id s))
  | Wait => None
  end.

Fixpoint results (E : cenv) (O : iter_order) (steps : list step) (s : fstate) : list (option (res (list tchain))) :=
  match steps with
  | [] => []
  | st :: steps => result_of E O s st :: results E O steps (do_step E O s st)
  end.

(** somebody with the same keys who has not asked anybody yet *)
Definition newcomer (s : fstate) : fstate := mkFed (mkState [] [] (st_tick (f_col s))) (f_keys s) [].

(** what was handed out before request [n] and says when it ends has ended by [n], by more than the margin *)
Definition dated_over (E : cenv) (n : nat) : Prop :=
  forall m q k p z, m < n -> e_net E m q = RText (Some (TJws k p)) -> s_exp p = Some z ->
  (z + e_delta E < e_clock E n)%Z.

(** and all of it says when it ends *)
Definition all_dated (E : cenv) (n : nat) : Prop :=
  forall m q k p, m < n -> e_net E m q = RText (Some (TJws k p)) -> s_exp p <> None.

(** chains are asked for only of entities of which none are stored *)
Definition none_stored (s : fstate) (steps : list step) : Prop :=
  forall fuel id, In (Ask fuel id) steps -> dget id (f_chains s) = None.
