(** Vocabulary for federations in which time passes (C172, C173). *)
From Verif Require Export RevokeSpec PublishFacts PublishProps LiveFacts.

(** time stands still at the first moment; the network answers with [N0] *)
Definition freeze (N0 : request -> response) (E : cenv) : cenv :=
  mkEnv (e_delta E) (e_anchors E) (fun _ => N0) (fun _ => e_clock E 0) (e_lib E) (e_wk E) (e_tenant E).

(** The entities of [F] run this library, and there is nobody else; every request is answered, and within a day. *)
Record library_moving (jwks_of : val -> option (list key)) (F : list member) (E : cenv) : Prop := mkMoving {
  lm_run : library_run jwks_of F (freeze (library_net jwks_of F (e_clock E) 0) E);
  lm_net : forall n q, e_net E n q = library_net jwks_of F (e_clock E) n q;
  lm_slow : forall n, (e_clock E (S n) < e_clock E n + 86400)%Z
}.

(** no answer, or none to the point *)
Definition failed (r : response) : Prop := r = R404 \/ r = RStatus \/ r = RNoConnection.

(** As before, but any request may fail at any time.  Where another member lives at the second address of an
    identifier, the one at the first address does not answer 404. *)
Record library_shaky (jwks_of : val -> option (list key)) (F : list member) (E : cenv) : Prop := mkShaky {
  ls_run : library_run jwks_of F (freeze (library_net jwks_of F (e_clock E) 0) E);
  ls_net : forall n q, e_net E n q = library_net jwks_of F (e_clock E) n q \/ failed (e_net E n q);
  ls_slow : forall n, (e_clock E (S n) < e_clock E n + 86400)%Z;
  ls_apart : forall id m m' n, In m F -> In m' F -> m_home m = e_wk E id -> m_home m' = e_tenant E id -> m <> m' ->
    e_net E n (QDoc (e_wk E id)) <> R404
}.

(** one of the requests from [n] on and before [n'] fails though somebody is there to answer it *)
Definition outage (jwks_of : val -> option (list key)) (F : list member) (E : cenv) (n n' : nat) : Prop :=
  exists i q, n <= i /\ i < n' /\ failed (e_net E i q) /\ e_net E i q <> library_net jwks_of F (e_clock E) i q.

(** what get_document raises *)
Definition net_error (x : exn) : Prop := x = MissingPage \/ x = FailedConfigurationRetrieval \/ x = ConnectionError.

(** only members are asked about, and Python's recursion limit is not in the way *)
Definition about_members (F : list member) (rank : string -> nat) (steps : list step) : Prop :=
  forall st, In st steps ->
  match st with
  | Look fuel id | Ask fuel id => (exists m, In m F /\ m_id m = id) /\ rank id < fuel
  | Wait => True
  end.

(** What has to come out when the trust chains of [m] are asked for, by somebody who started with the keys [kj]: those along the ways up
    that end at somebody whose keys these are and meet the constraints, with the metadata the policies along them make of those of
    [m]; or what these policies raise. *)
Definition as_it_should (jwks_of : val -> option (list key)) (F : list member) (E : cenv) (O : iter_order) (kj : keyjar) (m : member)
    (r : res (list tchain)) : Prop :=
  match r with
  | Ok cs =>
      (forall rt, usable jwks_of F E kj (m_id m) rt ->
         exists c, In c cs /\ runs_along c (m_id m) rt /\ adjusted O jwks_of F E (m_id m) rt (ch_md c)) /\
      (forall c, In c cs -> exists rt, usable jwks_of F E kj (m_id m) rt /\ runs_along c (m_id m) rt /\
         adjusted O jwks_of F E (m_id m) rt (ch_md c)) /\
      NoDup (map (fun c => tc_chain (ch_tc c)) cs)
  | Err x => exists rt, usable jwks_of F E kj (m_id m) rt /\ policy_call_chain O (said jwks_of F E (m_id m) rt) = Err x
  end.

(** the constraints along all ways up can be evaluated *)
Definition all_checkable (jwks_of : val -> option (list key)) (F : list member) (E : cenv) : Prop :=
  forall m, In m F -> checkable jwks_of F E (m_id m).
