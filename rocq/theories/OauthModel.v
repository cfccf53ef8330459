(** Explicit registration with OAuth 2: what an authorization server answers. *)
From Verif Require Export RpModel.

(** oauth2/registration.py:83-86 (appserver) *)
Definition not_answered : list string := ["application_type"; "jwks"; "redirect_uris"].

(** oauth2/registration.py:80-86 (appserver): the metadata of the answer; [req] as rm_blanks leaves it *)
Definition answer_metadata_oauth (R : reg_env) (req args : dict val) : dict val :=
  let req := filter (fun e => negb (rg_blank R (snd e))) req in
  filter (fun e => negb (smem (fst e) not_answered)) (dupdate req args).

Section Answer.
Context (E : cenv) (O : iter_order) (fuel : nat).

(** oauth2/registration.py:55-97 (appserver); None if the answer is an error.  The claim aud is not modelled. *)
Definition answer_oauth (R : reg_env) (P : op) (prio : list string) (t : token) : M astate (option answer) :=
  do tp <- on_fed (on_col (open_self_signed E (Some t))) in
  let p := snd tp in
  do m <- lift (metadata_of p) in
  do ty <- lift (some_of O (filter (fun t => negb (smem t ["federation_entity"; "trust_mark_issuer"])) (dkeys m))) in
  do r <- on_fed (collect_trust_chains_signed E fuel (s_sub p) t "" []) in
  do tcs <- on_fed (on_keys (verify_trust_chains E (fst r) [t])) in
  do cs <- lift (apply_policies O tcs) in
  do c <- lift (pick_trust_chain prio cs) in
  do md <- lift (chain_metadata c ty) in
  let req := request_of md in
  do r <- on_reg (step2_process_request O R req true true []) in
  match r with
  | Failed => ret None
  | Done args =>
      ret (Some (mkAnswer (op_key P)
                   (mkStmt (op_id P) (s_iss p) (Some (op_now P + op_lifetime P)%Z) (Some (op_jwks P))
                           (Some [(ty, answer_metadata_oauth R req args)]) None None
                           (if is_nil (op_hints P) then None else Some (op_hints P)))
                   (Some (ch_anchor c))))
  end.

End Answer.
