(** Model of the checks of critical extensions: src/fedservice/message.py:318-445.

    The schema check of idpyoidc ([super().verify], with the conversion of the claims to their types) is an arbitrary
    function of the statement.  Lists of strings have been converted already, so [crit] and [policy_language_crit]
    are lists of strings; a policy is entity type -> claim -> operator -> operand. *)
From Verif Require Export Stmt.

(** message.py:403-420; the claims of JsonWebToken are iss, sub, aud, exp, nbf, iat and jti *)
Definition statement_claims : list string :=
  ["iss"; "sub"; "aud"; "exp"; "nbf"; "iat"; "jti"; "jwks"; "authority_hints"; "metadata"; "metadata_policy";
   "constraints"; "crit"; "policy_language_crit"; "trust_marks"; "trust_anchor_id"].

(** message.py:320-328 *)
Definition policy_verbs : list string :=
  ["subset_of"; "one_of"; "superset_of"; "add"; "value"; "default"; "essential"].

(** a statement: its claims, and typed what the checks look at *)
Record statement := mkStatement {
  st_claims : dict val;
  st_crit : option (list string);
  st_policy : option (dict mpolicy);
  st_policy_crit : option (list string)
}.

(** Message.extra().keys() *)
Definition extra (known : list string) (d : dict val) : list string :=
  filter (fun k => negb (smem k known)) (dkeys d).

Definition set_inter_s (a b : list string) : list string := filter (fun x => smem x b) a.
Definition subset_s (a b : list string) : bool := forallb (fun x => smem x b) a.

(** the test common to message.py:331-345 and 425-439: [extras] the names outside the schema, [critical] the list of critical names,
    [known] the names the caller knows *)
Definition check_critical (extras : list string) (critical : option (list string)) (known : option (list string)) : res unit :=
  if is_nil extras then Ok tt
  else
    match critical with
    | None => Ok tt
    | Some [] => Err ValueError
    | Some c =>
        let musts := set_inter_s c extras in
        match known with
        | None | Some [] => Err UnknownCriticalExtension
        | Some k => if subset_s musts k then Ok tt else Err UnknownCriticalExtension
        end
    end.

(** message.py:330-345 *)
Definition policy_verify (p : claim_policy) (critical known : option (list string)) : res unit :=
  check_critical (extra policy_verbs p) critical known.

(** message.py:368-372 *)
Definition metadata_policy_verify (mp : dict mpolicy) (critical known : option (list string)) : res unit :=
  foldM (fun _ (tp : string * mpolicy) =>
           foldM (fun _ (cp : string * claim_policy) => policy_verify (snd cp) critical known) (snd tp) tt) mp tt.

(** message.py:422-445; [known] is known_extensions, [known_policy] known_policy_extensions *)
Definition statement_verify (schema : statement -> res unit) (m : statement) (known known_policy : option (list string)) : res unit :=
  let* _ := schema m in
  let* _ := check_critical (extra statement_claims (st_claims m)) (st_crit m) known in
  match st_policy m, st_policy_crit m with
  | Some ((_ :: _) as mp), Some ((_ :: _) as c) => metadata_policy_verify mp (Some c) known_policy
  | _, _ => Ok tt
  end.
