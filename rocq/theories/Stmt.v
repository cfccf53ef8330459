(** Entity statements, as far as the modelled code looks into them.

    src/fedservice/message.py:375-399 (schema of EntityStatement, Constraints,
    NamingConstraints).  A field the code reads with [d[k]] inside try/except KeyError or
    tests with [in] is an option.  [iss] and [sub] are always present.  Documents whose fields have
    other JSON types are not modelled. *)
From Verif Require Export Py.

Definition key := nat.

Record naming := mkNaming {
  n_permitted : option (list string);
  n_excluded : option (list string)
}.

Record constraints := mkConstraints {
  c_max_path_length : option Z;
  c_naming : option naming
}.

(** metadata of one entity type: claim -> value *)
Definition metadata := dict val.
(** policy for one claim: operator -> operand *)
Definition claim_policy := dict val.
(** metadata policy of one entity type: claim -> policy *)
Definition mpolicy := dict claim_policy.

Record stmt := mkStmt {
  s_iss : string;
  s_sub : string;
  s_exp : option Z;
  s_jwks : option (list key);
  s_metadata : option (dict metadata);      (* entity type -> metadata *)
  s_policy : option (dict mpolicy);         (* entity type -> metadata policy *)
  s_constraints : option constraints;
  s_hints : option (list string)
}.
