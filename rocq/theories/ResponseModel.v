(** Model of what the authorization endpoints add to their responses: the trust anchor of the client
    (src/fedservice/appserver/oidc/authorization.py, oauth2/authorization.py, oauth2/pushed_authorization.py).

    The response is the dictionary of its parameters; the client is the one that idpyoidc hands over, if any. *)
From Verif Require Export ClientModel.

(** oidc/authorization.py:132-139, oauth2/authorization.py:123-130, pushed_authorization.py:116-123 *)
Definition extra_response_args (f : fstate) (client_id : option string) (aresp : dict val) : dict val :=
  match client_id with
  | None => aresp
  | Some id =>
      if String.eqb id "" then aresp
      else match dget id (f_chains f) with
           | Some (c :: _) => dset "trust_anchor_id" (VStr (ch_anchor c)) aresp
           | Some [] | None => aresp
           end
  end.
