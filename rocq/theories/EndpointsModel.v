(** Model of how the endpoints of an entity get into its metadata (src/fedservice/entity/__init__.py,
    src/fedservice/trust_mark_entity/entity.py, src/fedservice/utils.py, src/fedservice/combo/__init__.py) and of how a
    client of a trust mark issuer looks for the issuer's endpoint (src/fedservice/entity/client/trust_mark.py).

    The names and paths of an endpoint are strings, empty if there is none.  idpyoidc's get_server_metadata, given the
    endpoints, is the preferences that belong to the schema, updated with the claims of the endpoints; the latter are those
    of get_endpoint_claims in entity/__init__.py, which does the same as the function of that name in idpyoidc. *)
From Verif Require Export FederationModel.

Record endpoint := mkEndpoint {
  ep_name : string;
  ep_endpoint_name : string;
  ep_full_path : string;
  ep_authn : list val;             (* client_authn_method *)
  ep_algs : list val               (* auth_signing_alg_values *)
}.

(** [if _val: _info[param] = _val] *)
Definition set_if (param : string) (l : list val) (info : dict val) : dict val :=
  if is_nil l then info else dset param (VList l) info.

(** entity/__init__.py:254-266, one endpoint *)
Definition endpoint_claims (info : dict val) (e : endpoint) : dict val :=
  if String.eqb (ep_endpoint_name e) "" then info
  else
    let info := dset (ep_endpoint_name e) (VStr (ep_full_path e)) info in
    let info := set_if (ep_endpoint_name e ++ "_auth_methods") (ep_authn e) info in
    set_if (ep_endpoint_name e ++ "_auth_signing_alg_values") (ep_algs e) info.

(** entity/__init__.py:254-266 *)
Definition get_endpoint_claims (eps : list endpoint) : dict val := fold_left endpoint_claims eps [].

(** the parts of a federation entity that its metadata are made of: its preferences and its endpoints by name *)
Record fed_server := mkFedServer {
  fe_prefer : dict val;
  fe_endpoint : dict endpoint
}.

(** idpyoidc's get_server_metadata; [schema] are the claims of the schema, those of FederationEntity in message.py:97-118 *)
Definition get_server_metadata (schema : list string) (prefer : dict val) (eps : list endpoint) : dict val :=
  dupdate (filter (fun e => smem (fst e) schema) prefer) (get_endpoint_claims eps).

(** entity/__init__.py:156-164 and 172-176 *)
Definition fe_get_metadata (schema : list string) (fe : fed_server) (entity_type : string) : dict val :=
  [(entity_type, VDict (get_server_metadata schema (fe_prefer fe) (map snd (fe_endpoint fe))))].

(** entity/__init__.py:166-170: the dictionary that is updated is the one the entity keeps *)
Definition get_preferences (fe : fed_server) : fed_server * dict val :=
  let p := dupdate (fe_prefer fe) (get_endpoint_claims (map snd (fe_endpoint fe))) in
  (mkFedServer p (fe_endpoint fe), [("federation_entity", VDict p)]).

(** trust_mark_entity/entity.py:134-141, one endpoint *)
Definition tme_claims (md : dict val) (e : endpoint) : dict val :=
  let md := if String.eqb (ep_full_path e) "" then md
            else dset (ep_name e ++ "_endpoint") (VStr (ep_full_path e)) md in
  let md := set_if (ep_name e ++ "_auth_signing_algs") (ep_algs e) md in
  set_if (ep_name e ++ "_auth_methods") (ep_authn e) md.

(** trust_mark_entity/entity.py:131-142 *)
Definition tme_get_metadata (eps : dict endpoint) : dict val :=
  [("trust_mark_entity", VDict (fold_left tme_claims (map snd eps) []))].

(** utils.py:158-163, 268-274: the endpoints of a trust mark entity become endpoints of the federation entity *)
Definition adopt (fe : fed_server) (tme : dict endpoint) : fed_server :=
  mkFedServer (fe_prefer fe) (fold_left (fun d e => dset (fst e) (snd e) d) tme (fe_endpoint fe)).

(** the parts of a combo: a federation entity, something else that takes an entity type, a trust mark entity, an RPHandler,
    something without metadata *)
Inductive cpart :=
| CFederation (fe : fed_server)
| CTyped (md : string -> dict val)
| CTrustMarks (eps : dict endpoint)
| CHandler
| CPlain.

(** combo/__init__.py:110-119 without a client; get_metadata of a trust mark entity takes no entity_type *)
Definition combo_get_metadata (schema : list string) (parts : dict cpart) : res (dict val) :=
  foldM (fun acc p =>
           match snd p with
           | CFederation fe => Ok (dupdate acc (fe_get_metadata schema fe (fst p)))
           | CTyped md => Ok (dupdate acc (md (fst p)))
           | CTrustMarks _ => Err TypeError
           | CHandler | CPlain => Ok acc
           end) parts [].

(** ** The claims of a federation entity *)

(** the claims of FederationEntity (message.py:97-118) *)
Definition federation_entity_schema : list string :=
  ["federation_fetch_endpoint"; "federation_list_endpoint"; "federation_resolve_endpoint";
   "federation_trust_mark_status_endpoint"; "federation_trust_mark_list_endpoint"; "federation_trust_mark_endpoint";
   "federation_historical_keys_endpoint"; "endpoint_auth_signing_alg_values_supported"; "name"; "contacts"; "policy_url";
   "homepage_uri"; "organization_name"; "trust_mark_owners"; "trust_mark_issuers"].

(** entity/claims.py:91-99; None for all of them *)
Definition federation_entity_supports : list string :=
  ["organization_name"; "contacts"; "policy_uri"; "logo_uri"; "homepage_uri"; "trust_mark_owners"; "trust_mark_issuers"].

(** entity/claims.py:101-107; the default of a claim is None, and so is what has no preference *)
Definition claims_metadata (prefer : dict val) : dict val :=
  fold_left (fun info key =>
               match dget key prefer with
               | None | Some VNull => info
               | Some v => dset key v info
               end) federation_entity_schema [].

(** ** The client *)
Section Client.
Context (E : cenv) (O : iter_order) (fuel : nat).

(** trust_mark.py:59-71; [issuer] is that of the client's context.  Where get_trust_chains has found none, the chains are
    looked for once more. *)
Definition trust_mark_endpoint (issuer : string) : M fstate val :=
  do cs <- get_trust_chains E O fuel issuer in
  do cs <- (if is_nil cs then
              do cs' <- get_verified_trust_chains E O fuel issuer in
              do _ <- (if is_nil cs' then ret tt else store_trust_chain issuer cs') in
              ret cs'
            else ret cs) in
  match cs with
  | [] => ret (VStr "")
  | c :: _ =>
      match ch_md c with
      | ByType m =>
          do fe <- lift (dindex "federation_entity" m) in
          match fe with
          | Some fe => lift (dindex "federation_trust_mark_endpoint" fe)
          | None => raise TypeError
          end
      | Flat m =>
          do v <- lift (dindex "federation_entity" m) in
          match v with
          | VDict fe => lift (dindex "federation_trust_mark_endpoint" fe)
          | _ => raise TypeError
          end
      end
  end.

End Client.

(** trust_mark.py:41-57: a request needs the identifier of the trust mark *)
Definition trust_mark_request (args : dict val) : res (dict val) :=
  if dmem "trust_mark_id" args then Ok args else Err OtherException.
