(** Model of the application parts of an entity: clients (src/fedservice/appclient/__init__.py), servers
    (src/fedservice/appserver/__init__.py) and how a combo makes them and publishes their metadata
    (src/fedservice/combo/__init__.py).

    A configuration is the values under the keys the constructors look for; where the code takes a key that is not there for
    an empty string, the model has an option.  Services are their names and classes.  idpyoidc's init_services raises
    AttributeError for None; its get_client_metadata is a function of the part and of the entity type.  Keys, HTTP parameters,
    persistence, authentication and add-ons are not modelled. *)
From Verif Require Export ContextModel.

(** ** Clients *)

(** appclient/__init__.py:35-38 *)
Definition client_types : dict string :=
  [("openid_relying_party", "oidc"); ("oauth_client", "oauth2")].

(** defaults.py:17-38; the second table is updated in place *)
Definition oidc_services : dict string :=
  [("oidc_authorization", "fedservice.appclient.oidc.authorization.Authorization");
   ("oidc_registration", "fedservice.appclient.oidc.registration.Registration");
   ("discovery", "idpyoidc.client.oidc.provider_info_discovery.ProviderInfoDiscovery");
   ("access_token", "idpyoidc.client.oidc.access_token.AccessToken");
   ("refresh_access_token", "idpyoidc.client.oidc.refresh_access_token.RefreshAccessToken");
   ("userinfo", "idpyoidc.client.oidc.userinfo.UserInfo")].

(** defaults.py:24-46 *)
Definition oauth2_services : dict string :=
  [("oauth_authorization", "fedservice.appclient.oauth2.authorization.Authorization");
   ("oauth_registration", "fedservice.appclient.oauth2.registration.Registration");
   ("discovery", "idpyoidc.client.oauth2.server_metadata.ServerMetadata");
   ("access_token", "idpyoidc.client.oauth2.access_token.AccessToken");
   ("refresh_access_token", "idpyoidc.client.oauth2.refresh_access_token.RefreshAccessToken")].

(** what a client is configured with: client_type, entity_type, services *)
Record client_conf := mkClientConf {
  cc_client_type : option string;
  cc_entity_type : option string;
  cc_services : dict string
}.

Record client := mkClient {
  cl_client_type : string;
  cl_entity_type : string;
  cl_services : dict string;
  cl_schema : string                (* metadata_class *)
}.

(** appclient/__init__.py:61-68; ClientEntity.name is openid_relying_party (42) *)
Definition client_type_of (conf : client_conf) (client_type entity_type : string) : res string :=
  let ct := match cc_client_type conf with Some t => t | None => client_type end in
  let et := match cc_entity_type conf with Some t => t | None => entity_type end in
  if negb (String.eqb ct "") then Ok ct
  else match dget et client_types with
       | Some t => Ok t
       | None => dindex "openid_relying_party" client_types
       end.

(** appclient/__init__.py:85-94; the second test is about the argument, not about the type of the client *)
Definition client_services (conf : client_conf) (services : dict string) (client_type own_type : string)
  : res (dict string) :=
  let srvs := if is_nil services then cc_services conf else services in
  if negb (is_nil srvs) then Ok srvs
  else if String.eqb own_type "oidc" then Ok oidc_services
  else if String.eqb client_type "oauth2" then Ok oauth2_services
  else Err AttributeError.

(** appclient/__init__.py:44-114 *)
Definition make_client (conf : client_conf) (services : dict string) (client_type entity_type : string) : res client :=
  let* t := client_type_of conf client_type entity_type in
  let* srvs := client_services conf services client_type t in
  Ok (mkClient t (match cc_entity_type conf with Some e => e | None => entity_type end) srvs
        (if String.eqb t "oauth2" then "OauthClientMetadata" else "OIDCRPMetadata")).

(** appclient/__init__.py:145-153; also 155-163 *)
Definition client_entity_type (c : client) (entity_type : string) : string :=
  if String.eqb entity_type "" then
    if String.eqb (cl_client_type c) "oauth2" then "oauth_client"
    else if String.eqb (cl_client_type c) "oidc" then "openid_relying_party"
    else ""
  else entity_type.

(** appclient/__init__.py:126-130 *)
Definition get_service (c : client) (name : string) : option string := dget name (cl_services c).

(** ** Servers *)

(** what a server is configured with: server_type, preferences, endpoints *)
Record server_conf := mkServerConf {
  sc_type : option string;
  sc_prefer : dict val;
  sc_endpoint : dict endpoint
}.

Record server := mkServer {
  sv_type : string;
  sv_name : string;
  sv_schema : list string;
  sv_id : string;                   (* context.entity_id *)
  sv_prefer : dict val;
  sv_endpoint : dict endpoint
}.

Section Servers.
(** the claims of OPMetadata and of AuthorizationServerMetadata (message.py:49-70, 237-269), with those of the classes of
    idpyoidc they are made from *)
Context (op_schema as_schema : list string).

(** appserver/__init__.py:77-82 *)
Definition server_type_of (conf : server_conf) (server_type entity_type : string) : string :=
  let t := if String.eqb server_type "" then match sc_type conf with Some t => t | None => "" end else server_type in
  if String.eqb t "" then
    if String.eqb entity_type "oauth_authorization_server" then "oauth2"
    else if String.eqb entity_type "openid_provider" then "oidc"
    else ""
  else t.

(** appserver/__init__.py:59-135, for a configuration that is a dictionary: its issuer is the argument entity_id (94-96) and
    idpyoidc's EndpointContext takes that as entity_id.  Without a type there is no metadata_schema (130). *)
Definition make_server (conf : server_conf) (server_type entity_id entity_type : string) : res server :=
  let t := server_type_of conf server_type entity_type in
  if String.eqb t "oauth2" then
    Ok (mkServer t "oauth_authorization_server" as_schema entity_id (sc_prefer conf) (sc_endpoint conf))
  else if String.eqb t "oidc" then
    Ok (mkServer t "openid_provider" op_schema entity_id (sc_prefer conf) (sc_endpoint conf))
  else Err AttributeError.

(** appserver/__init__.py:161-179 *)
Definition server_get_metadata (s : server) (entity_type : string) : dict val :=
  let t := if String.eqb entity_type "" then sv_name s else entity_type in
  let md := get_server_metadata (sv_schema s) (sv_prefer s) (map snd (sv_endpoint s)) in
  let md := fold_left (fun md param => if smem param (sv_schema s) then dset param (VStr (sv_id s)) md else md)
              ["issuer"; "certificate_issuer"] md in
  [(t, VDict md)].

(** ** Combos *)

(** idpyoidc's get_client_metadata: the metadata of a client for an entity type *)
Context (client_md : client -> string -> dict val).

(** appclient/__init__.py:145-153 *)
Definition client_get_metadata (c : client) (entity_type : string) : dict val :=
  let t := client_entity_type c entity_type in
  [(t, VDict (client_md c t))].

(** what a part is specified by: its class and its kwargs *)
Inductive spec :=
| SpClient (conf : client_conf) (services : dict string) (client_type : string)
| SpServer (conf : server_conf) (server_type : string)
| SpFederation (fe : fed_server)
| SpHandler
| SpPlain.

(** the parts of a combo *)
Inductive guise :=
| GClient (c : client)
| GServer (s : server)
| GFederation (fe : fed_server)
| GHandler
| GPlain.

(** combo/__init__.py:41-43: a part gets the identifier of the combo and the name it has in the configuration *)
Definition make_part (entity_id key : string) (sp : spec) : res guise :=
  match sp with
  | SpClient conf services ct => let* c := make_client conf services ct key in Ok (GClient c)
  | SpServer conf st => let* s := make_server conf st entity_id key in Ok (GServer s)
  | SpFederation fe => Ok (GFederation fe)
  | SpHandler => Ok GHandler
  | SpPlain => Ok GPlain
  end.

(** combo/__init__.py:35-43; [config] are the values that have a class *)
Definition make_parts (entity_id : string) (config : dict spec) : res (dict guise) :=
  foldM (fun parts kv => let* g := make_part entity_id (fst kv) (snd kv) in Ok (dset (fst kv) g parts)) config [].

(** how the parts appear in get_metadata (combo/__init__.py:110-119) *)
Definition part_of_guise (g : guise) : part :=
  match g with
  | GClient c => PMeta (client_get_metadata c)
  | GServer s => PMeta (server_get_metadata s)
  | GFederation fe => PMeta (fe_get_metadata federation_entity_schema fe)
  | GHandler => PHandler
  | GPlain => PPlain
  end.

Definition parts_of (parts : dict guise) : dict part := map (fun p => (fst p, part_of_guise (snd p))) parts.

End Servers.
