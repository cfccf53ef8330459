(** Model of the pages entities are reached by: the views of edu_federation, setup_federation and dc4eu_federation
    (service_endpoint and do_response in setup_federation/trust_anchor/views.py:38-134, which is the same elsewhere) and
    the three ways to serve an entity configuration (setup_federation/trust_anchor/views.py:169-181,
    edu_federation/relying_party_explicit/views.py:63-96, edu_federation/openid_provider/views.py:158-170).

    What endpoints of idpyoidc do before process_request and after it (parse_request, do_response) are functions that may
    be anything, they do not change the entity.  Cookies, logging and the pages for people are left out.  Flask answers 404
    where there is no page, 405 if the method is not allowed, 500 if the page raises an exception. *)
From Verif Require Import UrlModel.
From Verif Require Export ContextModel.

(** ** Answers *)

Record page := mkPage { pg_status : Z; pg_headers : dict string; pg_text : string }.

(** what parse_request returns: a message, or a ResponseMessage with an error *)
Inductive parsed_request := PqArgs (a : dict string) | PqError (text : string).

(** what process_request returns; [oc_text] is the [response] or [response_msg] *)
Record outcome := mkOutcome { oc_redirect : option string; oc_http : option string; oc_error : bool; oc_text : string }.

(** what do_response of an endpoint returns *)
Record info := mkInfo { in_placement : option string; in_text : string; in_headers : list (string * string) }.

Record webpoint (S : Type) := mkPoint {
  wp_parse : dict string -> res parsed_request;
  wp_unauthorized : exn -> bool;                  (* InvalidClient and UnknownClient *)
  wp_process : dict string -> M S outcome;
  wp_respond : dict string -> outcome -> res info;
  wp_placement : string                           (* response_placement *)
}.

Arguments wp_parse {S}. Arguments wp_unauthorized {S}. Arguments wp_process {S}.
Arguments wp_respond {S}. Arguments wp_placement {S}. Arguments mkPoint {S}.

(** [resp.headers[key] = value]; names are compared without regard to case *)
Definition set_header (h : dict string) (kv : string * string) : dict string :=
  filter (fun x => negb (String.eqb (lower (fst x)) (lower (fst kv)))) h ++ [kv].

(** flask's [redirect] *)
Definition to_place (u : string) : page := mkPage 302 [("Location", u)] "".

Section Endpoint.
Context {S : Type} (P : webpoint S) (err_text : string -> exn -> string).

(** views.py:38-74 *)
Definition do_response (a : dict string) (o : outcome) : res page :=
  let* i := wp_respond P a o in
  let placement := match in_placement i with Some p => p | None => wp_placement P end in
  let p := if String.eqb placement "body" then mkPage (if oc_error o then 400 else 200) [] (in_text i)
           else to_place (in_text i) in
  Ok (mkPage (pg_status p) (fold_left set_header (in_headers i) (pg_headers p)) (pg_text p)).

(** views.py:77-134.  [get] for GET; the arguments are those of the query or of the form (request.args.to_dict() has
    the first value for a name); a body that is not a form is left out. *)
Definition service_endpoint (get : bool) (args : dict string) (s : S) : S * page :=
  match wp_parse P args with
  | Err e => (s, mkPage 400 [] (err_text (if get && wp_unauthorized P e then "unauthorized_client" else "invalid_request") e))
  | Ok (PqError t) => (s, mkPage 400 [] t)
  | Ok (PqArgs a) =>
      match wp_process P a s with
      | (s', Err e) => (s', mkPage 400 [] (err_text "invalid_request" e))
      | (s', Ok o) =>
          (s', match oc_redirect o with
               | Some u => to_place u
               | None =>
                   match oc_http o with
                   | Some t => mkPage 200 [] t
                   | None => match do_response a o with Ok p => p | Err _ => mkPage 500 [] "" end
                   end
               end)
      end
  end.

End Endpoint.

(** ** Entity configurations *)

Section Configurations.
Context (file : string -> res val).

(** trust_anchor/views.py:169-181, wallet_provider/views.py:204-219, trust_mark_issuer/views.py:170-183 *)
Definition wkof_context (cx : context) (own_jwks : val) (metadata : dict val) (now : Z) : res (dict val) :=
  let* h := get_authority_hints file (cx_hints cx) in
  ctx_statement file cx now (cx_id cx) (cx_id cx) own_jwks
    [("metadata", VDict metadata); ("authority_hints", h); ("lifetime", VInt (cx_lifetime cx))].

(** relying_party_explicit/views.py:65-96; [client] is the metadata of one of its clients *)
Definition wkof_party (cx : context) (own_jwks : val) (client : dict val) (parts : dict part) (now : Z) : res (dict val) :=
  let* m := marks_args (cx_marks cx) in
  let* h := get_authority_hints file (cx_hints cx) in
  create_entity_statement now (cx_id cx) (cx_id cx) own_jwks
    (("metadata", VDict (client_metadata_of (Some client) parts)) :: ("authority_hints", h) :: m).

(** openid_provider/views.py:158-170, entity_configuration.py:31-56 *)
Definition wkof_endpoint (cx : context) (own_jwks : val) (metadata : dict val) (now : Z) : res (dict val) :=
  let* h := get_authority_hints file (cx_hints cx) in
  entity_configuration (mkFserver (cx_id cx) own_jwks metadata (Some h) []) None (cx_marks cx) now.

End Configurations.

(** ** Entities on the web *)

(** how the configuration is served *)
Inductive home_page := ByEndpoint | ByContext (cx : context).

Record site := mkSite { si_m : member; si_home : home_page }.

Inductive meth := GET | HEAD | OtherMethod.

Section Web.
Context (file : string -> res val)
        (parse : string -> string -> dict string -> res parsed_request)     (* entity, endpoint *)
        (unauthorized : exn -> bool)
        (respond : string -> dict string -> outcome -> res info)            (* endpoint *)
        (err_text : string -> exn -> string)
        (sign : key -> dict val -> string)
        (read : string -> option token).

(** a signed document *)
Definition document (m : member) (p : dict val) : outcome := mkOutcome None None false (sign (m_key m) p).

(** entity/server/fetch.py *)
Definition fetch_point (m : member) (now : Z) : webpoint subs :=
  mkPoint (parse (m_id m) "fetch") unauthorized
    (fun a db => let (db', r) := fetch (m_srv m) now (mkFreq (dget "iss" a) (dget "sub" a)) db in
                 (db', let* p := r in Ok (document m p)))
    (respond "fetch") "body".

(** entity/server/entity_configuration.py *)
Definition configuration_point (m : member) (now : Z) : webpoint unit :=
  mkPoint (parse (m_id m) "entity_configuration") unauthorized
    (fun _ u => (u, let* p := entity_configuration (m_srv m) (m_whole m) (m_marks m) now in Ok (document m p)))
    (respond "entity_configuration") "body".

(** a page by itself (trust_anchor/views.py:179-181) *)
Definition by_itself (m : member) (r : res (dict val)) : page :=
  match r with
  | Ok p => mkPage 200 [("Content-Type", "application/jose; charset=UTF-8")] (sign (m_key m) p)
  | Err _ => mkPage 500 [] ""
  end.

Definition show_home (s : site) (now : Z) (get : bool) (args : dict string) : page :=
  match si_home s with
  | ByEndpoint => snd (service_endpoint (configuration_point (si_m s) now) err_text get args tt)
  | ByContext cx =>
      by_itself (si_m s) (wkof_context file cx (fs_jwks (m_srv (si_m s)))
                            (published_metadata (m_srv (si_m s)) (m_whole (si_m s))) now)
  end.

Definition with_subs (s : site) (db : subs) : site :=
  let m := si_m s in
  mkSite (mkMember (m_srv m) (m_whole m) (m_marks m) db (m_key m) (m_home m) (m_fetch m)) (si_home s).

(** a request at [now] to all sites; trust_anchor/views.py:142-145, 169: both pages take GET and HEAD; with HEAD the
    arguments are those of a form that is not there.  Who is asked is who has a page at the place. *)
Definition serve_url (now : Z) (how : meth) (url : string) (F : list site) : list site * page :=
  let (loc, ps) := server_sees url in
  let get := match how with GET => true | _ => false end in
  let args := if get then ps else [] in
  match find (fun s => String.eqb (m_home (si_m s)) loc) F with
  | Some s => (F, match how with OtherMethod => mkPage 405 [] "" | _ => show_home s now get args end)
  | None =>
      match find (fun s => negb (String.eqb loc "") && String.eqb (m_fetch (si_m s)) loc) F with
      | Some s =>
          match how with
          | OtherMethod => (F, mkPage 405 [] "")
          | _ =>
              let (db, p) := service_endpoint (fetch_point (si_m s) now) err_text get args (m_subs (si_m s)) in
              (map (fun x => if String.eqb (m_fetch (si_m x)) loc then with_subs x db else x) F, p)
          end
      | None => (F, mkPage 404 [] "")
      end
  end.

(** one request after the other *)
Definition traffic (T : list (Z * meth * string)) (F : list site) : list site :=
  fold_left (fun F r => fst (serve_url (fst (fst r)) (snd (fst r)) (snd r) F)) T F.

(** trust_chain_collector.py:113-125; redirections are answers like others *)
Definition read_page (p : page) : response :=
  if Z.eqb (pg_status p) 200 then RText (read (pg_text p))
  else if Z.eqb (pg_status p) 404 then R404
  else RStatus.

(** the URL of a request (client/entity_configuration.py, client/entity_statement.py:90-96) *)
Definition url_of (q : request) : string :=
  match q with QDoc u => u | QFetch ep iss sub => fetch_url ep iss sub end.

(** what a collector gets from the sites *)
Definition web_net (now : Z) (F : list site) (q : request) : response :=
  read_page (snd (serve_url now GET (url_of q) F)).

End Web.
