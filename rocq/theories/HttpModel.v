(** HTTP responses as the clients treat them: ClientEntity (appclient/__init__.py:193-388)
    and FederationClient (entity/client/__init__.py:316-489).

    Simplified: an HTTP response is its status, its content type and its text; the
    parsers of a service (idpyoidc) are arbitrary functions; FormatError and
    JSONDecodeError are ValueErrors, OidcServiceError is OtherException. *)
From Verif Require Import Py.
Local Open Scope string_scope.
Local Open Scope list_scope.
Local Open Scope Z_scope.

Record reply := mkReply { r_status : Z; r_type : option string; r_text : string }.

(** what a client gets: a message, the text of a page, or the HTTP response itself *)
Inductive result := Msg (d : dict val) | Page (s : string) | Raw (r : reply).

Record service := mkService
  { sv_parse : string -> string -> res (dict val);      (* parse_response(text, format) *)
    sv_json : string -> res (dict val);                 (* ResponseMessage().from_json *)
    sv_form : string -> res (dict val);                 (* ResponseMessage().from_urlencoded *)
    sv_deser : option string -> string;                 (* get_deserialization_method *)
    sv_body_type : string }.                            (* response_body_type of the service *)

(** idpyoidc/client/defaults.py: SUCCESSFUL *)
Definition successful (n : Z) : bool := (200 <=? n) && (n <=? 206).

Definition or_default (s t : string) : string := if String.eqb s "" then t else s.

(** _parse_unsigned_reponse (appclient/__init__.py:282-290) *)
Definition parse_unsigned (S : service) (text fmt : string) : res (dict val) :=
  if String.eqb fmt "json" then sv_json S text
  else if String.eqb fmt "urlencoded" then sv_form S text
  else Ok [("error", VStr text)].

(** _parse_response (appclient/__init__.py:295-301) *)
Definition parse_response (S : service) (text fmt : string) : res (dict val) :=
  match sv_parse S fmt text with
  | Ok d => Ok d
  | Err _ => parse_unsigned S text fmt
  end.

(** the format of a successful response (appclient/__init__.py:325-336 and
    entity/client/__init__.py:427-444) *)
Definition body_type (S : service) (r : reply) (expected : string) : string :=
  let m := sv_deser S (r_type r) in
  if smem m ["json"; "jwt"; "urlencoded"] then m else expected.

Definition content_type (r : reply) : string :=
  match r_type r with
  | None => "application/json"
  | Some t => or_default t "application/json"
  end.

Definition with_status (r : reply) (d : dict val) : dict val := dset "status_code" (VInt (r_status r)) d.

(** ClientEntity.parse_request_response (appclient/__init__.py:303-388).  The handler for
    JSONDecodeError comes after the one for ValueError and is never used. *)
Definition app_parse (S : service) (r : reply) (expected : string) : res result :=
  if successful (r_status r) then
    let* d := sv_parse S (body_type S r expected) (r_text r) in Ok (Msg d)
  else if (r_status r =? 302) || (r_status r =? 303) then Ok (Raw r)
  else if r_status r =? 500 then Err SystemError
  else if (400 <=? r_status r) && (r_status r <? 500) then
    match parse_response S (r_text r) (content_type r) with
    | Ok d => Ok (Msg (with_status r d))
    | Err ValueError =>
        if String.eqb (content_type r) expected then Err OtherException
        else match parse_response S (r_text r) expected with
             | Ok d => Ok (Msg (with_status r d))
             | Err ValueError | Err OtherException => Err OtherException
             | Err x => Err x
             end
    | Err x => Err x
    end
  else Err OtherException.

(** the message that is returned for a redirect: {"http_response": resp} *)
Definition redirect (r : reply) : dict val := [("http_response", VStr (r_text r))].

(** ClientEntity.get_response (appclient/__init__.py:193-234); [net] is what the HTTP
    client answers *)
Definition app_get (S : service) (net : res reply) (expected : string) : res result :=
  let* r := net in
  if (300 <=? r_status r) && (r_status r <? 400) then Ok (Msg (redirect r))
  else
    let expected := if r_status r <? 300 then or_default expected (sv_body_type S) else expected in
    if (r_status r <? 300) && String.eqb expected "html" then Ok (Page (r_text r))
    else app_parse S r expected.

(** FederationClient.parse_request_response (entity/client/__init__.py:406-489) *)
Definition fed_parse (S : service) (r : reply) (expected : string) : res result :=
  if successful (r_status r) then
    let* d := sv_parse S (body_type S r expected) (r_text r) in Ok (Msg d)
  else if (r_status r =? 302) || (r_status r =? 303) then Ok (Raw r)
  else if r_status r =? 500 then Err ValueError
  else if (400 <=? r_status r) && (r_status r <? 500) then
    let m := or_default (sv_deser S (r_type r)) "json" in
    match sv_parse S m (r_text r) with
    | Ok d => Ok (Msg (with_status r d))
    | Err ValueError =>
        if String.eqb m expected then Err OtherException
        else match sv_parse S expected (r_text r) with
             | Ok d => Ok (Msg (with_status r d))
             | Err ValueError | Err OtherException => Err OtherException
             | Err x => Err x
             end
    | Err x => Err x
    end
  else Err OtherException.

Definition system_error (r : reply) : dict val :=
  [("error", VStr "System error"); ("error_description", VStr (r_text r))].

(** FederationClient.get_response (entity/client/__init__.py:316-363) *)
Definition fed_get (S : service) (net : res reply) (expected : string) : res result :=
  let* r := net in
  if (300 <=? r_status r) && (r_status r <? 400) then Ok (Msg (redirect r))
  else if 400 <=? r_status r then Ok (Msg (system_error r))
  else
    let expected := or_default expected (sv_body_type S) in
    if String.eqb expected "html" then Ok (Page (r_text r))
    else fed_parse S r expected.

(** "error" in response; an HTTP response is iterated over, no chunk of bytes is a
    string *)
Definition has_error (x : result) : bool :=
  match x with
  | Msg d => dmem "error" d
  | Page s => str_in "error" s
  | Raw _ => false
  end.

(** service_request (appclient/__init__.py:236-280, entity/client/__init__.py:365-404):
    the response, and whether the service context is updated with it *)
Definition service_request (get : res result) : res (result * bool) :=
  let* x := get in Ok (x, negb (has_error x)).
