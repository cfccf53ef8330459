(** Model of the URLs the client makes: queries (src/fedservice/entity/client/entity_statement.py, list.py, resolve.py,
    trust_mark_list.py, trust_mark_status.py) and the location of entity configurations
    (src/fedservice/entity/client/entity_configuration.py); and of what a server sees of such a request
    (setup_federation/trust_anchor/views.py).

    Strings are sequences of UTF-8 bytes.  urllib.parse is modelled from its documentation and source: control
    characters in front of or in a URL, brackets and characters that NFKC turns into delimiters in a host are left out.
    [Message.request] of idpyoidc appends the query with "&" if there is a "?" in the location.  Arguments are strings. *)
From Verif Require Export Py.
From Coq Require Import Ascii.

Local Open Scope string_scope.

(** ---- urllib.parse: quote_plus, urlencode, unquote_plus, parse_qsl ---- *)

Definition between (lo hi : ascii) (c : ascii) : bool :=
  (nat_of_ascii lo <=? nat_of_ascii c)%nat && (nat_of_ascii c <=? nat_of_ascii hi)%nat.

Definition is_digit (c : ascii) : bool := between "0" "9" c.
Definition is_upper (c : ascii) : bool := between "A" "Z" c.
Definition is_lower (c : ascii) : bool := between "a" "z" c.

(** urllib.parse._ALWAYS_SAFE *)
Definition always_safe (c : ascii) : bool :=
  is_digit c || is_upper c || is_lower c ||
  Ascii.eqb c "_" || Ascii.eqb c "." || Ascii.eqb c "-" || Ascii.eqb c "~".

Definition hex_digit (n : nat) : ascii :=
  if (n <? 10)%nat then ascii_of_nat (48 + n) else ascii_of_nat (55 + n).

Definition hex_value (c : ascii) : option nat :=
  if is_digit c then Some (nat_of_ascii c - 48)%nat
  else if between "A" "F" c then Some (nat_of_ascii c - 55)%nat
  else if between "a" "f" c then Some (nat_of_ascii c - 87)%nat
  else None.

(** quote_plus, one byte *)
Definition quote_char (c : ascii) (rest : string) : string :=
  if Ascii.eqb c " " then String "+" rest
  else if always_safe c then String c rest
  else String "%" (String (hex_digit (nat_of_ascii c / 16)) (String (hex_digit (nat_of_ascii c mod 16)) rest)).

Fixpoint quote_plus (s : string) : string :=
  match s with
  | EmptyString => EmptyString
  | String c s' => quote_char c (quote_plus s')
  end.

(** urlencode of a dictionary or a list of pairs *)
Fixpoint urlencode (ps : list (string * string)) : string :=
  match ps with
  | [] => ""
  | [(k, v)] => quote_plus k ++ "=" ++ quote_plus v
  | (k, v) :: ps' => quote_plus k ++ "=" ++ quote_plus v ++ "&" ++ urlencode ps'
  end.

(** unquote_plus; "%" that is not followed by two hexadecimal digits stays *)
Fixpoint unquote_plus (s : string) : string :=
  match s with
  | EmptyString => EmptyString
  | String c s' =>
      if Ascii.eqb c "+" then String " " (unquote_plus s')
      else if Ascii.eqb c "%" then
        match s' with
        | String h (String l s'') =>
            match hex_value h, hex_value l with
            | Some a, Some b => String (ascii_of_nat (16 * a + b)) (unquote_plus s'')
            | _, _ => String c (unquote_plus s')
            end
        | _ => String c (unquote_plus s')
        end
      else String c (unquote_plus s')
  end.

(** str.split(sep, 1): what is in front of the first [sep], and what follows *)
Fixpoint cut (sep : ascii) (s : string) : string * option string :=
  match s with
  | EmptyString => (EmptyString, None)
  | String c s' =>
      if Ascii.eqb c sep then (EmptyString, Some s')
      else let (a, b) := cut sep s' in (String c a, b)
  end.

(** str.split(sep) *)
Fixpoint split_on (sep : ascii) (s : string) : list string :=
  match s with
  | EmptyString => [EmptyString]
  | String c s' =>
      if Ascii.eqb c sep then EmptyString :: split_on sep s'
      else match split_on sep s' with
           | [] => [String c EmptyString]
           | x :: xs => String c x :: xs
           end
  end.

(** parse_qsl(qs, keep_blank_values=True), as used by werkzeug *)
Definition parse_pair (nv : string) : string * string :=
  let (n, v) := cut "=" nv in
  (unquote_plus n, match v with Some x => unquote_plus x | None => "" end).

Definition parse_qsl (qs : string) : list (string * string) :=
  map parse_pair (filter (fun nv => negb (String.eqb nv "")) (split_on "&" qs)).

(** what a server sees of a request: the fragment is not sent; request.args (views.py:80-81) *)
Definition server_sees (url : string) : string * list (string * string) :=
  let (u, _) := cut "#" url in
  let (loc, q) := cut "?" u in
  (loc, match q with Some x => parse_qsl x | None => [] end).

(** ---- the requests of the client ---- *)

Definition has_char (c : ascii) (s : string) : bool :=
  match cut c s with (_, Some _) => true | (_, None) => false end.

(** Message.request of idpyoidc *)
Definition message_request (loc : string) (ps : list (string * string)) : string :=
  if has_char "?" loc then loc ++ "&" ++ urlencode ps else loc ++ "?" ++ urlencode ps.

(** client/entity_statement.py:90-96, with an endpoint *)
Definition fetch_url (endpoint issuer subject : string) : string :=
  message_request endpoint
    (if String.eqb issuer "" then []
     else if String.eqb subject "" then [("iss", issuer)]
     else [("iss", issuer); ("sub", subject)]).

(** client/resolve.py:41-49; [typ] if there is a type *)
Definition resolve_url (endpoint sub anchor : string) (typ : option string) : res string :=
  if String.eqb endpoint "" then Err AttributeError
  else Ok (message_request endpoint
             ([("sub", sub); ("anchor", anchor)] ++ match typ with Some t => [("type", t)] | None => [] end)).

(** client/list.py:48-57; arguments that are empty are left out *)
Definition list_url (endpoint : string) (kwargs : dict string) : string :=
  let qpart := flat_map (fun arg => match dget arg kwargs with
                                    | Some v => if String.eqb v "" then [] else [(arg, v)]
                                    | None => []
                                    end) ["entity_type"; "trust_marked"; "trust_mark_id"; "intermediate"] in
  if is_nil qpart then endpoint else endpoint ++ "?" ++ urlencode qpart.

(** client/trust_mark_list.py:51-62 *)
Definition trust_mark_list_url (endpoint : string) (args : dict string) : res string :=
  if String.eqb endpoint "" then Err OtherException
  else Ok (endpoint ++ "?" ++ urlencode (filter (fun kv => String.eqb (fst kv) "trust_mark_id") args)).

(** client/trust_mark_status.py:51-68; [payload_iss] reads the issuer of a trust mark *)
Definition trust_mark_status_url (payload_iss : string -> res string) (endpoint : string) (args : dict string)
  : res string :=
  match dget "trust_mark" args with
  | Some tm => let* iss := payload_iss tm in Ok (iss ++ "?" ++ urlencode [("trust_mark", tm)])
  | None =>
      if String.eqb endpoint "" then Err OtherException
      else Ok (endpoint ++ "?" ++
               urlencode (filter (fun kv => smem (fst kv) ["sub"; "trust_mark_id"; "iat"]) args))
  end.

(** ---- the location of entity configurations ---- *)

Definition lower_char (c : ascii) : ascii := if is_upper c then ascii_of_nat (nat_of_ascii c + 32) else c.

Fixpoint lower (s : string) : string :=
  match s with EmptyString => EmptyString | String c s' => String (lower_char c) (lower s') end.

Fixpoint all_chars (p : ascii -> bool) (s : string) : bool :=
  match s with EmptyString => true | String c s' => p c && all_chars p s' end.

(** urllib.parse.scheme_chars *)
Definition scheme_char (c : ascii) : bool :=
  is_digit c || is_upper c || is_lower c || Ascii.eqb c "+" || Ascii.eqb c "-" || Ascii.eqb c ".".

(** urlsplit: the scheme *)
Definition split_scheme (url : string) : string * string :=
  match cut ":" url with
  | (String c s, Some rest) =>
      if (is_upper c || is_lower c) && all_chars scheme_char (String c s)
      then (lower (String c s), rest) else ("", url)
  | _ => ("", url)
  end.

(** urllib.parse._splitnetloc: up to the first of "/?#" *)
Fixpoint split_netloc (s : string) : string * string :=
  match s with
  | EmptyString => (EmptyString, EmptyString)
  | String c s' =>
      if Ascii.eqb c "/" || Ascii.eqb c "?" || Ascii.eqb c "#" then (EmptyString, s)
      else let (a, b) := split_netloc s' in (String c a, b)
  end.

(** urllib.parse._splitparams: up to the first ";" of the last segment *)
Fixpoint strip_params (s : string) : string :=
  match s with
  | EmptyString => EmptyString
  | String c s' =>
      if Ascii.eqb c ";" then if has_char "/" s' then String c (strip_params s') else EmptyString
      else String c (strip_params s')
  end.

Definition uses_params (scheme : string) : bool :=
  smem scheme [""; "ftp"; "hdl"; "prospero"; "http"; "https"; "shttp"; "rtsp"; "rtsps"; "rtspu"; "sip"; "sips"; "mms"; "sftp"; "tel"].

Record parsed := mkParsed { u_scheme : string; u_netloc : string; u_path : string }.

(** urlparse: scheme, netloc and path *)
Definition urlparse (url : string) : parsed :=
  let (scheme, rest) := split_scheme url in
  let (netloc, rest) := match rest with
                        | String a (String b r) =>
                            if Ascii.eqb a "/" && Ascii.eqb b "/" then split_netloc r else ("", rest)
                        | _ => ("", rest)
                        end in
  let path := fst (cut "?" (fst (cut "#" rest))) in
  mkParsed scheme netloc (if uses_params scheme then strip_params path else path).

(** client/entity_configuration.py:23-25 *)
Definition construct_well_known_url (entity_id typ : string) : string :=
  let p := urlparse entity_id in u_scheme p ++ "://" ++ u_netloc p ++ "/.well-known/" ++ typ.

(** client/entity_configuration.py:28-30 *)
Definition construct_tenant_well_known_url (entity_id typ : string) : string :=
  let p := urlparse entity_id in u_scheme p ++ "://" ++ u_netloc p ++ u_path p ++ "/.well-known/" ++ typ.
