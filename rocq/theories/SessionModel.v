(** Logins of a relying party: authorization requests, authorization responses, tokens
    and user information (appclient/stand_alone_client_entity.py:198-751).

    The client keeps one record per login, under the [state] parameter of the
    authorization request, in idpyoidc's cstate.  What idpyoidc does is a record of
    arbitrary functions [lib]: parsing and verification of responses against the record
    of a session, the construction of requests from it, the checks made before a
    response is filed.  Simplified: the HTTP level is in HttpModel, here a server is a
    function from requests to the contents of responses; the table of nonces, subjects
    and session identifiers of the cstate is written but only idpyoidc reads it; logging
    is left out; the services authorization, accesstoken and refresh_token exist. *)
From Coq Require Import Ascii.
From Verif Require Import StateM.
Local Open Scope string_scope.
Local Open Scope list_scope.
Local Open Scope Z_scope.

Definition record := dict val.

(** idpyoidc *)
Record lib := mkLib
  { l_raises : bool;                                              (* get_set of an unknown session: KeyError or {} *)
    l_parse : string -> option record -> dict val -> res (dict val);   (* Service.parse_response *)
    l_check : string -> option record -> dict val -> option exn;       (* refusals of update_service_context *)
    l_int : val -> res Z;                                         (* int(expires_in) *)
    l_request : string -> option record -> dict val -> res (dict val); (* get_request_parameters *)
    l_pick : option (dict val) -> val -> val -> res val;          (* pick_redirect_uri *)
    l_modes : dict string;                                        (* DEFAULT_RESPONSE_MODE *)
    l_user_claims : list string;                                  (* claims of OpenIDSchema *)
    l_token_claims : list string }.                               (* claims of IDToken *)

(** the client: what does not change during logins *)
Record conf := mkConf
  { cf_issuer : val; cf_info : dict val;                          (* context.issuer, context.provider_info *)
    cf_types : val; cf_modes : val; cf_scope : val;               (* usage: response_types, response_modes, scope *)
    cf_oidc : bool;                                               (* client_type *)
    cf_args : dict val;                                           (* request_args of the configuration *)
    cf_id : val; cf_secret : val;
    cf_userinfo : bool; cf_end_session : bool }.                  (* which services there are *)

(** what an operation finds: the client, the servers and the clock *)
Record env := mkEnvS { v_conf : conf; v_net : string -> dict val -> res (dict val); v_now : Z }.

Record sess := mkSess { c_db : dict record; c_map : dict string }.

(** ** idpyoidc's cstate *)

Definition of_key (k : string) : M sess (option record) := fun s => (s, Ok (dget k (c_db s))).

(** get_set *)
Definition restrict (names : list string) (r : record) : dict val :=
  filter (fun kv => smem (fst kv) names) r.
Definition get_set (L : lib) (k : string) (names : list string) : M sess (dict val) :=
  do o <- of_key k in
  match o with
  | Some r => ret (restrict names r)
  | None => if l_raises L then raise KeyError else ret []
  end.

(** update *)
Definition record_of (k : string) (s : sess) : record :=
  match dget k (c_db s) with Some r => r | None => [] end.
Definition store (k : string) (d : dict val) : M sess unit :=
  modify (fun s => mkSess (dset k (dupdate (record_of k s) d) (c_db s)) (c_map s)).

(** set, bind_key *)
Definition set_record (k : string) (d : dict val) : M sess unit :=
  modify (fun s => mkSess (dset k d (c_db s)) (c_map s)).
Definition bind_key (x k : string) : M sess unit :=
  modify (fun s => mkSess (c_db s) (dset x k (c_map s))).

(** remove_state *)
Definition remove_state (L : lib) (k : string) : M sess unit :=
  do o <- of_key k in
  match o with
  | Some _ => modify (fun s => mkSess (ddel k (c_db s)) (c_map s))
  | None => if l_raises L then raise KeyError else ret tt
  end.

(** the session that a value names *)
Definition key_of (v : val) : res string := match v with VStr k => Ok k | _ => Err KeyError end.

(** ** Authorization requests *)

(** s.split(" ") *)
Fixpoint words_aux (s : string) : string * list string :=
  match s with
  | EmptyString => (EmptyString, [])
  | String c s' =>
      let '(w, l) := words_aux s' in
      if Ascii.eqb c " " then (EmptyString, w :: l) else (String c w, l)
  end.
Definition words (s : string) : list string := let '(w, l) := words_aux s in w :: l.

Fixpoint insert (x : string) (l : list string) : list string :=
  match l with
  | [] => [x]
  | y :: l' => if String.leb x y then x :: l else y :: insert x l'
  end.
Definition sorted (l : list string) : list string := fold_right insert [] l.

Definition arg (k : string) (args : option (dict val)) : val :=
  match args with
  | Some d => match dget k d with Some v => v | None => VNull end
  | None => VNull
  end.

(** "if req_args" *)
Definition given (args : option (dict val)) : bool :=
  match args with Some (_ :: _) => true | _ => false end.

Definition py_nth0 (v : val) : res val :=
  match v with
  | VList (x :: _) => Ok x
  | VList [] => Err IndexError
  | VStr (String c _) => Ok (VStr (String c EmptyString))
  | VStr EmptyString => Err IndexError
  | VDict _ => Err KeyError
  | _ => Err TypeError
  end.

(** _get_response_type (stand_alone_client_entity.py:198-208) *)
Definition response_type_of (C : conf) (args : option (dict val)) : res val :=
  if given args then Ok (if truthy (arg "response_type" args) then arg "response_type" args else VNull)
  else
    let* b := py_in (VStr "code") (cf_types C) in
    if b then Ok (VStr "code") else py_nth0 (cf_types C).

(** DEFAULT_RESPONSE_MODE[response_type] *)
Definition default_mode (L : lib) (t : val) : res string :=
  match t with
  | VStr s => dindex s (l_modes L)
  | _ => if hashable t then Err KeyError else Err TypeError
  end.

(** _get_response_mode (stand_alone_client_entity.py:210-236) *)
Definition response_mode_of (L : lib) (C : conf) (t : val) (args : option (dict val)) : res val :=
  let asked := if given args then arg "response_mode" args else VNull in
  if truthy asked then
    let* b := (if truthy (cf_modes C) then py_in asked (cf_modes C) else Ok true) in
    if b then
      let* m := default_mode L t in
      Ok (if py_eqb (VStr m) asked then VNull else asked)
    else Err ValueError
  else if truthy (cf_modes C) then
    match t with
    | VStr s =>
        let* m := default_mode L (VStr (String.concat " " (sorted (words s)))) in
        let* b := py_in (VStr m) (cf_modes C) in
        if b then Ok VNull else py_nth0 (cf_modes C)
    | _ => Err AttributeError
    end
  else Ok VNull.

(** the last "except" of the call of pick_redirect_uri names a list of classes, which
    is a TypeError as soon as an exception is matched against it *)
Definition pick_redirect (L : lib) (args : option (dict val)) (t m : val) : res val :=
  match l_pick L args t m with
  | Ok u => Ok u
  | Err KeyError => Err OtherException
  | Err _ => Err TypeError
  end.

(** init_authorization (stand_alone_client_entity.py:238-318); [key] and [nonce] are the
    random strings that are drawn.  The request is returned instead of a URL that
    contains it; idpyoidc files the request under its state.  Left out: the claims of
    the configured request arguments are made into an object. *)
Definition init_authorization (L : lib) (C : conf) (key nonce : string) (args : option (dict val)) : M sess (dict val) :=
  do t <- lift (response_type_of C args) in
  do m <- lift (response_mode_of L C t args) in
  do u <- lift (pick_redirect L args t m) in
  let r := [("redirect_uri", u); ("response_type", t)] in
  let r := if truthy m then dset "response_mode" m r else r in
  let r := if cf_oidc C then dset "nonce" (VStr nonce) r else r in
  let r := if truthy (cf_scope C) then dset "scope" (cf_scope C) r else r in
  let r := dupdate r (cf_args C) in
  let r := match args with Some a => dupdate r a | None => r end in
  let r := dset "state" (VStr key) r in
  do _ <- if cf_oidc C then bind_key nonce key else ret tt in
  do _ <- set_record key [("iss", cf_issuer C)] in
  do rec <- of_key key in
  do q <- lift (l_request L "authorization" rec r) in
  do _ <- store key q in
  ret q.

(** ** Requests to the servers *)

(** what update_service_context of a service that hands out tokens adds *)
Definition stamp (L : lib) (now : Z) (d : dict val) : res (dict val) :=
  match dget "expires_in" d with
  | None => Ok d
  | Some v => let* n := l_int L v in Ok (dset "__expires_at" (VInt (now + n)) d)
  end.

(** update_service_context *)
Definition update_context (L : lib) (E : env) (svc key : string) (d : dict val) : M sess (dict val) :=
  if String.eqb svc "userinfo" then ret d
  else
    do rec <- of_key key in
    match l_check L svc rec d with
    | Some e => raise e
    | None =>
        do d' <- lift (stamp L (v_now E) d) in
        do _ <- store key d' in
        ret d'
    end.

(** do_request and service_request (appclient/__init__.py:165-188, 236-280) *)
Definition do_request (L : lib) (E : env) (svc key : string) (args : dict val) : M sess (dict val) :=
  do rec <- of_key key in
  do q <- lift (l_request L svc rec args) in
  do raw <- lift (v_net E svc q) in
  do d <- lift (l_parse L svc rec raw) in
  if dmem "error" d then ret d else update_context L E svc key d.

(** "if is_error_message(resp): raise OidcServiceError" *)
Definition no_error (d : dict val) : M sess (dict val) :=
  if dmem "error" d then raise OtherException else ret d.

(** get_tokens (stand_alone_client_entity.py:340-378) *)
Definition get_tokens (L : lib) (E : env) (key : string) : M sess (dict val) :=
  do c <- get_set L key ["code"; "redirect_uri"] in
  do code <- lift (dindex "code" c) in
  do uri <- lift (dindex "redirect_uri" c) in
  let args := [("code", code); ("state", VStr key); ("redirect_uri", uri);
               ("grant_type", VStr "authorization_code");
               ("client_id", cf_id (v_conf E)); ("client_secret", cf_secret (v_conf E))] in
  do d <- do_request L E "accesstoken" key args in
  no_error d.

(** refresh_access_token (stand_alone_client_entity.py:380-413) *)
Definition refresh_access_token (L : lib) (E : env) (key : string) (scope : val) : M sess (dict val) :=
  do d <- do_request L E "refresh_token" key (if truthy scope then [("scope", scope)] else []) in
  no_error d.

(** get_user_info (stand_alone_client_entity.py:415-438) *)
Definition get_user_info (L : lib) (E : env) (key : string) (token : val) : M sess (dict val) :=
  do t <- (if truthy token then ret token
           else do c <- get_set L key ["access_token"] in lift (dindex "access_token" c)) in
  do d <- do_request L E "userinfo" key [("access_token", t)] in
  no_error d.

(** userinfo_in_id_token (stand_alone_client_entity.py:440-453) *)
Definition userinfo_in_id_token (L : lib) (t : dict val) : dict val :=
  dupdate (filter (fun kv => smem (fst kv) (l_user_claims L)) t)
          (filter (fun kv => negb (smem (fst kv) (l_token_claims L))) t).

(** ** Authorization responses *)

(** the record against which an authorization response is verified *)
Definition claimed (d : dict val) : M sess (option record) :=
  match dget "state" d with
  | Some (VStr k) => of_key k
  | _ => ret None
  end.

Definition marker : string := "__verified_id_token".

(** provider_info["issuer"], context.issuer *)
Definition issuer_now (C : conf) : val :=
  match dget "issuer" (cf_info C) with Some i => i | None => cf_issuer C end.

(** finalize_auth (stand_alone_client_entity.py:455-503) *)
Definition finalize_auth (L : lib) (E : env) (raw : dict val) : M sess (dict val) :=
  do rec <- claimed raw in
  do d <- lift (l_parse L "authorization" rec raw) in
  if dmem "error" d then ret d
  else
    do k <- lift (match dget "state" d with Some v => key_of v | None => Err KeyError end) in
    do c <- get_set L k ["iss"] in
    let iss := match dget "iss" c with Some i => i | None => VNull end in
    if py_eqb iss (issuer_now (v_conf E)) then
      do _ <- store k d in
      update_context L E "authorization" k d
    else raise ValueError.

(** set(response_type) (stand_alone_client_entity.py:537-540) *)
Definition types_of (v : val) : res (list val) :=
  match v with
  | VList _ => py_set v
  | VStr s => Ok (map VStr (words s))
  | _ => Err AttributeError
  end.

Definition same_set (l : list val) (names : list string) : bool :=
  forallb (fun n => vmem (VStr n) l) names &&
  forallb (fun v => existsb (fun n => py_eqb v (VStr n)) names) l.
Definition one_of (l : list val) (sets : list (list string)) : bool := existsb (same_set l) sets.

(** indexing a response that may be None *)
Definition from_response (k : string) (o : option (dict val)) : res val :=
  match o with
  | None => Err TypeError
  | Some d => dindex k d
  end.

(** get_access_and_id_token (stand_alone_client_entity.py:505-577); errors at the token
    endpoint are exceptions already.  [collect]: the argument collect_tokens *)
Definition get_access_and_id_token (L : lib) (E : env) (resp : option (dict val)) (key : string) (collect : bool) :
  M sess (val * val) :=
  do _ <- (if given resp then ret [] else get_set L key []) in
  do key <- (if String.eqb key "" then lift (let* v := from_response "state" resp in key_of v) else ret key) in
  do c <- get_set L key ["response_type"] in
  do v <- lift (dindex "response_type" c) in
  do ts <- lift (types_of v) in
  do idt <- (if one_of ts [["id_token"]; ["id_token"; "token"]; ["code"; "id_token"; "token"]]
             then lift (from_response marker resp) else ret VNull) in
  if one_of ts [["token"]; ["id_token"; "token"]; ["code"; "token"]; ["code"; "id_token"; "token"]] then
    do at' <- lift (from_response "access_token" resp) in
    if collect then
      do t <- get_tokens L E key in
      do a <- lift (dindex "access_token" t) in
      ret (a, match dget marker t with Some i => i | None => VNull end)
    else ret (at', idt)
  else if one_of ts [["code"]; ["code"; "id_token"]] then
    do t <- get_tokens L E key in
    do a <- lift (dindex "access_token" t) in
    ret (a, match dget marker t with Some i => i | None => VNull end)
  else ret (VNull, idt).

Definition as_dict (v : val) : res (dict val) := match v with VDict d => Ok d | _ => Err TypeError end.

Definition opt_true (o : option val) : bool := match o with Some v => truthy v | None => false end.

(** provider_info["backchannel_logout_session_required"], else "frontchannel..."
    (stand_alone_client_entity.py:625-632) *)
Definition sid_support (C : conf) : bool :=
  match dget "backchannel_logout_session_required" (cf_info C) with
  | Some v => truthy v
  | None => opt_true (dget "frontchannel_logout_session_required" (cf_info C))
  end.

(** keys of the table are strings here *)
Definition bind_val (v : val) (k : string) : M sess unit :=
  match v with
  | VStr x => bind_key x k
  | _ => if hashable v then ret tt else raise TypeError
  end.

(** finalize (stand_alone_client_entity.py:580-659) *)
Definition finalize (L : lib) (E : env) (raw : dict val) (collect : bool) : M sess (dict val) :=
  do a <- finalize_auth L E raw in
  do v <- lift (dindex "state" a) in
  if dmem "error" a then
    do e <- lift (dindex "error" a) in ret [("state", v); ("error", e)]
  else
    do k <- lift (key_of v) in
    do p <- get_access_and_id_token L E (Some a) k collect in
    let '(token, idt) := p in
    do info <- (if cf_userinfo (v_conf E) && truthy token then get_user_info L E k token
                else if truthy idt then do t <- lift (as_dict idt) in ret (userinfo_in_id_token L t)
                else ret []) in
    do _ <- (if sid_support (v_conf E) && truthy idt then
               do t <- lift (as_dict idt) in
               match dget "sid" t with Some x => bind_val x k | None => ret tt end
             else ret tt) in
    do who <- (if truthy idt then do t <- lift (as_dict idt) in lift (dindex "sub" t)
               else lift (dindex "sub" info)) in
    do _ <- bind_val who k in
    ret [("userinfo", VDict info); ("state", v); ("token", token); ("id_token", idt);
         ("session_state", match dget "session_state" a with Some x => x | None => VStr "" end);
         ("issuer", cf_issuer (v_conf E))].

(** ** Use of a session *)

Definition less (now : Z) (v : val) : res bool :=
  match v with
  | VInt e => Ok (now <? e)
  | VBool b => Ok (now <? b2z b)
  | _ => Err TypeError
  end.

(** has_active_authentication (stand_alone_client_entity.py:661-677) *)
Definition has_active_authentication (L : lib) (now : Z) (key : string) : M sess bool :=
  do c <- get_set L key [marker] in
  match c with
  | [] => ret false
  | _ =>
      do i <- lift (dindex marker c) in
      do t <- lift (as_dict i) in
      do e <- lift (dindex "exp" t) in
      lift (less now e)
  end.

(** get_valid_access_token (stand_alone_client_entity.py:679-709) *)
Definition get_valid_access_token (L : lib) (now : Z) (key : string) : M sess (val * val) :=
  do c <- get_set L key ["access_token"; "__expires_at"] in
  match dget "access_token" c with
  | None => raise OtherException
  | Some t =>
      let e := match dget "__expires_at" c with Some e => e | None => VInt 0 end in
      if truthy e then
        do b <- lift (less now e) in
        if b then ret (t, e) else raise OtherException
      else ret (t, VInt 0)
  end.

(** logout, close (stand_alone_client_entity.py:711-748); get_service gives None for a
    service that there is not *)
Definition logout (L : lib) (C : conf) (key : string) (uri : val) : M sess (dict val) :=
  if cf_end_session C then
    do rec <- of_key key in
    lift (l_request L "end_session" rec (if truthy uri then [("post_logout_redirect_uri", uri)] else []))
  else raise AttributeError.

(** clear_session (stand_alone_client_entity.py:750-751) *)
Definition clear_session (L : lib) (key : string) : M sess unit := remove_state L key.

(** ** Runs *)

Inductive op :=
| Init (E : env) (key nonce : string) (args : option (dict val))
| Finalize (E : env) (raw : dict val) (collect : bool)
| FinalizeAuth (E : env) (raw : dict val)
| Access (E : env) (resp : option (dict val)) (key : string) (collect : bool)
| Tokens (E : env) (key : string)
| Refresh (E : env) (key : string) (scope : val)
| UserInfo (E : env) (key : string) (token : val)
| Active (E : env) (key : string)
| Valid (E : env) (key : string)
| Logout (E : env) (key : string) (uri : val)
| Clear (key : string).

Inductive out := OMsg (d : dict val) | OPair (a b : val) | OBool (b : bool) | ODone.

Definition omap {A} (f : A -> out) (m : M sess A) : M sess out := do a <- m in ret (f a).

Definition step (L : lib) (o : op) : M sess out :=
  match o with
  | Init E k n args => omap OMsg (init_authorization L (v_conf E) k n args)
  | Finalize E raw c => omap OMsg (finalize L E raw c)
  | FinalizeAuth E raw => omap OMsg (finalize_auth L E raw)
  | Access E resp k c => omap (fun p => OPair (fst p) (snd p)) (get_access_and_id_token L E resp k c)
  | Tokens E k => omap OMsg (get_tokens L E k)
  | Refresh E k sc => omap OMsg (refresh_access_token L E k sc)
  | UserInfo E k t => omap OMsg (get_user_info L E k t)
  | Active E k => omap OBool (has_active_authentication L (v_now E) k)
  | Valid E k => omap (fun p => OPair (fst p) (snd p)) (get_valid_access_token L (v_now E) k)
  | Logout E k u => omap OMsg (logout L (v_conf E) k u)
  | Clear k => omap (fun _ => ODone) (clear_session L k)
  end.

(** a run: the operations one after the other, whatever each of them results in *)
Fixpoint run (L : lib) (l : list op) (s : sess) : sess * list (op * res out) :=
  match l with
  | [] => (s, [])
  | o :: l' =>
      let (s1, r) := step L o s in
      let (s2, rs) := run L l' s1 in
      (s2, (o, r) :: rs)
  end.
