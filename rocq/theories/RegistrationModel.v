(** Model of client registration: src/fedservice/appserver/oauth2/registration.py, with the import of client
    keys (src/fedservice/appserver/__init__.py:40-53, src/fedservice/entity/utils.py:39-59, src/fedservice/utils.py:325-337).

    Requests and client information are dictionaries; a pair such as the base and the query of a URI is a list of two
    values.  Parsing URLs, the schema check of the request, random values, the client id
    generator, the keys behind a URL or in a JWKS and the functions of idpyoidc named in [reg_env] are arbitrary
    functions.  Cookies, logging and [cdb.sync] are left out.  idpyoidc's Registration.process_request, which
    non_fed_process_request calls, is taken to do what step2_process_request does. *)
From Verif Require Export StateM VerifierModel.

(** ** Keys of clients *)

(** keys in the key jar of the server: asymmetric keys and client secrets *)
Inductive ckey := KPub (k : key) | KSecret (s : string).
Definition ckeyjar := dict (list ckey).

Record key_sources := mkSources {
  ks_url : val -> list key;          (* KeyJar.add_url: nothing if the keys cannot be fetched *)
  ks_jwks : val -> res (list key)    (* import_jwks *)
}.

Definition add_ckeys (id : string) (ks : list ckey) (kj : ckeyjar) : ckeyjar :=
  dset id ((match dget id kj with Some l => l | None => [] end) ++ ks) kj.

Definition field (k : string) (d : dict val) : val := match dget k d with Some v => v | None => VNull end.

(** appserver/__init__.py:40-53 *)
Definition import_client_keys (K : key_sources) (info : dict val) (id : string) : M ckeyjar unit := fun kj =>
  if truthy (field "signed_jwks_uri" info) then (kj, Ok tt)
  else if truthy (field "jwks_uri" info) then (add_ckeys id (map KPub (ks_url K (field "jwks_uri" info))) kj, Ok tt)
  else if truthy (field "jwks" info) then
    match ks_jwks K (field "jwks" info) with
    | Ok ks => (add_ckeys id (map KPub ks) kj, Ok tt)
    | Err e => (kj, Err e)
    end
  else (kj, Ok tt).

(** entity/utils.py:46-59; get_verified_jwks (39-43) always returns None.  Without any source the
    absent jwks is imported. *)
Definition get_keys (K : key_sources) (md : dict val) (id : string) : M ckeyjar unit := fun kj =>
  if truthy (field "signed_jwks_uri" md) then (kj, Ok tt)
  else if truthy (field "jwks_uri" md) then (add_ckeys id (map KPub (ks_url K (field "jwks_uri" md))) kj, Ok tt)
  else match ks_jwks K (field "jwks" md) with
       | Ok ks => (add_ckeys id (map KPub ks) kj, Ok tt)
       | Err e => (kj, Err e)
       end.

(** utils.py:325-337 *)
Definition get_jwks (K : key_sources) (md : dict val) (id : string) : M ckeyjar unit := fun kj =>
  if dmem "signed_jwks_uri" md then (kj, Ok tt)
  else if dmem "jwks_uri" md then (add_ckeys id (map KPub (ks_url K (field "jwks_uri" md))) kj, Ok tt)
  else if dmem "jwks" md then
    match ks_jwks K (field "jwks" md) with
    | Ok ks => (add_ckeys id (map KPub ks) kj, Ok tt)
    | Err e => (kj, Err e)
    end
  else (kj, Ok tt).

(** ** URLs *)

(** what the code reads of urlparse(uri) *)
Record url := mkUrl {
  u_scheme : string;
  u_host : string;
  u_query : string;
  u_fragment : string
}.

(** ** The server *)
Record reg_env := mkRegEnv {
  rg_keys : key_sources;
  rg_parse : string -> url;                        (* urlparse *)
  rg_split : string -> string * val;               (* idpyoidc split_uri *)
  rg_verify_url : val -> val -> bool;              (* idpyoidc verify_url *)
  rg_hashsplit : string -> val;                    (* uri.split("#") *)
  rg_schema : dict val -> bool;                    (* request.verify() does not raise *)
  rg_blank : val -> bool;                          (* values rm_blanks removes *)
  rg_preferred : dict string;                      (* claims.register2preferred *)
  rg_provider : dict val;                          (* provider_info *)
  rg_listed : dict bool;                           (* claims.registration_response.c_param: list valued? *)
  rg_response : list string;                       (* response_cls.c_param *)
  rg_comb : dict val -> dict val;                  (* idpyoidc comb_uri *)
  rg_signing : val -> bool;                        (* the algorithm needs no key, or there is one *)
  rg_newid : list string -> string;                (* client id generator, given the reserved ids *)
  rg_salt : string;                                (* rndstr(8) *)
  rg_secret : string -> string;                    (* secret(self.seed, client_id) *)
  rg_secret_expires : val;                         (* kwargs client_secret_expires, default True *)
  rg_secret_in : Z;                                (* kwargs client_secret_expires_in *)
  rg_now : Z
}.

(** the state: client database and key jar *)
Record rstate := mkRState {
  r_cdb : dict (dict val);
  r_keys : ckeyjar
}.

(** a ResponseMessage with an error, or a value *)
Inductive outcome (A : Type) := Failed | Done (a : A).
Arguments Failed {A}.
Arguments Done {A} _.

Section Registration.
Context (O : iter_order) (R : reg_env).

(** registration.py:99-132; [Err OtherException] is CapabilitiesMisMatch *)
Definition match_claim (claim : string) (v : val) : res val :=
  let my_key := match dget claim (rg_preferred R) with Some k => k | None => claim end in
  match dget my_key (rg_provider R) with
  | None => Ok v
  | Some mine =>
      match dget claim (rg_listed R) with
      | None => Ok VNull
      | Some listed =>
          if truthy mine then
            if listed then
              match v with
              | VStr _ => let* b := py_in v mine in Ok (if b then v else VNull)
              | _ => let* s := py_set mine in
                     let* t := py_set v in
                     let common := set_inter s t in
                     if is_nil common then Err OtherException else Ok (VList (iov O common))
              end
            else
              match mine with
              | VList l => Ok (if vmem v l then v else VNull)
              | _ => Ok (if py_eqb v mine then v else VNull)
              end
          else Ok VNull
      end
  end.

(** registration.py:134-147 *)
Definition filter_client_request (request : dict val) : res (dict val) :=
  foldM (fun args e =>
           let (k, v) := e : string * val in
           if dmem k (rg_preferred R) then
             let* w := match_claim k v in
             Ok (if truthy w then dset k w args else args)
           else Ok (dset k v args)) request [].

(** registration.py:149-157 *)
Definition client_secret_expiration_time : Z :=
  if truthy (rg_secret_expires R) then (rg_now R + rg_secret_in R)%Z else 0%Z.

(** registration.py:159-166 *)
Definition add_client_secret (cinfo : dict val) (id : string) : dict val :=
  let cinfo := dset "client_secret" (VStr (rg_secret R id)) cinfo in
  let eat := client_secret_expiration_time in
  if Z.eqb eat 0 then cinfo else dset "client_secret_expires_at" (VInt eat) cinfo.

(** registration.py:168-214, one URI; None stands for InvalidRedirectURIError *)
Definition verify_redirect_uri (client_type : val) (must_https : bool) (uri : string) : option val :=
  let p := rg_parse R uri in
  let plain := let (base, query) := rg_split R uri in
               Some (VList [VStr base; if truthy query then query else VDict []]) in
  if py_eqb client_type (VStr "native") then
    if negb (smem (u_scheme p) ["http"; "https"]) then Some (VList [VStr uri; VDict []])
    else if String.eqb (u_scheme p) "http" && smem (u_host p) ["localhost"; "127.0.0.1"] then plain
    else None
  else if must_https && negb (String.eqb (u_scheme p) "https") then None
  else if negb (smem (u_scheme p) ["http"; "https"]) then None
  else if negb (String.eqb (u_fragment p) "") then None
  else plain.

(** registration.py:168-214; redirect_uris is a list of strings *)
Definition verify_redirect_uris (request : dict val) : res (outcome val) :=
  let client_type := match dget "application_type" request with Some v => v | None => VStr "web" end in
  let must_https := py_eqb client_type (VStr "web") &&
                    negb (py_eqb (field "response_types" request) (VList [VStr "code"])) in
  let* uris := match dget "redirect_uris" request with
               | Some (VList l) => Ok l
               | Some _ => Err TypeError
               | None => Err KeyError
               end in
  foldM (fun acc u =>
           match acc with
           | Failed => Ok Failed
           | Done (VList l) =>
               match u with
               | VStr s => Ok (match verify_redirect_uri client_type must_https s with
                               | Some v => Done (VList (l ++ [v]))
                               | None => Failed
                               end)
               | _ => Err AttributeError
               end
           | Done _ => Err TypeError
           end) uris (Done (VList [])).

(** registration.py:244-259: request_uris *)
Definition verify_request_uris (uris : list val) : res (outcome val) :=
  foldM (fun acc u =>
           match acc with
           | Failed => Ok Failed
           | Done (VList l) =>
               match u with
               | VStr s => let p := rg_parse R s in
                           Ok (if negb (String.eqb (u_query p) "") then Failed
                               else if negb (String.eqb (u_fragment p) "") then Done (VList (l ++ [rg_hashsplit R s]))
                               else Done (VList (l ++ [VList [VStr s; VStr ""]])))
               | _ => Err AttributeError
               end
           | Done _ => Err TypeError
           end) uris (Done (VList [])).

(** registration.py:261-269: the loop over policy_uri, logo_uri and tos_uri *)
Definition verify_other_uris (request : dict val) (cinfo : dict val) : res (outcome (dict val)) :=
  foldM (fun acc item =>
           match acc with
           | Failed => Ok Failed
           | Done ci =>
               match dget item request with
               | None => Ok (Done ci)
               | Some v => let* rs := dindex "redirect_uris" ci in
                           Ok (if rg_verify_url R v rs then Done (dset item v ci) else Failed)
               end
           end) ["policy_uri"; "logo_uri"; "tos_uri"] (Done cinfo).

(** registration.py:271-292: algorithms the server cannot sign with are removed *)
Definition check_algs (request : dict val) (cinfo : dict val) : res (dict val) :=
  foldM (fun ci item =>
           match dget item request with
           | None => Ok ci
           | Some alg =>
               let* claim := dindex item (rg_preferred R) in
               match dget claim (rg_provider R) with
               | None | Some VNull =>
                   if dmem item ci then Ok (ddel item ci) else Err KeyError
               | Some support =>
                   let* b := py_in alg support in
                   if b && negb (rg_signing R alg)
                   then (if dmem item ci then Ok (ddel item ci) else Err KeyError)
                   else Ok ci
               end
           end) ["id_token_signed_response_alg"; "userinfo_signed_response_alg"] cinfo.

Definition ignored : list string := ["redirect_uris"; "policy_uri"; "logo_uri"; "tos_uri"].

(** registration.py:216-292: everything up to the import of the keys *)
Definition client_info (request : dict val) (cinfo : dict val) : res (outcome (dict val)) :=
  let cinfo := fold_left (fun ci e => if smem (fst e) ignored then ci else dset (fst e) (snd e) ci)
                         request cinfo in
  let plr := field "post_logout_redirect_uri" request in
  let* r := if truthy plr then
              match plr with
              | VStr u => if negb (String.eqb (u_fragment (rg_parse R u)) "") then Ok Failed
                          else let (b, q) := rg_split R u in
                               Ok (Done (dset "post_logout_redirect_uri" (VList [VStr b; q]) cinfo))
              | _ => Err AttributeError
              end
            else Ok (Done cinfo) in
  match r with
  | Failed => Ok Failed
  | Done cinfo =>
  let* r := if dmem "redirect_uris" request then
              let* v := verify_redirect_uris request in
              Ok (match v with Failed => Failed | Done l => Done (dset "redirect_uris" l cinfo) end)
            else Ok (Done cinfo) in
  match r with
  | Failed => Ok Failed
  | Done cinfo =>
  let* r := match dget "request_uris" request with
            | Some (VList l) => let* v := verify_request_uris l in
                                Ok (match v with Failed => Failed | Done l => Done (dset "request_uris" l cinfo) end)
            | Some _ => Err TypeError
            | None => Ok (Done cinfo)
            end in
  match r with
  | Failed => Ok Failed
  | Done cinfo =>
  let* r := verify_other_uris request cinfo in
  match r with
  | Failed => Ok Failed
  | Done cinfo => let* ci := check_algs request cinfo in Ok (Done ci)
  end end end end.

Definition on_ckeys {A} (m : M ckeyjar A) : M rstate A := fun s =>
  match m (r_keys s) with (k, r) => (mkRState (r_cdb s) k, r) end.

Definition set_client (id : string) (ci : dict val) : M rstate unit :=
  modify (fun s => mkRState (dset id ci (r_cdb s)) (r_keys s)).

(** registration.py:216-298 *)
Definition do_client_registration (request : dict val) (id : string) : M rstate (outcome (dict val)) :=
  do s <- StateM.get in
  do old <- lift (dindex id (r_cdb s)) in
  do r <- lift (client_info request old) in
  match r with
  | Failed => ret Failed
  | Done ci => do _ <- on_ckeys (import_client_keys (rg_keys R) request id) in ret (Done ci)
  end.

(** registration.py:300-386 *)
Definition client_registration_setup (request : dict val) (new_id set_secret : bool) (reserved : list string)
  : M rstate (outcome (dict val)) :=
  if negb (rg_schema R request) then ret Failed
  else
    let request := filter (fun e => negb (rg_blank R (snd e))) request in
    match filter_client_request request with
    | Err OtherException => ret Failed
    | Err e => raise e
    | Ok request =>
        do s <- StateM.get in
        do p <- (if new_id : bool
                 then ret (rg_newid R (if is_nil reserved then dkeys (r_cdb s) else reserved), ddel "client_id" request)
                 else match field "client_id" request with
                      | VStr id => if String.eqb id "" then raise ValueError else ret (id, request)
                      | _ => raise ValueError
                      end) in
        let (id, request) := p : string * dict val in
        let ci := [("client_id", VStr id); ("client_salt", VStr (rg_salt R))] in
        let ci := if new_id then dset "client_id_issued_at" (VInt (rg_now R)) ci else ci in
        let ci := if set_secret then add_client_secret ci id else ci in
        do _ <- set_client id ci in
        do r <- do_client_registration request id in
        match r with
        | Failed => ret Failed
        | Done ci =>
            let args := rg_comb R (filter (fun e => smem (fst e) (rg_response R)) ci) in
            do _ <- (if set_secret && negb (String.eqb (rg_secret R id) "")
                     then on_ckeys (fun kj => (add_ckeys id [KSecret (rg_secret R id)] kj, Ok tt))
                     else ret tt) in
            do _ <- set_client id ci in
            ret (Done args)
        end
    end.

(** registration.py:388-408: all exceptions become error responses *)
Definition step2_process_request (request : dict val) (new_id set_secret : bool) (reserved : list string)
  : M rstate (outcome (dict val)) := fun s =>
  match client_registration_setup request new_id set_secret reserved s with
  | (s', Ok r) => (s', Ok r)
  | (s', Err _) => (s', Ok Failed)
  end.
End Registration.
