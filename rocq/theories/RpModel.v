(** Model of the relying party: getting to know an OP (src/fedservice/appclient/stand_alone_client_entity.py),
    registering with it (src/fedservice/appclient/oidc/registration.py, oauth2/registration.py) and asking for
    authorization (oidc/authorization.py, oauth2/authorization.py), and of the answer an OP gives to a registration
    request (src/fedservice/appserver/oidc/registration.py:56-88).

    A registration response is a JWS.  Its claim trust_anchor_id, which other statements do not have, stands beside
    the payload; aud is left out because nobody reads it.  There is no function metadata_verifier.  The mapping of
    preferences and supported claims (idpyoidc), HTTP, and the result of a static configuration of the OP are left
    out. *)
From Verif Require Export ClientModel.

(** ** Registration responses *)

Record answer := mkAnswer {
  an_signer : key;
  an_claims : stmt;
  an_anchor : option string        (* trust_anchor_id *)
}.

Definition an_tok (a : answer) : token := TJws (an_signer a) (an_claims a).

(** trust_chain.metadata[t] *)
Definition type_of_chain (c : tchain) (t : string) : res (option metadata) :=
  match ch_md c with
  | ByType m => dindex t m
  | Flat m => let* v := dindex t m in match v with VDict d => Ok (Some d) | _ => Err TypeError end
  end.

(** verified_chain[-1]['metadata'] = m *)
Definition set_metadata (m : dict metadata) (p : stmt) : stmt :=
  mkStmt (s_iss p) (s_sub p) (s_exp p) (s_jwks p) (Some m) (s_policy p) (s_constraints p) (s_hints p).

Definition set_leaf_metadata (m : dict metadata) (tc : trust_chain) : res trust_chain :=
  match rev (tc_verified tc) with
  | [] => Err IndexError
  | leaf :: front => Ok (mkTC (tc_anchor tc) (tc_chain tc) (tc_exp tc) (tc_iss_path tc)
                              (rev front ++ [set_metadata m leaf]))
  end.

(** payload.get("metadata"), if it is truthy *)
Definition given_metadata (p : stmt) : option (dict metadata) :=
  match s_metadata p with Some [] | None => None | Some m => Some m end.

Section Responses.
Context (E : cenv) (O : iter_order) (fuel : nat).

(** oidc/registration.py:103-112, oauth2/registration.py:127-136: the chains that are accepted are not looked at *)
Definition signature_verifies (id anchor : string) : M fstate bool :=
  do r <- collect_trust_chains E fuel id anchor in
  if is_nil (fst r) then ret false
  else do _ <- on_keys (verify_trust_chains E (fst r) []) in ret true.

(** oidc/registration.py:122-145, oauth2/registration.py:146-170: what both do first; the payload and the anchor *)
Definition open_response (a : answer) : M fstate (stmt * string) :=
  do tp <- on_col (open_self_signed E (Some (an_tok a))) in
  do ta <- lift (match an_anchor a with Some ta => Ok ta | None => Err KeyError end) in
  if negb (smem ta (e_anchors E)) then raise ValueError
  else
    do ok <- signature_verifies (s_iss (snd tp)) ta in
    if ok : bool then ret (snd tp, ta) else raise SignatureFailure.

(** oidc/registration.py:114-161 and 91-98 *)
Definition parse_oidc (me : string) (a : answer) : M fstate metadata :=
  do pa <- open_response a in
  do r <- collect_trust_chains E fuel me (snd pa) in
  do tcs <- on_keys (verify_trust_chains E (fst r) [an_tok a]) in
  match tcs with
  | [tc] =>
      do tc <- lift (match given_metadata (fst pa) with Some m => set_leaf_metadata m tc | None => Ok tc end) in
      do c <- lift (apply_to_chain O tc) in
      do md <- lift (type_of_chain c "openid_relying_party") in
      match md with
      | Some (x :: md) => ret (x :: md)
      | _ => raise OtherException                        (* ResponseError *)
      end
  | _ => raise SystemError
  end.

(** metadata as a whole is empty *)
Definition no_metadata (m : tc_metadata) : bool :=
  match m with ByType m => is_nil m | Flat m => is_nil m end.

(** oauth2/registration.py:138-190 and 115-122 *)
Definition parse_oauth (me : string) (a : answer) : M fstate tc_metadata :=
  do pa <- open_response a in
  do cs <- get_verified_trust_chains E O fuel me in
  match cs with
  | [c] =>
      do c <- match given_metadata (fst pa) with
              | Some m => lift (let* tc := set_leaf_metadata m (ch_tc c) in apply_to_chain O tc)
              | None => ret c
              end in
      if no_metadata (ch_md c) then raise OtherException else ret (ch_md c)
  | _ => raise SystemError
  end.

(** ** The answer of an OP *)

(** what an OP is: identifier, signing key, published keys, authority hints; the time *)
Record op := mkOp {
  op_id : string;
  op_key : key;
  op_jwks : list key;
  op_hints : list string;
  op_now : Z;
  op_lifetime : Z
}.

Definition dropped : list string := ["application_type"; "redirect_uris"].

(** oidc/registration.py:63-84 (appserver): the metadata of the answer; [req] as rm_blanks leaves it *)
Definition answer_metadata (R : reg_env) (req args : dict val) : dict val :=
  let req := filter (fun e => negb (rg_blank R (snd e))) req in
  let req := ddel "signed_jwks_uri" (ddel "jwks_uri" (ddel "jwks" req)) in
  filter (fun e => negb (smem (fst e) dropped)) (dupdate req args).

(** oidc/registration.py:31-88 (appserver); None if the answer is an error *)
Definition answer_oidc (R : reg_env) (P : op) (prio : list string) (t : token) : M astate (option answer) :=
  do tp <- on_fed (on_col (open_self_signed E (Some t))) in
  let p := snd tp in
  do m <- lift (metadata_of p) in
  do ty <- lift (opponent_type O (dkeys m)) in
  do cs <- on_fed (get_verified_trust_chains E O fuel (s_sub p)) in
  if is_nil cs then raise NoTrustedChains
  else
    do c <- lift (pick_trust_chain prio cs) in
    do md <- lift (dindex ty m) in
    let req := dset "client_id" (VStr (s_sub p)) (request_of md) in
    do r <- on_reg (step2_process_request O R req false true []) in
    match r with
    | Failed => ret None
    | Done args =>
        ret (Some (mkAnswer (op_key P)
                     (mkStmt (op_id P) (s_iss p) (Some (op_now P + op_lifetime P)%Z) (Some (op_jwks P))
                             (Some [(ty, answer_metadata R req args)]) None None
                             (if is_nil (op_hints P) then None else Some (op_hints P)))
                     (Some (ch_anchor c))))
    end.

(** ** Getting to know the OP *)

Record rp := mkRp {
  p_fed : fstate;
  p_keys : ckeyjar;                    (* context.keyjar *)
  p_info : dict val;                   (* context.provider_info *)
  p_issuer : string;                   (* context.issuer *)
  p_store : option chain_store;        (* context.trust_chain *)
  p_asked : dict string                (* context.cstate: the issuer a state was made for *)
}.

Definition rp_fed {A} (m : M fstate A) : M rp A := fun s =>
  match m (p_fed s) with (f, r) => (mkRp f (p_keys s) (p_info s) (p_issuer s) (p_store s) (p_asked s), r) end.

(** stand_alone_client_entity.py:52-64; KeyJar.load_keys adds nothing for an empty source *)
Definition import_keys (K : key_sources) (info : dict val) (iss : string) : M ckeyjar unit := fun kj =>
  if dmem "jwks_uri" info then
    (add_ckeys iss (if truthy (field "jwks_uri" info) then map KPub (ks_url K (field "jwks_uri" info)) else []) kj, Ok tt)
  else if dmem "jwks" info then
    if truthy (field "jwks" info) then
      match ks_jwks K (field "jwks" info) with
      | Ok ks => (add_ckeys iss (map KPub ks) kj, Ok tt)
      | Err e => (add_ckeys iss [] kj, Err e)
      end
    else (add_ckeys iss [] kj, Ok tt)
  else (kj, Ok tt).

(** stand_alone_client_entity.py:66-79; the issuer is a string.  The entries made in the federation entity
    (trust_chain_anchor, context.trust_chain) are left out. *)
Definition collect_metadata (K : key_sources) (prio : list string) : M rp (dict val) :=
  do s <- StateM.get in
  do cs <- rp_fed (get_verified_trust_chains E O fuel (p_issuer s)) in
  if is_nil cs then raise NoTrustedChains
  else
    do d <- lift (save_trust_chains (p_store s) cs) in
    do _ <- modify (fun s => mkRp (p_fed s) (p_keys s) (p_info s) (p_issuer s) (Some d) (p_asked s)) in
    do c <- lift (pick_trust_chain prio cs) in
    do info <- lift (chain_metadata c "openid_provider") in
    do iss <- lift (let* v := dindex "issuer" info in match v with VStr i => Ok i | _ => Err TypeError end) in
    do _ <- modify (fun s => mkRp (p_fed s) (p_keys s) info (p_issuer s) (p_store s) (p_asked s)) in
    do _ <- (fun s => match import_keys K info iss (p_keys s) with
                      | (kj, r) => (mkRp (p_fed s) kj (p_info s) (p_issuer s) (p_store s) (p_asked s), r)
                      end) in
    ret info.

(** provider_info["issuer"], otherwise issuer (stand_alone_client_entity.py:133-136, 491-494) *)
Definition provider_issuer (s : rp) : val :=
  match dget "issuer" (p_info s) with Some v => v | None => VStr (p_issuer s) end.

(** len(_pi) == 1 and "issuer" in _pi (stand_alone_client_entity.py:100) *)
Definition bare_issuer (info : dict val) : option string :=
  match info with
  | [(k, VStr i)] => if String.eqb k "issuer" then Some i else None
  | _ => None
  end.

(** stand_alone_client_entity.py:81-136; what static provider information says about endpoints and keys is left out *)
Definition do_provider_info (K : key_sources) (prio : list string) : M rp val :=
  do s <- StateM.get in
  do _ <- if is_nil (p_info s) then collect_metadata K prio
          else match bare_issuer (p_info s) with
               | Some i =>
                   do _ <- modify (fun s => mkRp (p_fed s) (p_keys s) (p_info s) i (p_store s) (p_asked s)) in
                   collect_metadata K prio
               | None => ret (p_info s)
               end in
  do s <- StateM.get in
  ret (provider_issuer s).

(** stand_alone_client_entity.py:238-313: what is remembered of an authorization request with a fresh [state] *)
Definition init_authorization (state : string) : M rp unit :=
  modify (fun s => mkRp (p_fed s) (p_keys s) (p_info s) (p_issuer s) (p_store s) (dset state (p_issuer s) (p_asked s))).

(** stand_alone_client_entity.py:482-498: the check of the issuer of an authorization response *)
Definition finalize_auth (state : string) : M rp unit :=
  do s <- StateM.get in
  do iss <- lift (dindex state (p_asked s)) in
  if py_eqb (VStr iss) (provider_issuer s) then ret tt else raise ValueError.

(** how a client gets registered *)
Inductive enrol := Unregistered_use | Ask (endpoint : val) | Locally.

(** stand_alone_client_entity.py:138-196; [ability] is the preference client_registration_types, [service]: there is
    a registration service.  The set of supported types is made of a list of strings. *)
Definition choose_registration (prio : list string) (ability : list string) (service : bool) : M rp enrol :=
  do s <- StateM.get in
  do ctx <- lift (match p_store s with Some d => Ok d | None => Err AttributeError end) in
  do c <- lift (pick_from_stored_trust_chains prio ctx (p_issuer s)) in
  do info <- lift (chain_metadata c "openid_provider") in
  do v <- lift (dindex "client_registration_types_supported" info) in
  do supported <- lift (py_set v) in
  let possible := filter (fun x => vmem (VStr x) supported) (nodup string_dec ability) in
  if is_nil possible then raise ValueError
  else if (length possible =? 1)%nat && smem "automatic" possible then ret Unregistered_use
  else if service then do e <- lift (dindex "federation_registration_endpoint" (p_info s)) in ret (Ask e)
  else ret Locally.

End Responses.

(** ** Authorization requests *)

(** what an authorization request is sent with: post_args may be replaced by None *)
Record sending := mkSending {
  se_args : dict val;
  se_post : option (dict val);
  se_pushed : option bool              (* add_on['pushed_authorization']['apply'], if it is there *)
}.

(** oidc/authorization.py:12-34, oauth2/authorization.py:14-36; OtherException is OtherError or UnSupported.  [lifetime]
    is the configured request_object_expires_in, [endpoint] the OP's authorization_endpoint, [me] the entity id *)
Definition use_endpoint (me : string) (lifetime endpoint : val) (name : string) (ams : dict val)
    (post : dict val) (pushed : option bool) : res (option (dict val) * option bool) :=
  if String.eqb name "authorization_endpoint" then
    let pushed := match pushed with Some _ => Some false | None => None end in
    let* l := dindex "authorization_endpoint" ams in
    let* b := py_in (VStr "request_object") l in
    if b then
      Ok (Some (dset "issuer" (VStr me) (dset "lifetime" lifetime (dset "with_jti" (VBool true)
                  (dset "recv" endpoint (dset "request_param" (VStr "request") post))))), pushed)
    else Err OtherException
  else if String.eqb name "pushed_authorization_endpoint" then
    match pushed with Some _ => Ok (None, Some true) | None => Err OtherException end
  else Err AttributeError.

(** oidc/authorization.py:36-64, oauth2/authorization.py:38-71; [endpoints] is authorization_request_endpoints, [ams]
    request_authentication_methods_supported of the OP ([] if absent) *)
Definition automatic_registration (me : string) (lifetime endpoint : val) (endpoints : list string) (ams : dict val)
    (registered : bool) (args post : dict val) (pushed : option bool) : res sending :=
  let* r := if is_nil ams then
              if registered then Ok (Some post, pushed) else Err OtherException
            else match find (fun n => dmem n ams) endpoints with
                 | Some n => use_endpoint me lifetime endpoint n ams post pushed
                 | None => Ok (Some post, pushed)
                 end in
  let args := if truthy (field "client_id" args) then args else dset "client_id" (VStr me) args in
  Ok (mkSending args (fst r) (snd r)).
