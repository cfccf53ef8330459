(** Model of entity statements that are kept in files: src/fedservice/fetch_entity_statement/__init__.py and fs2.py.

    Files are functions of the names of two directories.  An object keeps the issuer, the pattern of identifiers and a
    key jar; the key jar is the state here.  A key stands for the pair, so the difference between the file with the
    issuer's own private keys and those with the public keys of others is left out.  JWT.pack (cryptojwt) signs with a
    key that the key jar has for the issuer, and fails without one.  url_prefix and the other attributes that are never
    read are left out; files do not change while an object is in use. *)
From Verif Require Export FetchModel VerifierModel.

(** base_path/<superior>/<subordinate>/ *)
Record site := mkSite {
  si_jwks : string -> string -> option (list key);             (* jwks.json *)
  si_file : string -> string -> string -> option val           (* any other file, as JSON *)
}.

(** outside of the library *)
Record fenv := mkFenv {
  fx_id : string -> string;                   (* entity_id_pattern.format *)
  fx_unquote : string -> string;              (* unquote_plus *)
  fx_export : list key -> val;                (* public parts as a JWKS *)
  fx_pick : list key -> option key;           (* the key to sign with *)
  fx_path : string -> string;                 (* urlparse(url).path *)
  fx_netloc : string -> string;               (* urlparse(url).netloc *)
  fx_sub : string -> option string            (* parse_qs(urlparse(url).query)['sub'][0] *)
}.

Definition keys_in (id : string) (kj : keyjar) : list key := match dget id kj with Some ks => ks | None => [] end.

(** a signed statement *)
Record signed := mkSigned { sg_key : key; sg_claims : dict val }.

Section Files.
Context (S : site) (X : fenv).

(** fs2.py:35-37; a missing file raises FileNotFoundError *)
Definition load_jwks (sup sub id : string) : M keyjar unit := fun kj =>
  match si_jwks S sup sub with
  | Some ks => (dset id (keys_in id kj ++ ks) kj, Ok tt)
  | None => (kj, Err OtherException)
  end.

(** fs2.py:25-33 *)
Definition fs_init (iss : string) : M keyjar unit :=
  if String.eqb iss "" then ret tt else load_jwks iss iss (fx_id X iss).

Definition info_files : list (string * string) :=
  [("metadata", "metadata.json"); ("metadata_policy", "policy.json"); ("constraints", "constraints.json");
   ("authority_hints", "authority.json")].

(** fs2.py:54-60 *)
Definition read_files (iss sub : string) : dict val :=
  fold_left (fun d nf => match si_file S iss sub (snd nf) with Some v => dset (fst nf) v d | None => d end) info_files [].

(** fs2.py:39-64 *)
Definition gather_info (iss sub : string) : M keyjar (dict val) :=
  do kj <- StateM.get in
  do _ <- (if dmem (fx_id X iss) kj then ret tt else load_jwks iss iss (fx_id X sub)) in
  let sub_id := if String.prefix "https%3A%2F%2F" sub then fx_unquote X sub else fx_id X sub in
  do kj <- StateM.get in
  do _ <- (if dmem sub_id kj then ret tt else load_jwks iss sub sub_id) in
  ret (read_files iss sub).

(** __init__.py:28-37, with create.py *)
Definition fs_create (now : Z) (iss sub : string) (kwargs : dict val) : M keyjar signed :=
  do info <- gather_info iss sub in
  do kj <- StateM.get in
  let info := dset "jwks" (fx_export X (keys_in (fx_id X sub) kj)) (dupdate info kwargs) in
  let sub_id := if String.prefix "https" sub then fx_unquote X sub else fx_id X sub in
  do claims <- lift (create_entity_statement now (fx_id X iss) sub_id VNull info) in
  match fx_pick X (keys_in (fx_id X iss) kj) with
  | Some k => ret (mkSigned k claims)
  | None => raise OtherException                       (* NoSuitableSigningKeys *)
  end.

(** ** Publishing: fs2.py:80-106 *)

(** fs2.py:89-95: a new object, hence a new key jar, for every request *)
Definition once (now : Z) (iss sub : string) : res signed :=
  snd ((do _ <- fs_init iss in fs_create now iss sub []) []).

Definition create_configuration (now : Z) (entity_id : string) : res signed := once now entity_id entity_id.

Definition create_statement (now : Z) (entity_id issuer_id : string) : res signed := once now issuer_id entity_id.

(** fs2.py:97-106 *)
Definition fs_get (now : Z) (url : string) : res signed :=
  if String.eqb (fx_path X url) "/.well-known/openid-federation" then create_configuration now (fx_netloc X url)
  else
    match fx_sub X url with
    | None => Err KeyError
    | Some s => create_statement now (fx_netloc X url) (fx_netloc X s)
    end.

End Files.
