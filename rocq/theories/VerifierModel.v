(** Model of src/fedservice/entity/function/verifier.py and of the TrustChain object in
    src/fedservice/entity_statement/statement.py.

    Signatures are symbolic: a token carries its payload and the key it was signed with.  Tokens
    with alg none or a symmetric algorithm are not modelled, neither are payloads without iss
    or sub. *)
From Verif Require Export ConstraintsModel.

(** what [factory] makes of a string: None, or a JWS *)
Inductive token :=
| TJunk
| TJws (signer : key) (payload : stmt).

(** The keys held per entity identifier. *)
Definition keyjar := dict (list key).

Definition keys_of (kj : keyjar) (e : string) : list key :=
  match dget e kj with Some l => l | None => [] end.

Definition kmem (k : key) (l : list key) : bool := existsb (Nat.eqb k) l.

(** Parameters of the whole verifier: the choice [KeyJar.get_jwt_verify_keys] makes among the keys
    of the issuer (by kid, key type and use), whether [KeyJar.get_issuer_keys] raises KeyError
    for an issuer it does not know (otherwise it returns the empty list), and whether [JWT.unpack] is
    satisfied with the times in a statement; [verify_compact] never looks at them. *)
Record keyjar_lib := mkLib {
  lib_picks : token -> key -> bool;
  lib_raises : bool;
  lib_valid : Z -> stmt -> bool
}.

Section Verifier.
Context (L : keyjar_lib).

(** cryptojwt KeyJar.get_jwt_verify_keys *)
Definition verify_keys (kj : keyjar) (t : token) (iss : string) : list key :=
  filter (lib_picks L t) (keys_of kj iss).

(** verifier.py:77-96: registering the keys [new] for [sub] *)
Definition add_keys (kj : keyjar) (sub : string) (new : list key) : keyjar :=
  match dget sub kj with
  | None => if lib_raises L || negb (is_nil new) then dset sub new kj else kj
  | Some old =>
      let fresh := filter (fun k => negb (kmem k old)) new in
      if is_nil fresh then kj else dset sub (old ++ fresh) kj
  end.

(** verifier.py:23-41 for the first token (the issuer is known) *)
Definition trusted_anchor (kj : keyjar) (t : token) : res bool :=
  match t with
  | TJunk => Err AttributeError
  | TJws _ p => Ok (dmem (s_iss p) kj)
  end.

(** verifier.py:60-98: the loop.  [n] is the length of the list minus one, [ves] the statements
    verified so far. *)
Fixpoint verify_tokens (kj : keyjar) (n : nat) (ves : list stmt) (ts : list token)
  : keyjar * res (list stmt) :=
  match ts with
  | [] => (kj, Ok ves)
  | TJunk :: ts' => verify_tokens kj n ves ts'
  | TJws k p :: ts' =>
      let keys := verify_keys kj (TJws k p) (s_iss p) in
      if is_nil keys then (kj, Err MissingKey)
      else if kmem k keys then
        match s_jwks p with
        | None =>
            if Nat.eqb (length ves) n then verify_tokens kj n (ves ++ [p]) ts'
            else (kj, Err ValueError)
        | Some jwks => verify_tokens (add_keys kj (s_sub p) jwks) n (ves ++ [p]) ts'
        end
      else (kj, Err BadSignature)
  end.

(** verifier.py:43-103 *)
Definition verify_trust_chain (kj : keyjar) (ts : list token) : keyjar * res (list stmt) :=
  match ts with
  | [] => (kj, Err IndexError)
  | t :: _ =>
      match trusted_anchor kj t with
      | Err e => (kj, Err e)
      | Ok false => (kj, Ok [])
      | Ok true =>
          match verify_tokens kj (length ts - 1) [] ts with
          | (kj', Err e) => (kj', Err e)
          | (kj', Ok ves) =>
              (kj', if is_nil ves then Ok []
                    else let* b := meets_restrictions ves in
                         if b then Ok ves else Ok [])
          end
      end
  end.

(** verifier.py:105-113; a statement without exp raises KeyError *)
Fixpoint expires_from (exp : Z) (chain : list stmt) : res Z :=
  match chain with
  | [] => Ok exp
  | s :: chain' =>
      match s_exp s with
      | None => Err KeyError
      | Some e =>
          expires_from (if Z.leb 0 exp then (if Z.ltb e exp then e else exp) else e) chain'
      end
  end.

Definition trust_chain_expires_at (chain : list stmt) : res Z := expires_from (-1)%Z chain.

(** statement.py:12-58, the attributes the verifier sets *)
Record trust_chain := mkTC {
  tc_anchor : string;
  tc_chain : list token;
  tc_exp : Z;
  tc_iss_path : list string;
  tc_verified : list stmt
}.

(** statement.py:78-84 *)
Definition is_expired (tc : trust_chain) (now : Z) : bool := Z.ltb (tc_exp tc) now.

(** verifier.py:115-138 *)
Definition verifier_call (kj : keyjar) (ts : list token) : keyjar * res (option trust_chain) :=
  match verify_trust_chain kj ts with
  | (kj', Err e) => (kj', Err e)
  | (kj', Ok []) => (kj', Ok None)
  | (kj', Ok (s :: ves)) =>
      (kj', let* exp := trust_chain_expires_at (s :: ves) in
            Ok (Some (mkTC (s_iss s) ts exp (rev (map s_iss (s :: ves))) (s :: ves))))
  end.

(** calls of the verifier one after the other, whatever their outcome *)
Definition after_calls (kj : keyjar) (calls : list (list token)) : keyjar :=
  fold_left (fun kj ts => fst (verifier_call kj ts)) calls kj.

End Verifier.
