(** Vocabulary for chain verification (C23-C30). *)
From Verif Require Export VerifierModel ConstraintsSpec.

(** the key jar holds key [k] for entity [e] *)
Definition holds (kj : keyjar) (e : string) (k : key) : Prop :=
  exists l, dget e kj = Some l /\ In k l.

Definition known (kj : keyjar) (e : string) : Prop := exists l, dget e kj = Some l.

(** the JWSs in a list of tokens *)
Fixpoint jws (ts : list token) : list (key * stmt) :=
  match ts with
  | [] => []
  | TJunk :: ts' => jws ts'
  | TJws k p :: ts' => (k, p) :: jws ts'
  end.

(** some statement of the list vouches for key [k] of entity [e] *)
Definition vouched (l : list (key * stmt)) (e : string) (k : key) : Prop :=
  exists k0 p jw, In (k0, p) l /\ s_sub p = e /\ s_jwks p = Some jw /\ In k jw.

(** every statement is signed with a key of its issuer the jar held or an earlier statement
    vouched for *)
Definition properly_signed (kj : keyjar) (l : list (key * stmt)) : Prop :=
  forall pre k p post, l = pre ++ (k, p) :: post ->
    holds kj (s_iss p) k \/ vouched pre (s_iss p) k.

(** key [k] of entity [e] can be traced back to the keys of [kj] over the statements in [l] *)
Inductive traceable (kj : keyjar) (l : list (key * stmt)) : string -> key -> Prop :=
| tr_initial : forall e k, holds kj e k -> traceable kj l e k
| tr_vouched : forall k0 p jw k,
    In (k0, p) l -> traceable kj l (s_iss p) k0 -> s_jwks p = Some jw -> In k jw ->
    traceable kj l (s_sub p) k.

(** the verifier accepts the list and returns [ves] *)
Definition verified (L : keyjar_lib) (kj : keyjar) (ts : list token) (ves : list stmt) : Prop :=
  snd (verify_trust_chain L kj ts) = Ok ves /\ ves <> [].

(** the key jar offers the key a statement is signed with for its verification *)
Definition picked (L : keyjar_lib) (l : list (key * stmt)) : Prop :=
  forall k p, In (k, p) l -> lib_picks L (TJws k p) k = true.

(** [l] comes after [m] statements; only statement number [n] may lack keys *)
Definition jwks_ok (m n : nat) (l : list (key * stmt)) : Prop :=
  forall pre k p post, l = pre ++ (k, p) :: post -> s_jwks p = None -> m + length pre = n.

(** [m] is the smallest of [l] *)
Definition minimum (m : Z) (l : list Z) : Prop := In m l /\ forall x, In x l -> (m <= x)%Z.

Definition exps (chain : list stmt) : list Z :=
  flat_map (fun s => match s_exp s with Some e => [e] | None => [] end) chain.
