(** Vocabulary for the relying party (C93-C107). *)
From Verif Require Export RpModel WellRunSpec.

(** the chains that are collected for [id], going up no further than [stop] *)
Definition chains_found (E : cenv) (fuel : nat) (id stop : string) (s : fstate) (chains : list (list token)) : Prop :=
  exists leaf, snd (collect_trust_chains E fuel id stop s) = Ok (chains, leaf).

(** [md] is what the policies of the statements [l], top down, leave of the metadata of the leaf for clients.  Without
    statements nothing is applied and the metadata is looked for under the type ''. *)
Definition client_metadata (O : iter_order) (l : list stmt) (leaf : stmt) (md : metadata) : Prop :=
  match l with
  | [] => exists m d, s_metadata leaf = Some m /\ dget "" m = Some d /\ dget "openid_relying_party" d = Some (VDict md)
  | _ => exists m leaf', policy_call O l leaf = Ok (m, leaf') /\ dget "openid_relying_party" m = Some (Some md)
  end.

(** the response [a] as a statement with its signer *)
Definition an_jws (a : answer) : key * stmt := (an_signer a, an_claims a).

(** where the jar has keys for an entity in [Q] it has the one the entity signs with *)
Definition jar_ok (W : world) (Q : string -> Prop) (kj : keyjar) : Prop :=
  forall e ks, Q e -> dget e kj = Some ks -> In (w_key W e) ks.

(** [a] is what the OP [op] answers the client [me], naming [ta] *)
Definition honest_answer (W : world) (ta op me : string) (a : answer) : Prop :=
  an_anchor a = Some ta /\ s_iss (an_claims a) = op /\ s_sub (an_claims a) = me /\ an_signer a = w_key W op /\
  vouches_for (an_claims a) (w_key W op) /\ exists z, s_exp (an_claims a) = Some z.

Definition claims_up (W : world) (e : string) (r : list string) : list stmt := map snd (jws (along W e r)).

(** [r] leads from the client to a known anchor, and the constraints along it allow the response *)
Definition allows (W : world) (kj : keyjar) (ta me : string) (a : answer) (r : list string) : Prop :=
  route W ta me r /\ r <> [] /\ known kj (end_of me r) /\
  meets_restrictions (claims_up W me r ++ [an_claims a]) = Ok true.

(** constraints along the routes from [e] to known anchors can be evaluated with [l] at the end *)
Definition clear_up (W : world) (kj : keyjar) (ta e : string) (l : list stmt) : Prop :=
  forall r, route W ta e r -> r <> [] -> known kj (end_of e r) -> exists b, meets_restrictions (claims_up W e r ++ l) = Ok b.
