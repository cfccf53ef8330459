(** Vocabulary for federations under attack (C146-C149).

    Members of the federation have keys and have made statements.  The attacker controls the network: every answer to
    every request, at any time, is what the attacker wants it to be, as long as it can be made without the keys of the
    members.  The attacker has keys, and can replay all that members have ever signed.  Entities that are no members can
    have keys that members vouch for: such an entity takes part, but its keys are used as the attacker likes. *)
From Verif Require Export FederationSpec ResolveModel.

Record world := mkWorld {
  in_fed : string -> bool;               (* the members *)
  key_of : string -> key -> Prop;        (* the keys of a member: its own, and those of OPs that answer it, whose responses have
                                            the client as the subject and the keys of the OP *)
  said : string -> stmt -> Prop;         (* what a member has signed *)
  loose : key -> Prop;                   (* keys of participants that are no members *)
  wire : token -> Prop                   (* what can come in *)
}.

(** [k] may be held for [e] *)
Definition fair (W : world) (e : string) (k : key) : Prop :=
  if in_fed W e then key_of W e k else loose W k.

Definition vouches (W : world) (p : stmt) : Prop :=
  forall jw k, s_jwks p = Some jw -> In k jw -> fair W (s_sub p) k.

(** nobody but a member signs with its keys *)
Definition unforgeable (W : world) : Prop := forall k p,
  wire W (TJws k p) -> in_fed W (s_iss p) = true -> key_of W (s_iss p) k -> said W (s_iss p) p.

(** members give the keys of others as they are *)
Definition truthful (W : world) : Prop := forall e p, in_fed W e = true -> said W e p -> vouches W p.

(** the other participants say nothing wrong about the keys of members *)
Definition discreet (W : world) : Prop := forall k p,
  wire W (TJws k p) -> in_fed W (s_iss p) = false -> loose W k -> vouches W p.

(** there are no other participants *)
Definition closed (W : world) : Prop := forall k, ~ loose W k.

(** [E] is connected to the network of the attacker *)
Definition exposed (W : world) (E : cenv) : Prop := forall n q t, e_net E n q = RText (Some t) -> wire W t.

Definition jar_fair (W : world) (kj : keyjar) : Prop := forall e k, holds kj e k -> fair W e k.

(** cached configurations are among [own], statements among [others] *)
Definition caches_from (own others : token -> Prop) (c : cstate) : Prop :=
  (forall id e t, dget id (st_cfg c) = Some e -> ce_jws e = Some t -> own t) /\
  (forall k t, dget k (st_es c) = Some (ESTok t) -> others t).

(** a statement in the name of a member is by that member *)
Definition genuine (W : world) (p : stmt) : Prop :=
  (in_fed W (s_iss p) = true -> said W (s_iss p) p) /\ (closed W -> in_fed W (s_iss p) = true).

(** the chain [c] and its metadata are made of genuine statements, the first of which is by the anchor *)
Definition made_of (W : world) (O : iter_order) (c : tchain) : Prop :=
  exists tc p l, tc_verified tc = p :: l /\ s_iss p = ch_anchor c /\ apply_to_chain O tc = Ok c /\
    forall q, In q (p :: l) -> genuine W q.

(** an entity that knows right keys only, from the beginning or later on *)
Definition sound_with (own : token -> Prop) (W : world) (O : iter_order) (s : fstate) : Prop :=
  jar_fair W (f_keys s) /\ caches_from own (wire W) (f_col s) /\
  forall id cs c, dget id (f_chains s) = Some cs -> In c cs -> made_of W O c.

Definition sound (W : world) : iter_order -> fstate -> Prop := sound_with (wire W) W.

(** what a federation entity does *)
Inductive act :=
| Find (id : string)                     (* get_verified_trust_chains *)
| Lookup (id : string)                   (* get_trust_chains *)
| Metadata (id : string)                 (* get_verified_metadata *)
| Provided (ts : list token)             (* verify a chain that came with a request *)
| Resolve (q : rreq).                    (* answer a resolve request *)

Section Acts.
Context (E : cenv) (O : iter_order) (fuel : nat) (me : string) (jwks : val) (wta : bool).

(** the chains that an act gives *)
Definition perform (a : act) : M fstate (list tchain) :=
  match a with
  | Find id => get_verified_trust_chains E O fuel id
  | Lookup id => get_trust_chains E O fuel id
  | Metadata id => do _ <- get_verified_metadata E O fuel id in ret []
  | Provided ts => do tcs <- on_keys (verify_trust_chains E [ts] []) in lift (apply_policies O tcs)
  | Resolve q => do _ <- resolve E O fuel me jwks wta q in ret []
  end.

Definition act_from (W : world) (a : act) : Prop :=
  match a with Provided ts => forall t, In t ts -> wire W t | _ => True end.

(** one act after the other, whatever their outcome *)
Definition after (acts : list act) (s : fstate) : fstate := fold_left (fun s a => fst (perform a s)) acts s.
End Acts.
