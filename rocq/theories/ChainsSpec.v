(** Vocabulary for the properties of trust chain stores (C38-C43). *)
From Verif Require Export FederationModel.

Definition ch_len (c : tchain) : nat := length (ch_verified c).

(** [c] is the first of the shortest chains of [cs] that end at [a] *)
Definition best (cs : list tchain) (a : string) (c : tchain) : Prop :=
  exists pre post, cs = pre ++ c :: post /\ ch_anchor c = a /\
    (forall c', In c' pre -> ch_anchor c' = a -> ch_len c < ch_len c') /\
    (forall c', In c' post -> ch_anchor c' = a -> ch_len c <= ch_len c').

Definition no_chain (cs : list tchain) (a : string) : Prop :=
  forall c, In c cs -> ch_anchor c <> a.

(** the entity a chain is about: the first of the issuers *)
Definition about (c : tchain) (ent : string) : Prop := exists l, tc_iss_path (ch_tc c) = ent :: l.

(** saving one list after the other, starting without the attribute *)
Definition save_all (history : list (list tchain)) : res (option chain_store) :=
  foldM (fun ctx cs => let* d := save_trust_chains ctx cs in Ok (Some d)) history None.

(** all chains of one list are about the same entity *)
Definition one_entity (cs : list tchain) : Prop :=
  exists ent, forall c, In c cs -> about c ent.

(** the first anchor of the list for which there is a chain *)
Definition preferred (prio : list string) (cs : list tchain) (fid : string) : Prop :=
  exists pre post, prio = pre ++ fid :: post /\ (forall f, In f pre -> no_chain cs f) /\
                   exists c, In c cs /\ ch_anchor c = fid.

(** [c] is the first chain of [cs] that ends at [fid] *)
Definition first_at (cs : list tchain) (fid : string) (c : tchain) : Prop :=
  exists pre post, cs = pre ++ c :: post /\ ch_anchor c = fid /\ no_chain pre fid.
