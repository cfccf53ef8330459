(** Vocabulary for the search for entities: what list endpoints say, who is asked, and what an entity says itself. *)
From Verif Require Export TrawlModel CollectorSpec.

Section Lists.
Context (E : cenv) (O : iter_order) (fuel : nat) (prio : list string) (L : lenv).

(** [u] is (at some time) the list endpoint in the verified metadata of [id] *)
Definition list_endpoint (id u : string) : Prop :=
  exists s s', get_verified_endpoint E O fuel prio id "federation_list_endpoint" s = (s', Ok (Some (VStr u))).

(** [id] lists [x] when asked [q] *)
Definition lists (id : string) (q : lquery) (x : string) : Prop :=
  exists u n l, list_endpoint id u /\ l_net L n u q = LList l /\ In x l.

(** [x] is a word from an answer of [id] that is not a list *)
Definition stray (id : string) (q : lquery) (x : string) : Prop :=
  exists u n, list_endpoint id u /\
    ((l_net L n u q = LError /\ In x ["error"; "error_description"]) \/
     (l_net L n u q = LRedirect /\ x = "http_response")).

(** the entities a search that starts at [start] gets to; [down y x]: [y] leads to [x] *)
Inductive searched (down : string -> string -> Prop) (start : string) : string -> Prop :=
| searched_start : searched down start start
| searched_down y x : searched down start y -> down y x -> searched down start x.

(** [p] is what [y] says about itself, as far as somebody in state [s] can learn: a configuration as the collector gets
    them, or one from the well-known place of [a] that the library accepts; such a configuration is taken to be that
    of [a], and later that of the issuer it names *)
Definition presents (s : cstate) (y : string) (p : stmt) : Prop :=
  obtainable E s y p \/
  exists n a k, st_tick s <= n /\ e_net E n (QDoc (e_wk E a)) = RText (Some (TJws k p)) /\ l_accepts L a p = Ok tt /\
                (y = a \/ y = s_iss p).

(** [i] says itself, at [y], that it is of the type *)
Definition is_of_type (s : cstate) (y type i : string) : Prop :=
  exists p m md, presents s y p /\ s_metadata p = Some m /\ dget type m = Some md /\ s_sub p = i.

(** the configuration names a list endpoint *)
Definition has_list (p : stmt) : Prop :=
  exists m fe ep, s_metadata p = Some m /\ dget "federation_entity" m = Some fe /\
                  dget "federation_list_endpoint" fe = Some ep.

(** ** Federations in which nothing changes: as long as [inv] holds of the state, everybody in [dom] gives the same
    answers *)
Record steady (inv : fstate -> Prop) (dom : string -> Prop) (conf : string -> stmt)
    (listed : string -> lquery -> list string) : Prop := mkSteady {
  sd_conf : forall superior y s, dom y -> inv s ->
    exists s', configuration_of E y (introduce E L superior y) s = (s', Ok (conf y)) /\ inv s';
  sd_list : forall y q s, dom y -> has_list (conf y) -> inv s ->
    exists s', do_list E O fuel prio L y q s = (s', Ok (listed y q)) /\ inv s';
  sd_down : forall y x, dom y -> has_list (conf y) -> In x (listed y LIntermediate) -> dom x
}.

End Lists.

(** the identifiers that belong in the answer for [y]: itself if it is of the type, those it lists, and those below the
    intermediates it lists *)
Inductive below (conf : string -> stmt) (listed : string -> lquery -> list string) (type : string)
  : string -> list string -> Prop :=
| below_bottom y m fe :
    s_metadata (conf y) = Some m -> dget "federation_entity" m = Some fe -> dget "federation_list_endpoint" fe = None ->
    below conf listed type y (if dmem type m then [s_sub (conf y)] else [])
| below_more y m fe ep ids :
    s_metadata (conf y) = Some m -> dget "federation_entity" m = Some fe -> dget "federation_list_endpoint" fe = Some ep ->
    all_below conf listed type (listed y LIntermediate) ids ->
    below conf listed type y ((if dmem type m then [s_sub (conf y)] else []) ++ listed y (LType type) ++ ids)
with all_below (conf : string -> stmt) (listed : string -> lquery -> list string) (type : string)
  : list string -> list string -> Prop :=
| ab_nil : all_below conf listed type [] []
| ab_cons y ys ids ids' : below conf listed type y ids -> all_below conf listed type ys ids' ->
    all_below conf listed type (y :: ys) (ids ++ ids').

Scheme below_ind2 := Minimality for below Sort Prop
  with all_below_ind2 := Minimality for all_below Sort Prop.
Combined Scheme below_mut from below_ind2, all_below_ind2.
