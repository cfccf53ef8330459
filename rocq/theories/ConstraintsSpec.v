(** Vocabulary for the naming and path length constraints (C17-C22). *)
From Verif Require Export ConstraintsModel.

(** [l] are the dot separated labels of [s] *)
Fixpoint join_dot (l : list string) : string :=
  match l with
  | [] => ""
  | [w] => w
  | w :: l' => w ++ "." ++ join_dot l'
  end.

Fixpoint has_dot (s : string) : Prop :=
  match s with
  | EmptyString => False
  | String c s' => c = "."%char \/ has_dot s'
  end.

Definition labels (s : string) (l : list string) : Prop :=
  l <> [] /\ s = join_dot l /\ Forall (fun w => ~ has_dot w) l.

(** an http or https URL and what follows the scheme *)
Definition http_url (u rest : string) : Prop :=
  u = ("https://" ++ rest)%string \/ u = ("http://" ++ rest)%string.

Definition is_http (u : string) : Prop := exists rest, http_url u rest.

(** [a] is in the name space [b]: read from the right the labels of [a] agree with those of [b]
    as far as [b] goes, up to the first empty label of [b], which stands for anything *)
Definition in_name_space (a b : string) : Prop :=
  exists ra rb la lb,
    http_url a ra /\ http_url b rb /\ labels ra la /\ labels rb lb /\
    length lb <= length la /\
    ((exists more, rev la = rev lb ++ more) \/
     (exists common x more more', rev la = common ++ x :: more /\ rev lb = common ++ "" :: more'
                                  /\ x <> "")).

(** the naming constraints a statement declares *)
Definition declares_permitted (s : stmt) (l : list string) : Prop :=
  exists c n, s_constraints s = Some c /\ c_naming c = Some n /\ n_permitted n = Some l.
Definition declares_excluded (s : stmt) (l : list string) : Prop :=
  exists c n, s_constraints s = Some c /\ c_naming c = Some n /\ n_excluded n = Some l.
Definition declares_max (s : stmt) (k : Z) : Prop :=
  exists c, s_constraints s = Some c /\ c_max_path_length c = Some k.

Definition accepted (chain : list stmt) : Prop := meets_restrictions chain = Ok true.

(** replace the maximum path length a statement declares *)
Definition with_max (s : stmt) (k : option Z) : stmt :=
  mkStmt (s_iss s) (s_sub s) (s_exp s) (s_jwks s) (s_metadata s) (s_policy s)
         (match s_constraints s with
          | None => None
          | Some c => Some (mkConstraints k (c_naming c))
          end) (s_hints s).

Definition nonneg (k : option Z) : Prop := match k with Some z => (0 <= z)%Z | None => True end.
Definition max_nonneg (s : stmt) : Prop := forall k, declares_max s k -> (0 <= k)%Z.

Definition all_http (l : list string) : Prop := Forall is_http l.

(** naming constraints that spell out both lists, with http(s) entries *)
Definition full_naming (n : naming) : Prop :=
  (exists p, n_permitted n = Some p /\ all_http p) /\
  (exists e, n_excluded n = Some e /\ all_http e).

Definition full_stmt (s : stmt) : Prop :=
  is_http (s_sub s) /\
  forall c n, s_constraints s = Some c -> c_naming c = Some n -> full_naming n.

(** [x] is in one of the name spaces of [l] *)
Definition below (x : string) (l : list string) : Prop :=
  exists y, In y l /\ in_name_space x y.
