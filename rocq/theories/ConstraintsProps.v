(** Properties C17-C22: naming constraints and path lengths. *)
From Verif Require Import ConstraintsFacts.
From Coq Require Import Lia.

(** ** C17 *)

Theorem C17_more_specific_is_name_space : forall a b,
  more_specific a b = Ok true <-> in_name_space a b.
Proof. exact more_specific_true. Qed.

Theorem C17_reflexive : forall a, is_http a -> more_specific a a = Ok true.
Proof. exact more_specific_refl. Qed.

Theorem C17_transitive : forall a b c,
  more_specific a b = Ok true -> more_specific b c = Ok true -> more_specific a c = Ok true.
Proof. exact more_specific_trans. Qed.

(** it raises ValueError and nothing else, and only when one of the two is not an http(s) URL *)
Theorem C17_errors : forall a b e,
  more_specific a b = Err e -> e = ValueError /\ (~ is_http a \/ ~ is_http b).
Proof. exact more_specific_error. Qed.

(** the two usual forms of a constraint, as a statement about strings *)
Theorem C17_host_form : forall a b x d,
  http_url a x -> http_url b d -> ~ In "" (split_dot d) ->
  (more_specific a b = Ok true <-> x = d \/ exists y, x = (y ++ String "." d)%string).
Proof. exact more_specific_host. Qed.

Theorem C17_domain_form : forall a b x d,
  http_url a x -> http_url b (String "." d) -> ~ In "" (split_dot d) ->
  (more_specific a b = Ok true <-> exists y, x = (y ++ String "." d)%string).
Proof. exact more_specific_domain. Qed.

Example C17_ex : more_specific "https://foo.bar.example.com" "https://.bar.example.com" = Ok true /\
  more_specific "https://.bar.example.com" "https://.example.com" = Ok true /\
  more_specific "https://foo.bar.example.com" "https://.example.com" = Ok true /\
  more_specific "https://example.com" "https://.example.com" = Ok false /\
  more_specific "https://fooexample.com" "https://.example.com" = Ok false /\
  more_specific "foo.example.com" "https://.example.com" = Err ValueError /\
  http_url "https://foo.example.com" "foo.example.com" /\ ~ In "" (split_dot "example.com").
Proof.
  repeat (split; [reflexivity|]). split; [left; reflexivity|].
  vm_compute. intros [H|[H|[]]]; discriminate.
Qed.

(** ** The chain the examples below use *)

Definition cs (iss sub : string) (c : option constraints) : stmt :=
  mkStmt iss sub (Some 1000%Z) (Some [1%nat]) None None c None.
Definition nc (m : option Z) (p e : option (list string)) : option constraints :=
  Some (mkConstraints m (Some (mkNaming p e))).

Definition ta := "https://ta.org".
Definition im1 := "https://im1.example.com".
Definition im2 := "https://im2.example.com".
Definition rp := "https://rp.a.example.com".

Ltac declares := do 2 eexists; split; [reflexivity|split; reflexivity].
Ltac nothing_above := intros ? ? [].

(** ** C18 *)

Theorem C18_topmost_permitted_binds_leaf : forall above s lower leaf p,
  accepted (above ++ s :: lower ++ [leaf]) ->
  (forall t q, In t above -> declares_permitted t q -> q = []) ->
  declares_permitted s p -> p <> [] ->
  below (s_sub leaf) p.
Proof.
  intros above s lower leaf p H H1 H2 H3. apply belowm_below.
  exact (proj1 (C18_core _ _ _ _ _ H H1 H2 H3)).
Qed.

(** a lower list that narrows every name space above it binds the leaf as well *)
Theorem C18_narrowing_binds_leaf : forall above s1 mid s2 lower leaf p q,
  accepted (above ++ s1 :: mid ++ s2 :: lower ++ [leaf]) ->
  (forall t r, In t above -> declares_permitted t r -> r = []) ->
  declares_permitted s1 p -> p <> [] ->
  (forall t r, In t mid -> declares_permitted t r -> r = []) ->
  declares_permitted s2 q ->
  (forall x, In x p -> exists n, In n q /\ in_name_space n x) ->
  below (s_sub leaf) q.
Proof.
  intros above s1 mid s2 lower leaf p q H H1 H2 H3 H4 H5 H6. apply belowm_below.
  refine (proj1 (narrowing_core _ _ _ _ _ _ _ _ H H1 H2 H3 H4 H5 _)).
  intros x Hx. destruct (H6 x Hx) as (n & Hn & E). exists n. split; [exact Hn|].
  apply more_specific_true. exact E.
Qed.

(** exactly the right chains are accepted when a single statement carries constraints *)
Theorem C18_single_declaration_exact : forall above s lower leaf p e k,
  (forall t, In t (above ++ lower) -> s_constraints t = None) ->
  s_constraints s = Some (mkConstraints k (Some (mkNaming (Some p) (Some e)))) ->
  all_http p -> all_http e -> is_http (s_sub s) -> is_http (s_sub leaf) -> nonneg k ->
  (accepted (above ++ s :: lower ++ [leaf]) <->
   forall t, t = s \/ t = leaf -> (p = [] \/ below (s_sub t) p) /\ ~ below (s_sub t) e).
Proof. exact single_exact. Qed.

Definition C18_chain :=
  [cs ta im1 (nc None (Some ["https://.example.com"; "https://.example.org"]) (Some []));
   cs im1 im2 (nc None (Some ["https://im2.example.com"; "https://.a.example.com"; "https://x.y"]) (Some []));
   cs im2 rp None; cs rp rp None].

Example C18_ex : accepted C18_chain /\
  declares_permitted (hd (cs ta ta None) C18_chain) ["https://.example.com"; "https://.example.org"] /\
  in_name_space rp "https://.example.com" /\
  ~ accepted (firstn 3 C18_chain ++ [cs ta ta None]).
Proof.
  split; [reflexivity|]. split; [declares|].
  split; [apply C17_more_specific_is_name_space; reflexivity|]. intros H. discriminate.
Qed.

Definition C18_chain2 :=
  [cs ta im1 (nc None (Some ["https://.example.com"]) (Some [])); cs im1 im2 None;
   cs im2 rp (nc None (Some ["https://.a.example.com"]) (Some [])); cs rp rp None].

Example C18_narrowing_ex : accepted C18_chain2 /\
  in_name_space "https://.a.example.com" "https://.example.com" /\
  ~ accepted (firstn 3 C18_chain2 ++ [cs im2 im2 None]).
Proof.
  split; [reflexivity|]. split; [apply C17_more_specific_is_name_space; reflexivity|].
  intros H. discriminate.
Qed.

(** ** C19 *)

Definition C19_full : Prop := forall above s lower leaf e x,
  accepted (above ++ s :: lower ++ [leaf]) ->
  declares_excluded s e -> In x e -> ~ in_name_space (s_sub leaf) x.

(** a lower statement that excludes something more specific lifts the exclusion above it *)
Theorem C19_excluded_binds_leaf_refuted : ~ C19_full.
Proof.
  intros H.
  apply (H [] (cs ta im1 (nc None (Some []) (Some ["https://.a.example.com"])))
           [cs im1 rp (nc None (Some []) (Some ["https://x.a.example.com"]))]
           (cs rp rp None) ["https://.a.example.com"] "https://.a.example.com");
    [|declares|left; reflexivity|].
  - (* the statement about [rp] itself is checked against the narrower list as well *)
    reflexivity.
  - apply C17_more_specific_is_name_space. reflexivity.
Qed.

(** Missing: exclusions a lower statement narrows, and exclusions declared below another
    exclusion (which are dropped unless they narrow one). *)
Theorem C19_excluded_binds_leaf_partial : forall above s lower leaf e x,
  accepted (above ++ s :: lower ++ [leaf]) ->
  (forall t q, In t above -> declares_excluded t q -> q = []) ->
  declares_excluded s e -> In x e ->
  (forall t q n, In t lower -> declares_excluded t q -> In n q -> more_specific n x = Ok false) ->
  ~ in_name_space (s_sub leaf) x.
Proof.
  intros above s lower leaf e x H H1 H2 H3 H4 B. apply more_specific_true in B.
  pose proof (proj1 (C19_core _ _ _ _ _ _ H H1 H2 H3 H4)). congruence.
Qed.

Definition C19_chain :=
  [cs ta im1 (nc None (Some []) (Some ["https://.b.example.com"]));
   cs im1 rp (nc None (Some []) (Some ["https://x.a.example.com"])); cs rp rp None].

Example C19_ex : accepted C19_chain /\
  declares_excluded (hd (cs ta ta None) C19_chain) ["https://.b.example.com"] /\
  more_specific "https://x.a.example.com" "https://.b.example.com" = Ok false /\
  ~ accepted (firstn 2 C19_chain ++ [cs "https://c.b.example.com" "https://c.b.example.com" None]).
Proof. split; [reflexivity|]. split; [declares|]. split; [reflexivity|]. intros H. discriminate. Qed.

(** a second exclusion is dropped *)
Example C19_second_exclusion_dropped :
  accepted [cs ta im1 (nc None (Some []) (Some ["https://.b.example.com"]));
            cs im1 rp (nc None (Some []) (Some ["https://.a.example.com"])); cs rp rp None].
Proof. reflexivity. Qed.

(** ** C20 *)

Definition C20_full : Prop := forall above s lower leaf k,
  accepted (above ++ s :: lower ++ [leaf]) -> declares_max s k ->
  (Z.of_nat (length lower) <= k)%Z.

Theorem C20_path_length_refuted : ~ C20_full.
Proof.
  intros H.
  specialize (H [] (cs ta im1 (Some (mkConstraints (Some 0%Z) None)))
                [cs im1 im2 None; cs im2 rp None] (cs rp rp None) 0%Z eq_refl).
  simpl in H. specialize (H ltac:(eexists; split; reflexivity)). lia.
Qed.

(** Missing: every k >= 0; see the theorem after this one. *)
Theorem C20_path_length_partial : forall above s lower leaf k,
  accepted (above ++ s :: lower ++ [leaf]) -> declares_max s k -> (0 <= k)%Z.
Proof.
  intros above s lower leaf k H Hs.
  destruct (Z_lt_le_dec k 0) as [Hk|Hk]; [exfalso|exact Hk].
  apply meets_inv in H. destruct H as (upper & leaf' & acc & E & Hc & _).
  replace (above ++ s :: lower ++ [leaf]) with ((above ++ s :: lower) ++ [leaf]) in E
    by (rewrite <- app_assoc; reflexivity).
  apply app_inj_tail in E. destruct E as [<- <-].
  refine (proj2 (negative_rejected _ _ _ s k _ Hs Hk) acc Hc).
  apply in_or_app. right. left. reflexivity.
Qed.

(** non-negative path lengths never make a difference, whatever they are and wherever they are *)
Theorem C20_path_length_has_no_effect : forall upper upper' leaf,
  Forall2 (fun s s' => max_nonneg s /\ exists k, nonneg k /\ s' = with_max s k) upper upper' ->
  meets_restrictions (upper ++ [leaf]) = meets_restrictions (upper' ++ [leaf]).
Proof. exact meets_max. Qed.

Example C20_ex : accepted [cs ta im1 (Some (mkConstraints (Some 0%Z) None)); cs im1 im2 None;
                           cs im2 rp None; cs rp rp None] /\
  ~ accepted [cs ta im1 (Some (mkConstraints (Some (-1)%Z) None)); cs im1 rp None; cs rp rp None] /\
  with_max (cs ta im1 (Some (mkConstraints (Some 0%Z) None))) (Some 7%Z)
  = cs ta im1 (Some (mkConstraints (Some 7%Z) None)).
Proof. split; [reflexivity|]. split; [intros H; discriminate|reflexivity]. Qed.

(** ** C21 *)

Definition C21_full : Prop := forall above s lower leaf t,
  accepted (above ++ s :: lower ++ [leaf]) -> In t (lower ++ [leaf]) ->
  (forall p, declares_permitted s p -> p <> [] -> below (s_sub t) p) /\
  (forall e x, declares_excluded s e -> In x e -> ~ in_name_space (s_sub t) x).

(** an intermediate whose statement carries no constraints is not checked *)
Theorem C21_intermediates_refuted : ~ C21_full.
Proof.
  intros H.
  destruct (H [] (cs ta im1 (nc None (Some ["https://.example.com"]) (Some [])))
              [cs im1 "https://evil.org" None; cs "https://evil.org" rp None] (cs rp rp None)
              (cs im1 "https://evil.org" None)) as [P _];
    [reflexivity|left; reflexivity|].
  destruct (P ["https://.example.com"]) as (y & [<-|[]] & B); [declares|discriminate|].
  apply C17_more_specific_is_name_space in B. discriminate.
Qed.

(** Missing: intermediates whose own statement has no constraints, and lists that are not the
    topmost ones of their kind. *)
Theorem C21_intermediates_partial : forall above s lower leaf t c,
  accepted (above ++ s :: lower ++ [leaf]) -> In t (s :: lower) -> s_constraints t = Some c ->
  (forall p, (forall u q, In u above -> declares_permitted u q -> q = []) ->
     declares_permitted s p -> p <> [] -> below (s_sub t) p) /\
  (forall e x, (forall u q, In u above -> declares_excluded u q -> q = []) ->
     (forall u q n, In u lower -> declares_excluded u q -> In n q -> more_specific n x = Ok false) ->
     declares_excluded s e -> In x e -> ~ in_name_space (s_sub t) x).
Proof.
  intros above s lower leaf t c H Ht Hc. split.
  - intros p H1 H2 H3. apply belowm_below.
    destruct (C18_core _ _ _ _ _ H H1 H2 H3) as (_ & B1 & B2).
    destruct Ht as [<-|Ht]; [exact B1|]. eapply B2; eauto.
  - intros e x H1 H2 H3 H4 B. apply more_specific_true in B.
    destruct (C19_core _ _ _ _ _ _ H H1 H3 H4 H2) as (_ & B1 & B2).
    destruct Ht as [<-|Ht]; [congruence|]. rewrite (B2 _ _ Ht Hc) in B. discriminate.
Qed.

Example C21_ex : accepted C18_chain /\
  s_constraints (nth 1 C18_chain (cs ta ta None)) <> None /\
  in_name_space im2 "https://.example.com".
Proof.
  split; [reflexivity|]. split; [discriminate|].
  apply C17_more_specific_is_name_space. reflexivity.
Qed.

(** ** C22 *)

Definition C22_full : Prop := forall upper leaf,
  (forall s, In s (upper ++ [leaf]) -> is_http (s_sub s)) ->
  (forall s l, In s upper -> declares_permitted s l \/ declares_excluded s l -> all_http l) ->
  exists b, meets_restrictions (upper ++ [leaf]) = Ok b.

(** KeyError when a statement leaves out a list that a statement above it gives *)
Theorem C22_total_refuted : ~ C22_full.
Proof.
  intros H.
  destruct (H [cs ta im1 (nc None (Some ["https://.example.com"]) None);
               cs im1 rp (nc None None (Some ["https://.b.example.com"]))] (cs rp rp None)) as [b E].
  - intros s. simpl. intros [<-|[<-|[<-|[]]]]; eexists; left; reflexivity.
  - intros s l. simpl. intros [<-|[<-|[]]] [(c & n & E & E1 & E2)|(c & n & E & E1 & E2)];
      injection E as <-; injection E1 as <-; simpl in E2; try discriminate; injection E2 as <-;
      repeat constructor; eexists; left; reflexivity.
  - vm_compute in E. discriminate.
Qed.

(** Missing: naming constraints that leave out one of the two lists. *)
Theorem C22_total_partial : forall upper leaf,
  Forall full_stmt upper -> is_http (s_sub leaf) ->
  exists b, meets_restrictions (upper ++ [leaf]) = Ok b.
Proof. exact meets_total. Qed.

Theorem C22_unconstrained_accepted : forall upper leaf,
  (forall s, In s upper -> s_constraints s = None) -> accepted (upper ++ [leaf]).
Proof. exact meets_unconstrained. Qed.

Example C22_ex : Forall full_stmt (removelast C18_chain).
Proof.
  simpl. repeat apply Forall_cons; try apply Forall_nil;
    (split; [eexists; left; reflexivity|]);
    intros c n E1 E2; try discriminate; injection E1 as <-; injection E2 as <-;
    (split; eexists; (split; [reflexivity|]));
    unfold all_http; repeat apply Forall_cons; try apply Forall_nil; eexists; left; reflexivity.
Qed.

Print Assumptions C17_more_specific_is_name_space.
Print Assumptions C17_transitive.
Print Assumptions C17_domain_form.
Print Assumptions C18_topmost_permitted_binds_leaf.
Print Assumptions C18_narrowing_binds_leaf.
Print Assumptions C18_single_declaration_exact.
Print Assumptions C19_excluded_binds_leaf_refuted.
Print Assumptions C19_excluded_binds_leaf_partial.
Print Assumptions C20_path_length_refuted.
Print Assumptions C20_path_length_partial.
Print Assumptions C20_path_length_has_no_effect.
Print Assumptions C21_intermediates_refuted.
Print Assumptions C21_intermediates_partial.
Print Assumptions C22_total_refuted.
Print Assumptions C22_total_partial.
