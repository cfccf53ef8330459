(** Lemmas about the naming and path length constraints. *)
From Verif Require Export ConstraintsSpec.
From Coq Require Import Lia.

(** * Labels *)

Lemma split_dot_nonempty : forall s, split_dot s <> [].
Proof.
  induction s as [|c s IH]; simpl; [discriminate|].
  destruct (Ascii.eqb c "."); [discriminate|].
  destruct (split_dot s); discriminate.
Qed.

Lemma split_dot_join : forall s, join_dot (split_dot s) = s.
Proof.
  induction s as [|c s IH]; [reflexivity|].
  cbn [split_dot]. destruct (Ascii.eqb c ".") eqn:E.
  - apply Ascii.eqb_eq in E. subst c.
    destruct (split_dot s) as [|w ws] eqn:Es; [exfalso; apply (split_dot_nonempty s Es)|].
    change (join_dot ("" :: w :: ws)) with ("" ++ "." ++ join_dot (w :: ws))%string.
    rewrite IH. reflexivity.
  - destruct (split_dot s) as [|w ws] eqn:Es; [exfalso; apply (split_dot_nonempty s Es)|].
    destruct ws as [|w' ws].
    + simpl in *. subst. reflexivity.
    + change (join_dot (String c w :: w' :: ws)) with (String c (w ++ "." ++ join_dot (w' :: ws))).
      change (join_dot (w :: w' :: ws)) with (w ++ "." ++ join_dot (w' :: ws))%string in IH.
      rewrite IH. reflexivity.
Qed.

Lemma split_dot_no_dot : forall s, Forall (fun w => ~ has_dot w) (split_dot s).
Proof.
  induction s as [|c s IH]; simpl; [repeat constructor; intros []|].
  destruct (Ascii.eqb c ".") eqn:E.
  - constructor; [intros []|exact IH].
  - apply Ascii.eqb_neq in E.
    destruct (split_dot s) as [|w ws].
    + repeat constructor. simpl. intros [H|[]]; contradiction.
    + inversion IH; subst. constructor; [|assumption]. simpl. intros [H|H]; contradiction.
Qed.

Lemma split_dot_labels : forall s, labels s (split_dot s).
Proof.
  intros s. split; [apply split_dot_nonempty|]. split; [symmetry; apply split_dot_join|].
  apply split_dot_no_dot.
Qed.

Lemma split_word : forall w, ~ has_dot w -> split_dot w = [w].
Proof.
  induction w as [|c w IH]; intros H; [reflexivity|].
  cbn [split_dot]. destruct (Ascii.eqb c ".") eqn:E.
  - apply Ascii.eqb_eq in E. exfalso. apply H. left. exact E.
  - rewrite IH; [reflexivity|]. intros D. apply H. right. exact D.
Qed.

Lemma split_app : forall w s, ~ has_dot w -> split_dot (w ++ String "." s) = w :: split_dot s.
Proof.
  induction w as [|c w IH]; intros s H; [reflexivity|].
  cbn [append split_dot]. destruct (Ascii.eqb c ".") eqn:E.
  - apply Ascii.eqb_eq in E. exfalso. apply H. left. exact E.
  - rewrite IH; [reflexivity|]. intros D. apply H. right. exact D.
Qed.

Lemma labels_split : forall s l, labels s l -> l = split_dot s.
Proof.
  intros s l [Hn [-> Hd]].
  induction l as [|w l IH]; [contradiction|].
  inversion Hd; subst. destruct l as [|w' l].
  - simpl. symmetry. apply split_word. assumption.
  - change (join_dot (w :: w' :: l)) with (w ++ String "." (join_dot (w' :: l)))%string.
    rewrite split_app by assumption. f_equal. apply IH; [discriminate|assumption].
Qed.

(** * Schemes *)

Lemma prefix_app : forall p s, String.prefix p (p ++ s) = true.
Proof.
  induction p as [|c p IH]; intros s; [destruct s; reflexivity|].
  simpl. destruct (Ascii.ascii_dec c c); [apply IH|contradiction].
Qed.

Lemma prefix_drop : forall p s, String.prefix p s = true -> s = (p ++ str_drop (String.length p) s)%string.
Proof.
  induction p as [|c p IH]; intros s H; [reflexivity|].
  destruct s as [|d s]; [discriminate|].
  simpl in H. destruct (Ascii.ascii_dec c d); [|discriminate]. subst d.
  simpl. f_equal. apply IH. exact H.
Qed.

Lemma remove_scheme_ok : forall u rest, remove_scheme u = Ok rest <-> http_url u rest.
Proof.
  intros u rest. unfold remove_scheme, http_url. split.
  - destruct (String.prefix "https://" u) eqn:E1.
    + intros H. injection H as <-. left. apply (prefix_drop "https://"). exact E1.
    + destruct (String.prefix "http://" u) eqn:E2; [|discriminate].
      intros H. injection H as <-. right. apply (prefix_drop "http://"). exact E2.
  - intros [-> | ->].
    + rewrite (prefix_app "https://"). reflexivity.
    + rewrite (prefix_app "http://").
      assert (E : String.prefix "https://" ("http://" ++ rest) = false)
        by (destruct rest; reflexivity).
      rewrite E. reflexivity.
Qed.

Lemma remove_scheme_res : forall u, remove_scheme u = Err ValueError \/ exists r, remove_scheme u = Ok r.
Proof.
  intros u. unfold remove_scheme.
  destruct (String.prefix "https://" u); [right; eauto|].
  destruct (String.prefix "http://" u); [right; eauto|left; reflexivity].
Qed.

(** * more_specific *)

Definition zip_spec (a b : list string) : Prop :=
  (exists more, a = b ++ more) \/
  (exists common x more more', a = common ++ x :: more /\ b = common ++ "" :: more' /\ x <> "").

Lemma zip_labels_spec : forall a b,
  length b <= length a -> (zip_labels a b = true <-> zip_spec a b).
Proof.
  induction a as [|x a IH]; intros b Hl.
  - destruct b; [|simpl in Hl; lia]. simpl. split; [intros _; left; exists []; reflexivity|reflexivity].
  - destruct b as [|y b].
    + simpl. split; [intros _; left; exists (x :: a); reflexivity|reflexivity].
    + simpl in Hl. cbn [zip_labels]. destruct (String.eqb_spec x y) as [->|Hxy].
      * rewrite IH by lia. split.
        -- intros [[m ->]|(c & z & m & m' & -> & -> & Hz)].
           ++ left. exists m. reflexivity.
           ++ right. exists (y :: c), z, m, m'. auto.
        -- intros [[m H]|(c & z & m & m' & H1 & H2 & Hz)].
           ++ injection H as ->. left. exists m. reflexivity.
           ++ destruct c as [|c0 c].
              ** simpl in *. injection H1 as <- <-. injection H2 as -> <-. contradiction.
              ** injection H1 as -> ->. injection H2 as ->. right. exists c, z, m, m'. auto.
      * rewrite String.eqb_eq. split.
        -- intros ->. right. exists [], x, a, b. auto.
        -- intros [[m H]|(c & z & m & m' & H1 & H2 & Hz)].
           ++ injection H as -> _. contradiction.
           ++ destruct c as [|c0 c].
              ** injection H2 as ->. reflexivity.
              ** injection H1 as -> _. injection H2 as -> _. contradiction.
Qed.

Lemma more_specific_true : forall a b, more_specific a b = Ok true <-> in_name_space a b.
Proof.
  intros a b. unfold more_specific. split.
  - destruct (remove_scheme a) as [ra|] eqn:Ea; [|discriminate].
    destruct (remove_scheme b) as [rb|] eqn:Eb; [|discriminate].
    cbn [bind]. destruct (Nat.leb _ _) eqn:El; [|discriminate].
    intros H. injection H as H. apply Nat.leb_le in El.
    apply zip_labels_spec in H; [|rewrite !rev_length; exact El].
    exists ra, rb, (split_dot ra), (split_dot rb).
    apply remove_scheme_ok in Ea. apply remove_scheme_ok in Eb.
    repeat (split; [auto using split_dot_labels|]). exact H.
  - intros (ra & rb & la & lb & Ha & Hb & La & Lb & Hl & H).
    apply remove_scheme_ok in Ha. apply remove_scheme_ok in Hb.
    rewrite Ha, Hb. cbn [bind].
    rewrite <- (labels_split _ _ La), <- (labels_split _ _ Lb).
    apply Nat.leb_le in Hl. rewrite Hl. f_equal.
    apply zip_labels_spec; [rewrite !rev_length; apply Nat.leb_le; exact Hl|exact H].
Qed.

Lemma more_specific_total : forall a b,
  is_http a -> is_http b -> exists r, more_specific a b = Ok r.
Proof.
  intros a b [ra Ha] [rb Hb]. apply remove_scheme_ok in Ha. apply remove_scheme_ok in Hb.
  unfold more_specific. rewrite Ha, Hb. cbn [bind].
  destruct (Nat.leb _ _); eauto.
Qed.

Lemma more_specific_error : forall a b e,
  more_specific a b = Err e -> e = ValueError /\ (~ is_http a \/ ~ is_http b).
Proof.
  intros a b e. unfold more_specific.
  destruct (remove_scheme_res a) as [Ea|[ra Ea]]; rewrite Ea.
  - intros H. injection H as <-. split; [reflexivity|]. left. intros [r Hr].
    apply remove_scheme_ok in Hr. congruence.
  - destruct (remove_scheme_res b) as [Eb|[rb Eb]]; rewrite Eb.
    + intros H. injection H as <-. split; [reflexivity|]. right. intros [r Hr].
      apply remove_scheme_ok in Hr. congruence.
    + cbn [bind]. destruct (Nat.leb _ _); discriminate.
Qed.

Lemma zip_refl : forall a, zip_spec a a.
Proof. intros a. left. exists []. rewrite app_nil_r. reflexivity. Qed.

Lemma zip_labels_refl : forall a, zip_labels a a = true.
Proof. induction a as [|x a IH]; simpl; [reflexivity|]. rewrite String.eqb_refl. exact IH. Qed.

Lemma zip_labels_trans : forall a b c,
  length b <= length a -> length c <= length b ->
  zip_labels a b = true -> zip_labels b c = true -> zip_labels a c = true.
Proof.
  induction a as [|x a IH]; intros b c Hba Hcb Hab Hbc.
  - destruct b; [|simpl in Hba; lia]. destruct c; [reflexivity|simpl in Hcb; lia].
  - destruct c as [|z c]; [reflexivity|].
    destruct b as [|y b]; [simpl in Hcb; lia|].
    simpl in Hba, Hcb. cbn [zip_labels] in *.
    destruct (String.eqb_spec x y) as [->|Hxy].
    + destruct (String.eqb_spec y z) as [->|Hyz]; [|exact Hbc].
      apply (IH b); [lia|lia|assumption|assumption].
    + apply String.eqb_eq in Hab. subst y.
      destruct (String.eqb_spec "" z) as [<-|Hyz].
      * destruct (String.eqb_spec x "") as [->|]; [contradiction|reflexivity].
      * apply String.eqb_eq in Hbc. congruence.
Qed.

Lemma more_specific_refl : forall a, is_http a -> more_specific a a = Ok true.
Proof.
  intros a [r H]. apply remove_scheme_ok in H. unfold more_specific. rewrite H. cbn [bind].
  rewrite Nat.leb_refl. rewrite zip_labels_refl. reflexivity.
Qed.

Lemma more_specific_inv : forall a b,
  more_specific a b = Ok true ->
  exists ra rb, remove_scheme a = Ok ra /\ remove_scheme b = Ok rb /\
    length (split_dot rb) <= length (split_dot ra) /\
    zip_labels (rev (split_dot ra)) (rev (split_dot rb)) = true.
Proof.
  intros a b. unfold more_specific.
  destruct (remove_scheme a) as [ra|]; [|discriminate].
  destruct (remove_scheme b) as [rb|]; [|discriminate].
  cbn [bind]. destruct (Nat.leb _ _) eqn:El; [|discriminate].
  apply Nat.leb_le in El. intros H. injection H as H. exists ra, rb. auto.
Qed.

Lemma more_specific_trans : forall a b c,
  more_specific a b = Ok true -> more_specific b c = Ok true -> more_specific a c = Ok true.
Proof.
  intros a b c H1 H2.
  destruct (more_specific_inv _ _ H1) as (ra & rb & Ea & Eb & L1 & Z1).
  destruct (more_specific_inv _ _ H2) as (rb' & rc & Eb' & Ec & L2 & Z2).
  rewrite Eb in Eb'. injection Eb' as <-.
  unfold more_specific. rewrite Ea, Ec. cbn [bind].
  assert (L : Nat.leb (length (split_dot rc)) (length (split_dot ra)) = true)
    by (apply Nat.leb_le; lia).
  rewrite L. f_equal.
  apply (zip_labels_trans _ (rev (split_dot rb))); rewrite ?rev_length; auto.
Qed.

(** * Domains: the two usual forms of a constraint *)

Lemma split_cat : forall x y,
  split_dot (x ++ String "." y) = split_dot x ++ split_dot y.
Proof.
  induction x as [|c x IH]; intros y; [reflexivity|].
  cbn [append split_dot]. rewrite IH. destruct (Ascii.eqb c "."); [reflexivity|].
  destruct (split_dot x) as [|w ws] eqn:E; [exfalso; apply (split_dot_nonempty x E)|]. reflexivity.
Qed.

Lemma join_cat : forall l l', l <> [] -> l' <> [] ->
  join_dot (l ++ l') = (join_dot l ++ String "." (join_dot l'))%string.
Proof.
  induction l as [|w l IH]; intros l' H H'; [contradiction|].
  destruct l as [|w2 l].
  - simpl. destruct l'; [contradiction|]. reflexivity.
  - change ((w :: w2 :: l) ++ l') with (w :: ((w2 :: l) ++ l')).
    assert (E : join_dot (w :: ((w2 :: l) ++ l'))
                = (w ++ String "." (join_dot ((w2 :: l) ++ l')))%string) by reflexivity.
    rewrite E, IH by (try discriminate; assumption).
    change (join_dot (w :: w2 :: l)) with (w ++ String "." (join_dot (w2 :: l)))%string.
    clear. induction w as [|c w IHw]; [reflexivity|]. simpl. f_equal. exact IHw.
Qed.

Lemma labels_below : forall x d,
  (exists y, x = (y ++ String "." d)%string) <->
  (exists l, l <> [] /\ split_dot x = l ++ split_dot d).
Proof.
  intros x d. split.
  - intros [y ->]. exists (split_dot y). split; [apply split_dot_nonempty|apply split_cat].
  - intros (l & Hn & E). exists (join_dot l).
    rewrite <- (split_dot_join x), E, join_cat by (auto using split_dot_nonempty).
    rewrite split_dot_join. reflexivity.
Qed.

Lemma zip_no_empty : forall a b, ~ In "" b -> length b <= length a ->
  zip_labels a b = true -> exists more, a = b ++ more.
Proof.
  intros a b Hb Hl H. apply zip_labels_spec in H; [|exact Hl].
  destruct H as [H|(c & z & m & m' & _ & -> & _)]; [exact H|].
  exfalso. apply Hb. apply in_or_app. right. left. reflexivity.
Qed.

(** a constraint naming a host: it and everything below it *)
Lemma more_specific_host : forall a b x d,
  http_url a x -> http_url b d -> ~ In "" (split_dot d) ->
  (more_specific a b = Ok true <-> x = d \/ exists y, x = (y ++ String "." d)%string).
Proof.
  intros a b x d Ha Hb Hd. apply remove_scheme_ok in Ha. apply remove_scheme_ok in Hb.
  unfold more_specific. rewrite Ha, Hb. cbn [bind]. split.
  - destruct (Nat.leb _ _) eqn:El; [|discriminate]. apply Nat.leb_le in El.
    intros H. injection H as H.
    apply zip_no_empty in H; [|rewrite <- in_rev; exact Hd|rewrite !rev_length; exact El].
    destruct H as [m E].
    assert (E2 : split_dot x = rev m ++ split_dot d).
    { rewrite <- (rev_involutive (split_dot x)), E, rev_app_distr, rev_involutive. reflexivity. }
    destruct m as [|w m].
    + left. rewrite <- (split_dot_join x), E2. apply split_dot_join.
    + right. apply labels_below. exists (rev (w :: m)). split; [|exact E2].
      simpl. intros Z. apply app_eq_nil in Z. destruct Z as [_ Z]. discriminate.
  - intros H.
    assert (E : exists l, split_dot x = l ++ split_dot d).
    { destruct H as [->|H]; [exists []; reflexivity|].
      apply labels_below in H. destruct H as (l & _ & E). exists l. exact E. }
    destruct E as [l E]. rewrite E.
    assert (L : Nat.leb (length (split_dot d)) (length (l ++ split_dot d)) = true)
      by (apply Nat.leb_le; rewrite app_length; lia).
    rewrite L. f_equal. apply zip_labels_spec.
    + rewrite !rev_length, app_length. lia.
    + left. exists (rev l). apply rev_app_distr.
Qed.

(** a constraint starting with a dot: everything below the host but not the host itself *)
Lemma more_specific_domain : forall a b x d,
  http_url a x -> http_url b (String "." d) -> ~ In "" (split_dot d) ->
  (more_specific a b = Ok true <-> exists y, x = (y ++ String "." d)%string).
Proof.
  intros a b x d Ha Hb Hd. apply remove_scheme_ok in Ha. apply remove_scheme_ok in Hb.
  unfold more_specific. rewrite Ha, Hb. cbn [bind].
  change (split_dot (String "." d)) with ("" :: split_dot d). split.
  - destruct (Nat.leb _ _) eqn:El; [|discriminate]. apply Nat.leb_le in El.
    intros H. injection H as H. simpl in El.
    apply zip_labels_spec in H;
      [|rewrite (rev_length (split_dot x)); simpl; rewrite app_length, rev_length; simpl; lia].
    cbn [rev] in H. apply labels_below.
    assert (E : exists w m, rev (split_dot x) = rev (split_dot d) ++ w :: m).
    { destruct H as [[m E]|(c & z & m & m' & E1 & E2 & _)].
      - rewrite <- app_assoc in E. exists "", m. exact E.
      - destruct m' as [|w' m' _] using rev_ind.
        + apply app_inj_tail in E2. destruct E2 as [-> _]. eauto.
        + exfalso. apply Hd. apply in_rev.
          change ("" :: m' ++ [w']) with (("" :: m') ++ [w']) in E2.
          rewrite app_assoc in E2. apply app_inj_tail in E2. destruct E2 as [-> _].
          apply in_or_app. right. left. reflexivity. }
    destruct E as (w & m & E). exists (rev (w :: m)). split.
    + simpl. intros Z. apply app_eq_nil in Z. destruct Z as [_ Z]. discriminate.
    + rewrite <- (rev_involutive (split_dot x)), E, rev_app_distr, rev_involutive. reflexivity.
  - intros H. apply labels_below in H. destruct H as (l & Hn & E). rewrite E.
    assert (Ll : 1 <= length l) by (destruct l; [contradiction|simpl; lia]).
    assert (L : Nat.leb (length ("" :: split_dot d)) (length (l ++ split_dot d)) = true)
      by (apply Nat.leb_le; rewrite app_length; simpl; lia).
    rewrite L. f_equal. apply zip_labels_spec.
    + rewrite !rev_length, app_length. simpl. lia.
    + destruct l as [|w l _] using rev_ind; [contradiction|].
      rewrite !rev_app_distr. cbn [rev app].
      destruct (string_dec w "") as [->|Hw].
      * left. exists (rev l). rewrite <- app_assoc. reflexivity.
      * right. exists (rev (split_dot d)), w, (rev l), []. repeat split; auto.
Qed.

(** * update_specs *)

Lemma replacements_in : forall news old l n,
  replacements news old = Ok l -> In n l -> In n news /\ more_specific n old = Ok true.
Proof.
  induction news as [|m news IH]; intros old l n H Hn.
  - injection H as <-. contradiction.
  - cbn [replacements] in H. destruct (more_specific m old) as [b|] eqn:Em; [|discriminate].
    cbn [bind] in H. destruct (replacements news old) as [l'|] eqn:Er; [|discriminate].
    cbn [bind] in H. injection H as <-. destruct b.
    + destruct Hn as [<-|Hn]; [split; [left; reflexivity|exact Em]|].
      destruct (IH _ _ _ Er Hn). split; [right|]; assumption.
    + destruct (IH _ _ _ Er Hn). split; [right|]; assumption.
Qed.

Lemma replacements_nil : forall news old,
  (forall n, In n news -> more_specific n old = Ok false) -> replacements news old = Ok [].
Proof.
  induction news as [|m news IH]; intros old H; [reflexivity|].
  cbn [replacements]. rewrite (H m (or_introl eq_refl)). cbn [bind].
  rewrite IH; [reflexivity|]. intros n Hn. apply H. right. exact Hn.
Qed.

Lemma replacements_all : forall news old l n,
  replacements news old = Ok l -> In n news -> more_specific n old = Ok true -> In n l.
Proof.
  induction news as [|m news IH]; intros old l n H Hn Ht; [contradiction|].
  cbn [replacements] in H. destruct (more_specific m old) as [b|] eqn:Em; [|discriminate].
  cbn [bind] in H. destruct (replacements news old) as [l'|] eqn:Er; [|discriminate].
  cbn [bind] in H. injection H as <-. destruct Hn as [->|Hn].
  - rewrite Em in Ht. injection Ht as ->. left. reflexivity.
  - destruct b; [right|]; eapply IH; eauto.
Qed.

Definition belowm (x : string) (l : list string) : Prop :=
  exists y, In y l /\ more_specific x y = Ok true.

Lemma belowm_below : forall x l, belowm x l <-> below x l.
Proof.
  intros x l. split; intros (y & Hy & H); exists y; split; auto; apply more_specific_true; exact H.
Qed.

Lemma update_specs_below : forall news olds l x,
  update_specs news olds = Ok l -> In x l -> In x olds \/ belowm x olds.
Proof.
  induction olds as [|o olds IH]; intros l x H Hx.
  - injection H as <-. contradiction.
  - cbn [update_specs] in H. destruct (replacements news o) as [r|] eqn:Er; [|discriminate].
    cbn [bind] in H. destruct (update_specs news olds) as [l'|] eqn:Eu; [|discriminate].
    cbn [bind] in H. injection H as <-. apply in_app_or in Hx. destruct Hx as [Hx|Hx].
    + destruct r as [|a r].
      * destruct Hx as [<-|[]]. left. left. reflexivity.
      * right. exists o. split; [left; reflexivity|].
        apply (replacements_in _ _ _ _ Er Hx).
    + destruct (IH _ _ eq_refl Hx) as [H|(y & Hy & H)].
      * left. right. exact H.
      * right. exists y. split; [right; exact Hy|exact H].
Qed.

Lemma update_specs_keeps : forall news olds l o,
  update_specs news olds = Ok l -> In o olds ->
  (forall n, In n news -> more_specific n o = Ok false) -> In o l.
Proof.
  induction olds as [|a olds IH]; intros l o H Ho Hn; [contradiction|].
  cbn [update_specs] in H. destruct (replacements news a) as [r|] eqn:Er; [|discriminate].
  cbn [bind] in H. destruct (update_specs news olds) as [l'|] eqn:Eu; [|discriminate].
  cbn [bind] in H. injection H as <-. apply in_or_app. destruct Ho as [->|Ho].
  - left. rewrite (replacements_nil _ _ Hn) in Er. injection Er as <-. left. reflexivity.
  - right. apply IH; auto.
Qed.

Lemma update_specs_nonempty : forall news olds l,
  update_specs news olds = Ok l -> olds <> [] -> l <> [].
Proof.
  intros news [|o olds] l H Hn; [contradiction|].
  cbn [update_specs] in H. destruct (replacements news o) as [r|]; [|discriminate].
  cbn [bind] in H. destruct (update_specs news olds) as [l'|]; [|discriminate].
  cbn [bind] in H. injection H as <-. destruct r; discriminate.
Qed.

Lemma in_names_true : forall l s, in_names s l = Ok true -> belowm s l.
Proof.
  induction l as [|x l IH]; intros s H; [discriminate|].
  cbn [in_names] in H. destruct (more_specific s x) as [[]|] eqn:E; [| |discriminate]; cbn [bind] in H.
  - exists x. split; [left; reflexivity|exact E].
  - destruct (IH _ H) as (y & Hy & E2). exists y. split; [right; exact Hy|exact E2].
Qed.

Lemma in_names_false : forall l s, in_names s l = Ok false ->
  forall x, In x l -> more_specific s x = Ok false.
Proof.
  induction l as [|y l IH]; intros s H x Hx; [contradiction|].
  cbn [in_names] in H. destruct (more_specific s y) as [[]|] eqn:E; try discriminate; cbn [bind] in H.
  destruct Hx as [<-|Hx]; [exact E|]. apply IH; assumption.
Qed.

Lemma name_ok_inv : forall s acc, name_ok s acc = Ok true ->
  (permitted_names acc = [] \/ belowm s (permitted_names acc)) /\
  (forall x, In x (excluded_names acc) -> more_specific s x = Ok false).
Proof.
  intros s [p e] H. unfold name_ok in H. cbn [permitted_names excluded_names] in *.
  assert (E : forall x, In x e -> more_specific s x = Ok false).
  { destruct e as [|x0 e]; [intros x []|]. cbn [is_nil] in H.
    destruct (excluded s (x0 :: e)) as [b|] eqn:Ex; [|discriminate]. cbn [bind] in H.
    destruct b; [discriminate|]. apply in_names_false. exact Ex. }
  split; [|exact E].
  destruct (if is_nil e then Ok false else excluded s e) as [b|]; [|discriminate].
  cbn [bind] in H. destruct b; [discriminate|].
  destruct p as [|p0 p]; [left; reflexivity|]. right. cbn [is_nil] in H.
  apply in_names_true. exact H.
Qed.

(** * The loop *)

Lemma check_upper_app : forall l1 l2 cur acc r,
  check_upper (l1 ++ l2) cur acc = Ok (Some r) ->
  exists cur' acc', check_upper l1 cur acc = Ok (Some acc') /\
                    check_upper l2 cur' acc' = Ok (Some r).
Proof.
  induction l1 as [|s l1 IH]; intros l2 cur acc r H.
  - exists cur, acc. split; [reflexivity|exact H].
  - cbn [app check_upper] in *. destruct (s_constraints s) as [c|]; [|apply IH; exact H].
    destruct (Z.ltb _ 0); [discriminate|].
    destruct (update_naming_constraints c acc) as [acc'|]; [|discriminate]. cbn [bind] in *.
    destruct (name_ok (s_sub s) acc') as [b|]; [|discriminate]. cbn [bind] in *.
    destruct b; [|discriminate]. apply IH. exact H.
Qed.

(** every element of [l] is in the name space of some element of [P], and [l] is not empty *)
Definition narrowed (l P : list string) : Prop :=
  l <> [] /\ forall x, In x l -> In x P \/ belowm x P.

Lemma below_narrowed : forall s l P, narrowed l P -> belowm s l -> belowm s P.
Proof.
  intros s l P [_ HN] (y & Hy & E). destruct (HN y Hy) as [H|(z & Hz & E2)].
  - exists y. auto.
  - exists z. split; [exact Hz|]. eapply more_specific_trans; eauto.
Qed.

Lemma narrowed_add : forall new acc acc' P,
  add_constraint new acc = Ok acc' -> narrowed acc P -> narrowed acc' P.
Proof.
  intros new acc acc' P H [Hn HN]. unfold add_constraint in H.
  destruct acc as [|a acc]; [contradiction|]. cbn [is_nil] in H.
  destruct new as [[|b l]|]; [| |discriminate].
  - injection H as <-. split; assumption.
  - split.
    + eapply update_specs_nonempty; eauto.
    + intros x Hx. destruct (update_specs_below _ _ _ _ H Hx) as [Hi|(y & Hy & E)].
      * apply HN. exact Hi.
      * right. apply (below_narrowed x (a :: acc)); [split; assumption|]. exists y. auto.
Qed.

Lemma narrowed_update : forall c acc acc' P,
  update_naming_constraints c acc = Ok acc' -> narrowed (permitted_names acc) P ->
  narrowed (permitted_names acc') P.
Proof.
  intros c acc acc' P H HN. unfold update_naming_constraints in H.
  destruct (c_naming c) as [n|]; [|injection H as <-; exact HN].
  unfold add_constraints in H.
  destruct (add_constraint (n_permitted n) _) as [p|] eqn:Ep; [|discriminate]. cbn [bind] in H.
  destruct (add_constraint (n_excluded n) _) as [e|]; [|discriminate]. cbn [bind] in H.
  injection H as <-. cbn [permitted_names]. eapply narrowed_add; eauto.
Qed.

Lemma check_narrowed : forall l cur acc r P,
  check_upper l cur acc = Ok (Some r) -> narrowed (permitted_names acc) P ->
  narrowed (permitted_names r) P /\
  forall s c, In s l -> s_constraints s = Some c -> belowm (s_sub s) P.
Proof.
  induction l as [|s l IH]; intros cur acc r P H HN.
  - injection H as <-. split; [exact HN|]. intros s c [].
  - cbn [check_upper] in H. destruct (s_constraints s) as [c|] eqn:Ec.
    + destruct (Z.ltb _ 0); [discriminate|].
      destruct (update_naming_constraints c acc) as [acc'|] eqn:Eu; [|discriminate]. cbn [bind] in H.
      destruct (name_ok (s_sub s) acc') as [b|] eqn:En; [|discriminate]. cbn [bind] in H.
      destruct b; [|discriminate].
      pose proof (narrowed_update _ _ _ _ Eu HN) as HN'.
      destruct (IH _ _ _ _ H HN') as [R1 R2]. split; [exact R1|].
      intros t ct [<-|Ht] Ect; [|eapply R2; eauto].
      apply name_ok_inv in En. destruct En as [[En|En] _].
      * destruct HN' as [HN' _]. contradiction.
      * exact (below_narrowed _ _ _ HN' En).
    + destruct (IH _ _ _ _ H HN) as [R1 R2]. split; [exact R1|].
      intros t ct [<-|Ht] Ect; [congruence|]. eapply R2; eauto.
Qed.

(** before anything is declared nothing is accumulated *)
Lemma permitted_none_before : forall l cur acc r,
  (forall s p, In s l -> declares_permitted s p -> p = []) ->
  permitted_names acc = [] ->
  check_upper l cur acc = Ok (Some r) -> permitted_names r = [].
Proof.
  induction l as [|s l IH]; intros cur acc r Hd Ha H.
  - injection H as <-. exact Ha.
  - cbn [check_upper] in H. destruct (s_constraints s) as [c|] eqn:Ec.
    + destruct (Z.ltb _ 0); [discriminate|].
      destruct (update_naming_constraints c acc) as [acc'|] eqn:Eu; [|discriminate]. cbn [bind] in H.
      destruct (name_ok (s_sub s) acc') as [[]|]; cbn [bind] in H; try discriminate.
      eapply IH; [intros; eapply Hd; [right; eassumption|eassumption]| |exact H].
      unfold update_naming_constraints in Eu.
      destruct (c_naming c) as [n|] eqn:En; [|injection Eu as <-; exact Ha].
      unfold add_constraints, add_constraint in Eu. rewrite Ha in Eu. cbn [is_nil] in Eu.
      destruct (n_permitted n) as [p|] eqn:Ep; cbn [bind] in Eu.
      * assert (p = []) by (apply (Hd s p (or_introl eq_refl)); exists c, n; auto). subst p.
        destruct (if is_nil (excluded_names acc) then _ else _) as [e|]; [|discriminate].
        cbn [bind] in Eu. injection Eu as <-. reflexivity.
      * destruct (if is_nil (excluded_names acc) then _ else _) as [e|]; [|discriminate].
        cbn [bind] in Eu. injection Eu as <-. reflexivity.
    + eapply IH; [intros; eapply Hd; [right; eassumption|eassumption]|exact Ha|exact H].
Qed.

Lemma meets_inv : forall chain, accepted chain ->
  exists upper leaf acc, chain = upper ++ [leaf] /\
    check_upper upper 0%Z (mkNames [] []) = Ok (Some acc) /\ name_ok (s_sub leaf) acc = Ok true.
Proof.
  intros chain H. unfold accepted, meets_restrictions in H.
  destruct (rev chain) as [|leaf up] eqn:E; [discriminate|].
  destruct (check_upper (rev up) _ _) as [[acc|]|] eqn:Ec; try discriminate.
  cbn [bind] in H. exists (rev up), leaf, acc. split; [|split; [exact Ec|exact H]].
  rewrite <- (rev_involutive chain), E. reflexivity.
Qed.

Lemma meets_of : forall upper leaf acc,
  check_upper upper 0%Z (mkNames [] []) = Ok (Some acc) -> name_ok (s_sub leaf) acc = Ok true ->
  accepted (upper ++ [leaf]).
Proof.
  intros upper leaf acc H1 H2. unfold accepted, meets_restrictions.
  rewrite rev_app_distr. cbn [rev app]. rewrite rev_involutive, H1. cbn [bind]. exact H2.
Qed.

(** the state of the loop after the topmost declaration of a permitted list *)
Lemma top_permitted : forall above s below_ cur acc r p,
  (forall t q, In t above -> declares_permitted t q -> q = []) ->
  permitted_names acc = [] -> declares_permitted s p -> p <> [] ->
  check_upper (above ++ s :: below_) cur acc = Ok (Some r) ->
  exists cur' acc', narrowed (permitted_names acc') p /\ belowm (s_sub s) p /\
    check_upper below_ cur' acc' = Ok (Some r).
Proof.
  intros above s lower cur acc r p Hd Ha (c & n & Ec & En & Ep) Hp H.
  apply check_upper_app in H. destruct H as (cur1 & acc1 & H1 & H2).
  pose proof (permitted_none_before _ _ _ _ Hd Ha H1) as Ha1.
  cbn [check_upper] in H2. rewrite Ec in H2.
  destruct (Z.ltb _ 0); [discriminate|].
  destruct (update_naming_constraints c acc1) as [acc2|] eqn:Eu; [|discriminate]. cbn [bind] in H2.
  destruct (name_ok (s_sub s) acc2) as [[]|] eqn:Eok; cbn [bind] in H2; try discriminate.
  assert (E2 : permitted_names acc2 = p).
  { unfold update_naming_constraints in Eu. rewrite En in Eu.
    unfold add_constraints, add_constraint in Eu. rewrite Ha1, Ep in Eu. cbn [is_nil bind] in Eu.
    destruct (if is_nil (excluded_names acc1) then _ else _) as [e|]; [|discriminate].
    cbn [bind] in Eu. injection Eu as <-. reflexivity. }
  eexists _, acc2. rewrite E2. split; [|split; [|exact H2]].
  - split; [exact Hp|]. intros x Hx. left. exact Hx.
  - apply name_ok_inv in Eok. rewrite E2 in Eok. destruct Eok as [[Z|B] _]; [contradiction|exact B].
Qed.

Lemma C18_core : forall above s lower leaf p,
  accepted (above ++ s :: lower ++ [leaf]) ->
  (forall t q, In t above -> declares_permitted t q -> q = []) ->
  declares_permitted s p -> p <> [] ->
  belowm (s_sub leaf) p /\ belowm (s_sub s) p /\
  forall t c, In t lower -> s_constraints t = Some c -> belowm (s_sub t) p.
Proof.
  intros above s lower leaf p H Hd Hs Hp.
  apply meets_inv in H. destruct H as (upper & leaf' & acc & E & Hc & Hok).
  replace (above ++ s :: lower ++ [leaf]) with ((above ++ s :: lower) ++ [leaf]) in E
    by (rewrite <- app_assoc; reflexivity).
  apply app_inj_tail in E. destruct E as [<- <-].
  destruct (top_permitted _ _ _ _ (mkNames [] []) _ _ Hd eq_refl Hs Hp Hc) as (cur' & acc' & HN & Hb & Hc').
  destruct (check_narrowed _ _ _ _ _ Hc' HN) as [HN' Hall].
  split; [|split; [exact Hb|exact Hall]].
  apply name_ok_inv in Hok. destruct Hok as [[Z|B] _].
  - destruct HN'. contradiction.
  - exact (below_narrowed _ _ _ HN' B).
Qed.

(** * Excluded names *)

Lemma keeps_add : forall new acc acc' x,
  add_constraint new acc = Ok acc' -> In x acc ->
  (forall l n, new = Some l -> In n l -> more_specific n x = Ok false) -> In x acc'.
Proof.
  intros new acc acc' x H Hx Hn. unfold add_constraint in H.
  destruct acc as [|a acc]; [contradiction|]. cbn [is_nil] in H.
  destruct new as [[|b l]|]; [| |discriminate].
  - injection H as <-. exact Hx.
  - eapply update_specs_keeps; eauto.
Qed.

Lemma check_excluded : forall l cur acc r x,
  check_upper l cur acc = Ok (Some r) -> In x (excluded_names acc) ->
  (forall s e n, In s l -> declares_excluded s e -> In n e -> more_specific n x = Ok false) ->
  In x (excluded_names r) /\
  forall s c, In s l -> s_constraints s = Some c -> more_specific (s_sub s) x = Ok false.
Proof.
  induction l as [|s l IH]; intros cur acc r x H Hx Hn.
  - injection H as <-. split; [exact Hx|]. intros s c [].
  - assert (Hn' : forall t e n, In t l -> declares_excluded t e -> In n e ->
                                more_specific n x = Ok false)
      by (intros t e n Ht; apply Hn; right; exact Ht).
    cbn [check_upper] in H. destruct (s_constraints s) as [c|] eqn:Ec.
    + destruct (Z.ltb _ 0); [discriminate|].
      destruct (update_naming_constraints c acc) as [acc'|] eqn:Eu; [|discriminate]. cbn [bind] in H.
      destruct (name_ok (s_sub s) acc') as [[]|] eqn:En; cbn [bind] in H; try discriminate.
      assert (Hx' : In x (excluded_names acc')).
      { unfold update_naming_constraints in Eu.
        destruct (c_naming c) as [n|] eqn:Enc; [|injection Eu as <-; exact Hx].
        unfold add_constraints in Eu.
        destruct (add_constraint (n_permitted n) _) as [p|]; [|discriminate]. cbn [bind] in Eu.
        destruct (add_constraint (n_excluded n) _) as [e|] eqn:Ee; [|discriminate].
        cbn [bind] in Eu. injection Eu as <-. cbn [excluded_names].
        eapply keeps_add; [exact Ee|exact Hx|].
        intros l0 m El Hm. apply (Hn s l0 m); [left; reflexivity| |exact Hm].
        exists c, n. auto. }
      destruct (IH _ _ _ _ H Hx' Hn') as [R1 R2]. split; [exact R1|].
      intros t ct [<-|Ht] Ect; [|eapply R2; eauto].
      apply name_ok_inv in En. destruct En as [_ En]. apply En. exact Hx'.
    + destruct (IH _ _ _ _ H Hx Hn') as [R1 R2]. split; [exact R1|].
      intros t ct [<-|Ht] Ect; [congruence|]. eapply R2; eauto.
Qed.

Lemma excluded_none_before : forall l cur acc r,
  (forall s p, In s l -> declares_excluded s p -> p = []) ->
  excluded_names acc = [] ->
  check_upper l cur acc = Ok (Some r) -> excluded_names r = [].
Proof.
  induction l as [|s l IH]; intros cur acc r Hd Ha H.
  - injection H as <-. exact Ha.
  - cbn [check_upper] in H. destruct (s_constraints s) as [c|] eqn:Ec.
    + destruct (Z.ltb _ 0); [discriminate|].
      destruct (update_naming_constraints c acc) as [acc'|] eqn:Eu; [|discriminate]. cbn [bind] in H.
      destruct (name_ok (s_sub s) acc') as [[]|]; cbn [bind] in H; try discriminate.
      eapply IH; [intros; eapply Hd; [right; eassumption|eassumption]| |exact H].
      unfold update_naming_constraints in Eu.
      destruct (c_naming c) as [n|] eqn:En; [|injection Eu as <-; exact Ha].
      unfold add_constraints in Eu.
      destruct (add_constraint (n_permitted n) _) as [p|]; [|discriminate]. cbn [bind] in Eu.
      unfold add_constraint in Eu. rewrite Ha in Eu. cbn [is_nil] in Eu.
      destruct (n_excluded n) as [e|] eqn:Ee; cbn [bind] in Eu; injection Eu as <-;
        cbn [excluded_names]; [|reflexivity].
      apply (Hd s e (or_introl eq_refl)). exists c, n. auto.
    + eapply IH; [intros; eapply Hd; [right; eassumption|eassumption]|exact Ha|exact H].
Qed.

Lemma C19_core : forall above s lower leaf e x,
  accepted (above ++ s :: lower ++ [leaf]) ->
  (forall t q, In t above -> declares_excluded t q -> q = []) ->
  declares_excluded s e -> In x e ->
  (forall t q n, In t lower -> declares_excluded t q -> In n q -> more_specific n x = Ok false) ->
  more_specific (s_sub leaf) x = Ok false /\ more_specific (s_sub s) x = Ok false /\
  forall t c, In t lower -> s_constraints t = Some c -> more_specific (s_sub t) x = Ok false.
Proof.
  intros above s lower leaf e x H Hd (c & n & Ec & En & Ee) Hx Hlow.
  apply meets_inv in H. destruct H as (upper & leaf' & acc & E & Hc & Hok).
  replace (above ++ s :: lower ++ [leaf]) with ((above ++ s :: lower) ++ [leaf]) in E
    by (rewrite <- app_assoc; reflexivity).
  apply app_inj_tail in E. destruct E as [<- <-].
  apply check_upper_app in Hc. destruct Hc as (cur1 & acc1 & H1 & H2).
  pose proof (excluded_none_before _ _ (mkNames [] []) _ Hd eq_refl H1) as Ha1.
  cbn [check_upper] in H2. rewrite Ec in H2.
  destruct (Z.ltb _ 0); [discriminate|].
  destruct (update_naming_constraints c acc1) as [acc2|] eqn:Eu; [|discriminate]. cbn [bind] in H2.
  destruct (name_ok (s_sub s) acc2) as [[]|] eqn:Eok; cbn [bind] in H2; try discriminate.
  assert (E2 : excluded_names acc2 = e).
  { unfold update_naming_constraints in Eu. rewrite En in Eu. unfold add_constraints in Eu.
    destruct (add_constraint (n_permitted n) _) as [p|]; [|discriminate]. cbn [bind] in Eu.
    unfold add_constraint in Eu. rewrite Ha1, Ee in Eu. cbn [is_nil bind] in Eu.
    injection Eu as <-. reflexivity. }
  assert (Hx2 : In x (excluded_names acc2)) by (rewrite E2; exact Hx).
  destruct (check_excluded _ _ _ _ _ H2 Hx2 Hlow) as [Hx3 Hall].
  apply name_ok_inv in Hok. destruct Hok as [_ Hok].
  apply name_ok_inv in Eok. destruct Eok as [_ Eok].
  split; [apply Hok; exact Hx3|]. split; [apply Eok; exact Hx2|exact Hall].
Qed.

(** * Path lengths *)

Lemma negative_rejected : forall l cur acc s k,
  In s l -> declares_max s k -> (k < 0)%Z -> check_upper l cur acc <> Ok (Some acc) /\
  forall r, check_upper l cur acc <> Ok (Some r).
Proof.
  intros l cur acc s k Hs (c & Ec & Ek) Hk.
  assert (G : forall r, check_upper l cur acc <> Ok (Some r)).
  { revert cur acc. induction l as [|t l IH]; intros cur acc r; [contradiction|].
    cbn [check_upper]. destruct Hs as [->|Hs].
    - rewrite Ec. unfold calculate_path_length. rewrite Ek.
      destruct (Z.ltb_spec k 0); [discriminate|lia].
    - destruct (s_constraints t) as [ct|]; [|apply IH; exact Hs].
      destruct (Z.ltb _ 0); [discriminate|].
      destruct (update_naming_constraints ct acc) as [n|]; [|discriminate]. cbn [bind].
      destruct (name_ok (s_sub t) n) as [[]|]; cbn [bind]; try discriminate.
      apply IH. exact Hs. }
  split; [apply G|exact G].
Qed.

Lemma path_nonneg : forall c cur, nonneg (c_max_path_length c) ->
  Z.ltb (calculate_path_length c cur false) 0 = false.
Proof.
  intros c cur H. unfold calculate_path_length. destruct (c_max_path_length c) as [k|]; [|reflexivity].
  simpl in H. destruct (Z.ltb_spec k 0); [lia|reflexivity].
Qed.

Lemma check_upper_max : forall l l' cur cur' acc,
  Forall2 (fun s s' => max_nonneg s /\ exists k, nonneg k /\ s' = with_max s k) l l' ->
  check_upper l cur acc = check_upper l' cur' acc.
Proof.
  intros l l' cur cur' acc H. revert cur cur' acc.
  induction H as [|s s' l l' [Hm (k & Hk & ->)] _ IH]; intros cur cur' acc; [reflexivity|].
  cbn [check_upper]. destruct (s_constraints s) as [c|] eqn:Ec.
  - assert (Ec' : s_constraints (with_max s k) = Some (mkConstraints k (c_naming c)))
      by (unfold with_max; cbn [s_constraints]; rewrite Ec; reflexivity).
    rewrite Ec'. rewrite (path_nonneg (mkConstraints k (c_naming c))) by exact Hk.
    rewrite (path_nonneg c).
    2:{ unfold nonneg. destruct (c_max_path_length c) as [z|] eqn:Ez; [|exact I].
        apply Hm. exists c. auto. }
    unfold update_naming_constraints. cbn [c_naming].
    destruct (match c_naming c with Some n => _ | None => _ end) as [acc'|]; [|reflexivity].
    cbn [bind]. change (s_sub (with_max s k)) with (s_sub s).
    destruct (name_ok (s_sub s) acc') as [[]|]; cbn [bind]; try reflexivity. apply IH.
  - assert (Ec' : s_constraints (with_max s k) = None)
      by (unfold with_max; cbn [s_constraints]; rewrite Ec; reflexivity).
    rewrite Ec'. apply IH.
Qed.

Lemma meets_max : forall upper upper' leaf,
  Forall2 (fun s s' => max_nonneg s /\ exists k, nonneg k /\ s' = with_max s k) upper upper' ->
  meets_restrictions (upper ++ [leaf]) = meets_restrictions (upper' ++ [leaf]).
Proof.
  intros upper upper' leaf H. unfold meets_restrictions. rewrite !rev_app_distr. cbn [rev app].
  rewrite !rev_involutive. rewrite (check_upper_max _ _ 0%Z 0%Z _ H). reflexivity.
Qed.

(** * Totality *)

Lemma replacements_total : forall news o, all_http news -> is_http o ->
  exists l, replacements news o = Ok l /\ all_http l.
Proof.
  induction news as [|n news IH]; intros o Hn Ho; [exists []; split; [reflexivity|constructor]|].
  inversion Hn; subst. cbn [replacements].
  destruct (more_specific_total n o) as [b E]; [assumption|assumption|]. rewrite E. cbn [bind].
  destruct (IH o) as (l & El & Hl); [assumption|assumption|]. rewrite El. cbn [bind].
  eexists. split; [reflexivity|]. destruct b; [constructor|]; assumption.
Qed.

Lemma update_specs_total : forall news olds, all_http news -> all_http olds ->
  exists l, update_specs news olds = Ok l /\ all_http l.
Proof.
  induction olds as [|o olds IH]; intros Hn Ho; [exists []; split; [reflexivity|constructor]|].
  inversion Ho; subst. cbn [update_specs].
  destruct (replacements_total news o) as (r & Er & Hr); [assumption|assumption|].
  rewrite Er. cbn [bind]. destruct IH as (l & El & Hl); [assumption|assumption|].
  rewrite El. cbn [bind]. eexists. split; [reflexivity|].
  apply Forall_app. split; [|assumption].
  destruct r; [constructor; [assumption|constructor]|exact Hr].
Qed.

Lemma in_names_total : forall l s, all_http l -> is_http s -> exists b, in_names s l = Ok b.
Proof.
  induction l as [|x l IH]; intros s Hl Hs; [exists false; reflexivity|].
  inversion Hl; subst. cbn [in_names].
  destruct (more_specific_total s x) as [b E]; [assumption|assumption|]. rewrite E. cbn [bind].
  destruct b; [eauto|]. apply IH; assumption.
Qed.

Lemma name_ok_total : forall s acc,
  all_http (permitted_names acc) -> all_http (excluded_names acc) -> is_http s ->
  exists b, name_ok s acc = Ok b.
Proof.
  intros s [p e] Hp He Hs. unfold name_ok. cbn [permitted_names excluded_names] in *.
  assert (E : exists b, (if is_nil e then Ok false else excluded s e) = Ok b).
  { destruct e as [|x e]; [exists false; reflexivity|]. cbn [is_nil]. apply in_names_total; assumption. }
  destruct E as [b E]. rewrite E. cbn [bind]. destruct b; [eauto|].
  destruct p as [|x p]; [exists true; reflexivity|]. cbn [is_nil]. apply in_names_total; assumption.
Qed.

Lemma add_constraint_total : forall l acc, all_http l -> all_http acc ->
  exists acc', add_constraint (Some l) acc = Ok acc' /\ all_http acc'.
Proof.
  intros l acc Hl Ha. unfold add_constraint. destruct acc as [|a acc]; cbn [is_nil]; [eauto|].
  destruct l as [|x l]; [eauto|]. apply update_specs_total; assumption.
Qed.

Lemma check_upper_total : forall l cur acc,
  Forall full_stmt l -> all_http (permitted_names acc) -> all_http (excluded_names acc) ->
  exists r, check_upper l cur acc = Ok r /\
    forall a, r = Some a -> all_http (permitted_names a) /\ all_http (excluded_names a).
Proof.
  induction l as [|s l IH]; intros cur acc Hl Hp He.
  - exists (Some acc). split; [reflexivity|]. intros a H. injection H as <-. auto.
  - inversion Hl; subst. cbn [check_upper]. destruct (s_constraints s) as [c|] eqn:Ec; [|auto].
    destruct (Z.ltb _ 0); [exists None; split; [reflexivity|discriminate]|].
    destruct H1 as [Hs Hc].
    assert (E : exists acc', update_naming_constraints c acc = Ok acc' /\
                 all_http (permitted_names acc') /\ all_http (excluded_names acc')).
    { unfold update_naming_constraints. destruct (c_naming c) as [n|] eqn:En; [|eauto].
      destruct (Hc c n Ec En) as [(p & Ep & Hp') (e & Ee & He')].
      unfold add_constraints. rewrite Ep, Ee.
      destruct (add_constraint_total p _ Hp' Hp) as (p' & E1 & H1). rewrite E1. cbn [bind].
      destruct (add_constraint_total e _ He' He) as (e' & E2' & H2'). rewrite E2'. cbn [bind].
      eexists. split; [reflexivity|]. auto. }
    destruct E as (acc' & E & Hp' & He'). rewrite E. cbn [bind].
    destruct (name_ok_total (s_sub s) acc' Hp' He' Hs) as [b Eb]. rewrite Eb. cbn [bind].
    destruct b; [apply IH; assumption|]. exists None. split; [reflexivity|discriminate].
Qed.

Lemma meets_total : forall upper leaf,
  Forall full_stmt upper -> is_http (s_sub leaf) ->
  exists b, meets_restrictions (upper ++ [leaf]) = Ok b.
Proof.
  intros upper leaf Hu Hl. unfold meets_restrictions. rewrite rev_app_distr. cbn [rev app].
  rewrite rev_involutive.
  destruct (check_upper_total upper 0%Z (mkNames [] []) Hu (Forall_nil _) (Forall_nil _))
    as (r & E & Hr).
  rewrite E. cbn [bind]. destruct r as [a|]; [|eauto].
  destruct (Hr a eq_refl). apply name_ok_total; assumption.
Qed.

(** without constraints every chain is accepted *)
Lemma meets_unconstrained : forall upper leaf,
  (forall s, In s upper -> s_constraints s = None) -> accepted (upper ++ [leaf]).
Proof.
  intros upper leaf H. apply (meets_of upper leaf (mkNames [] [])); [|reflexivity].
  assert (G : forall cur, check_upper upper cur (mkNames [] []) = Ok (Some (mkNames [] [])));
    [|apply G].
  induction upper as [|s l IH]; intros cur; [reflexivity|].
  cbn [check_upper]. rewrite (H s (or_introl eq_refl)). apply IH.
  intros t Ht. apply H. right. exact Ht.
Qed.

(** * A lower list that narrows everything above it *)

Lemma permitted_unchanged : forall l cur acc r,
  (forall s p, In s l -> declares_permitted s p -> p = []) ->
  check_upper l cur acc = Ok (Some r) -> permitted_names r = permitted_names acc.
Proof.
  induction l as [|s l IH]; intros cur acc r Hd H.
  - injection H as <-. reflexivity.
  - assert (Hd' : forall t p, In t l -> declares_permitted t p -> p = [])
      by (intros t p Ht; apply Hd; right; exact Ht).
    cbn [check_upper] in H. destruct (s_constraints s) as [c|] eqn:Ec.
    + destruct (Z.ltb _ 0); [discriminate|].
      destruct (update_naming_constraints c acc) as [acc'|] eqn:Eu; [|discriminate]. cbn [bind] in H.
      destruct (name_ok (s_sub s) acc') as [[]|]; cbn [bind] in H; try discriminate.
      rewrite (IH _ _ _ Hd' H).
      unfold update_naming_constraints in Eu.
      destruct (c_naming c) as [n|] eqn:En; [|injection Eu as <-; reflexivity].
      unfold add_constraints in Eu.
      destruct (add_constraint (n_permitted n) _) as [p|] eqn:Ep; [|discriminate]. cbn [bind] in Eu.
      destruct (add_constraint (n_excluded n) _) as [e|]; [|discriminate]. cbn [bind] in Eu.
      injection Eu as <-. cbn [permitted_names]. unfold add_constraint in Ep.
      destruct (n_permitted n) as [q|] eqn:Eq.
      * assert (q = []) by (apply (Hd s q (or_introl eq_refl)); exists c, n; auto). subst q.
        destruct (is_nil (permitted_names acc)) eqn:Ei; injection Ep as <-; [|reflexivity].
        destruct (permitted_names acc); [reflexivity|discriminate].
      * destruct (is_nil (permitted_names acc)); [|discriminate]. injection Ep as <-. reflexivity.
    + apply (IH _ _ _ Hd' H).
Qed.

Lemma update_specs_all_replaced : forall news olds l,
  update_specs news olds = Ok l ->
  (forall o, In o olds -> exists n, In n news /\ more_specific n o = Ok true) ->
  forall x, In x l -> In x news.
Proof.
  induction olds as [|o olds IH]; intros l H Hr x Hx.
  - injection H as <-. contradiction.
  - cbn [update_specs] in H. destruct (replacements news o) as [r|] eqn:Er; [|discriminate].
    cbn [bind] in H. destruct (update_specs news olds) as [l'|] eqn:Eu; [|discriminate].
    cbn [bind] in H. injection H as <-. apply in_app_or in Hx. destruct Hx as [Hx|Hx].
    + destruct (Hr o (or_introl eq_refl)) as (n & Hn & E).
      pose proof (replacements_all _ _ _ _ Er Hn E) as Hin.
      destruct r as [|a r]; [contradiction|]. cbn [is_nil] in Hx.
      apply (replacements_in _ _ _ _ Er Hx).
    + apply (IH l' eq_refl); [|exact Hx]. intros o' Ho'. apply Hr. right. exact Ho'.
Qed.

Lemma narrowing_core : forall above s1 mid s2 lower leaf p q,
  accepted (above ++ s1 :: mid ++ s2 :: lower ++ [leaf]) ->
  (forall t r, In t above -> declares_permitted t r -> r = []) ->
  declares_permitted s1 p -> p <> [] ->
  (forall t r, In t mid -> declares_permitted t r -> r = []) ->
  declares_permitted s2 q ->
  (forall x, In x p -> exists n, In n q /\ more_specific n x = Ok true) ->
  belowm (s_sub leaf) q /\ belowm (s_sub s2) q /\
  forall t c, In t lower -> s_constraints t = Some c -> belowm (s_sub t) q.
Proof.
  intros above s1 mid s2 lower leaf p q H Ha Hs1 Hp Hm (c & n & Ec & En & Eq) Hn.
  apply meets_inv in H. destruct H as (upper & leaf' & acc & E & Hc & Hok).
  replace (above ++ s1 :: mid ++ s2 :: lower ++ [leaf])
    with ((above ++ s1 :: mid ++ s2 :: lower) ++ [leaf]) in E
    by (rewrite <- !app_assoc; cbn [app]; rewrite <- app_assoc; reflexivity).
  apply app_inj_tail in E. destruct E as [<- <-].
  apply check_upper_app in Hc. destruct Hc as (cur1 & acc1 & H1 & H2).
  pose proof (permitted_unchanged _ _ _ _ Ha H1) as Ha1. cbn [permitted_names] in Ha1.
  destruct Hs1 as (c1 & n1 & Ec1 & En1 & Ep1).
  cbn [check_upper] in H2. rewrite Ec1 in H2.
  destruct (Z.ltb _ 0); [discriminate|].
  destruct (update_naming_constraints c1 acc1) as [acc2|] eqn:Eu; [|discriminate]. cbn [bind] in H2.
  destruct (name_ok (s_sub s1) acc2) as [[]|]; cbn [bind] in H2; try discriminate.
  assert (E2 : permitted_names acc2 = p).
  { unfold update_naming_constraints in Eu. rewrite En1 in Eu.
    unfold add_constraints, add_constraint in Eu. rewrite Ha1, Ep1 in Eu. cbn [is_nil bind] in Eu.
    destruct (if is_nil (excluded_names acc1) then _ else _) as [e|]; [|discriminate].
    cbn [bind] in Eu. injection Eu as <-. reflexivity. }
  apply check_upper_app in H2. destruct H2 as (cur3 & acc3 & H3 & H4).
  pose proof (permitted_unchanged _ _ _ _ Hm H3) as Ha3. rewrite E2 in Ha3.
  cbn [check_upper] in H4. rewrite Ec in H4.
  destruct (Z.ltb _ 0); [discriminate|].
  destruct (update_naming_constraints c acc3) as [acc4|] eqn:Eu4; [|discriminate].
  cbn [bind] in H4.
  destruct (name_ok (s_sub s2) acc4) as [[]|] eqn:Eok4; cbn [bind] in H4; try discriminate.
  assert (HN : narrowed (permitted_names acc4) q).
  { unfold update_naming_constraints in Eu4. rewrite En in Eu4. unfold add_constraints in Eu4.
    destruct (add_constraint (n_permitted n) _) as [p4|] eqn:E4; [|discriminate].
    cbn [bind] in Eu4.
    destruct (add_constraint (n_excluded n) _) as [e4|]; [|discriminate]. cbn [bind] in Eu4.
    injection Eu4 as <-. cbn [permitted_names].
    unfold add_constraint in E4. rewrite Ha3, Eq in E4.
    destruct p as [|p0 p]; [contradiction|]. cbn [is_nil] in E4.
    destruct q as [|q0 q].
    { destruct (Hn p0 (or_introl eq_refl)) as (z & [] & _). }
    split; [eapply update_specs_nonempty; [exact E4|discriminate]|].
    intros x Hx. left. eapply update_specs_all_replaced; eauto. }
  destruct (check_narrowed _ _ _ _ _ H4 HN) as [HN' Hall].
  apply name_ok_inv in Hok. destruct Hok as [[Z|B] _]; [destruct HN'; contradiction|].
  apply name_ok_inv in Eok4. destruct Eok4 as [[Z4|B4] _]; [destruct HN; contradiction|].
  split; [exact (below_narrowed _ _ _ HN' B)|]. split; [exact (below_narrowed _ _ _ HN B4)|].
  exact Hall.
Qed.

(** * Exact condition when one statement carries constraints *)

Lemma in_names_iff : forall l s, all_http l -> is_http s ->
  (in_names s l = Ok true <-> belowm s l).
Proof.
  intros l s Hl Hs. split; [apply in_names_true|].
  intros (y & Hy & E). destruct (in_names_total l s Hl Hs) as [[] Eb]; [exact Eb|].
  rewrite (in_names_false _ _ Eb y Hy) in E. discriminate.
Qed.

Lemma name_ok_iff : forall s p e, all_http p -> all_http e -> is_http s ->
  (name_ok s (mkNames p e) = Ok true <->
   (p = [] \/ below s p) /\ ~ below s e).
Proof.
  intros s p e Hp He Hs. rewrite <- !belowm_below. split.
  - intros H. apply name_ok_inv in H. cbn [permitted_names excluded_names] in H.
    destruct H as [H1 H2]. split; [exact H1|]. intros (y & Hy & E). rewrite H2 in E; [discriminate|exact Hy].
  - intros [H1 H2]. unfold name_ok. cbn [permitted_names excluded_names].
    assert (Ee : (if is_nil e then Ok false else excluded s e) = Ok false).
    { destruct e as [|x e]; [reflexivity|]. cbn [is_nil]. unfold excluded.
      destruct (in_names_total (x :: e) s He Hs) as [[] Eb]; [|exact Eb].
      exfalso. apply H2. apply in_names_true. exact Eb. }
    rewrite Ee. cbn [bind]. destruct p as [|x p]; [reflexivity|]. cbn [is_nil].
    destruct H1 as [H1|H1]; [discriminate|]. apply in_names_iff; assumption.
Qed.

Lemma check_unconstrained : forall l cur acc,
  (forall s, In s l -> s_constraints s = None) -> check_upper l cur acc = Ok (Some acc).
Proof.
  induction l as [|s l IH]; intros cur acc H; [reflexivity|].
  cbn [check_upper]. rewrite (H s (or_introl eq_refl)). apply IH.
  intros t Ht. apply H. right. exact Ht.
Qed.

Lemma check_cat : forall l1 l2 cur acc, 
  (forall s, In s l1 -> s_constraints s = None) ->
  check_upper (l1 ++ l2) cur acc = check_upper l2 cur acc.
Proof.
  induction l1 as [|s l1 IH]; intros l2 cur acc H; [reflexivity|].
  cbn [app check_upper]. rewrite (H s (or_introl eq_refl)). apply IH.
  intros t Ht. apply H. right. exact Ht.
Qed.

Lemma single_exact : forall above s lower leaf p e k,
  (forall t, In t (above ++ lower) -> s_constraints t = None) ->
  s_constraints s = Some (mkConstraints k (Some (mkNaming (Some p) (Some e)))) ->
  all_http p -> all_http e -> is_http (s_sub s) -> is_http (s_sub leaf) -> nonneg k ->
  (accepted (above ++ s :: lower ++ [leaf]) <->
   forall t, t = s \/ t = leaf -> (p = [] \/ below (s_sub t) p) /\ ~ below (s_sub t) e).
Proof.
  intros above s lower leaf p e k Ho Es Hp He Hs Hl Hk.
  assert (Hab : forall t, In t above -> s_constraints t = None)
    by (intros t Ht; apply Ho; apply in_or_app; left; exact Ht).
  assert (Hlo : forall t, In t lower -> s_constraints t = None)
    by (intros t Ht; apply Ho; apply in_or_app; right; exact Ht).
  assert (Ec : check_upper (above ++ s :: lower) 0%Z (mkNames [] [])
               = let* ok := name_ok (s_sub s) (mkNames p e) in
                 if ok then Ok (Some (mkNames p e)) else Ok None).
  { rewrite check_cat by exact Hab. cbn [check_upper]. rewrite Es.
    rewrite path_nonneg by exact Hk.
    unfold update_naming_constraints, add_constraints, add_constraint.
    cbn [c_naming n_permitted n_excluded is_nil permitted_names excluded_names bind].
    destruct (name_ok (s_sub s) (mkNames p e)) as [[]|]; cbn [bind]; try reflexivity.
    apply check_unconstrained. exact Hlo. }
  assert (Hchain : accepted (above ++ s :: lower ++ [leaf]) <->
            name_ok (s_sub s) (mkNames p e) = Ok true /\ name_ok (s_sub leaf) (mkNames p e) = Ok true).
  { replace (above ++ s :: lower ++ [leaf]) with ((above ++ s :: lower) ++ [leaf])
      by (rewrite <- app_assoc; reflexivity).
    unfold accepted, meets_restrictions. rewrite rev_app_distr. cbn [rev app].
    rewrite rev_involutive, Ec.
    destruct (name_ok (s_sub s) (mkNames p e)) as [[]|]; cbn [bind];
      split; try tauto; try (intros; discriminate); intros [H _]; discriminate. }
  rewrite Hchain. rewrite !name_ok_iff by assumption. split.
  - intros [H1 H2] t [-> | ->]; assumption.
  - intros H. split; apply H; auto.
Qed.
