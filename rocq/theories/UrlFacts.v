(** Lemmas about queries and the parts of URLs. *)
From Verif Require Import UrlModel PyFacts.
From Coq Require Import Ascii Lia.

Local Open Scope string_scope.

(** the characters with a meaning in a query or URL *)
Definition reserved (c : ascii) : bool :=
  Ascii.eqb c "&" || Ascii.eqb c "=" || Ascii.eqb c "?" || Ascii.eqb c "#" || Ascii.eqb c "/" || Ascii.eqb c ";"
  || Ascii.eqb c ":".

Lemma quote_char_step : forall c s, unquote_plus (quote_char c s) = String c (unquote_plus s).
Proof.
  intros [b0 b1 b2 b3 b4 b5 b6 b7] s.
  destruct b0, b1, b2, b3, b4, b5, b6, b7; reflexivity.
Qed.

Lemma unquote_quote : forall s, unquote_plus (quote_plus s) = s.
Proof. induction s as [|c s IH]; [reflexivity|]. cbn [quote_plus]. rewrite quote_char_step, IH. reflexivity. Qed.

Definition plain (s : string) : Prop := all_chars (fun c => negb (reserved c)) s = true.

Lemma plain_quote_char : forall c s, plain s -> plain (quote_char c s).
Proof.
  unfold plain. intros [b0 b1 b2 b3 b4 b5 b6 b7] s H.
  destruct b0, b1, b2, b3, b4, b5, b6, b7; cbn; exact H.
Qed.

Lemma plain_quote : forall s, plain (quote_plus s).
Proof.
  induction s as [|c s IH]; [reflexivity|]. cbn [quote_plus]. apply plain_quote_char; exact IH.
Qed.

(** a string does not have the character *)
Definition lacks (c : ascii) (s : string) : Prop := all_chars (fun x => negb (Ascii.eqb x c)) s = true.

Lemma plain_lacks : forall c s, reserved c = true -> plain s -> lacks c s.
Proof.
  unfold plain, lacks. intros c s Hc. induction s as [|x s IH]; [reflexivity|].
  cbn [all_chars]. intros H. apply andb_true_iff in H as [H1 H2]. rewrite (IH H2), Bool.andb_true_r.
  destruct (Ascii.eqb x c) eqn:E; [|reflexivity].
  apply Ascii.eqb_eq in E. subst x. rewrite Hc in H1. discriminate.
Qed.

Lemma all_chars_app : forall p a b, all_chars p (a ++ b) = all_chars p a && all_chars p b.
Proof. intros p a b. induction a as [|c a IH]; [reflexivity|]. cbn. rewrite IH, Bool.andb_assoc. reflexivity. Qed.

Lemma lacks_app : forall c a b, lacks c (a ++ b) <-> lacks c a /\ lacks c b.
Proof. intros c a b. unfold lacks. rewrite all_chars_app. apply andb_true_iff. Qed.

Lemma app_assoc_s : forall a b c : string, (a ++ b) ++ c = a ++ (b ++ c).
Proof. intros a b c. induction a as [|x a IH]; [reflexivity|]. cbn. rewrite IH. reflexivity. Qed.

Lemma app_nil_s : forall a : string, a ++ "" = a.
Proof. induction a as [|x a IH]; [reflexivity|]. cbn. rewrite IH. reflexivity. Qed.

Lemma cut_app : forall c a b, lacks c a -> cut c (a ++ String c b) = (a, Some b).
Proof.
  intros c a b. unfold lacks. induction a as [|x a IH]; intros H.
  - cbn. rewrite Ascii.eqb_refl. reflexivity.
  - cbn [all_chars] in H. apply andb_true_iff in H as [H1 H2]. cbn [append cut].
    destruct (Ascii.eqb x c); [discriminate|]. rewrite (IH H2). reflexivity.
Qed.

Lemma cut_lacks : forall c a, lacks c a -> cut c a = (a, None).
Proof.
  intros c a. unfold lacks. induction a as [|x a IH]; intros H; [reflexivity|].
  cbn [all_chars] in H. apply andb_true_iff in H as [H1 H2]. cbn [cut].
  destruct (Ascii.eqb x c); [discriminate|]. rewrite (IH H2). reflexivity.
Qed.

Lemma cut_spec : forall c s a b, cut c s = (a, b) ->
  lacks c a /\ match b with Some r => s = a ++ String c r | None => s = a end.
Proof.
  intros c s. induction s as [|x s IH]; intros a b H.
  - inversion H; subst. split; reflexivity.
  - cbn [cut] in H. destruct (Ascii.eqb x c) eqn:E.
    + inversion H; subst. apply Ascii.eqb_eq in E. subst x. split; reflexivity.
    + destruct (cut c s) as [a' b'] eqn:Ec. inversion H; subst.
      destruct (IH _ _ eq_refl) as [H1 H2]. split.
      * unfold lacks in *. cbn [all_chars]. rewrite E, H1. reflexivity.
      * destruct b as [r|]; cbn; rewrite H2 at 1; reflexivity.
Qed.

Lemma has_char_lacks : forall c s, has_char c s = false <-> lacks c s.
Proof.
  intros c s. unfold has_char. destruct (cut c s) as [a b] eqn:E.
  destruct (cut_spec _ _ _ _ E) as [H1 H2]. destruct b as [r|].
  - split; [discriminate|]. intros H. rewrite (cut_lacks c s H) in E. discriminate.
  - subst a. split; auto.
Qed.

Lemma split_app : forall c a b, lacks c a -> split_on c (a ++ String c b) = a :: split_on c b.
Proof.
  intros c a b. unfold lacks. induction a as [|x a IH]; intros H.
  - cbn. rewrite Ascii.eqb_refl. reflexivity.
  - cbn [all_chars] in H. apply andb_true_iff in H as [H1 H2]. cbn [append split_on].
    destruct (Ascii.eqb x c); [discriminate|]. rewrite (IH H2). reflexivity.
Qed.

Lemma split_lacks : forall c a, lacks c a -> split_on c a = [a].
Proof.
  intros c a. unfold lacks. induction a as [|x a IH]; intros H; [reflexivity|].
  cbn [all_chars] in H. apply andb_true_iff in H as [H1 H2]. cbn [split_on].
  destruct (Ascii.eqb x c); [discriminate|]. rewrite (IH H2). reflexivity.
Qed.

Lemma split_not_nil : forall c a, split_on c a <> [].
Proof.
  intros c a. destruct a as [|x a]; cbn; [discriminate|].
  destruct (Ascii.eqb x c); [discriminate|]. destruct (split_on c a); discriminate.
Qed.

(** without the condition on the first part *)
Lemma split_app_any : forall c a b, split_on c (a ++ String c b) = (split_on c a ++ split_on c b)%list.
Proof.
  intros c a b. induction a as [|x a IH].
  - cbn. rewrite Ascii.eqb_refl. reflexivity.
  - cbn [append split_on]. rewrite IH. destruct (Ascii.eqb x c); [reflexivity|].
    pose proof (split_not_nil c a) as N. destruct (split_on c a) as [|y ys]; [congruence|]. reflexivity.
Qed.

Definition pair_text (kv : string * string) : string := quote_plus (fst kv) ++ "=" ++ quote_plus (snd kv).

Lemma lacks_quote : forall c s, reserved c = true -> lacks c (quote_plus s).
Proof. intros c s H. apply plain_lacks; [exact H|apply plain_quote]. Qed.

Lemma pair_text_lacks : forall c kv, reserved c = true -> Ascii.eqb "=" c = false -> lacks c (pair_text kv).
Proof.
  intros c [k v] H E. unfold pair_text. cbn [fst snd]. apply lacks_app; split; [apply lacks_quote; exact H|].
  apply (proj2 (lacks_app c "=" (quote_plus v))). split; [|apply lacks_quote; exact H].
  unfold lacks. cbn [all_chars]. rewrite E. reflexivity.
Qed.

Lemma parse_pair_text : forall kv, parse_pair (pair_text kv) = kv.
Proof.
  intros [k v]. unfold parse_pair, pair_text. cbn [fst snd append].
  rewrite cut_app by (apply lacks_quote; reflexivity). rewrite !unquote_quote. reflexivity.
Qed.

Lemma pair_text_nonempty : forall kv, String.eqb (pair_text kv) "" = false.
Proof.
  intros [k v]. unfold pair_text. cbn [fst snd]. destruct (quote_plus k); reflexivity.
Qed.

Lemma urlencode_cons : forall kv kv' ps,
  urlencode (kv :: kv' :: ps) = pair_text kv ++ "&" ++ urlencode (kv' :: ps).
Proof.
  intros [k v] [k' v'] ps. unfold pair_text. cbn [fst snd].
  rewrite !app_assoc_s. reflexivity.
Qed.

Lemma split_urlencode : forall ps, ps <> [] -> split_on "&" (urlencode ps) = map pair_text ps.
Proof.
  intros ps. induction ps as [|kv ps IH]; [congruence|]. intros _. destruct ps as [|kv' ps].
  - destruct kv as [k v]. cbn [map]. apply (split_lacks "&" (pair_text (k, v))). apply pair_text_lacks; reflexivity.
  - rewrite urlencode_cons. cbn [append]. rewrite split_app by (apply pair_text_lacks; reflexivity).
    rewrite IH by discriminate. reflexivity.
Qed.

Lemma parse_urlencode : forall ps, parse_qsl (urlencode ps) = ps.
Proof.
  intros ps. destruct ps as [|kv ps]; [reflexivity|].
  unfold parse_qsl. rewrite split_urlencode by discriminate. generalize (kv :: ps). clear. intros l.
  induction l as [|kv l IH]; [reflexivity|]. cbn [map filter].
  rewrite pair_text_nonempty. cbn [negb map]. rewrite parse_pair_text, IH. reflexivity.
Qed.

(** appended to a query there is already *)
Lemma parse_append : forall q ps, parse_qsl (q ++ "&" ++ urlencode ps) = (parse_qsl q ++ ps)%list.
Proof.
  intros q ps. unfold parse_qsl at 1. cbn [append]. rewrite split_app_any, filter_app, map_app.
  change (map parse_pair (filter (fun nv => negb (nv =? "")) (split_on "&" (urlencode ps)))) with (parse_qsl (urlencode ps)).
  rewrite parse_urlencode. reflexivity.
Qed.

Lemma urlencode_lacks : forall c ps, reserved c = true -> Ascii.eqb "=" c = false -> Ascii.eqb "&" c = false ->
  lacks c (urlencode ps).
Proof.
  intros c ps H1 H2 H3. induction ps as [|kv ps IH]; [reflexivity|]. destruct ps as [|kv' ps].
  - destruct kv as [k v]. apply (pair_text_lacks c (k, v)); assumption.
  - rewrite urlencode_cons. apply lacks_app. split; [apply pair_text_lacks; assumption|].
    apply (proj2 (lacks_app c "&" _)). split; [|exact IH]. unfold lacks. cbn [all_chars]. rewrite H3. reflexivity.
Qed.

(** ---- the parts of an entity identifier ---- *)

Lemma lower_id : forall s, all_chars is_lower s = true -> lower s = s.
Proof.
  induction s as [|c s IH]; intros H; [reflexivity|]. cbn [all_chars] in H. apply andb_true_iff in H as [H1 H2].
  cbn [lower]. rewrite (IH H2). f_equal.
  destruct c as [b0 b1 b2 b3 b4 b5 b6 b7]. destruct b0, b1, b2, b3, b4, b5, b6, b7; first [discriminate|reflexivity].
Qed.

Lemma lower_scheme_char : forall c, is_lower c = true -> scheme_char c = true.
Proof. intros c H. unfold scheme_char. rewrite H. rewrite Bool.orb_true_r. reflexivity. Qed.

Lemma lower_not_colon : forall c, is_lower c = true -> Ascii.eqb c ":" = false.
Proof.
  intros [b0 b1 b2 b3 b4 b5 b6 b7] H. destruct b0, b1, b2, b3, b4, b5, b6, b7; first [discriminate|reflexivity].
Qed.

Lemma all_chars_impl : forall (p q : ascii -> bool) s, (forall c, p c = true -> q c = true) ->
  all_chars p s = true -> all_chars q s = true.
Proof.
  intros p q s Hpq. induction s as [|c s IH]; intros H; [reflexivity|].
  cbn [all_chars] in *. apply andb_true_iff in H as [H1 H2]. rewrite (Hpq _ H1), (IH H2). reflexivity.
Qed.

Lemma split_scheme_ok : forall scheme rest, scheme <> "" -> all_chars is_lower scheme = true ->
  split_scheme (scheme ++ ":" ++ rest) = (scheme, rest).
Proof.
  intros scheme rest N H. unfold split_scheme. cbn [append].
  rewrite cut_app.
  2:{ unfold lacks. apply (all_chars_impl is_lower); [|exact H]. intros c Hc. rewrite (lower_not_colon c Hc). reflexivity. }
  destruct scheme as [|c s]; [congruence|].
  rewrite (all_chars_impl is_lower scheme_char _ lower_scheme_char H).
  cbn [all_chars] in H. apply andb_true_iff in H as [H1 H2].
  rewrite H1, Bool.orb_true_r. cbn [andb].
  rewrite lower_id; [reflexivity|]. cbn [all_chars]. rewrite H1, H2. reflexivity.
Qed.

Definition host_char (c : ascii) : bool := negb (Ascii.eqb c "/" || Ascii.eqb c "?" || Ascii.eqb c "#").

Lemma split_netloc_ok : forall host path, all_chars host_char host = true ->
  (path = "" \/ exists p, path = String "/" p) -> split_netloc (host ++ path) = (host, path).
Proof.
  intros host path H P. induction host as [|c host IH].
  - cbn [append]. destruct P as [->|[p ->]]; reflexivity.
  - cbn [all_chars] in H. apply andb_true_iff in H as [H1 H2]. cbn [append split_netloc].
    unfold host_char in H1. apply Bool.negb_true_iff in H1. rewrite H1, (IH H2). reflexivity.
Qed.

Lemma strip_params_lacks : forall s, lacks ";" s -> strip_params s = s.
Proof.
  unfold lacks. induction s as [|c s IH]; intros H; [reflexivity|].
  cbn [all_chars] in H. apply andb_true_iff in H as [H1 H2]. cbn [strip_params].
  destruct (Ascii.eqb c ";"); [discriminate|]. rewrite (IH H2). reflexivity.
Qed.

Lemma urlparse_ok : forall scheme host path, scheme <> "" -> all_chars is_lower scheme = true ->
  all_chars host_char host = true -> (path = "" \/ exists p, path = String "/" p) ->
  lacks "?" path -> lacks "#" path -> lacks ";" path ->
  urlparse (scheme ++ "://" ++ host ++ path) = mkParsed scheme host path.
Proof.
  intros scheme host path N Hs Hh Hp L1 L2 L3. unfold urlparse.
  change ("://" ++ host ++ path) with (":" ++ ("//" ++ host ++ path)).
  rewrite split_scheme_ok by assumption. cbn [append].
  change (Ascii.eqb "/" "/" && Ascii.eqb "/" "/") with true. cbv iota.
  rewrite split_netloc_ok by assumption. cbv beta iota zeta.
  rewrite (cut_lacks "#" path L2). cbn [fst]. rewrite (cut_lacks "?" path L1). cbn [fst].
  rewrite (strip_params_lacks _ L3). destruct (uses_params scheme); reflexivity.
Qed.

(** ---- requests that end in a query ---- *)

Lemma cut_some_lacks : forall c a b, cut c (a ++ b) =
  match cut c a with
  | (x, Some r) => (x, Some (r ++ b))
  | (x, None) => let (y, r) := cut c b in (a ++ y, r)
  end.
Proof.
  intros c a b. induction a as [|x a IH].
  - cbn. destruct (cut c b); reflexivity.
  - cbn [append cut]. destruct (Ascii.eqb x c); [reflexivity|]. rewrite IH.
    destruct (cut c a) as [y [r|]]; [reflexivity|]. destruct (cut c b); reflexivity.
Qed.

Lemma sees_query : forall loc ps, lacks "?" loc -> lacks "#" loc ->
  server_sees (loc ++ "?" ++ urlencode ps) = (loc, ps).
Proof.
  intros loc ps H1 H2. unfold server_sees.
  rewrite (cut_lacks "#").
  2:{ apply lacks_app; split; [exact H2|]. apply (proj2 (lacks_app "#" "?" _)).
      split; [reflexivity|apply urlencode_lacks; reflexivity]. }
  cbn [append]. rewrite cut_app by exact H1. rewrite parse_urlencode. reflexivity.
Qed.

Lemma sees_message : forall loc ps, lacks "#" loc ->
  server_sees (message_request loc ps) = (fst (server_sees loc), (snd (server_sees loc) ++ ps)%list).
Proof.
  intros loc ps H. unfold message_request. destruct (has_char "?" loc) eqn:E.
  - unfold has_char in E. destruct (cut "?" loc) as [a [q|]] eqn:Ec; [|discriminate].
    destruct (cut_spec _ _ _ _ Ec) as [L ->]. unfold server_sees.
    rewrite (cut_lacks "#" (a ++ String "?" q) H). rewrite (cut_app "?" a q L). cbn [fst snd].
    rewrite (cut_lacks "#").
    2:{ apply lacks_app; split; [exact H|]. apply (proj2 (lacks_app "#" "&" _)).
        split; [reflexivity|apply urlencode_lacks; reflexivity]. }
    rewrite app_assoc_s. cbn [append]. rewrite (cut_app "?" a _ L).
    change (String "&" (urlencode ps)) with ("&" ++ urlencode ps). rewrite parse_append. reflexivity.
  - apply has_char_lacks in E. rewrite sees_query by assumption.
    unfold server_sees. rewrite (cut_lacks "#" loc H), (cut_lacks "?" loc E). reflexivity.
Qed.

(** the last occurrence decides where a string with a plain end is taken apart *)
Lemma cut_last : forall c a1 a2 b1 b2, lacks c b1 -> lacks c b2 ->
  a1 ++ String c b1 = a2 ++ String c b2 -> a1 = a2 /\ b1 = b2.
Proof.
  intros c a1. induction a1 as [|x a1 IH]; intros a2 b1 b2 H1 H2 E.
  - destruct a2 as [|y a2]; cbn in E; inversion E; subst; [split; reflexivity|].
    exfalso. apply lacks_app in H1 as [_ H1]. unfold lacks in H1. cbn [all_chars] in H1.
    rewrite Ascii.eqb_refl in H1. discriminate.
  - destruct a2 as [|y a2]; cbn in E; inversion E; subst.
    + exfalso. apply lacks_app in H2 as [_ H2]. unfold lacks in H2. cbn [all_chars] in H2.
      rewrite Ascii.eqb_refl in H2. discriminate.
    + destruct (IH _ _ _ H1 H2 H3) as [-> ->]. split; reflexivity.
Qed.

Lemma quote_inj : forall s t, quote_plus s = quote_plus t -> s = t.
Proof. intros s t H. rewrite <- (unquote_quote s), <- (unquote_quote t), H. reflexivity. Qed.

Lemma app_inv_tail_s : forall a1 a2 b, a1 ++ b = a2 ++ b -> a1 = a2.
Proof.
  assert (len : forall a b, String.length (a ++ b) = (String.length a + String.length b)%nat)
    by (induction a; cbn; auto).
  induction a1 as [|x a1 IH]; intros a2 b E; destruct a2 as [|y a2]; [reflexivity| | |].
  - exfalso. apply (f_equal String.length) in E. rewrite !len in E. cbn in E. lia.
  - exfalso. apply (f_equal String.length) in E. rewrite !len in E. cbn in E. lia.
  - cbn in E. inversion E; subst. f_equal. eapply IH; eassumption.
Qed.
