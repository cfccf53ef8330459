(** C150: what the client asks for is what the server is asked for.
    C151: the configuration of an entity is looked for where it is. *)
From Verif Require Import UrlModel UrlFacts PyFacts CollectorModel.
From Coq Require Import Ascii.

Local Open Scope string_scope.

(** ---- C150 ---- *)

(** a request for [url] is one to the location of [ep], with the parameters of [ep] and [ps] *)
Definition asks (url ep : string) (ps : list (string * string)) : Prop :=
  server_sees url = (fst (server_sees ep), (snd (server_sees ep) ++ ps)%list).

(** [ps] has exactly the arguments with the given names *)
Definition exactly (names : list string) (args : dict string) (ps : list (string * string)) : Prop :=
  NoDup (map fst ps) /\ forall k v, In (k, v) ps <-> In k names /\ dget k args = Some v /\ v <> "".

Definition list_filters : list string := ["entity_type"; "trust_marked"; "trust_mark_id"; "intermediate"].

Definition C150_full : Prop :=
  (forall ep iss sub, lacks "#" ep -> iss <> "" -> sub <> "" ->
     asks (fetch_url ep iss sub) ep [("iss", iss); ("sub", sub)]) /\
  (forall ep kwargs, lacks "#" ep ->
     exists ps, exactly list_filters kwargs ps /\ asks (list_url ep kwargs) ep ps).

Theorem C150_query_refuted : ~ C150_full.
Proof.
  intros [_ H]. destruct (H "https://ta.example/list?tenant=1" [("entity_type", "openid_provider")] eq_refl)
    as [ps [_ A]]. unfold asks in A.
  assert (B : snd (server_sees (list_url "https://ta.example/list?tenant=1" [("entity_type", "openid_provider")]))
              = (("tenant", "1") :: ps)%list) by (rewrite A; reflexivity).
  revert B. vm_compute. discriminate.
Qed.
Print Assumptions C150_query_refuted.

Lemma sees_plain : forall ep, lacks "?" ep -> lacks "#" ep -> server_sees ep = (ep, []).
Proof. intros ep H1 H2. unfold server_sees. rewrite (cut_lacks "#" ep H2), (cut_lacks "?" ep H1). reflexivity. Qed.

Lemma asks_plain : forall ep ps, lacks "?" ep -> lacks "#" ep -> asks (ep ++ "?" ++ urlencode ps) ep ps.
Proof. intros ep ps H1 H2. unfold asks. rewrite (sees_query ep ps H1 H2), (sees_plain ep H1 H2). reflexivity. Qed.

(** entity statements: whatever the endpoint looks like, issuer and subject arrive as they are *)
Theorem C150_fetch_partial : forall ep iss sub, lacks "#" ep -> iss <> "" -> sub <> "" ->
  asks (fetch_url ep iss sub) ep [("iss", iss); ("sub", sub)].
Proof.
  intros ep iss sub H Hi Hs. unfold fetch_url.
  apply String.eqb_neq in Hi, Hs. rewrite Hi, Hs. apply sees_message; exact H.
Qed.
Print Assumptions C150_fetch_partial.

Lemma snoc_inj : forall a1 a2 x y, a1 ++ String x "" = a2 ++ String y "" -> a1 = a2 /\ x = y.
Proof.
  induction a1 as [|c a1 IH]; intros a2 x y E; destruct a2 as [|d a2]; cbn in E; inversion E; subst.
  - split; reflexivity.
  - destruct a2; discriminate.
  - destruct a1; discriminate.
  - destruct (IH _ _ _ H1) as [-> ->]. split; reflexivity.
Qed.

(** no two requests for statements are the same *)
Theorem C150_distinct_partial : forall ep iss sub ep' iss' sub',
  iss <> "" -> sub <> "" -> iss' <> "" -> sub' <> "" ->
  fetch_url ep iss sub = fetch_url ep' iss' sub' -> ep = ep' /\ iss = iss' /\ sub = sub'.
Proof.
  intros ep iss sub ep' iss' sub' H1 H2 H3 H4.
  set (mark := fun e : string => if has_char "?" e then "&"%char else "?"%char).
  assert (shape : forall e i s, i <> "" -> s <> "" ->
            fetch_url e i s = (((e ++ String (mark e) "") ++ "iss") ++ String "=" (quote_plus i ++ "&sub")) ++ String "=" (quote_plus s)).
  { intros e i s Hi Hs. unfold fetch_url. apply String.eqb_neq in Hi, Hs. rewrite Hi, Hs.
    unfold message_request, mark. destruct (has_char "?" e); rewrite !app_assoc_s; cbn [append urlencode];
      rewrite !app_assoc_s; reflexivity. }
  rewrite (shape _ _ _ H1 H2), (shape _ _ _ H3 H4). intros E.
  apply cut_last in E; try (apply lacks_quote; reflexivity). destruct E as [E Es].
  apply quote_inj in Es.
  change (String "=" (quote_plus iss ++ "&sub")) with (("=" ++ quote_plus iss) ++ "&sub") in E.
  change (String "=" (quote_plus iss' ++ "&sub")) with (("=" ++ quote_plus iss') ++ "&sub") in E.
  rewrite <- !(app_assoc_s _ ("=" ++ _) "&sub") in E. apply app_inv_tail_s in E. cbn [append] in E.
  apply cut_last in E; try (apply lacks_quote; reflexivity). destruct E as [E Ei].
  apply quote_inj in Ei. apply app_inv_tail_s in E. apply snoc_inj in E as [E _]. auto.
Qed.
Print Assumptions C150_distinct_partial.

(** resolve requests *)
Theorem C150_resolve_partial : forall ep sub anchor typ url, lacks "#" ep ->
  resolve_url ep sub anchor typ = Ok url ->
  asks url ep ([("sub", sub); ("anchor", anchor)] ++ match typ with Some t => [("type", t)] | None => [] end).
Proof.
  intros ep sub anchor typ url H E. unfold resolve_url in E. destruct (String.eqb ep ""); [discriminate|].
  inversion E; subst. apply sees_message; exact H.
Qed.
Print Assumptions C150_resolve_partial.

(** list requests, if the endpoint has no query of its own *)
Theorem C150_list_partial : forall ep kwargs, lacks "?" ep -> lacks "#" ep ->
  exists ps, exactly list_filters kwargs ps /\ asks (list_url ep kwargs) ep ps.
Proof.
  intros ep kwargs H1 H2. unfold list_url.
  set (pick := fun arg => match dget arg kwargs with
                          | Some v => if String.eqb v "" then [] else [(arg, v)]
                          | None => []
                          end).
  exists (flat_map pick list_filters). split.
  - split.
    + assert (P : forall l, NoDup l -> NoDup (map fst (flat_map pick l)) /\ incl (map fst (flat_map pick l)) l).
      { induction l as [|a l IH]; intros N; [split; [constructor|intros x Hx; destruct Hx]|].
        inversion N as [|? ? N1 N2]; subst. destruct (IH N2) as [I1 I2]. cbn [flat_map]. rewrite map_app.
        unfold pick at 1 3. destruct (dget a kwargs) as [v|]; [destruct (String.eqb v "")|]; cbn [map app fst].
        - split; [exact I1|]. intros x Hx. right. apply I2; exact Hx.
        - split; [constructor; [intros Hx; apply N1, I2, Hx|exact I1]|].
          intros x [<-|Hx]; [left; reflexivity|right; apply I2; exact Hx].
        - split; [exact I1|]. intros x Hx. right. apply I2; exact Hx. }
      apply P. unfold list_filters. repeat constructor; cbn; intuition discriminate.
    + intros k v. rewrite in_flat_map. split.
      * intros [a [Ha Hp]]. unfold pick in Hp. destruct (dget a kwargs) as [w|] eqn:E; [|destruct Hp].
        destruct (String.eqb w "") eqn:Ew; [destruct Hp|]. destruct Hp as [Hp|[]]. inversion Hp; subst.
        apply String.eqb_neq in Ew. auto.
      * intros (Hk & Hd & Hv). exists k. split; [exact Hk|]. unfold pick. rewrite Hd.
        apply String.eqb_neq in Hv. rewrite Hv. left; reflexivity.
  - change (flat_map _ ["entity_type"; "trust_marked"; "trust_mark_id"; "intermediate"])
      with (flat_map pick list_filters).
    destruct (flat_map pick list_filters) as [|p ps] eqn:E; cbn [is_nil].
    + unfold asks. rewrite app_nil_r. destruct (server_sees ep); reflexivity.
    + apply asks_plain; assumption.
Qed.
Print Assumptions C150_list_partial.

(** trust marks: those who have one, and the status of one *)
Theorem C150_marks_partial : forall ep args url, lacks "?" ep -> lacks "#" ep -> NoDup (map fst args) ->
  (trust_mark_list_url ep args = Ok url ->
   exists ps, asks url ep ps /\ forall k v, In (k, v) ps <-> k = "trust_mark_id" /\ dget k args = Some v) /\
  (forall payload_iss, dget "trust_mark" args = None -> trust_mark_status_url payload_iss ep args = Ok url ->
   exists ps, asks url ep ps /\
     forall k v, In (k, v) ps <-> In k ["sub"; "trust_mark_id"; "iat"] /\ dget k args = Some v).
Proof.
  intros ep args url H1 H2 N.
  assert (P : forall (f : string -> bool) k v,
             In (k, v) (filter (fun kv => f (fst kv)) args) <-> f k = true /\ dget k args = Some v).
  { intros f k v. rewrite filter_In. cbn [fst]. split; intros [A B]; split; auto.
    - apply In_dget_nodup; assumption.
    - apply dget_In; assumption. }
  split.
  - unfold trust_mark_list_url. destruct (String.eqb ep ""); [discriminate|]. intros E; inversion E; subst.
    eexists. split; [apply asks_plain; assumption|]. intros k v.
    rewrite (P (fun x => String.eqb x "trust_mark_id")). rewrite String.eqb_eq. reflexivity.
  - intros pi Hn. unfold trust_mark_status_url. rewrite Hn. destruct (String.eqb ep ""); [discriminate|].
    intros E; inversion E; subst.
    eexists. split; [apply asks_plain; assumption|]. intros k v.
    rewrite (P (fun x => smem x ["sub"; "trust_mark_id"; "iat"])). rewrite smem_In. reflexivity.
Qed.
Print Assumptions C150_marks_partial.

(** a status request with the trust mark itself goes to what the trust mark calls its issuer, whatever the endpoint is *)
Definition C150_status_full : Prop := forall payload_iss ep args url, lacks "?" ep -> lacks "#" ep ->
  trust_mark_status_url payload_iss ep args = Ok url -> fst (server_sees url) = ep.

Theorem C150_status_refuted : ~ C150_status_full.
Proof.
  intros H. specialize (H (fun _ => Ok "https://tmi.example") "https://tmi.example/status"
    [("trust_mark", "eyJ")] "https://tmi.example?trust_mark=eyJ" eq_refl eq_refl eq_refl).
  revert H. vm_compute. discriminate.
Qed.
Print Assumptions C150_status_refuted.

Example C150_ex :
  fetch_url "https://ta.example/fetch?v=1" "https://ta.example" "https://op.example/a b&sub=x" =
    "https://ta.example/fetch?v=1&iss=https%3A%2F%2Fta.example&sub=https%3A%2F%2Fop.example%2Fa+b%26sub%3Dx" /\
  asks (fetch_url "https://ta.example/fetch?v=1" "https://ta.example" "https://op.example/a b&sub=x")
    "https://ta.example/fetch?v=1" [("iss", "https://ta.example"); ("sub", "https://op.example/a b&sub=x")] /\
  asks (list_url "https://ta.example/list" [("entity_type", "a&intermediate=True"); ("other", "x")])
    "https://ta.example/list" [("entity_type", "a&intermediate=True")].
Proof. split; [vm_compute; reflexivity|]. split; vm_compute; reflexivity. Qed.

(** ---- C151 ---- *)

(** the parts of an identifier *)
Record site := mkSite { si_scheme : string; si_host : string; si_path : string }.

Definition well_formed (i : site) : Prop :=
  si_scheme i <> "" /\ all_chars is_lower (si_scheme i) = true /\ all_chars host_char (si_host i) = true /\
  (si_path i = "" \/ exists p, si_path i = String "/" p) /\
  lacks "?" (si_path i) /\ lacks "#" (si_path i) /\ lacks ";" (si_path i).

Definition id_of (i : site) : string := si_scheme i ++ "://" ++ si_host i ++ si_path i.

Fixpoint without_slash (s : string) : string :=
  match s with
  | EmptyString => EmptyString
  | String c s' => match s' with
                   | EmptyString => if Ascii.eqb c "/" then EmptyString else s
                   | _ => String c (without_slash s')
                   end
  end.

(** where an entity publishes its configuration, by the specification *)
Definition published_at (id : string) : string := without_slash id ++ "/.well-known/openid-federation".

Definition wk (id : string) : string := construct_well_known_url id "openid-federation".
Definition tenant (id : string) : string := construct_tenant_well_known_url id "openid-federation".

(** the collector with the URLs of the client *)
Definition with_urls (E : cenv) : Prop := (forall id, e_wk E id = wk id) /\ (forall id, e_tenant E id = tenant id).

(** the documents there are: nothing but configurations where they are published *)
Definition serves (E : cenv) (docs : string -> option token) : Prop :=
  forall n url, e_net E n (QDoc url) = match docs url with Some t => RText (Some t) | None => R404 end.

Definition C151_full : Prop := forall E docs i t s, with_urls E -> serves E docs -> well_formed i ->
  docs (published_at (id_of i)) = Some t ->
  exists s', get_entity_configuration E (id_of i) s = (s', Ok (Some t)).

Lemma wk_of : forall i, well_formed i ->
  wk (id_of i) = si_scheme i ++ "://" ++ si_host i ++ "/.well-known/openid-federation".
Proof.
  intros i (A & B & C & D & F & G & H). unfold wk, construct_well_known_url, id_of.
  rewrite urlparse_ok by assumption. reflexivity.
Qed.

Lemma tenant_of : forall i, well_formed i -> tenant (id_of i) = id_of i ++ "/.well-known/openid-federation".
Proof.
  intros i (A & B & C & D & F & G & H). unfold tenant, construct_tenant_well_known_url, id_of.
  rewrite urlparse_ok by assumption. cbn [u_scheme u_netloc u_path]. rewrite !app_assoc_s. reflexivity.
Qed.

(** entities that share a host are asked for at the same place *)
Theorem C151_shared : forall scheme host p q,
  well_formed (mkSite scheme host p) -> well_formed (mkSite scheme host q) ->
  wk (id_of (mkSite scheme host p)) = wk (id_of (mkSite scheme host q)).
Proof. intros scheme host p q H1 H2. rewrite (wk_of _ H1), (wk_of _ H2). reflexivity. Qed.
Print Assumptions C151_shared.

(** and whoever has the host without a path answers for all of them *)
Theorem C151_shadowed : forall E docs i s d, with_urls E -> serves E docs -> well_formed i ->
  docs (published_at (si_scheme i ++ "://" ++ si_host i)) = Some d ->
  all_chars host_char (si_host i) = true -> si_host i <> "" ->
  exists s', get_entity_configuration E (id_of i) s = (s', Ok (Some d)).
Proof.
  intros E docs i s d [U1 U2] Hs W Hd Hh Hn. unfold get_entity_configuration, get_document. rewrite U1.
  rewrite Hs. rewrite (wk_of i W).
  assert (P : without_slash (si_scheme i ++ "://" ++ si_host i) = si_scheme i ++ "://" ++ si_host i).
  { clear -Hh Hn. assert (Q : forall a b, b <> "" -> without_slash (a ++ b) = a ++ without_slash b).
    { intros a b Hb. induction a as [|c a IH]; [reflexivity|]. cbn [append without_slash].
      rewrite IH. destruct a; cbn [append]; [destruct b; [congruence|reflexivity]|reflexivity]. }
    rewrite Q by (destruct (si_host i); discriminate). f_equal.
    rewrite (Q "://") by exact Hn. f_equal. induction (si_host i) as [|c h IH]; [congruence|].
    cbn [all_chars] in Hh. apply andb_true_iff in Hh as [H1 H2]. cbn [without_slash].
    destruct h as [|c' h]; [|rewrite IH; [reflexivity|exact H2|discriminate]].
    unfold host_char in H1. destruct (Ascii.eqb c "/"); [discriminate|reflexivity]. }
  unfold published_at in Hd. rewrite P in Hd. rewrite !app_assoc_s in Hd. rewrite Hd. eexists. reflexivity.
Qed.
Print Assumptions C151_shadowed.

Lemma without_slash_app : forall a b, b <> "" -> without_slash (a ++ b) = a ++ without_slash b.
Proof.
  intros a b Hb. induction a as [|c a IH]; [reflexivity|]. cbn [append without_slash].
  rewrite IH. destruct a; cbn [append]; [destruct b; [congruence|reflexivity]|reflexivity].
Qed.

(** an identifier without a path leads to its own configuration *)
Theorem C151_sites_partial : forall E docs i t s, with_urls E -> serves E docs -> well_formed i ->
  si_host i <> "" -> (si_path i = "" \/ si_path i = "/") ->
  docs (published_at (id_of i)) = Some t ->
  exists s', get_entity_configuration E (id_of i) s = (s', Ok (Some t)).
Proof.
  intros E docs i t s U Hs W Hn Hp Hd.
  assert (Hh : all_chars host_char (si_host i) = true) by apply W.
  apply (C151_shadowed E docs i s t U Hs W); try assumption.
  destruct Hp as [Hp|Hp]; unfold id_of in Hd; rewrite Hp in Hd.
  - rewrite app_nil_s in Hd. exact Hd.
  - unfold published_at in *.
    replace (without_slash (si_scheme i ++ "://" ++ si_host i)) with (si_scheme i ++ "://" ++ si_host i).
    + rewrite <- (app_assoc_s (si_scheme i)), <- (app_assoc_s _ (si_host i)) in Hd.
      rewrite without_slash_app in Hd by discriminate. cbn [without_slash] in Hd.
      change (Ascii.eqb "/" "/") with true in Hd. cbv iota in Hd. rewrite app_nil_s in Hd.
      rewrite !app_assoc_s in *. exact Hd.
    + clear -Hh Hn. rewrite without_slash_app by (destruct (si_host i); discriminate). f_equal.
      rewrite (without_slash_app "://") by exact Hn. f_equal.
      induction (si_host i) as [|c h IH]; [congruence|].
      cbn [all_chars] in Hh. apply andb_true_iff in Hh as [H1 H2]. cbn [without_slash].
      destruct h as [|c' h]; [|rewrite <- IH; [reflexivity|discriminate|exact H2]].
      unfold host_char in H1. destruct (Ascii.eqb c "/"); [discriminate|reflexivity].
Qed.
Print Assumptions C151_sites_partial.

(** one with a path does, as long as its host has none to show and it does not end in a slash *)
Theorem C151_tenants_partial : forall E docs i t s, with_urls E -> serves E docs -> well_formed i ->
  si_path i <> "" -> without_slash (si_path i) = si_path i ->
  docs (published_at (si_scheme i ++ "://" ++ si_host i ++ "/")) = None ->
  docs (published_at (id_of i)) = Some t ->
  exists s', get_entity_configuration E (id_of i) s = (s', Ok (Some t)).
Proof.
  intros E docs i t s [U1 U2] Hs W Hp Hw Hno Hd.
  assert (P : published_at (id_of i) = id_of i ++ "/.well-known/openid-federation").
  { unfold published_at, id_of. rewrite without_slash_app by (destruct (si_host i); discriminate).
    rewrite (without_slash_app "://") by (destruct (si_host i); [exact Hp|discriminate]).
    rewrite (without_slash_app (si_host i)) by exact Hp. rewrite Hw. reflexivity. }
  rewrite P in Hd.
  assert (Q : published_at (si_scheme i ++ "://" ++ si_host i ++ "/") = wk (id_of i)).
  { rewrite (wk_of i W). unfold published_at. rewrite <- (app_assoc_s "://").
    rewrite <- app_assoc_s. rewrite without_slash_app by discriminate. cbn [without_slash].
    change (Ascii.eqb "/" "/") with true. cbv iota. rewrite app_nil_s, !app_assoc_s. reflexivity. }
  rewrite Q in Hno.
  unfold get_entity_configuration, get_document. rewrite U1, U2, Hs, Hno, (tenant_of i W).
  destruct (String.eqb (id_of i ++ "/.well-known/openid-federation") (wk (id_of i))) eqn:Eq.
  - apply String.eqb_eq in Eq. rewrite Eq, Hno in Hd. discriminate.
  - rewrite Hs, Hd. eexists. reflexivity.
Qed.
Print Assumptions C151_tenants_partial.

Definition ex_docs (url : string) : option token :=
  if String.eqb url "https://host.example/.well-known/openid-federation" then
    Some (TJws 1 (mkStmt "https://host.example" "https://host.example" None None None None None None))
  else if String.eqb url "https://host.example/t/.well-known/openid-federation" then
    Some (TJws 2 (mkStmt "https://host.example/t" "https://host.example/t" None None None None None None))
  else if String.eqb url "https://many.example/u/.well-known/openid-federation" then
    Some (TJws 3 (mkStmt "https://many.example/u" "https://many.example/u" None None None None None None))
  else None.

Definition ex_env : cenv := mkEnv 300 []
  (fun _ q => match q with
              | QDoc u => match ex_docs u with Some t => RText (Some t) | None => R404 end
              | QFetch _ _ _ => R404
              end) (fun _ => 0%Z) (mkLib (fun _ _ => true) false (fun _ _ => true)) wk tenant.

Lemma ex_env_ok : with_urls ex_env /\ serves ex_env ex_docs.
Proof. split; [split; reflexivity|]. intros n url. reflexivity. Qed.

Theorem C151_refuted : ~ C151_full.
Proof.
  intros H. destruct ex_env_ok as [U S].
  destruct (H ex_env ex_docs (mkSite "https" "host.example" "/t")
              (TJws 2 (mkStmt "https://host.example/t" "https://host.example/t" None None None None None None))
              (mkState [] [] 0) U S) as [s' E].
  - repeat split; try discriminate; try reflexivity. right. exists "t". reflexivity.
  - vm_compute. reflexivity.
  - revert E. vm_compute. discriminate.
Qed.
Print Assumptions C151_refuted.

Example C151_ex :
  get_entity_configuration ex_env "https://host.example" (mkState [] [] 0) =
    (mkState [] [] 1, Ok (ex_docs "https://host.example/.well-known/openid-federation")) /\
  get_entity_configuration ex_env "https://many.example/u" (mkState [] [] 0) =
    (mkState [] [] 2, Ok (ex_docs "https://many.example/u/.well-known/openid-federation")) /\
  get_entity_configuration ex_env "https://host.example/t" (mkState [] [] 0) =
    (mkState [] [] 1, Ok (ex_docs "https://host.example/.well-known/openid-federation")).
Proof. split; [vm_compute; reflexivity|]. split; vm_compute; reflexivity. Qed.
