(** Lemmas about entities on the web: what requests of other people leave of the stores, and what a collector gets. *)
From Verif Require Import PyFacts UrlModel UrlFacts UrlProps.
From Verif Require Export HintFacts PublishFacts PublishProps ViewProps.
From Coq Require Import Lia.

Local Open Scope list_scope.

(** ** Requests and stores *)

Lemma service_state S (P : webpoint S) err get args s :
  fst (service_endpoint P err get args s) =
  match wp_parse P args with Ok (PqArgs a) => fst (wp_process P a s) | _ => s end.
Proof.
  unfold service_endpoint. destruct (wp_parse P args) as [[a|t]|e]; try reflexivity.
  destruct (wp_process P a s) as [s' [o|e]]; reflexivity.
Qed.

Lemma serve_app S h1 : forall h2 db, serve S (h1 ++ h2) db = serve S h2 (serve S h1 db).
Proof. induction h1 as [|[t q] h1 IH]; intros h2 db; [reflexivity|]. cbn [app serve]. apply IH. Qed.

Lemma with_own s : with_subs s (m_subs (si_m s)) = s.
Proof. destruct s as [m h]. destruct m. reflexivity. Qed.

Definition homes_of (F : list site) : list string := map (fun s => m_home (si_m s)) F.

(** no two sites with a fetch endpoint at the same place *)
Definition own_places (F : list site) : Prop := forall s s', In s F -> In s' F ->
  m_fetch (si_m s) = m_fetch (si_m s') -> m_fetch (si_m s) <> "" -> si_m s = si_m s'.

Section Traffic.
Context (file : string -> res val)
        (parse : string -> string -> dict string -> res parsed_request)
        (unauthorized : exn -> bool)
        (respond : string -> dict string -> outcome -> res info)
        (err_text : string -> exn -> string)
        (sign : key -> dict val -> string).

Notation serve_url := (serve_url file parse unauthorized respond err_text sign).
Notation traffic := (traffic file parse unauthorized respond err_text sign).

(** the request that reaches the fetch endpoint of [m], if one does *)
Definition reaching (homes : list string) (m : member) (r : Z * meth * string) : list (Z * freq) :=
  let (loc, ps) := server_sees (snd r) in
  if smem loc homes then []
  else if negb (String.eqb loc "") && String.eqb (m_fetch m) loc then
    match snd (fst r) with
    | OtherMethod => []
    | how => match parse (m_id m) "fetch" (match how with GET => ps | _ => [] end) with
             | Ok (PqArgs a) => [(fst (fst r), mkFreq (dget "iss" a) (dget "sub" a))]
             | _ => []
             end
    end
  else [].

Definition requests (homes : list string) (T : list (Z * meth * string)) (m : member) : list (Z * freq) :=
  flat_map (reaching homes m) T.

Definition after_requests (homes : list string) (T : list (Z * meth * string)) (s : site) : site :=
  with_subs s (serve (m_srv (si_m s)) (requests homes T (si_m s)) (m_subs (si_m s))).

Lemma fetch_state m now a db : fst (wp_process (fetch_point parse unauthorized respond sign m now) a db) =
  fst (fetch (m_srv m) now (mkFreq (dget "iss" a) (dget "sub" a)) db).
Proof. cbn [fetch_point wp_process]. destruct (fetch _ _ _ _). reflexivity. Qed.

Lemma smem_home F loc : smem loc (homes_of F) = match find (fun s => String.eqb (m_home (si_m s)) loc) F with Some _ => true | None => false end.
Proof.
  induction F as [|s F IH]; [reflexivity|]. cbn [homes_of map find]. unfold smem in *. cbn [existsb].
  rewrite (String.eqb_sym loc). destruct (String.eqb (m_home (si_m s)) loc); [reflexivity|exact IH].
Qed.

Lemma serve_url_state t how url F : own_places F ->
  fst (serve_url t how url F) = map (after_requests (homes_of F) [(t, how, url)]) F.
Proof.
  intros OP.
  assert (ID : forall G : site -> site, (forall s, In s F -> G s = s) -> F = map G F).
  { intros G H. rewrite <- (map_id F) at 1. apply map_ext_in. intros s Hs. symmetry. exact (H s Hs). }
  unfold ViewModel.serve_url, after_requests, requests. cbn [flat_map]. unfold reaching. cbn [fst snd].
  destruct (server_sees url) as [loc ps]. rewrite smem_home.
  destruct (find (fun s => String.eqb (m_home (si_m s)) loc) F) as [s0|].
  { apply ID. intros s _. apply with_own. }
  destruct (find (fun s => negb (String.eqb loc "") && String.eqb (m_fetch (si_m s)) loc) F) as [s0|] eqn:Ef.
  2:{ cbn [fst]. apply ID. intros s Hs. rewrite (find_none _ _ Ef s Hs). apply with_own. }
  apply find_some in Ef. destruct Ef as [Hs0 Ef]. apply andb_prop in Ef. destruct Ef as [Ne Ef]. rewrite Ne.
  apply Bool.negb_true_iff, String.eqb_neq in Ne. apply String.eqb_eq in Ef.
  assert (G : forall args, fst (let (db, p) := service_endpoint (fetch_point parse unauthorized respond sign (si_m s0) t) err_text
                              (match how with GET => true | _ => false end) args (m_subs (si_m s0)) in
                    (map (fun x => if String.eqb (m_fetch (si_m x)) loc then with_subs x db else x) F, p)) =
     map (fun s => with_subs s (serve (m_srv (si_m s))
        ((if true && String.eqb (m_fetch (si_m s)) loc then
            match parse (m_id (si_m s)) "fetch" args with
            | Ok (PqArgs a) => [(t, mkFreq (dget "iss" a) (dget "sub" a))] | _ => [] end else []) ++ []) (m_subs (si_m s)))) F).
  { intros args. destruct (service_endpoint _ _ _ args _) as [db p] eqn:Es. cbn [fst].
    assert (Hdb := service_state _ (fetch_point parse unauthorized respond sign (si_m s0) t) err_text
                     (match how with GET => true | _ => false end) args (m_subs (si_m s0))).
    rewrite Es in Hdb. cbn [fst fetch_point wp_parse] in Hdb. apply map_ext_in. intros x Hx. cbn [andb].
    destruct (String.eqb_spec (m_fetch (si_m x)) loc) as [El|Nl]; [|cbn [app serve]; symmetry; apply with_own].
    assert (Ex : si_m x = si_m s0) by (apply OP; [exact Hx|exact Hs0|congruence|congruence]). rewrite Ex, Hdb.
    destruct (parse (m_id (si_m s0)) "fetch" args) as [[a|tx]|e]; cbn [app serve]; [|reflexivity|reflexivity].
    rewrite fetch_state. reflexivity. }
  destruct how; cbn [fst] in G |- *.
  - apply G.
  - apply G.
  - apply ID. intros s _. destruct (true && _); apply with_own.
Qed.

Lemma after_nil homes s : after_requests homes [] s = s.
Proof. apply with_own. Qed.

Lemma after_cons homes r T s : after_requests homes (r :: T) s = after_requests homes T (after_requests homes [r] s).
Proof.
  unfold after_requests, requests. cbn [flat_map]. rewrite app_nil_r, serve_app. destruct s as [m h]. reflexivity.
Qed.

Lemma after_app homes T1 : forall T2 s, after_requests homes (T1 ++ T2) s = after_requests homes T2 (after_requests homes T1 s).
Proof.
  induction T1 as [|r T1 IH]; intros T2 s; [rewrite after_nil; reflexivity|].
  cbn [app]. rewrite after_cons, IH, (after_cons homes r T1). reflexivity.
Qed.

Lemma homes_after homes T F : homes_of (map (after_requests homes T) F) = homes_of F.
Proof. unfold homes_of. rewrite map_map. reflexivity. Qed.

Lemma places_after homes T F : own_places F -> own_places (map (after_requests homes T) F).
Proof.
  intros H s s' Hs Hs' He Hne. apply in_map_iff in Hs, Hs'. destruct Hs as (x & <- & Hx). destruct Hs' as (x' & <- & Hx').
  unfold after_requests, with_subs. cbn [si_m]. rewrite (H x x' Hx Hx' He Hne). reflexivity.
Qed.

Theorem traffic_stores : forall T F, own_places F -> traffic T F = map (after_requests (homes_of F) T) F.
Proof.
  induction T as [|[[t how] url] T IH]; intros F OP.
  - cbn [ViewModel.traffic fold_left]. unfold ViewModel.traffic. cbn [fold_left]. rewrite <- (map_id F) at 1.
    apply map_ext. intros s. symmetry. apply after_nil.
  - unfold ViewModel.traffic in *. cbn [fold_left fst snd]. rewrite serve_url_state by exact OP.
    rewrite IH by (apply places_after; exact OP). rewrite homes_after, map_map. apply map_ext.
    intros s. symmetry. apply after_cons.
Qed.

End Traffic.

(** ** Statements after other requests *)

Lemma serve_dicts S h db : dicts_ok S db -> dicts_ok S (serve S h db).
Proof.
  intros Hd. split; [|exact (proj2 Hd)]. intros sub e He. destruct e as [|x e]; [constructor|].
  assert (Ef : find_filled sub (serve S h db) = Some (x :: e)) by (apply find_filled_some; split; [exact He|discriminate]).
  assert (Hp : forall p, dget sub (fs_policy S) = Some p -> NoDup (dkeys p)) by (intros p; apply (proj2 Hd)).
  destruct (serve_entry S h sub Hp db) as [Eq|(e0 & i & E1 & _ & E3)].
  - rewrite Eq in Ef. apply find_filled_some in Ef. exact (proj1 Hd sub _ (proj1 Ef)).
  - rewrite E3 in Ef. injection Ef as <-. apply find_filled_some in E1. exact (kept_nodup S db i sub e0 Hd (proj1 E1)).
Qed.

Lemma kept_hints S i sub e : policies_ok S -> (forall p, dget sub (fs_policy S) = Some p -> NoDup (dkeys p)) ->
  dget "authority_hints" (kept S i sub e) =
  match dget "authority_hints" e with Some v => Some v | None => Some (VList [VStr i]) end.
Proof.
  intros Hp Hn. assert (Wh : dget "authority_hints" (with_hints i e) =
    match dget "authority_hints" e with Some v => Some v | None => Some (VList [VStr i]) end).
  { unfold with_hints, dmem. destruct (dget "authority_hints" e) as [v|] eqn:Ev; [exact Ev|]. apply dget_dset_same. }
  unfold kept, own_policy. destruct (find_filled sub (fs_policy S)) as [p|] eqn:Ep; [|exact Wh].
  apply find_filled_some in Ep. destruct Ep as [Ep _]. rewrite dget_dupdate by exact (Hn p Ep).
  destruct (dget "authority_hints" p) as [v|] eqn:Ev; [|exact Wh]. exfalso.
  destruct (Hp sub p "authority_hints" Ep (dget_In_key _ _ _ _ Ev)); discriminate.
Qed.

(** the superiors in a statement about somebody who was registered without *)
Lemma given_hints S now q db p : dicts_ok S db -> policies_ok S -> own_request S q = false ->
  (forall e, registered db (wanted S q) e -> dget "authority_hints" e = None \/ exists i, dget "authority_hints" e = Some (VList [VStr i])) ->
  snd (fetch S now q db) = Ok p -> exists i, dget "authority_hints" p = Some (VList [VStr i]).
Proof.
  intros Hd Hp Ho He H. destruct (fetch S now q db) as [db' r] eqn:Ef. cbn [snd] in H. subst r.
  destruct (fetch_inv _ _ _ _ _ _ Hd Ef) as [(C & _)|(sub & e & args & _ & Es & N1 & _ & Hr & Ha & _ & Hc)]; [congruence|].
  assert (Ws : wanted S q = sub).
  { unfold wanted. rewrite Es. destruct (String.eqb_spec sub ""); [contradiction|reflexivity]. }
  rewrite Ws in He. rewrite Hc. unfold claim_of. cbn -[dget truthy if_truthy arg_or].
  rewrite (stmt_args_other _ _ _ _ _ Ha) by discriminate. rewrite kept_hints; [|exact Hp|intros p0; apply (proj2 Hd)].
  destruct (He e Hr) as [->|[i ->]]; eexists; reflexivity.
Qed.

Definition readable_hints (r : res (dict val)) : Prop := forall p, r = Ok p -> claim as_strs "authority_hints" p <> None.

Lemma history_cases S db h now q : dicts_ok S db -> policies_ok S ->
  snd (fetch S now q (serve S h db)) = snd (fetch S now q db) \/
  (own_request S q = false /\ readable_hints (snd (fetch S now q (serve S h db))) /\ readable_hints (snd (fetch S now q db))).
Proof.
  intros Hd Hp. destruct (own_request S q) eqn:Eo.
  { left. rewrite !fetch_eq, Eo. reflexivity. }
  assert (R : forall r, (forall p, r = Ok p -> exists i, dget "authority_hints" p = Some (VList [VStr i])) -> readable_hints r).
  { intros r H p Hr. destruct (H p Hr) as [i Hi]. unfold claim. rewrite Hi. discriminate. }
  destruct (find_filled (wanted S q) db) as [e|] eqn:Ew.
  - destruct (dmem "authority_hints" e) eqn:Em.
    { left. apply C51_history_partial; [exact Hd|]. left. intros e' He'. apply find_filled_some in Ew. destruct Ew. congruence. }
    right. split; [reflexivity|]. assert (En : dget "authority_hints" e = None) by (apply dmem_false; exact Em).
    split; apply R; intros p Hr.
    + apply (given_hints S now q (serve S h db) p); [apply serve_dicts; exact Hd|exact Hp|exact Eo| |exact Hr].
      intros e' He'. apply find_filled_some in He'.
      destruct (serve_entry S h (wanted S q)) with (db := db) as [Eq|(e0 & i & E1 & _ & E3)]; [intros p0; apply (proj2 Hd)| |].
      * rewrite Eq, Ew in He'. injection He' as <-. left. exact En.
      * rewrite E3 in He'. injection He' as <-. rewrite Ew in E1. injection E1 as <-.
        rewrite kept_hints; [|exact Hp|intros p0; apply (proj2 Hd)]. rewrite En. right. eauto.
    + apply (given_hints S now q db p); [exact Hd|exact Hp|exact Eo| |exact Hr].
      intros e' He'. apply find_filled_some in He'. rewrite Ew in He'. injection He' as <-. left. exact En.
  - left. rewrite !fetch_eq, Eo. unfold wanted, own_request in *. destruct (fq_sub q) as [sub|]; [|reflexivity].
    apply orb_false_iff in Eo. destruct Eo as [N1 N2]. rewrite N1 in Ew.
    destruct (serve_entry S h sub) with (db := db) as [Eq|(e0 & i & E1 & _ & E3)]; [intros p0; apply (proj2 Hd)| |congruence].
    rewrite Eq, Ew. reflexivity.
Qed.

Section Decoding.
Context (jwks_of : val -> option (list key)).

Lemma decode_but p p' : (forall k, k <> "authority_hints" -> dget k p = dget k p') ->
  claim as_strs "authority_hints" p <> None -> claim as_strs "authority_hints" p' <> None ->
  match decode jwks_of p, decode jwks_of p' with
  | Some st, Some st' => st' = naming_superiors (s_hints st') st
  | None, None => True
  | _, _ => False
  end.
Proof.
  intros H H1 H2. unfold decode.
  rewrite (H "iss"), (H "sub") by discriminate.
  assert (C : forall B (f : val -> option B) k, k <> "authority_hints" -> claim f k p = claim f k p').
  { intros B f k Hk. unfold claim. rewrite (H k Hk). reflexivity. }
  rewrite (C _ as_int "exp"), (C _ jwks_of "jwks"), (C _ (as_dict_of (as_dict_of Some)) "metadata"),
    (C _ (as_dict_of (as_dict_of (as_dict_of Some))) "metadata_policy"), (C _ as_constraints "constraints") by discriminate.
  destruct (dget "iss" p') as [[| | |i| |]|]; try exact I. destruct (dget "sub" p') as [[| | |s| |]|]; try exact I.
  destruct (claim as_int "exp" p'); [|exact I]. destruct (claim jwks_of "jwks" p'); [|exact I].
  destruct (claim _ "metadata" p'); [|exact I]. destruct (claim _ "metadata_policy" p'); [|exact I].
  destruct (claim as_constraints "constraints" p'); [|exact I].
  destruct (claim as_strs "authority_hints" p) as [h|]; [|congruence].
  destruct (claim as_strs "authority_hints" p') as [h'|]; [|congruence]. reflexivity.
Qed.

(** what somebody answers to a request that names the right issuer, after whatever other requests *)
Lemma answer_after m h now q hs : dicts_ok (m_srv m) (m_subs m) -> policies_ok (m_srv m) -> issuer_of (m_srv m) q = m_id m ->
  (forall p st, own_request (m_srv m) q = false -> snd (fetch (m_srv m) now q (m_subs m)) = Ok p -> decode jwks_of p = Some st ->
     hs (m_id m) (wanted (m_srv m) q) = s_hints st) ->
  fixed_answer hs (answer jwks_of m (snd (fetch (m_srv m) now q (serve (m_srv m) h (m_subs m))))) =
  answer jwks_of m (snd (fetch (m_srv m) now q (m_subs m))).
Proof.
  intros Hd Hp Hi Hhs.
  assert (N : forall p st, snd (fetch (m_srv m) now q (m_subs m)) = Ok p -> decode jwks_of p = Some st ->
     s_iss st = m_id m /\ (s_sub st = m_id m \/ (s_sub st = wanted (m_srv m) q /\ own_request (m_srv m) q = false))).
  { intros p st Hf Hs. destruct (fetch (m_srv m) now q (m_subs m)) as [db' r] eqn:Ef. cbn [snd] in Hf. subst r.
    destruct (decode_fields _ _ _ Hs) as (D1 & D2 & _).
    destruct (fetch_inv _ _ _ _ _ _ Hd Ef) as [(C & _ & Hc)|(sub & e & args & C & Es & N1 & _ & _ & _ & _ & Hc)].
    - rewrite Hc in D1, D2. cbn in D1, D2. injection D1 as <-. injection D2 as <-. split; [reflexivity|left; reflexivity].
    - rewrite Hc in D1, D2. cbn in D1, D2. injection D1 as <-. injection D2 as <-. split; [exact Hi|]. right. split; [|exact C].
      unfold wanted. rewrite Es. destruct (String.eqb_spec sub ""); [contradiction|reflexivity]. }
  assert (F0 : forall p st, snd (fetch (m_srv m) now q (m_subs m)) = Ok p -> decode jwks_of p = Some st ->
     forall st', st' = naming_superiors (s_hints st') st -> (s_sub st = m_id m -> st' = st) -> fixed hs st' = st).
  { intros p st Hf Hs st' Est Hown. destruct (N p st Hf Hs) as [N1 N2]. unfold fixed.
    assert (I1 : s_iss st' = s_iss st) by (rewrite Est; reflexivity).
    assert (I2 : s_sub st' = s_sub st) by (rewrite Est; reflexivity). rewrite I1, I2.
    destruct (String.eqb_spec (s_iss st) (s_sub st)) as [Eq|Ne]; [apply Hown; congruence|].
    destruct N2 as [N2|[N2 C]]; [congruence|]. rewrite N1, N2, (Hhs p st C Hf Hs), Est. destruct st; reflexivity. }
  destruct (history_cases (m_srv m) (m_subs m) h now q Hd Hp) as [Eq|(Ho & R1 & R2)].
  - rewrite Eq. destruct (snd (fetch (m_srv m) now q (m_subs m))) as [p|x] eqn:Ef; [|reflexivity]. cbn [answer fixed_answer option_map].
    destruct (decode jwks_of p) as [st|] eqn:Ed; [|reflexivity]. cbn [fixed_token].
    rewrite (F0 p st eq_refl Ed st); [reflexivity|destruct st; reflexivity|reflexivity].
  - assert (G := C51_all_but_hints (m_srv m) (m_subs m) h now q Hd).
    destruct (snd (fetch (m_srv m) now q (serve (m_srv m) h (m_subs m)))) as [p'|x'] eqn:Ef';
      destruct (snd (fetch (m_srv m) now q (m_subs m))) as [p|x] eqn:Ef; cbn [agree_but] in G; try contradiction; [|reflexivity].
    assert (D := decode_but p p' (fun k Hk => eq_sym (G k Hk)) (R2 p eq_refl) (R1 p' eq_refl)).
    cbn [answer fixed_answer option_map]. destruct (decode jwks_of p) as [st|] eqn:Ed; destruct (decode jwks_of p') as [st'|] eqn:Ed';
      try contradiction; [|reflexivity]. cbn [fixed_token]. rewrite (F0 p st eq_refl Ed st' D); [reflexivity|].
    intros Hs. exfalso. destruct (N p st eq_refl Ed) as [N1 N2].
    assert (wanted (m_srv m) q = m_id m).
    { destruct (fetch (m_srv m) now q (m_subs m)) as [db' r] eqn:E0. cbn [snd] in Ef. subst r.
      destruct (fetch_inv _ _ _ _ _ _ Hd E0) as [(C & _)|(sub & e & args & _ & Es & M1 & _ & _ & _ & _ & Hc)]; [congruence|].
      destruct (decode_fields _ _ _ Ed) as (_ & D2 & _). rewrite Hc in D2. cbn in D2. injection D2 as D2.
      unfold wanted. rewrite Es. destruct (String.eqb_spec sub ""); [contradiction|congruence]. }
    unfold own_request in Ho. unfold wanted in H. destruct (fq_sub q) as [sub|]; [|discriminate Ho].
    apply orb_false_iff in Ho. destruct Ho as [O1 O2]. rewrite O1 in H. rewrite Hi, <- H, String.eqb_refl in O2. discriminate O2.
Qed.
End Decoding.

(** ** Locations *)

Lemma sees_itself u : lacks "?" u -> lacks "#" u -> server_sees u = (u, []).
Proof. intros H1 H2. unfold server_sees. rewrite (cut_lacks _ _ H2), (cut_lacks _ _ H1). reflexivity. Qed.

Definition urlish (s : string) : Prop := lacks "?" s /\ lacks "#" s.

Lemma urlish_app a b : urlish a -> urlish b -> urlish (a ++ b)%string.
Proof. intros [A1 A2] [B1 B2]. split; apply lacks_app; auto. Qed.

Lemma scheme_urlish s : all_chars scheme_char s = true -> urlish (lower s).
Proof.
  induction s as [|c s IH]; intros H; [split; reflexivity|]. cbn [all_chars] in H. apply andb_true_iff in H as [H1 H2].
  destruct (IH H2) as [I1 I2]. unfold urlish, lacks in *. cbn [lower all_chars]. rewrite I1, I2.
  revert H1. clear. destruct c as [b0 b1 b2 b3 b4 b5 b6 b7].
  destruct b0, b1, b2, b3, b4, b5, b6, b7; intros H; vm_compute in H |- *; try discriminate H; split; reflexivity.
Qed.

Lemma netloc_urlish : forall s a b, split_netloc s = (a, b) -> urlish a.
Proof.
  induction s as [|c s IH]; intros a b H; cbn [split_netloc] in H; [injection H as <- _; split; reflexivity|].
  destruct (Ascii.eqb c "/" || Ascii.eqb c "?" || Ascii.eqb c "#") eqn:Ec; [injection H as <- _; split; reflexivity|].
  destruct (split_netloc s) as [a' b'] eqn:Es. injection H as <- _. destruct (IH _ _ eq_refl) as [I1 I2].
  apply orb_false_iff in Ec. destruct Ec as [Ec E3]. apply orb_false_iff in Ec. destruct Ec as [_ E2].
  unfold urlish, lacks in *. cbn [all_chars]. rewrite E2, E3, I1, I2. split; reflexivity.
Qed.

Lemma strip_lacks c s : lacks c s -> lacks c (strip_params s).
Proof.
  unfold lacks. induction s as [|x s IH]; [auto|]. cbn [all_chars strip_params]. intros H. apply andb_true_iff in H as [H1 H2].
  destruct (Ascii.eqb x ";").
  - destruct (has_char "/" s); [|reflexivity]. cbn [all_chars]. rewrite H1, (IH H2). reflexivity.
  - cbn [all_chars]. rewrite H1, (IH H2). reflexivity.
Qed.

Lemma cut_front c d s : lacks d s -> lacks d (fst (cut c s)).
Proof.
  unfold lacks. induction s as [|x s IH]; [auto|]. cbn [all_chars cut]. intros H. apply andb_true_iff in H as [H1 H2].
  destruct (Ascii.eqb x c); [reflexivity|]. destruct (cut c s) as [a b]. cbn [fst all_chars] in *. rewrite H1, (IH H2). reflexivity.
Qed.

Lemma parsed_urlish id : urlish (u_scheme (urlparse id)) /\ urlish (u_netloc (urlparse id)) /\ urlish (u_path (urlparse id)).
Proof.
  unfold urlparse. assert (S : urlish (fst (split_scheme id))).
  { unfold split_scheme. destruct (cut ":" id) as [[|c s] [r|]]; try (split; reflexivity).
    destruct ((is_upper c || is_lower c) && all_chars scheme_char (String c s)) eqn:Ec; [|split; reflexivity].
    apply andb_prop in Ec. apply scheme_urlish, Ec. }
  destruct (split_scheme id) as [scheme rest]. cbn [fst] in S.
  assert (P : forall x, urlish (if uses_params scheme then strip_params (fst (cut "?" (fst (cut "#" x)))) else fst (cut "?" (fst (cut "#" x))))).
  { intros x. destruct (cut "#" x) as [y o] eqn:Ey. destruct (cut_spec _ _ _ _ Ey) as [Y1 _]. cbn [fst].
    destruct (cut "?" y) as [z o'] eqn:Ez. destruct (cut_spec _ _ _ _ Ez) as [Z1 _]. cbn [fst].
    assert (Z2 : lacks "#" z) by (assert (X := cut_front "?" "#" y Y1); rewrite Ez in X; exact X).
    destruct (uses_params scheme); [split; apply strip_lacks|split]; assumption. }
  destruct rest as [|a [|b r]]; cbn [u_scheme u_netloc u_path]; try (split; [exact S|]; split; [split; reflexivity|apply P]).
  destruct (Ascii.eqb a "/" && Ascii.eqb b "/").
  - destruct (split_netloc r) as [n r'] eqn:En. cbn [u_scheme u_netloc u_path]. split; [exact S|]. split; [exact (netloc_urlish _ _ _ En)|apply P].
  - cbn [u_scheme u_netloc u_path]. split; [exact S|]. split; [split; reflexivity|apply P].
Qed.

(** well-known places have no query and no fragment *)
Lemma wk_sees id : server_sees (wk id) = (wk id, []).
Proof.
  destruct (parsed_urlish id) as (S & N & _). assert (U : urlish (wk id)); [|apply sees_itself; apply U].
  unfold wk, construct_well_known_url. repeat apply urlish_app; try assumption; split; reflexivity.
Qed.

Lemma tenant_sees id : server_sees (tenant id) = (tenant id, []).
Proof.
  destruct (parsed_urlish id) as (S & N & P). assert (U : urlish (tenant id)); [|apply sees_itself; apply U].
  unfold tenant, construct_tenant_well_known_url. repeat apply urlish_app; try assumption; split; reflexivity.
Qed.

(** not at a well-known place *)
Definition elsewhere (u : string) : Prop := forall x, u <> (x ++ "/.well-known/openid-federation")%string.

Lemma elsewhere_wk u id : elsewhere u -> u <> wk id /\ u <> tenant id.
Proof.
  intros H. split.
  - intros E. apply (H (u_scheme (urlparse id) ++ "://" ++ u_netloc (urlparse id))%string). rewrite E.
    unfold wk, construct_well_known_url. cbv zeta. rewrite !app_assoc_s. reflexivity.
  - intros E. apply (H (u_scheme (urlparse id) ++ "://" ++ u_netloc (urlparse id) ++ u_path (urlparse id))%string). rewrite E.
    unfold tenant, construct_tenant_well_known_url. cbv zeta. rewrite !app_assoc_s. reflexivity.
Qed.

Lemma sees_fetch u i x : location u -> i <> "" -> exists ps, server_sees (fetch_url u i x) = (u, ps) /\
  dget "iss" ps = Some i /\ dget "sub" ps = (if String.eqb x "" then None else Some x).
Proof.
  intros (H0 & H1 & H2) Hi. unfold fetch_url. apply String.eqb_neq in Hi. rewrite Hi. unfold message_request.
  rewrite (proj2 (has_char_lacks _ _) H1). destruct (String.eqb x ""); eexists; (split; [apply sees_query; assumption|]; split; reflexivity).
Qed.

Lemma find_map A B (f : A -> B) p l : find p (map f l) = option_map f (find (fun x => p (f x)) l).
Proof. induction l as [|x l IH]; [reflexivity|]. cbn [map find]. destruct (p (f x)); [reflexivity|exact IH]. Qed.

(** ** What a collector gets *)

Section Agreement.
Context (jwks_of : val -> option (list key)) (file : string -> res val)
        (parse : string -> string -> dict string -> res parsed_request)
        (unauthorized : exn -> bool)
        (respond : string -> dict string -> outcome -> res info)
        (err_text : string -> exn -> string)
        (sign : key -> dict val -> string)
        (read : string -> option token).

Notation serve_url := (serve_url file parse unauthorized respond err_text sign).
Notation traffic := (traffic file parse unauthorized respond err_text sign).
Notation web_net := (web_net file parse unauthorized respond err_text sign read).

(** the page is that of the entity *)
Definition own_page (s : site) : Prop :=
  match si_home s with
  | ByEndpoint => True
  | ByContext cx =>
      cx_id cx = m_id (si_m s) /\ cx_lifetime cx = 86400%Z /\ cx_marks cx = m_marks (si_m s) /\ marks_given (cx_marks cx) /\
      hints_given file (cx_hints cx) /\
      exists h, get_authority_hints file (cx_hints cx) = Ok h /\ fs_hints (m_srv (si_m s)) = Some h
  end.

(** idpyoidc and the library for JWTs do what they are for, and the endpoints have places of their own *)
Record web_works (F : list site) (E : cenv) : Prop := mkWorks {
  ww_read : forall k p, read (sign k p) = Some (match decode jwks_of p with Some st => TJws k st | None => TJunk end);
  ww_fetch : forall id a, dget "iss" a = Some id -> exists a', parse id "fetch" a = Ok (PqArgs a') /\
               dget "iss" a' = dget "iss" a /\ dget "sub" a' = dget "sub" a;
  ww_home : forall id a, exists a', parse id "entity_configuration" a = Ok (PqArgs a');
  ww_respond : forall ep a text, exists i, respond ep a (mkOutcome None None false text) = Ok i /\ in_text i = text /\
               (in_placement i = None \/ in_placement i = Some "body");
  ww_wk : forall id, e_wk E id = wk id;
  ww_tenant : forall id, e_tenant E id = tenant id;
  ww_elsewhere : forall s, In s F -> m_fetch (si_m s) <> "" -> elsewhere (m_fetch (si_m s));
  ww_pages : forall s, In s F -> own_page s
}.

Section Run.
Context (F : list site) (E : cenv).
Hypothesis L : library_run jwks_of (map si_m F) E.
Hypothesis WW : web_works F E.

Notation now0 := (e_clock E 0).
Notation W := (library_world jwks_of (map si_m F) now0).

Lemma site_member s : In s F -> In (si_m s) (map si_m F).
Proof. apply in_map. Qed.

Lemma run_places : own_places F.
Proof. intros s s' Hs Hs' He Hne. apply (lf_fetches _ _ _ L); try apply in_map; assumption. Qed.

(** a page that shows a signed document *)
Lemma read_document S (P : webpoint S) get args s a m (r : res (dict val)) s' ep :
  wp_parse P args = Ok (PqArgs a) -> wp_process P a s = (s', let* p := r in Ok (document sign m p)) ->
  wp_respond P = respond ep -> wp_placement P = "body" ->
  read_page read (snd (service_endpoint P err_text get args s)) = answer jwks_of m r.
Proof.
  intros H1 H2 H3 H4. unfold service_endpoint. rewrite H1, H2. destruct r as [p|x]; cbn [bind snd]; [|reflexivity].
  unfold document, do_response. cbn [oc_redirect oc_http oc_error]. rewrite H3, H4.
  destruct (ww_respond _ _ WW ep a (sign (m_key m) p)) as (i & -> & Ht & Hp). cbn [bind].
  assert (X : (match in_placement i with Some x => x | None => "body" end) = "body") by (destruct Hp as [->| ->]; reflexivity).
  rewrite X. cbn [String.eqb Ascii.eqb Bool.eqb pg_status pg_text]. unfold read_page. cbn [pg_status pg_text Z.eqb Pos.eqb].
  rewrite Ht, (ww_read _ _ WW). reflexivity.
Qed.

Lemma same_decode p p' : (forall k, dget k p = dget k p') -> decode jwks_of p = decode jwks_of p'.
Proof. intros H. unfold decode, claim. rewrite !H. reflexivity. Qed.

Lemma home_page_read s now args : In s F ->
  read_page read (show_home file parse unauthorized respond err_text sign s now true args) =
  answer jwks_of (si_m s) (entity_configuration (m_srv (si_m s)) (m_whole (si_m s)) (m_marks (si_m s)) now).
Proof.
  intros Hs. unfold show_home. assert (O := ww_pages _ _ WW s Hs). unfold own_page in O. destruct (si_home s) as [|cx].
  - destruct (ww_home _ _ WW (m_id (si_m s)) args) as [a Ha].
    apply (read_document _ _ _ _ _ a _ _ tt "entity_configuration"); [exact Ha|reflexivity|reflexivity|reflexivity].
  - destruct O as (O1 & O2 & O3 & O4 & O5 & h & O6 & O7).
    assert (X := C167_partial file cx (fs_jwks (m_srv (si_m s))) (published_metadata (m_srv (si_m s)) (m_whole (si_m s))) now O2 O4 O5).
    unfold wkof_endpoint in X. rewrite O6, O1, O3 in X. cbn [bind] in X.
    assert (Y : entity_configuration
                  (mkFserver (m_id (si_m s)) (fs_jwks (m_srv (si_m s))) (published_metadata (m_srv (si_m s)) (m_whole (si_m s))) (Some h) [])
                  None (m_marks (si_m s)) now =
                entity_configuration (m_srv (si_m s)) (m_whole (si_m s)) (m_marks (si_m s)) now).
    { unfold entity_configuration, m_id. cbn [fs_id fs_jwks fs_hints fs_metadata published_metadata]. rewrite O7. reflexivity. }
    rewrite Y in X. unfold by_itself. destruct (wkof_context _ _ _ _ _) as [p|x];
      destruct (entity_configuration (m_srv (si_m s)) (m_whole (si_m s)) (m_marks (si_m s)) now) as [p'|x'];
      cbn [says_the_same] in X; try contradiction; [|reflexivity].
    unfold read_page. cbn [pg_status pg_text Z.eqb Pos.eqb]. rewrite (ww_read _ _ WW). cbn [answer].
    rewrite (same_decode p p' X). reflexivity.
Qed.

Section After.
Context (T : list (Z * meth * string)).

Notation F1 := (traffic T F).
Notation G := (after_requests parse (homes_of F) T).

Lemma after_traffic : F1 = map G F.
Proof. apply traffic_stores, run_places. Qed.

Lemma doc_agrees u n : server_sees u = (u, []) -> (forall s, In s F -> m_fetch (si_m s) <> "" -> m_fetch (si_m s) <> u) ->
  web_net (e_clock E n) F1 (QDoc u) = e_net E n (QDoc u).
Proof.
  intros Hu Hne. rewrite (lf_net _ _ _ L). cbn [library_net]. unfold ViewModel.web_net. cbn [url_of]. unfold ViewModel.serve_url. rewrite Hu.
  rewrite after_traffic, !find_map.
  change (fun x => String.eqb (m_home (si_m (G x))) u) with (fun x => String.eqb (m_home (si_m x)) u).
  destruct (find (fun x => String.eqb (m_home (si_m x)) u) F) as [s|] eqn:Ef; cbn [option_map].
  - apply find_some in Ef. destruct Ef as [Hs _]. cbn [snd].
    change (show_home file parse unauthorized respond err_text sign (G s)) with (show_home file parse unauthorized respond err_text sign s).
    apply home_page_read, Hs.
  - change (fun x => negb (String.eqb u "") && String.eqb (m_fetch (si_m (G x))) u) with
      (fun x => negb (String.eqb u "") && String.eqb (m_fetch (si_m x)) u).
    destruct (find (fun x => negb (String.eqb u "") && String.eqb (m_fetch (si_m x)) u) F) as [s|] eqn:Eg; [|reflexivity].
    apply find_some in Eg. destruct Eg as [Hs Eg]. apply andb_prop in Eg. destruct Eg as [E1 E2]. apply String.eqb_eq in E2.
    apply Bool.negb_true_iff, String.eqb_neq in E1. exfalso. apply (Hne s Hs); congruence.
Qed.

(** statements: nobody but superiors asked for them at their endpoints *)
Lemma fetch_agrees s x n : In s F -> location (m_fetch (si_m s)) ->
  fixed_answer (fun a e => s_hints (w_about W a e)) (web_net (e_clock E n) F1 (QFetch (m_fetch (si_m s)) (m_id (si_m s)) x)) =
  e_net E n (QFetch (m_fetch (si_m s)) (m_id (si_m s)) x).
Proof.
  intros Hs Hl. set (m := si_m s) in *. assert (Hm : In m (map si_m F)) by (apply in_map; exact Hs).
  destruct (lf_sound _ _ _ L m Hm) as [[I1 _] _ Hd Hp _ _ _ _].
  destruct (sees_fetch (m_fetch m) (m_id m) x Hl I1) as (ps & Hu & P1 & P2).
  rewrite (lf_net _ _ _ L). cbn [library_net]. unfold ViewModel.web_net. cbn [url_of]. unfold ViewModel.serve_url. rewrite Hu.
  rewrite (find_fetch jwks_of _ E L m Hm (proj1 Hl)).
  rewrite after_traffic, !find_map.
  change (fun y => String.eqb (m_home (si_m (G y))) (m_fetch m)) with (fun y => String.eqb (m_home (si_m y)) (m_fetch m)).
  assert (H0 : find (fun y => String.eqb (m_home (si_m y)) (m_fetch m)) F = None).
  { destruct (find _ F) as [y|] eqn:Ef; [|reflexivity]. apply find_some in Ef. destruct Ef as [Hy Ef]. apply String.eqb_eq in Ef.
    destruct (elsewhere_wk (m_fetch m) (m_id (si_m y)) (ww_elsewhere _ _ WW s Hs (proj1 Hl))) as [N1 N2].
    rewrite <- (ww_wk _ _ WW) in N1. rewrite <- (ww_tenant _ _ WW) in N2.
    destruct (lf_place _ _ _ L (si_m y) (site_member y Hy)) as [C|(C & _)]; exfalso; congruence. }
  rewrite H0. cbn [option_map].
  change (fun y => negb (String.eqb (m_fetch m) "") && String.eqb (m_fetch (si_m (G y))) (m_fetch m)) with
      (fun y => negb (String.eqb (m_fetch m) "") && String.eqb (m_fetch (si_m y)) (m_fetch m)).
  destruct (find (fun y => negb (String.eqb (m_fetch m) "") && String.eqb (m_fetch (si_m y)) (m_fetch m)) F) as [y|] eqn:Ef.
  2:{ exfalso. assert (X := find_none _ _ Ef s Hs). cbv beta in X. fold m in X. rewrite String.eqb_refl, Bool.andb_true_r in X.
      apply Bool.negb_false_iff, String.eqb_eq in X. exact (proj1 Hl X). }
  apply find_some in Ef. destruct Ef as [Hy Ef]. apply andb_prop in Ef. destruct Ef as [_ Ef]. apply String.eqb_eq in Ef.
  assert (Ym : si_m y = m) by (apply run_places; [exact Hy|exact Hs|exact Ef|rewrite Ef; apply Hl]).
  cbn [option_map]. 
  destruct (ww_fetch _ _ WW (m_id m) ps P1) as (a & Ha & A1 & A2).
  set (h := requests parse (homes_of F) T (si_m y)).
  assert (R := read_document _ (fetch_point parse unauthorized respond sign (si_m (G y)) (e_clock E n)) true ps (m_subs (si_m (G y))) a m
                 (snd (fetch (m_srv m) (e_clock E n) (mkFreq (dget "iss" ps) (dget "sub" ps)) (serve (m_srv m) h (m_subs m))))
                 (fst (fetch (m_srv m) (e_clock E n) (mkFreq (dget "iss" ps) (dget "sub" ps)) (serve (m_srv m) h (m_subs m)))) "fetch").
  destruct (service_endpoint (fetch_point parse unauthorized respond sign (si_m (G y)) (e_clock E n)) err_text true ps (m_subs (si_m (G y))))
    as [db p] eqn:Es. cbn [snd] in R |- *. rewrite R; clear R.
  - rewrite P1, P2. apply answer_after; [exact Hd|exact Hp| |].
    + unfold issuer_of. cbn [fq_iss]. destruct (m_id m) as [|c i] eqn:Em; [contradiction|exact (eq_refl _)].
    + intros p0 st Ho Hf Hst. destruct (String.eqb_spec x "") as [->|Nx].
      { unfold own_request in Ho. cbn [fq_sub] in Ho. discriminate Ho. }
      unfold wanted. cbn [fq_sub]. rewrite (proj2 (String.eqb_neq _ _) Nx). cbn [library_world w_about].
      rewrite (by_id_In jwks_of _ E L m Hm), <- (lf_clock _ _ _ L n), Hf. cbn [reading]. rewrite Hst. reflexivity.
  - cbn [fetch_point wp_parse]. change (m_id (si_m (G y))) with (m_id (si_m y)). rewrite Ym. exact Ha.
  - cbn [fetch_point wp_process]. rewrite A1, A2.
    change (m_srv (si_m (G y))) with (m_srv (si_m y)). change (m_subs (si_m (G y))) with (serve (m_srv (si_m y)) h (m_subs (si_m y))).
    unfold document. change (m_key (si_m (G y))) with (m_key (si_m y)). rewrite Ym.
    destruct (fetch (m_srv m) (e_clock E n) _ (serve (m_srv m) h (m_subs m))); reflexivity.
  - reflexivity.
  - reflexivity.
Qed.

End After.

(** a configuration is that of its member *)
Lemma obtained_member id c : obtained E id c -> exists m, In m (map si_m F) /\ c = w_config W (m_id m) /\
  (forall m', In m' (map si_m F) -> m_id m' = id -> m' = m).
Proof.
  intros (n & k & u & Hu & Hn). assert (G : exists m, In m (map si_m F) /\ m_home m = u).
  { rewrite (lf_net _ _ _ L) in Hn. cbn [library_net] in Hn. destruct (find _ (map si_m F)) as [m|] eqn:Ef; [|discriminate].
    apply find_some in Ef. destruct Ef as [H1 H2]. apply String.eqb_eq in H2. eauto. }
  destruct G as (m & Hm & Eu). exists m. split; [exact Hm|].
  assert (Hs := home_serves _ _ _ L m n Hm). rewrite Eu, Hn in Hs. injection Hs as _ ->. split; [reflexivity|].
  intros m' Hm' <-. apply (lf_homes _ _ _ L _ _ Hm' Hm). rewrite Eu.
  destruct (lf_place _ _ _ L m' Hm') as [Hp|(Hp & _ & Hno)].
  - destruct Hu as [->|(-> & n0 & H0)]; [exact Hp|]. rewrite <- Hp, (home_serves _ _ _ L m' n0 Hm') in H0. discriminate.
  - destruct Hu as [->|(-> & _)]; [|exact Hp]. exfalso. exact (Hno m Hm Eu).
Qed.

Lemma obtained_self id c : obtained E id c -> s_iss c = s_sub c.
Proof.
  intros H. destruct (obtained_member id c H) as (m & Hm & -> & _).
  destruct (configuration_of_member _ _ _ L m Hm) as (p & st & _ & _ & -> & -> & -> & _). reflexivity.
Qed.

Lemma endpoint_of m' m : In m' (map si_m F) -> serves jwks_of E m' m -> get_endpoint (w_config W (m_id m')) = Ok (m_fetch m').
Proof.
  intros Hm [S1 (md & M1 & M2) _ _].
  destruct (configuration_of_member _ _ _ L m' Hm) as (p2 & st2 & _ & _ & Hw2 & _ & _ & _ & _ & _ & Hc2 & Hg2).
  rewrite Hw2. destruct (published_metadata (m_srv m') (m_whole m')) as [|kv rest] eqn:Ep; [discriminate M1|].
  rewrite <- Ep in *. assert (T : truthy (VDict (published_metadata (m_srv m') (m_whole m'))) = true) by (rewrite Ep; reflexivity).
  unfold if_truthy in Hg2. rewrite T in Hg2.
  destruct (claim_get _ _ _ _ _ _ Hg2 Hc2) as (tm & Et & Ft).
  assert (X := as_dict_get _ _ _ _ "federation_entity" Ft). rewrite M1 in X. destruct X as (fe & Hfe & Gfe).
  assert (Y := as_dict_get _ _ _ _ "federation_fetch_endpoint" Hfe). rewrite M2 in Y. destruct Y as (b & [= <-] & Gb).
  unfold get_endpoint. rewrite Et. unfold dindex, metadata in *. rewrite Gfe. cbn [bind]. rewrite Gb. reflexivity.
Qed.

(** whatever was asked before *)
Lemma web_agrees T n q : relevant E q ->
  match q with
  | QDoc _ => web_net (e_clock E n) (traffic T F) q = e_net E n q
  | QFetch _ _ _ =>
      fixed_answer (fun a e => s_hints (w_about W a e)) (web_net (e_clock E n) (traffic T F) q) = e_net E n q
  end.
Proof.
  intros H. destruct H as [id|id|id c hs a c' ep Hc Hh Ha Hc' He Hne].
  - rewrite (ww_wk _ _ WW). apply doc_agrees; [apply wk_sees|]. intros s Hs Hn.
    apply (elsewhere_wk _ id), (ww_elsewhere _ _ WW s Hs Hn).
  - rewrite (ww_tenant _ _ WW). apply doc_agrees; [apply tenant_sees|]. intros s Hs Hn.
    apply (elsewhere_wk _ id), (ww_elsewhere _ _ WW s Hs Hn).
  - destruct (obtained_member id c Hc) as (m & Hm & -> & _).
    destruct (configuration_of_member _ _ _ L m Hm) as (p & st & _ & _ & Hw & _ & _ & _ & _ & Hsup & _). rewrite Hw in Hh.
    rewrite Hh in Hsup. rewrite Hsup in Ha. destruct (lf_superiors _ _ _ L m a Hm Ha) as (m' & Hm' & <- & Hs).
    destruct (obtained_member _ c' Hc') as (m2 & Hm2 & -> & Hu). assert (m' = m2) by (apply Hu; [exact Hm'|reflexivity]). subst m2.
    rewrite (endpoint_of m' m Hm' Hs) in He. injection He as <-.
    apply in_map_iff in Hm'. destruct Hm' as (s & <- & Hin). apply fetch_agrees; [exact Hin|exact (sv_endpoint _ _ _ _ Hs)].
Qed.

End Run.
End Agreement.
