(** Federations that are reached over HTTP (C168). *)
From Verif Require Import PyFacts ExampleKit CollectorProps UrlModel UrlFacts UrlProps TextKit.
From Verif Require Export WebFacts.
From Coq Require Import Lia.

Local Open Scope string_scope.
Local Open Scope list_scope.

Section Web.
Context (jwks_of : val -> option (list key)) (file : string -> res val)
        (parse : string -> string -> dict string -> res parsed_request)
        (unauthorized : exn -> bool)
        (respond : string -> dict string -> outcome -> res info)
        (err_text : string -> exn -> string)
        (sign : key -> dict val -> string)
        (read : string -> option token).

(** ** Vocabulary *)

(** The collector of [E], with the sites [F] in place of the network.  [T n] are the requests anybody made to them before
    the [n]-th request of the collector. *)
Definition on_the_web (E : cenv) (F : list site) (T : nat -> list (Z * meth * string)) : cenv :=
  with_net E (fun n q => web_net file parse unauthorized respond err_text sign read (e_clock E n)
                           (traffic file parse unauthorized respond err_text sign (T n) F) q).

(** the same chain, but for the superiors that statements name *)
Definition same_chain (c c' : tchain) : Prop :=
  ch_anchor c = ch_anchor c' /\ ch_md c = ch_md c' /\ tc_exp (ch_tc c) = tc_exp (ch_tc c') /\
  tc_iss_path (ch_tc c) = tc_iss_path (ch_tc c') /\
  map names_of (map snd (jws (tc_chain (ch_tc c)))) = map names_of (map snd (jws (tc_chain (ch_tc c')))).

Definition same_chains (r r' : res (list tchain)) : Prop :=
  match r, r' with
  | Ok cs, Ok cs' => Forall2 same_chain cs cs'
  | Err x, Err x' => x = x'
  | _, _ => False
  end.

(** ** Lemmas *)

Lemma names_fixed hs p : names_of (fixed hs p) = names_of p.
Proof. unfold names_of. destruct (fixed_same hs p) as (-> & -> & _). reflexivity. Qed.

Lemma jws_fixed hs l : jws (map (fixed_token hs) l) = map (fun x => (fst x, fixed hs (snd x))) (jws l).
Proof. induction l as [|[|k p] l IH]; [reflexivity|exact IH|]. cbn [map fixed_token]. unfold jws in *. cbn [flat_map app map fst snd]. f_equal. exact IH. Qed.

Lemma same_fixed hs c : same_chain c (fixed_result hs c).
Proof.
  repeat (split; [reflexivity|]). cbn [fixed_result fixed_chain ch_tc tc_chain]. rewrite jws_fixed, !map_map. apply map_ext.
  intros x. symmetry. apply names_fixed.
Qed.

Lemma runs_fixed hs c e r : runs_along (fixed_result hs c) e r <-> runs_along c e r.
Proof. unfold runs_along. destruct (same_fixed hs c) as (-> & _ & _ & _ & ->). reflexivity. Qed.

(** ** C168 *)

(** A page of a fetch endpoint either has a statement that the entity made for the request, signed with its key, or
    it has an error; of another kind of page there is none. *)
Theorem C168_page : forall m now get args db db' pg,
  (forall a text, exists i, respond "fetch" a (mkOutcome None None false text) = Ok i /\ in_text i = text /\
     (in_placement i = None \/ in_placement i = Some "body")) ->
  service_endpoint (fetch_point parse unauthorized respond sign m now) err_text get args db = (db', pg) ->
  (pg_status pg = 200%Z /\ exists a p, parse (m_id m) "fetch" args = Ok (PqArgs a) /\
     fetch (m_srv m) now (mkFreq (dget "iss" a) (dget "sub" a)) db = (db', Ok p) /\ pg_text pg = sign (m_key m) p) \/
  (pg_status pg = 400%Z /\
     ((db' = db /\ forall a, parse (m_id m) "fetch" args <> Ok (PqArgs a)) \/
      exists a x, parse (m_id m) "fetch" args = Ok (PqArgs a) /\
        fetch (m_srv m) now (mkFreq (dget "iss" a) (dget "sub" a)) db = (db', Err x))).
Proof.
  intros m now get args db db' pg HR H. unfold service_endpoint in H. cbn [fetch_point wp_parse wp_process] in H.
  destruct (parse (m_id m) "fetch" args) as [[a|t]|x].
  2,3: injection H as <- <-; right; split; [reflexivity|left; split; [reflexivity|discriminate]].
  destruct (fetch (m_srv m) now (mkFreq (dget "iss" a) (dget "sub" a)) db) as [db1 [p|x]] eqn:Ef; cbn [bind] in H.
  - unfold document in H. cbn [oc_redirect oc_http] in H. unfold do_response in H. cbn [fetch_point wp_respond wp_placement oc_error] in H.
    destruct (HR a (sign (m_key m) p)) as (i & Ei & Et & Ep). rewrite Ei in H. cbn [bind] in H.
    assert (X : (match in_placement i with Some y => y | None => "body" end) = "body") by (destruct Ep as [->| ->]; reflexivity).
    rewrite X in H. cbn [String.eqb Ascii.eqb Bool.eqb pg_status pg_text] in H. injection H as <- <-. left.
    split; [reflexivity|]. exists a, p. auto.
  - injection H as <- <-. right. split; [reflexivity|]. right. exists a, x. auto.
Qed.

(** Whatever is asked of the sites, by whomever: the sites are the same, but for what they hold about subordinates, and
    of that only the superiors that are named to those who ask next. *)
Theorem C168_traffic : forall F T, own_places F -> (forall s, In s F -> dicts_ok (m_srv (si_m s)) (m_subs (si_m s))) ->
  Forall2 (fun s s' => si_home s' = si_home s /\ m_srv (si_m s') = m_srv (si_m s) /\ m_whole (si_m s') = m_whole (si_m s) /\
             m_marks (si_m s') = m_marks (si_m s) /\ m_key (si_m s') = m_key (si_m s) /\ m_home (si_m s') = m_home (si_m s) /\
             m_fetch (si_m s') = m_fetch (si_m s) /\
             forall now q, agree_but "authority_hints" (snd (fetch (m_srv (si_m s)) now q (m_subs (si_m s'))))
                                                       (snd (fetch (m_srv (si_m s)) now q (m_subs (si_m s)))))
    F (traffic file parse unauthorized respond err_text sign T F).
Proof.
  intros F T HP HD. rewrite (traffic_stores file parse unauthorized respond err_text sign T F HP).
  generalize (homes_of F). intros homes. clear HP. induction F as [|s F IH]; [constructor|]. cbn [map]. constructor.
  - repeat (split; [reflexivity|]). intros now q. apply C51_all_but_hints, HD. left. reflexivity.
  - apply IH. intros s' Hs'. apply HD. right. exact Hs'.
Qed.

Section Run.
Context (F : list site) (E : cenv) (T : nat -> list (Z * meth * string)).
Hypothesis L : library_run jwks_of (map si_m F) E.
Hypothesis WW : web_works jwks_of file parse respond sign read F E.
Hypothesis HB : blind (e_lib E).

Notation hs := (fun a e => s_hints (w_about (library_world jwks_of (map si_m F) (e_clock E 0)) a e)).
Notation E' := (on_the_web E F T).

Lemma web_same_answers n q : relevant E q ->
  match q with
  | QDoc _ => e_net E' n q = e_net E n q
  | QFetch _ _ _ => fixed_answer hs (e_net E' n q) = e_net E n q
  end.
Proof. exact (web_agrees jwks_of file parse unauthorized respond err_text sign read F E L WW (T n) n q). Qed.

Definition web_self := obtained_self jwks_of F E L.

Lemma web_chains O fuel id s : visited E' (f_col s) ->
  exists s0 r0, visited E (f_col s0) /\ f_keys s0 = f_keys s /\ f_chains s0 = f_chains s /\ r0 = get_verified_trust_chains E O fuel id s0 /\
    f_keys (fst r0) = f_keys (fst (get_verified_trust_chains E' O fuel id s)) /\
    snd r0 = rmap (map (fixed_result hs)) (snd (get_verified_trust_chains E' O fuel id s)).
Proof.
  intros V. destruct (visited_served E _ hs web_same_answers web_self _ V) as [V0 HS].
  destruct (chains_congruence E _ hs HB web_same_answers web_self O fuel id s HS) as [H _]. cbv zeta in H.
  eexists (mkFed _ _ _), _. split; [exact V0|]. split; [reflexivity|]. split; [reflexivity|]. split; [reflexivity|].
  change (with_net E (e_net E')) with E' in H. rewrite H. split; reflexivity.
Qed.

End Run.

(** Somebody asks for the chains of anybody: with the sites, whatever was asked of them before, and with what the
    entities say when nobody has asked anything, the results are the same. *)
Theorem C168_same : forall F E T O fuel id keys cs tick,
  library_run jwks_of (map si_m F) E -> web_works jwks_of file parse respond sign read F E -> blind (e_lib E) ->
  let r := get_verified_trust_chains (on_the_web E F T) O fuel id (mkFed (mkState [] [] tick) keys cs) in
  let r0 := get_verified_trust_chains E O fuel id (mkFed (mkState [] [] tick) keys cs) in
  same_chains (snd r) (snd r0) /\ f_keys (fst r) = f_keys (fst r0).
Proof.
  intros F E T O fuel id keys cs tick L WW HB. cbv zeta.
  destruct (chains_congruence E _ _ HB (web_same_answers F E T L WW) (web_self F E L) O fuel id (mkFed (mkState [] [] tick) keys cs))
    as [H _]. { intros x e X. discriminate X. }
  cbv zeta in H. cbn [f_col f_keys f_chains] in H.
  change (with_net E (e_net (on_the_web E F T))) with (on_the_web E F T) in H.
  change (fixed_state _ (mkState [] [] tick)) with (mkState [] [] tick) in H. rewrite H. cbn [fst snd f_keys]. split; [|reflexivity].
  destruct (snd (get_verified_trust_chains (on_the_web E F T) O fuel id _)) as [l|x]; cbn [rmap same_chains]; [|reflexivity].
  clear H. induction l as [|c l IH]; cbn [map]; [constructor|]. constructor; [apply same_fixed|exact IH].
Qed.

(** So members of a federation that is reached over HTTP find each other's chains. *)
Theorem C168_found : forall F E T O rank fuel m s s' r,
  library_run jwks_of (map si_m F) E -> web_works jwks_of file parse respond sign read F E -> blind (e_lib E) ->
  hierarchy (map si_m F) rank -> unconstrained (map si_m F) -> In m (map si_m F) -> rank (m_id m) < fuel ->
  visited (on_the_web E F T) (f_col s) -> right_keys (map si_m F) (f_keys s) ->
  get_verified_trust_chains (on_the_web E F T) O fuel (m_id m) s = (s', r) ->
  match r with
  | Ok cs =>
      (forall rt, path (map si_m F) (m_id m) rt -> rt <> [] -> VerifierSpec.known (f_keys s) (end_of (m_id m) rt) ->
         exists c, In c cs /\ runs_along c (m_id m) rt) /\
      (forall c, In c cs -> exists rt, path (map si_m F) (m_id m) rt /\ rt <> [] /\
         VerifierSpec.known (f_keys s) (end_of (m_id m) rt) /\ runs_along c (m_id m) rt) /\
      NoDup (map (fun c => tc_chain (ch_tc c)) cs)
  | Err x => exists rt claims, path (map si_m F) (m_id m) rt /\ rt <> [] /\ VerifierSpec.known (f_keys s) (end_of (m_id m) rt) /\
      map names_of claims = links (m_id m) rt ++ [(m_id m, m_id m)] /\ policy_call_chain O claims = Err x
  end.
Proof.
  intros F E T O rank fuel m s s' r L WW HB HR HU Hm Hf V HK H.
  destruct (web_chains F E T L WW HB O fuel (m_id m) s V) as (s0 & r0 & V0 & K0 & _ & E0 & _ & R0). rewrite H in R0. cbn [snd] in R0.
  destruct r0 as [s0' r0]. cbn [snd] in R0. subst r0. symmetry in E0. rewrite <- K0 in HK. rewrite <- K0.
  assert (X := C121_found jwks_of (map si_m F) E O rank fuel m s0 s0' _ L HR HU Hm Hf V0 HK E0).
  destruct r as [cs|x]; cbn [rmap] in X; [|exact X]. destruct X as (X1 & X2 & X3). split; [|split].
  - intros rt P1 P2 P3. destruct (X1 rt P1 P2 P3) as (c & Hc & Hr). apply in_map_iff in Hc. destruct Hc as (c0 & <- & Hc0).
    exists c0. split; [exact Hc0|]. apply runs_fixed in Hr. exact Hr.
  - intros c Hc. destruct (X2 (fixed_result _ c) (in_map _ _ _ Hc)) as (rt & P1 & P2 & P3 & P4). exists rt.
    apply runs_fixed in P4. auto.
  - rewrite map_map in X3. cbn [fixed_result fixed_chain ch_tc tc_chain] in X3.
    rewrite <- (map_map (fun c => tc_chain (ch_tc c)) (map (fixed_token _))) in X3. exact (NoDup_map_inv _ _ X3).
Qed.

End Web.
Print Assumptions C168_page.
Print Assumptions C168_traffic.
Print Assumptions C168_same.
Print Assumptions C168_found.

(** ** An example *)

Definition web_ta : member := mkMember
  (mkFserver "https://ta.example" (VInt 1)
     [("federation_entity", VDict [("federation_fetch_endpoint", VStr "https://ta.example/fetch")])] None [])
  None SrcNone [("https://x.example/im", [("jwks", VInt 2)])] 1 (wk "https://ta.example") "https://ta.example/fetch".

Definition web_im : member := mkMember
  (mkFserver "https://x.example/im" (VInt 2)
     [("federation_entity", VDict [("federation_fetch_endpoint", VStr "https://x.example/im/fetch")])]
     (Some (VList [VStr "https://ta.example"])) (lib_policy []))
  None SrcNone
  [("https://rp.example", [("jwks", VInt 3); ("entity_types", VList [VStr "openid_relying_party"]); ("lifetime", VInt 7200)])]
  2 (tenant "https://x.example/im") "https://x.example/im/fetch".

Definition web_rp : member := mkMember
  (mkFserver "https://rp.example" (VInt 3) [("openid_relying_party", VDict [("scope", VStr "openid"); ("org", VStr "rp")])]
     (Some (VList [VStr "https://x.example/im"])) [])
  None (SrcList [VStr "mark"]) [] 3 (wk "https://rp.example") "".

(** the intermediate shows its configuration as trust anchors do *)
Definition web_fed : list site :=
  [mkSite web_ta ByEndpoint;
   mkSite web_im (ByContext (mkContext "https://x.example/im" 86400 SrcNone RtNone (SrcList [VStr "https://ta.example"]) []));
   mkSite web_rp ByEndpoint].

Definition web_env : cenv :=
  mkEnv 300 ["https://ta.example"] (library_net ex_jwks (map si_m web_fed) (fun _ => 0%Z)) (fun _ => 0%Z) all_keys wk tenant.

Definition web_rank (e : string) : nat :=
  if String.eqb e "https://rp.example" then 2 else if String.eqb e "https://x.example/im" then 1 else 0.

Definition no_file (_ : string) : res val := Err KeyError.
Definition web_parse (_ _ : string) (a : dict string) : res parsed_request := Ok (PqArgs a).
Definition web_respond (_ : string) (_ : dict string) (o : outcome) : res info :=
  Ok (mkInfo None (oc_text o) [("Content-type", "application/jose; charset=utf-8")]).
Definition web_err (c : string) (_ : exn) : string := c.
Definition web_read (t : string) : option token :=
  match text_read t with
  | Some (k, p) => Some (match decode ex_jwks p with Some st => TJws k st | None => TJunk end)
  | None => None
  end.

(** somebody has asked the intermediate as somebody else, and then in other ways *)
Definition web_attack (n : nat) : list (Z * meth * string) :=
  [(0%Z, GET, fetch_url "https://x.example/im/fetch" "https://evil.example" "https://rp.example");
   (0%Z, HEAD, "https://x.example/im/fetch"); (0%Z, OtherMethod, "https://ta.example/fetch");
   (0%Z, GET, "https://ta.example/fetch?sub=nobody"); (0%Z, GET, "https://ta.example/elsewhere")].

Ltac sites := repeat match goal with
  | H : In _ (map si_m web_fed) |- _ => destruct H as [<-|[<-|[<-|[]]]]
  | H : In _ web_fed |- _ => destruct H as [<-|[<-|[<-|[]]]] end.

Lemma web_library : library_run ex_jwks (map si_m web_fed) web_env.
Proof.
  constructor.
  - reflexivity.
  - reflexivity.
  - reflexivity.
  - intros n p z Hz Hn. cbn. unfold within_skew. rewrite Hz. apply Z.ltb_lt. lia.
  - reflexivity.
  - intros m m' Hm Hm' H. sites; try reflexivity; discriminate H.
  - intros m m' Hm Hm' H. sites; try reflexivity; vm_compute in H; discriminate H.
  - intros m m' Hm Hm' H N. sites; try reflexivity; discriminate H.
  - intros m Hm. sites; [left; reflexivity| |left; reflexivity]. right. split; [reflexivity|]. split; [vm_compute; discriminate|].
    intros m' Hm'. sites; vm_compute; discriminate.
  - intros m Hm. sites; (apply mkSound;
      [split; [discriminate|reflexivity]
      |eexists; split; [reflexivity|left; reflexivity]
      |split; intros x e H; apply dget_In in H; simpl in H;
        repeat destruct H as [H|H]; try contradiction; injection H as <- <-; apply nodupb_sound; reflexivity
      |intros x p k H Hk; apply dget_In in H; simpl in H;
        repeat destruct H as [H|H]; try contradiction; injection H as <- <-; simpl in Hk; intuition auto
      |eexists; reflexivity
      |intros p Hp; vm_compute in Hp; injection Hp as <-; vm_compute; discriminate
      |intros a Ha; simpl in Ha; repeat destruct Ha as [<-|Ha]; try destruct Ha; reflexivity
      |intros sub e v H Hv; apply dget_In in H; simpl in H; repeat destruct H as [H|H]; try contradiction;
        injection H as <- <-; vm_compute in Hv; try discriminate Hv; injection Hv as <-;
        refine (ex_intro _ _ (conj eq_refl (conj eq_refl eq_refl)))]).
  - intros m a Hm Ha. sites; simpl in Ha; repeat destruct Ha as [<-|Ha]; try destruct Ha.
    + exists web_ta. split; [left; reflexivity|]. split; [reflexivity|]. constructor.
      * apply locationb_sound. reflexivity.
      * eexists. split; reflexivity.
      * eexists _, _, _. split; [split; [reflexivity|discriminate]|]. split; [|split; [reflexivity|split; [reflexivity|left; reflexivity]]].
        split; [intros k Hk; simpl in Hk; repeat destruct Hk as [<-|Hk]; try destruct Hk; reflexivity|].
        split; [intros v Hv; discriminate Hv|]. split; [intros v Hv; discriminate Hv|]. intros p k v Hp; discriminate Hp.
      * intros p Hp. vm_compute in Hp; injection Hp as <-; vm_compute; discriminate.
    + exists web_im. split; [right; left; reflexivity|]. split; [reflexivity|]. constructor.
      * apply locationb_sound. reflexivity.
      * eexists. split; reflexivity.
      * eexists _, _, _. split; [split; [reflexivity|discriminate]|]. split; [|split; [reflexivity|split; [reflexivity|left; reflexivity]]].
        split; [intros k Hk; simpl in Hk; repeat destruct Hk as [<-|Hk]; try destruct Hk; reflexivity|].
        split; [intros v Hv; injection Hv as <-; eexists; reflexivity|].
        split; [intros v Hv; injection Hv as <-; exists ["openid_relying_party"]; reflexivity|].
        intros p k v Hp Hk. cbn in Hp. discriminate Hp.
      * intros p Hp. vm_compute in Hp; injection Hp as <-; vm_compute; discriminate.
Qed.

Fixpoint last_char (s : string) : option Ascii.ascii :=
  match s with EmptyString => None | String c EmptyString => Some c | String _ s => last_char s end.

Lemma last_char_app x s : s <> "" -> last_char (x ++ s)%string = last_char s.
Proof.
  intros Hs. induction x as [|c x IH]; [reflexivity|]. cbn [append last_char]. rewrite <- IH.
  destruct (x ++ s)%string eqn:E; [|reflexivity]. destruct x; [contradiction|discriminate].
Qed.

Lemma web_fine : web_works ex_jwks no_file web_parse web_respond text_of web_read web_fed web_env.
Proof.
  constructor.
  - intros k p. unfold web_read. rewrite text_read_of. reflexivity.
  - intros id a _. exists a. repeat split.
  - intros id a. exists a. reflexivity.
  - intros ep a text. eexists. split; [reflexivity|]. split; [reflexivity|left; reflexivity].
  - reflexivity.
  - reflexivity.
  - intros s Hs Hne x Hx. apply (f_equal last_char) in Hx. rewrite last_char_app in Hx by discriminate.
    sites; [discriminate Hx|discriminate Hx|exact (Hne eq_refl)].
  - intros s Hs. sites; [exact I| |exact I]. do 3 (split; [reflexivity|]). split; [exact I|]. split.
    + intros v [= <-]. left. reflexivity.
    + eexists. split; reflexivity.
Qed.

Lemma web_hierarchy : hierarchy (map si_m web_fed) web_rank.
Proof. intros m a Hm Ha. sites; simpl in Ha; repeat destruct Ha as [<-|Ha]; try destruct Ha; vm_compute; lia. Qed.

Definition web_collector : cenv :=
  on_the_web no_file web_parse (fun _ => false) web_respond web_err text_of web_read web_env web_fed web_attack.

(** the attack changes what the intermediate says, and the chain is found nevertheless *)
Example C168_ex :
  library_run ex_jwks (map si_m web_fed) web_env /\
  web_works ex_jwks no_file web_parse web_respond text_of web_read web_fed web_env /\ blind (e_lib web_env) /\
  hierarchy (map si_m web_fed) web_rank /\ unconstrained (map si_m web_fed) /\ In web_rp (map si_m web_fed) /\
  right_keys (map si_m web_fed) [("https://ta.example", [1])] /\
  path (map si_m web_fed) (m_id web_rp) ["https://x.example/im"; "https://ta.example"] /\
  (exists st, e_net web_collector 0 (QFetch "https://x.example/im/fetch" "https://x.example/im" "https://rp.example") =
     RText (Some (TJws 2 st)) /\ s_hints st = Some ["https://evil.example"]) /\
  exists s' c, get_verified_trust_chains web_collector id_order 3 "https://rp.example"
                 (mkFed (mkState [] [] 0) [("https://ta.example", [1])] []) = (s', Ok [c]) /\
    runs_along c "https://rp.example" ["https://x.example/im"; "https://ta.example"].
Proof.
  split; [exact web_library|]. split; [exact web_fine|]. split; [intros k p h x; reflexivity|]. split; [exact web_hierarchy|].
  split. { intros m sub e Hm He. apply dget_In in He. sites; simpl in He; repeat destruct He as [He|He]; try contradiction;
           injection He as <- <-; reflexivity. }
  split; [simpl; auto|].
  split. { intros m ks Hm Hk. sites; vm_compute in Hk; try discriminate Hk. injection Hk as <-. left. reflexivity. }
  split. { apply (path_up _ web_rp); [simpl; auto|left; reflexivity|]. apply (path_up _ web_im); [simpl; auto|left; reflexivity|].
           apply (path_end _ web_ta); [simpl; auto|reflexivity]. }
  split. { eexists. split; vm_compute; reflexivity. }
  eexists _, _. split; [vm_compute; reflexivity|]. split; vm_compute; reflexivity.
Qed.
