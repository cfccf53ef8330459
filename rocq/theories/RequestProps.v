(** What a relying party says when it asks to be registered (C156). *)
From Verif Require Import PyFacts ExampleKit FetchFacts FetchProps PublishFacts ContextModel.
From Verif Require Import ClientFacts ClientProps RegistrationFacts RegistrationProps RegistrationGrantProps RpSpec RpFacts RpProps.
From Verif Require Import LiveFacts LiveExample LiveResolveProps LiveRegisterProps LiveAnswerProps.
From Coq Require Import Lia.

(** the same claims, apart from the time of expiry *)
Definition same_claims (p q : dict val) : Prop := forall k, k <> "exp" -> dget k p = dget k q.

(** the superiors can be read, and are not an empty list that has to be read from somewhere *)
Definition hints_at_hand (file : string -> res val) (s : source) : Prop :=
  s = SrcList [] \/ exists v, get_authority_hints file s = Ok v /\ truthy v = true.

(** the marks are a list or there are none *)
Definition marks_at_hand (s : source) : Prop := s = SrcNone \/ exists l, s = SrcList l.

(** whoever publishes an entity configuration can also ask to be registered, with the same claims *)
Definition C156_oidc_full : Prop := forall file cx jw parts now q,
  (0 < cx_lifetime cx)%Z -> context_configuration file cx jw parts now = Ok q ->
  exists p, request_oidc file cx jw parts now = Ok p /\ same_claims p q /\ dget "exp" p = Some (VInt (now + cx_lifetime cx)).

Definition C156_oauth_full : Prop := forall file cx jw parts now q,
  (0 < cx_lifetime cx)%Z -> context_configuration file cx jw parts now = Ok q ->
  exists p, request_oauth file cx jw parts None now = Ok p /\ same_claims p q /\ dget "exp" p = Some (VInt (now + cx_lifetime cx)).

Definition no_file (_ : string) : res val := Err OtherException.

Definition called_marks : context :=
  mkContext "rp" 3600 (SrcCall (Ok (VList [VStr "mark"]))) (RtDict []) (SrcList [VStr "ta"]) [].

(** trust marks that are found by calling something are published but cannot be sent *)
Theorem C156_oidc_refuted : ~ C156_oidc_full.
Proof.
  intros H. destruct (H no_file called_marks (VInt 4) [] 1000%Z _ ltac:(reflexivity) ltac:(vm_compute; reflexivity)) as (p & X & _).
  vm_compute in X. discriminate X.
Qed.
Print Assumptions C156_oidc_refuted.

Definition filed_marks : context :=
  mkContext "rp" 3600 (SrcFile "marks.json") (RtDict []) (SrcList [VStr "ta"]) [].

Definition marks_file (_ : string) : res val := Ok (VList [VStr "mark"]).

(** of trust marks in a file the OAuth2 client sends the content, and the entity publishes the name of the file; and
    superiors in a file that lists none are published as no superiors and sent as the name of the file *)
Theorem C156_oauth_refuted : ~ C156_oauth_full /\
  (exists file p q, context_configuration file (mkContext "rp" 3600 SrcNone (RtDict []) (SrcFile "hints.json") []) (VInt 4) [] 1000%Z = Ok q /\
     request_oauth file (mkContext "rp" 3600 SrcNone (RtDict []) (SrcFile "hints.json") []) (VInt 4) [] None 1000%Z = Ok p /\
     dget "authority_hints" q = None /\ dget "authority_hints" p = Some (VStr "hints.json")).
Proof.
  split.
  - intros H. destruct (H marks_file filed_marks (VInt 4) [] 1000%Z _ ltac:(reflexivity) ltac:(vm_compute; reflexivity)) as (p & X & Y & _).
    vm_compute in X. injection X as <-. specialize (Y "trust_marks" ltac:(discriminate)). vm_compute in Y. discriminate Y.
  - exists (fun _ => Ok (VList [])). eexists _, _. split; [vm_compute; reflexivity|]. split; [vm_compute; reflexivity|].
    split; reflexivity.
Qed.
Print Assumptions C156_oauth_refuted.

(** ** Lemmas *)

Definition base (md h : val) (m : dict val) : dict val := ("metadata", md) :: ("authority_hints", h) :: m.

(** the arguments create_entity_statement gets in the end *)
Definition sent (md h : val) (m : dict val) (z : Z) : dict val := base md h (m ++ [("lifetime", VInt z)]).

Lemma hints_value file s h : hints_at_hand file s -> get_authority_hints file s = Ok h ->
  truthy h = true \/ (s = SrcList [] /\ h = VList []).
Proof.
  intros [->|(v & Hv & T)] H.
  - injection H as <-. right. auto.
  - rewrite H in Hv. injection Hv as ->. left. exact T.
Qed.

(** without marks at hand there are none *)
Lemma statement_sent file cx now id jw md h m :
  hints_at_hand file (cx_hints cx) -> get_authority_hints file (cx_hints cx) = Ok h ->
  (m = [] /\ (exists v, get_trust_marks file (cx_marks cx) = Ok v /\ truthy v = false)) \/
  (exists v, m = [("trust_marks", v)] /\ (truthy v = true \/ get_trust_marks file (cx_marks cx) = Ok v)) ->
  ctx_statement file cx now id id jw (base md h m) = create_entity_statement now id id jw (sent md h m (cx_lifetime cx)).
Proof.
  intros HH Hh Hm. unfold ctx_statement, base, sent.
  destruct Hm as [(-> & v & Hv & T)|(v & -> & Hv)]; cbn -[truthy create_entity_statement get_trust_marks raw_hints].
  - rewrite Hv. cbn [bind]. rewrite T. unfold filled. cbn -[truthy create_entity_statement raw_hints].
    destruct (hints_value file _ h HH Hh) as [T'|(S' & ->)].
    + rewrite T'. reflexivity.
    + rewrite S'. cbn -[create_entity_statement]. destruct (create_entity_statement _ _ _ _ _); reflexivity.
  - unfold filled at 1. cbn -[truthy create_entity_statement get_trust_marks raw_hints].
    match goal with |- bind ?a _ = _ =>
      assert (X : a = Ok [("metadata", md); ("authority_hints", h); ("trust_marks", v); ("lifetime", VInt (cx_lifetime cx))]) end.
    { destruct (truthy v) eqn:T; [reflexivity|]. destruct Hv as [Hv|Hv]; [discriminate Hv|]. rewrite Hv. cbn [bind]. rewrite T. reflexivity. }
    rewrite X.
    cbn [bind]. unfold filled. cbn -[truthy create_entity_statement raw_hints].
    destruct (hints_value file _ h HH Hh) as [T'|(S' & ->)].
    + rewrite T'. reflexivity.
    + rewrite S'. cbn -[create_entity_statement]. destruct (create_entity_statement _ _ _ _ _); reflexivity.
Qed.

Lemma sent_claims now id jw md h m z q : (0 < z)%Z ->
  m = [] \/ (exists v, m = [("trust_marks", v)]) ->
  create_entity_statement now id id jw (base md h m) = Ok q ->
  exists p, create_entity_statement now id id jw (sent md h m z) = Ok p /\ same_claims p q /\
            dget "exp" p = Some (VInt (now + z)).
Proof.
  intros Hz Hm Hq.
  assert (N1 : NoDup (dkeys (base md h m))) by (destruct Hm as [->|[v ->]]; apply nodupb_sound; reflexivity).
  assert (N2 : NoDup (dkeys (sent md h m z))) by (destruct Hm as [->|[v ->]]; apply nodupb_sound; reflexivity).
  assert (G : forall k, k <> "lifetime" -> dget k (sent md h m z) = dget k (base md h m)).
  { intros k Hk. unfold sent, base.
    assert (Y : dget k (m ++ [("lifetime", VInt z)]) = dget k m).
    { destruct Hm as [->|[v ->]]; cbn [app dget]; destruct (String.eqb_spec k "lifetime"); congruence. }
    cbn [dget]. rewrite Y. reflexivity. }
  assert (GL : dget "lifetime" (sent md h m z) = Some (VInt z)) by (destruct Hm as [->|[v ->]]; reflexivity).
  destruct (create_total now id id jw (sent md h m z)) as [p Hp].
  { intros k Hk. destruct Hm as [->|[v ->]]; cbn [In] in Hk; repeat (destruct Hk as [<-|Hk]; [reflexivity|]); destruct Hk. }
  { intros v Hv. rewrite GL in Hv. injection Hv as <-. eauto. }
  exists p. split; [exact Hp|]. split.
  - intros k Hk. rewrite (create_claims _ _ _ _ _ _ N2 Hp), (create_claims _ _ _ _ _ _ N1 Hq).
    unfold claim_of, arg_or. destruct (String.eqb_spec k "exp"); [congruence|].
    destruct (String.eqb_spec k "lifetime") as [->|N]; [reflexivity|].
    rewrite (G k N), (G "jwks"), (G "include_jwks") by discriminate. reflexivity.
  - rewrite (create_claims _ _ _ _ _ _ N2 Hp). unfold claim_of, arg_or. rewrite GL.
    cbn -[Z.add Z.eqb]. destruct (Z.eqb_spec z 0); [lia|reflexivity].
Qed.

(** ** The theorems *)

(** With the superiors and the trust marks at hand an OpenID Connect relying party says what it publishes; only the time of
    expiry is that of its context.  The name of a file with trust marks is published and sent as it is. *)
Theorem C156_oidc_partial : forall file cx jw parts now q,
  (0 < cx_lifetime cx)%Z -> hints_at_hand file (cx_hints cx) ->
  marks_at_hand (cx_marks cx) \/ (exists path, cx_marks cx = SrcFile path /\ path <> "") ->
  context_configuration file cx jw parts now = Ok q ->
  exists p, request_oidc file cx jw parts now = Ok p /\ same_claims p q /\ dget "exp" p = Some (VInt (now + cx_lifetime cx)).
Proof.
  intros file cx jw parts now q Hz HH HM Hq. unfold context_configuration in Hq. apply bind_ok in Hq. destruct Hq as (h & Hh & Hq).
  unfold entity_configuration in Hq. apply bind_ok in Hq. destruct Hq as (m & Hm & Hq).
  cbn [fs_id fs_jwks fs_hints published_metadata app] in Hq.
  change (("metadata", VDict (combo_metadata parts)) :: ("authority_hints", h) :: m)
    with (base (VDict (combo_metadata parts)) h m) in Hq.
  assert (K : m = [] \/ exists v, m = [("trust_marks", v)]).
  { unfold marks_args in Hm. destruct HM as [[E|[l E]]|(path & E & Np)]; rewrite E in Hm.
    - injection Hm as <-. auto.
    - destruct l; injection Hm as <-; eauto.
    - destruct (String.eqb path ""); injection Hm as <-; eauto. }
  destruct (sent_claims now (cx_id cx) jw _ h m (cx_lifetime cx) q Hz K Hq) as (p & Hp & R). exists p. split; [|exact R].
  unfold request_oidc. rewrite Hh. cbn [bind]. rewrite <- Hp, <- (statement_sent file cx).
  - unfold marks_args in Hm. destruct HM as [[E|[l E]]|(path & E & Np)]; rewrite E in Hm |- *.
    + injection Hm as <-. reflexivity.
    + destruct l; injection Hm as <-; reflexivity.
    + destruct (String.eqb_spec path ""); [contradiction|]. injection Hm as <-. reflexivity.
  - exact HH.
  - exact Hh.
  - unfold marks_args in Hm. destruct HM as [[E|[l E]]|(path & E & Np)]; rewrite E in Hm |- *.
    + injection Hm as <-. left. split; [reflexivity|]. eexists. split; reflexivity.
    + destruct l as [|x l]; injection Hm as <-.
      * left. split; [reflexivity|]. eexists. split; reflexivity.
      * right. eexists. split; [reflexivity|]. left. reflexivity.
    + destruct (String.eqb_spec path "") as [|N]; [contradiction|]. injection Hm as <-.
      right. eexists. split; [reflexivity|]. left. cbn [truthy]. destruct (String.eqb_spec path ""); [contradiction|reflexivity].
Qed.
Print Assumptions C156_oidc_partial.

Lemma no_client parts : client_metadata_of None parts = combo_metadata parts.
Proof.
  unfold client_metadata_of, combo_metadata. generalize (@nil (string * val)). induction parts as [|[k x] parts IH]; intros acc; [reflexivity|].
  cbn [fold_left snd fst]. destruct x; apply IH.
Qed.

(** what a part says about the entity type [t] if [client] is the one that asks *)
Definition part_says (client : option (dict val)) (n : string) (x : part) (t : string) (v : val) : Prop :=
  match x with
  | PMeta md => dget t (md n) = Some v
  | PHandler => exists md, client = Some md /\ dget t md = Some v
  | PPlain => False
  end.

Definition proper_dicts (client : option (dict val)) (parts : dict part) : Prop :=
  (forall md, client = Some md -> NoDup (dkeys md)) /\ (forall n md, In (n, PMeta md) parts -> NoDup (dkeys (md n))).

(** [d] is what the parts say, later ones taking precedence *)
Record said_by_parts (client : option (dict val)) (parts : dict part) (d : dict val) : Prop := mkSaidBy {
  sp_all : forall l1 n x l2 t v, parts = (l1 ++ (n, x) :: l2)%list -> part_says client n x t v ->
           (forall n' x' w, In (n', x') l2 -> ~ part_says client n' x' t w) -> dget t d = Some v;
  sp_only : forall t v, dget t d = Some v -> exists n x, In (n, x) parts /\ part_says client n x t v
}.

Lemma parts_said client parts : proper_dicts client parts -> said_by_parts client parts (client_metadata_of client parts).
Proof.
  intros (H1 & H2). unfold client_metadata_of.
  set (step := fun acc p => match snd p with PMeta md => _ | PHandler => _ | PPlain => acc end).
  assert (S1 : forall acc n x t, In (n, x) parts ->
     (exists v, part_says client n x t v /\ dget t (step acc (n, x)) = Some v) \/
     ((forall v, ~ part_says client n x t v) /\ dget t (step acc (n, x)) = dget t acc)).
  { intros acc n x t Hx. unfold step. cbn [fst snd]. destruct x as [| |md]; cbn [part_says].
    - destruct client as [md|].
      + rewrite dget_dupdate by (apply H1; reflexivity). destruct (dget t md) as [v|] eqn:Et; [left; eauto|].
        right. split; [|reflexivity]. intros v (md' & X & Y). congruence.
      + right. split; [|reflexivity]. intros v (md' & X & _). discriminate X.
    - right. split; [intros v X; exact X|reflexivity].
    - rewrite dget_dupdate by exact (H2 n md Hx). destruct (dget t (md n)) as [v|] eqn:Et; [left; eauto|].
      right. split; [|reflexivity]. intros v X. discriminate X. }
  assert (S2 : forall l acc t, incl l parts -> (forall n' x' w, In (n', x') l -> ~ part_says client n' x' t w) ->
     dget t (fold_left step l acc) = dget t acc).
  { induction l as [|[n x] l IH]; intros acc t Hi Hn; [reflexivity|]. cbn [fold_left]. rewrite IH.
    - destruct (S1 acc n x t (Hi _ (or_introl eq_refl))) as [(v & X & _)|(_ & X)]; [|exact X].
      destruct (Hn n x v (or_introl eq_refl) X).
    - intros y Hy. apply Hi. right. exact Hy.
    - intros n' x' w Hw. apply Hn. right. exact Hw. }
  constructor.
  - intros l1 n x l2 t v -> Hs Hn. rewrite fold_left_app. cbn [fold_left]. rewrite S2; [|intros y Hy; apply in_or_app; right; right; exact Hy|exact Hn].
    destruct (S1 (fold_left step l1 []) n x t ltac:(apply in_or_app; right; left; reflexivity)) as [(w & X & Y)|(X & _)].
    + rewrite Y. f_equal. destruct x as [| |md]; cbn [part_says] in X, Hs.
      * destruct X as (m1 & -> & X), Hs as (m2 & E & Hs). injection E as <-. congruence.
      * contradiction.
      * congruence.
    + destruct (X v Hs).
  - intros t v.
    enough (G : forall l acc, incl l parts -> dget t (fold_left step l acc) = Some v ->
                dget t acc = Some v \/ exists n x, In (n, x) parts /\ part_says client n x t v).
    { intros H. destruct (G parts [] (fun _ X => X) H) as [X|X]; [discriminate X|exact X]. }
    induction l as [|[n x] l IH]; intros acc Hi H; [left; exact H|]. cbn [fold_left] in H.
    destruct (IH _ (fun y Hy => Hi y (or_intror Hy)) H) as [X|X]; [|right; exact X].
    destruct (S1 acc n x t (Hi _ (or_introl eq_refl))) as [(w & Y & Z)|(_ & Y)].
    + right. exists n, x. split; [apply Hi; left; reflexivity|]. congruence.
    + left. congruence.
Qed.

Lemma part_says_dec client n x t : (exists v, part_says client n x t v) \/ (forall v, ~ part_says client n x t v).
Proof.
  destruct x as [| |md]; cbn [part_says].
  - destruct client as [md|]; [|right; intros v (m & X & _); discriminate X].
    destruct (dget t md) as [v|] eqn:E; [left; eauto|]. right. intros v (m & X & Y). congruence.
  - right. intros v X. exact X.
  - destruct (dget t (md n)) as [v|]; [left; eauto|]. right. intros v X. discriminate X.
Qed.

Lemma last_saying client t parts : (exists n x v, In (n, x) parts /\ part_says client n x t v) ->
  exists l1 n x l2 v, parts = (l1 ++ (n, x) :: l2)%list /\ part_says client n x t v /\
    (forall n' x' w, In (n', x') l2 -> ~ part_says client n' x' t w).
Proof.
  induction parts as [|[n x] parts IH].
  - intros (n & x & v & X & _). destruct X.
  - intros (n' & x' & v & Hx & Hv).
    assert (D : (exists n x v, In (n, x) parts /\ part_says client n x t v) \/
                (forall n x w, In (n, x) parts -> ~ part_says client n x t w)).
    { clear. induction parts as [|[n x] parts [IH|IH]].
      - right. intros n x w X. destruct X.
      - left. destruct IH as (a & b & c & X & Y). exists a, b, c. split; [right; exact X|exact Y].
      - destruct (part_says_dec client n x t) as [(v & X)|X].
        + left. exists n, x, v. split; [left; reflexivity|exact X].
        + right. intros a b w [E|E]; [injection E as <- <-; apply X|exact (IH a b w E)]. }
    destruct D as [D|D].
    + destruct (IH D) as (l1 & a & b & l2 & w & -> & X & Y). exists ((n, x) :: l1), a, b, l2, w. split; [reflexivity|]. auto.
    + destruct Hx as [E|Hx]; [injection E as -> ->|destruct (D n' x' v Hx Hv)].
      exists [], n', x', parts, v. split; [reflexivity|]. auto.
Qed.

Lemma client_says_some client parts t : proper_dicts client parts -> (exists n x v, In (n, x) parts /\ part_says client n x t v) ->
  exists v, dget t (client_metadata_of client parts) = Some v.
Proof.
  intros PD H. destruct (last_saying client t parts H) as (l1 & n & x & l2 & v & E & S1 & S2). exists v.
  exact (sp_all _ _ _ (parts_said client parts PD) l1 n x l2 t v E S1 S2).
Qed.

(** So does an OAuth2 client, also if the trust marks are found by calling something.  If it asks on behalf of a client of a
    handler, the metadata is that of this client and of the other parts. *)
Theorem C156_oauth_partial : forall file cx jw parts client now q,
  (0 < cx_lifetime cx)%Z -> hints_at_hand file (cx_hints cx) ->
  marks_at_hand (cx_marks cx) \/ (exists r, cx_marks cx = SrcCall r) ->
  context_configuration file cx jw parts now = Ok q ->
  exists p, request_oauth file cx jw parts client now = Ok p /\
    (forall k, k <> "exp" -> k <> "metadata" -> dget k p = dget k q) /\
    (proper_dicts client parts -> (exists n x t v, In (n, x) parts /\ part_says client n x t v) ->
       exists d, dget "metadata" p = Some (VDict d) /\ said_by_parts client parts d) /\
    (client = None -> same_claims p q) /\ dget "exp" p = Some (VInt (now + cx_lifetime cx)).
Proof.
  intros file cx jw parts client now q Hz HH HM Hq. unfold context_configuration in Hq. apply bind_ok in Hq. destruct Hq as (h & Hh & Hq).
  unfold entity_configuration in Hq. apply bind_ok in Hq. destruct Hq as (m & Hm & Hq).
  cbn [fs_id fs_jwks fs_hints published_metadata app] in Hq.
  change (("metadata", VDict (combo_metadata parts)) :: ("authority_hints", h) :: m)
    with (base (VDict (combo_metadata parts)) h m) in Hq.
  assert (K : m = [] \/ exists v, m = [("trust_marks", v)]).
  { unfold marks_args in Hm. destruct HM as [[E|[l E]]|([v|x] & E)]; rewrite E in Hm.
    - injection Hm as <-. auto.
    - destruct l; injection Hm as <-; eauto.
    - injection Hm as <-. eauto.
    - discriminate Hm. }
  assert (M : request_oauth file cx jw parts client now =
              ctx_statement file cx now (cx_id cx) (cx_id cx) jw (base (VDict (client_metadata_of client parts)) h m)).
  { unfold request_oauth. rewrite Hh. cbn [bind]. unfold marks_args in Hm.
    destruct HM as [[E|[l E]]|([v|x] & E)]; rewrite E in Hm |- *.
    - injection Hm as <-. reflexivity.
    - destruct l; injection Hm as <-; reflexivity.
    - injection Hm as <-. reflexivity.
    - discriminate Hm. }
  rewrite M, (statement_sent file cx); [|exact HH|exact Hh|].
  2: { unfold marks_args in Hm. destruct HM as [[E|[l E]]|([v|x] & E)]; rewrite E in Hm |- *.
       - injection Hm as <-. left. split; [reflexivity|]. eexists. split; reflexivity.
       - destruct l as [|y l]; injection Hm as <-.
         + left. split; [reflexivity|]. eexists. split; reflexivity.
         + right. eexists. split; [reflexivity|]. left. reflexivity.
       - injection Hm as <-. right. eexists. split; [reflexivity|]. right. reflexivity.
       - discriminate Hm. }
  assert (Nb : forall md, NoDup (dkeys (base md h m))) by (intros md; destruct K as [->|[v ->]]; apply nodupb_sound; reflexivity).
  destruct (create_total now (cx_id cx) (cx_id cx) jw (base (VDict (client_metadata_of client parts)) h m)) as [q' Hq'].
  { intros k Hk. destruct K as [->|[v ->]]; cbn [In] in Hk; repeat (destruct Hk as [<-|Hk]; [reflexivity|]); destruct Hk. }
  { intros v Hv. destruct K as [->|[w ->]]; discriminate Hv. }
  destruct (sent_claims now (cx_id cx) jw _ h m (cx_lifetime cx) q' Hz K Hq') as (p & Hp & R1 & R2).
  exists p. split; [exact Hp|]. split; [|split; [|split; [|exact R2]]].
  - intros k Hk Nk. rewrite (R1 k Hk), (create_claims _ _ _ _ _ _ (Nb _) Hq'), (create_claims _ _ _ _ _ _ (Nb _) Hq).
    unfold claim_of, arg_or, base. cbn [dget]. destruct (String.eqb_spec k "metadata"); [contradiction|].
    destruct (String.eqb_spec k "exp"); [contradiction|]. cbn -[dget if_truthy truthy smem]. reflexivity.
  - intros PD (n & x & t & v & Hx & Hv). exists (client_metadata_of client parts). split; [|apply parts_said; exact PD].
    rewrite (R1 "metadata") by discriminate. rewrite (create_claims _ _ _ _ _ _ (Nb _) Hq'). unfold claim_of.
    assert (Hne : client_metadata_of client parts <> []).
    { assert (D := client_says_some client parts t PD (ex_intro _ n (ex_intro _ x (ex_intro _ v (conj Hx Hv))))).
      intros E. rewrite E in D. destruct D as (w & D). discriminate D. }
    cbn -[truthy client_metadata_of]. destruct (client_metadata_of client parts); [contradiction|reflexivity].
  - intros ->. rewrite no_client in Hq'. rewrite Hq in Hq'. injection Hq' as <-. exact R1.
Qed.
Print Assumptions C156_oauth_partial.

(** ** It is answered *)

(** the context [cx] is that of the member [m], which has the parts [parts] *)
Definition context_of (file : string -> res val) (cx : context) (parts : dict part) (m : member) : Prop :=
  m_id m = cx_id cx /\ m_marks m = cx_marks cx /\ m_whole m = Some parts /\
  exists h, get_authority_hints file (cx_hints cx) = Ok h /\ fs_hints (m_srv m) = Some h.

Lemma context_config file cx parts m now : context_of file cx parts m ->
  entity_configuration (m_srv m) (m_whole m) (m_marks m) now = context_configuration file cx (fs_jwks (m_srv m)) parts now.
Proof.
  intros (C1 & C2 & C3 & h & C4 & C5). unfold context_configuration. rewrite C4. cbn [bind].
  unfold entity_configuration. rewrite C2, C3, C5, <- C1. reflexivity.
Qed.

Lemma decode_same jwks_of p q st z : same_claims p q -> dget "exp" p = Some (VInt z) -> decode jwks_of q = Some st ->
  decode jwks_of p = Some (mkStmt (s_iss st) (s_sub st) (Some z) (s_jwks st) (s_metadata st) (s_policy st) (s_constraints st) (s_hints st)).
Proof.
  intros H X D. unfold decode in *. rewrite (H "iss"), (H "sub") by discriminate.
  destruct (dget "iss" q) as [[| | |iss| |]|]; try discriminate D. destruct (dget "sub" q) as [[| | |sub| |]|]; try discriminate D.
  unfold claim in *. rewrite X, (H "jwks"), (H "metadata"), (H "metadata_policy"), (H "constraints"), (H "authority_hints") by discriminate.
  destruct (match dget "exp" q with Some v => option_map Some (as_int v) | None => Some None end); [|discriminate D].
  destruct (match dget "jwks" q with Some v => option_map Some (jwks_of v) | None => Some None end); [|discriminate D].
  destruct (match dget "metadata" q with Some v => _ | None => Some None end); [|discriminate D].
  destruct (match dget "metadata_policy" q with Some v => _ | None => Some None end); [|discriminate D].
  destruct (match dget "constraints" q with Some v => _ | None => Some None end); [|discriminate D].
  destruct (match dget "authority_hints" q with Some v => _ | None => Some None end); [|discriminate D].
  injection D as <-. reflexivity.
Qed.

(** The request an OpenID Connect relying party makes is one that the OPs of its federation answer: the OP registers it. *)
Theorem C156_answered_partial : forall jwks_of F E O rank fuel R P prio mo mr d s file cx parts,
  (0 < cx_lifetime cx)%Z -> hints_at_hand file (cx_hints cx) ->
  marks_at_hand (cx_marks cx) \/ (exists path, cx_marks cx = SrcFile path /\ path <> "") -> context_of file cx parts mr ->
  library_run jwks_of F E -> hierarchy F rank -> checkable jwks_of F E (m_id mr) -> In mr F -> rank (m_id mr) < fuel ->
  visited E (f_col (a_fed s)) -> right_keys F (f_keys (a_fed s)) -> keeps_id R -> is_member P mo ->
  only_client (s_metadata (config jwks_of F E (m_id mr))) d -> good_client R false (m_id mr) d ->
  (exists rt, usable jwks_of F E (f_keys (a_fed s)) (m_id mr) rt) ->
  (forall rt, usable jwks_of F E (f_keys (a_fed s)) (m_id mr) rt -> exists md, adjusted O jwks_of F E (m_id mr) rt md) ->
  exists p st s' a,
    request_oidc file cx (fs_jwks (m_srv mr)) parts (e_clock E 0) = Ok p /\ decode jwks_of p = Some st /\
    asks jwks_of F E mr (TJws (m_key mr) st) /\
    answer_oidc E O fuel R P prio (TJws (m_key mr) st) s = (s', Ok (Some a)) /\
    dmem (m_id mr) (r_cdb (a_reg s')) = true /\ s_iss (an_claims a) = m_id mo /\ s_sub (an_claims a) = m_id mr /\
    an_signer a = m_key mo.
Proof.
  intros jwks_of F E O rank fuel R P prio mo mr d s file cx parts Hz HH HM HC L HR CC Hm Hf V Hk KI PM OC HG EX HU.
  destruct (configuration_of_member jwks_of F E L mr Hm) as (q & st & Q1 & Q2 & Q3 & Q4 & Q5 & (ks & Q6 & Q6') & Q7 & _).
  rewrite (context_config file cx parts mr _ HC) in Q1.
  destruct (C156_oidc_partial file cx _ parts _ q Hz HH HM Q1) as (p & P1 & P2 & P3).
  assert (D := decode_same jwks_of p q st _ P2 P3 Q2).
  assert (A : asks jwks_of F E mr (TJws (m_key mr)
     (mkStmt (s_iss st) (s_sub st) (Some (e_clock E 0 + cx_lifetime cx)%Z) (s_jwks st) (s_metadata st) (s_policy st) (s_constraints st) (s_hints st)))).
  { eexists _, _. split; [reflexivity|]. cbn [s_iss s_sub s_metadata s_exp]. split; [exact Q4|]. split; [exact Q5|].
    split; [unfold config; rewrite Q3; reflexivity|]. split; [exists ks; split; [exact Q6|exact Q6']|]. split; [reflexivity|]. lia. }
  destruct (C143_answered jwks_of F E O rank fuel R P prio mo mr d _ s A L HR CC Hm Hf V Hk KI PM OC HG EX HU)
    as (s' & a & rt & ci & md & B1 & _ & _ & B4 & B5 & B6 & _ & _ & _ & B10 & _).
  exists p. eexists. exists s', a. split; [exact P1|]. split; [exact D|]. split; [exact A|]. split; [exact B1|].
  split; [unfold dmem; rewrite B10; reflexivity|]. auto.
Qed.
Print Assumptions C156_answered_partial.

(** the relying party of the example of C143, with a list of superiors and no trust marks *)
Definition v_cx : context := mkContext "rp" 3600 SrcNone (RtDict []) (SrcList [VStr "ta"]) [].

Example C156_ex :
  context_of no_file v_cx v_rp_parts v_rp /\ hints_at_hand no_file (cx_hints v_cx) /\
  (exists p st so a, request_oidc no_file v_cx (VInt 3) v_rp_parts (e_clock v_env 0) = Ok p /\
     decode ex_jwks p = Some st /\ TJws 3 st <> asking_token ex_jwks v_fed v_env "rp" /\
     answer_oidc v_env id_order 2 ex_reg v_op [] (TJws 3 st) v_server = (so, Ok (Some a)) /\ dmem "rp" (r_cdb (a_reg so)) = true) /\
  (* an OAuth2 client with marks that are found by calling something, on behalf of a client of a handler *)
  (exists p, request_oauth no_file called_marks (VInt 4) [("openid_relying_party", PHandler)]
               (Some [("oauth_client", VDict [("client_name", VStr "c")])]) 1000 = Ok p /\
     dget "trust_marks" p = Some (VList [VStr "mark"]) /\ dget "exp" p = Some (VInt 4600) /\
     dget "metadata" p = Some (VDict [("oauth_client", VDict [("client_name", VStr "c")])])).
Proof.
  split. { repeat (split; [reflexivity|]). eexists. split; reflexivity. }
  split. { right. eexists. split; reflexivity. }
  split.
  - eexists _, _, _, _. split; [vm_compute; reflexivity|]. split; [vm_compute; reflexivity|].
    split; [vm_compute; intros H; discriminate H|]. split; [vm_compute; reflexivity|]. reflexivity.
  - eexists. split; [vm_compute; reflexivity|]. repeat split; reflexivity.
Qed.
