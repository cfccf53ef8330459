(** C129, C130: failed HTTP requests. *)
From Coq Require Import Lia.
From Verif Require Import PyFacts HttpModel.
Local Open Scope string_scope.
Local Open Scope list_scope.
Local Open Scope Z_scope.

(** how the two clients get a response *)
Inductive client := App | Fed.
Definition request_of (c : client) (S : service) (net : res reply) (expected : string) : res (result * bool) :=
  service_request (match c with App => app_get S net expected | Fed => fed_get S net expected end).

(** The services of idpyoidc call the method from_<format> of a message class, so
    they know formats but no media types. *)
Definition knows_formats_only (S : service) : Prop :=
  forall fmt text d, sv_parse S fmt text = Ok d -> str_in "/" fmt = false.

(** * C129: a failed request is not taken for a success *)

Definition C129_failed_full : Prop :=
  forall c S r expected x updated,
    knows_formats_only S ->
    (r_status r < 200 \/ 300 <= r_status r) ->
    request_of c S (Ok r) expected = Ok (x, updated) ->
    updated = false.

(** a service that understands JSON in one form *)
Definition plain_service : service :=
  mkService (fun fmt text =>
               if String.eqb fmt "json" then
                 if String.eqb text "{'error': 'invalid_grant'}" then Ok [("error", VStr "invalid_grant")]
                 else Ok [("access_token", VStr text)]
               else Err AttributeError)
            (fun text => Ok [("error", VStr text)]) (fun _ => Err ValueError)
            (fun t => match t with Some t => if String.eqb t "application/json" then "json" else "" | None => "" end)
            "json".
Lemma plain_formats : knows_formats_only plain_service.
Proof.
  intros fmt text d H. cbn in H. destruct (String.eqb fmt "json") eqn:E; [|discriminate H].
  apply String.eqb_eq in E. subst fmt. reflexivity.
Qed.

(** Both clients let a service treat a redirect as the response. *)
Theorem C129_failed_refuted : ~ C129_failed_full.
Proof.
  intros H.
  assert (E : forall c, request_of c plain_service (Ok (mkReply 302 None "")) "json"
              = Ok (Msg [("http_response", VStr "")], true)) by (intros []; reflexivity).
  assert (F : 300 <= r_status (mkReply 302 None "")) by (cbn; lia).
  pose proof (H App plain_service _ _ _ _ plain_formats (or_intror F) (E App)) as X.
  discriminate X.
Qed.
Print Assumptions C129_failed_refuted.

Lemma with_status_error r d : dmem "error" (with_status r d) = dmem "error" d.
Proof. unfold with_status, dmem. rewrite dget_dset_other by discriminate. reflexivity. Qed.

(** Other failures are exceptions or messages with an error, with which the service
    context is not updated.  For the client of an RP: unless the content type of the
    response is the name of a format rather than a media type. *)
Theorem C129_failed_partial c S r expected x updated :
  knows_formats_only S ->
  (c = App -> str_in "/" (content_type r) = true) ->
  (r_status r < 200 \/ 400 <= r_status r) ->
  request_of c S (Ok r) expected = Ok (x, updated) ->
  (r_status r < 200 -> or_default expected (sv_body_type S) <> "html") ->
  updated = false /\ exists d v, x = Msg d /\ dget "error" d = Some v.
Proof.
  intros Hk Hct Hst H Hh.
  assert (Hsuc : successful (r_status r) = false).
  { unfold successful. destruct (Z.leb_spec 200 (r_status r)), (Z.leb_spec (r_status r) 206); cbn; try reflexivity; lia. }
  assert (Hred : (300 <=? r_status r) && (r_status r <? 400) = false).
  { destruct (Z.leb_spec 300 (r_status r)), (Z.ltb_spec (r_status r) 400); cbn; try reflexivity; lia. }
  assert (Hod : r_status r < 200 -> String.eqb (or_default expected (sv_body_type S)) "html" = false).
  { intros Hlt. apply String.eqb_neq. exact (Hh Hlt). }
  unfold request_of, service_request in H. apply bind_ok in H. destruct H as [y [H1 H2]].
  inversion H2; subst y updated. clear H2.
  assert (Hgoal : (exists d v, x = Msg d /\ dget "error" d = Some v) ->
                  negb (has_error x) = false /\ exists d v, x = Msg d /\ dget "error" d = Some v).
  { intros [d [v [-> Hd]]]. split; [cbn; unfold dmem; rewrite Hd; reflexivity|]. exists d, v. split; [reflexivity|exact Hd]. }
  apply Hgoal. destruct c.
  - unfold app_get in H1. cbn [bind] in H1. rewrite Hred in H1.
    assert (Hpage : (r_status r <? 300) && String.eqb (if r_status r <? 300 then or_default expected (sv_body_type S) else expected) "html" = false).
    { destruct (Z.ltb_spec (r_status r) 300); [apply Hod; lia|reflexivity]. }
    rewrite Hpage in H1. unfold app_parse in H1. rewrite Hsuc in H1.
    destruct ((r_status r =? 302) || (r_status r =? 303)) eqn:E1.
    { exfalso. apply Bool.orb_true_iff in E1. destruct E1 as [E1|E1]; apply Z.eqb_eq in E1; lia. }
    destruct (r_status r =? 500); [discriminate H1|].
    destruct ((400 <=? r_status r) && (r_status r <? 500)); [|discriminate H1].
    assert (Hpr : parse_response S (r_text r) (content_type r) = Ok [("error", VStr (r_text r))]).
    { unfold parse_response. destruct (sv_parse S (content_type r) (r_text r)) as [d|e] eqn:Ep.
      - pose proof (Hk _ _ _ Ep) as Hf. rewrite (Hct eq_refl) in Hf. discriminate Hf.
      - unfold parse_unsigned.
        destruct (String.eqb (content_type r) "json") eqn:Ej.
        { apply String.eqb_eq in Ej. specialize (Hct eq_refl). rewrite Ej in Hct. discriminate Hct. }
        destruct (String.eqb (content_type r) "urlencoded") eqn:Eu.
        { apply String.eqb_eq in Eu. specialize (Hct eq_refl). rewrite Eu in Hct. discriminate Hct. }
        reflexivity. }
    rewrite Hpr in H1. inversion H1; subst x.
    exists (with_status r [("error", VStr (r_text r))]), (VStr (r_text r)). split; reflexivity.
  - unfold fed_get in H1. cbn [bind] in H1. rewrite Hred in H1.
    destruct (400 <=? r_status r) eqn:E4.
    + inversion H1; subst x. exists (system_error r), (VStr "System error"). split; reflexivity.
    + apply Z.leb_gt in E4. assert (Hlow : r_status r < 200) by lia.
      rewrite (Hod Hlow) in H1. unfold fed_parse in H1. rewrite Hsuc in H1.
      destruct ((r_status r =? 302) || (r_status r =? 303)) eqn:E1.
      { exfalso. apply Bool.orb_true_iff in E1. destruct E1 as [E1|E1]; apply Z.eqb_eq in E1; lia. }
      destruct (r_status r =? 500); [discriminate H1|].
      destruct (Z.leb_spec 400 (r_status r)); [lia|]. cbn in H1. discriminate H1.
Qed.
Print Assumptions C129_failed_partial.

(** With such a content type a failure whose body looks like a success is one: the
    client of an RP files the tokens. *)
Theorem C129_content_type_refuted :
  ~ (forall S r expected x updated,
        knows_formats_only S -> 400 <= r_status r ->
        request_of App S (Ok r) expected = Ok (x, updated) -> updated = false).
Proof.
  intros H.
  pose proof (H plain_service (mkReply 400 (Some "json") "t") "json"
                (Msg [("access_token", VStr "t"); ("status_code", VInt 400)]) true plain_formats) as X.
  assert (F : 400 <= r_status (mkReply 400 (Some "json") "t")) by (cbn; lia).
  specialize (X F eq_refl). discriminate X.
Qed.
Print Assumptions C129_content_type_refuted.

(** The format that a body is in: what its content type says, if that is a format; else
    what the caller, or else the service, expects. *)
Definition is_in_format (S : service) (r : reply) (expected f : string) : Prop :=
  (In (sv_deser S (r_type r)) ["json"; "jwt"; "urlencoded"] /\ f = sv_deser S (r_type r))
  \/ (~ In (sv_deser S (r_type r)) ["json"; "jwt"; "urlencoded"]
      /\ ((expected <> "" /\ f = expected) \/ (expected = "" /\ f = sv_body_type S))).

Lemma body_type_format S r expected f :
  is_in_format S r expected f -> body_type S r (or_default expected (sv_body_type S)) = f.
Proof.
  unfold is_in_format, body_type, or_default. cbv zeta.
  intros [[H ->]|[H H']].
  - apply smem_In in H. rewrite H. reflexivity.
  - destruct (smem _ _) eqn:E; [apply smem_In in E; contradiction|].
    destruct H' as [[H1 ->]|[-> ->]]; [|reflexivity].
    destruct (String.eqb_spec expected ""); [contradiction|reflexivity].
Qed.

(** A successful message is passed on as the service has parsed it, in the format that it
    is in. *)
Theorem C129_success c S r expected f d :
  200 <= r_status r <= 206 -> (expected <> "html" /\ sv_body_type S <> "html") ->
  is_in_format S r expected f ->
  sv_parse S f (r_text r) = Ok d ->
  request_of c S (Ok r) expected = Ok (Msg d, negb (dmem "error" d)).
Proof.
  intros Hb [Hh1 Hh2] Hf Hd. apply body_type_format in Hf. subst f.
  assert (Hh : or_default expected (sv_body_type S) <> "html").
  { unfold or_default. destruct (String.eqb expected ""); assumption. }
  assert (Hs : successful (r_status r) = true).
  { unfold successful. apply Bool.andb_true_iff. rewrite !Z.leb_le. lia. }
  pose proof Hs as Hs'. unfold successful in Hs. apply Bool.andb_true_iff in Hs.
  destruct Hs as [H1 H2]. apply Z.leb_le in H1, H2.
  assert (Hred : (300 <=? r_status r) && (r_status r <? 400) = false).
  { destruct (Z.leb_spec 300 (r_status r)); [lia|reflexivity]. }
  assert (Hlt : r_status r <? 300 = true) by (apply Z.ltb_lt; lia).
  apply String.eqb_neq in Hh.
  destruct c; unfold request_of, service_request, app_get, fed_get; cbn [bind].
  - rewrite Hred, Hlt, Hh. cbn [andb]. unfold app_parse. rewrite Hs', Hd. reflexivity.
  - rewrite Hred. destruct (Z.leb_spec 400 (r_status r)); [lia|]. rewrite Hh.
    unfold fed_parse. rewrite Hs', Hd. reflexivity.
Qed.
Print Assumptions C129_success.

Example C129_ex :
  request_of App plain_service (Ok (mkReply 401 (Some "application/json") "no")) "json"
  = Ok (Msg [("error", VStr "no"); ("status_code", VInt 401)], false)
  /\ request_of Fed plain_service (Ok (mkReply 503 None "down")) "json"
     = Ok (Msg [("error", VStr "System error"); ("error_description", VStr "down")], false)
  /\ request_of App plain_service (Ok (mkReply 503 None "down")) "json" = Err OtherException
  /\ request_of App plain_service (Ok (mkReply 200 (Some "application/json") "t")) "json"
     = Ok (Msg [("access_token", VStr "t")], true).
Proof. repeat split; reflexivity. Qed.

(** * C130: the error that a server reports is the error that the client reports *)

Definition C130_error_code_full : Prop :=
  forall c S r expected x updated d code,
    knows_formats_only S ->
    400 <= r_status r < 500 -> r_type r = Some "application/json" ->
    sv_deser S (Some "application/json") = "json" ->
    sv_parse S "json" (r_text r) = Ok d -> dget "error" d = Some code ->
    request_of c S (Ok r) expected = Ok (x, updated) ->
    exists d', x = Msg d' /\ dget "error" d' = Some code.

Definition refusal : reply := mkReply 400 (Some "application/json") "{'error': 'invalid_grant'}".

(** The client of an RP looks for a parser for "application/json"; there is none, so
    the whole text is the error.  The federation client reports a system error. *)
Theorem C130_error_code_refuted : ~ C130_error_code_full.
Proof.
  intros H.
  assert (F : 400 <= r_status refusal < 500) by (cbn; lia).
  destruct (H App plain_service refusal "json" _ _ [("error", VStr "invalid_grant")] (VStr "invalid_grant") plain_formats
              F eq_refl eq_refl eq_refl eq_refl eq_refl) as [d' [E X]].
  inversion E; subst d'. cbv in X. discriminate X.
Qed.
Print Assumptions C130_error_code_refuted.

Theorem C130_federation_refuted :
  ~ (forall S r expected x updated d code,
        400 <= r_status r < 500 -> r_type r = Some "application/json" ->
        sv_deser S (Some "application/json") = "json" ->
        sv_parse S "json" (r_text r) = Ok d -> dget "error" d = Some code ->
        request_of Fed S (Ok r) expected = Ok (x, updated) ->
        exists d', x = Msg d' /\ dget "error" d' = Some code).
Proof.
  intros H.
  assert (F : 400 <= r_status refusal < 500) by (cbn; lia).
  destruct (H plain_service refusal "json" _ _ [("error", VStr "invalid_grant")] (VStr "invalid_grant")
              F eq_refl eq_refl eq_refl eq_refl eq_refl) as [d' [E X]].
  inversion E; subst d'. cbv in X. discriminate X.
Qed.
Print Assumptions C130_federation_refuted.

(** What is reported: the whole text, as the error or as its description. *)
Theorem C130_error_text_partial c S r expected :
  knows_formats_only S -> str_in "/" (content_type r) = true ->
  400 <= r_status r < 500 ->
  request_of c S (Ok r) expected
  = Ok (match c with
        | App => Msg [("error", VStr (r_text r)); ("status_code", VInt (r_status r))]
        | Fed => Msg [("error", VStr "System error"); ("error_description", VStr (r_text r))]
        end, false).
Proof.
  intros Hk Hct Hst.
  assert (Hred : (300 <=? r_status r) && (r_status r <? 400) = false).
  { destruct (Z.leb_spec 300 (r_status r)), (Z.ltb_spec (r_status r) 400); cbn; try reflexivity; lia. }
  destruct c; unfold request_of, service_request, app_get, fed_get; cbn [bind].
  - rewrite Hred. destruct (Z.ltb_spec (r_status r) 300); [lia|]. cbn [andb].
    unfold app_parse, successful. destruct (Z.leb_spec (r_status r) 206); [lia|]. rewrite Bool.andb_false_r.
    destruct (Z.eqb_spec (r_status r) 302); [lia|]. destruct (Z.eqb_spec (r_status r) 303); [lia|].
    cbn [orb]. destruct (Z.eqb_spec (r_status r) 500); [lia|].
    destruct (Z.leb_spec 400 (r_status r)); [|lia]. destruct (Z.ltb_spec (r_status r) 500); [|lia].
    cbn [andb]. unfold parse_response. destruct (sv_parse S (content_type r) (r_text r)) as [d|e] eqn:Ep.
    + pose proof (Hk _ _ _ Ep) as Hf. rewrite Hct in Hf. discriminate Hf.
    + unfold parse_unsigned.
      destruct (String.eqb (content_type r) "json") eqn:Ej.
      { apply String.eqb_eq in Ej. rewrite Ej in Hct. discriminate Hct. }
      destruct (String.eqb (content_type r) "urlencoded") eqn:Eu.
      { apply String.eqb_eq in Eu. rewrite Eu in Hct. discriminate Hct. }
      reflexivity.
  - rewrite Hred. destruct (Z.leb_spec 400 (r_status r)); [|lia]. reflexivity.
Qed.
Print Assumptions C130_error_text_partial.

Example C130_ex :
  knows_formats_only plain_service /\ str_in "/" (content_type refusal) = true
  /\ request_of App plain_service (Ok refusal) "json"
     = Ok (Msg [("error", VStr "{'error': 'invalid_grant'}"); ("status_code", VInt 400)], false).
Proof. split; [exact plain_formats|]. split; reflexivity. Qed.
