(** Model of the check of what a server says about a client it has registered: src/fedservice/message.py:159-175, class
    OauthClientInformationResponse, which is the class of the answers of appserver/oauth2/registration.py. *)
From Verif Require Export Py.

(** message.py:159-175; the required claim of message.py:163, the rest of what idpyoidc's [Message.verify] looks at is [base];
    OtherException stands for MissingRequiredAttribute *)
Definition information_verify (base : dict val -> res unit) (m : dict val) : res unit :=
  if negb (dmem "client_id" m) then Err OtherException
  else
    let* _ := base m in
    if dmem "client_secret" m then
      if dmem "client_secret_expires_at" m then Ok tt else Err OtherException
    else Ok tt.
