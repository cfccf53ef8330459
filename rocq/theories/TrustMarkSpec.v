(** Vocabulary for trust marks (C44-C49, C64-C66). *)
From Verif Require Export TrustMarkModel.

(** ** Histories of an issuer *)

(** a trust mark is asked for, or the service is started again *)
Inductive event := Issue (now : Z) (id sub : string) (more : tmark) | Restart.

Definition restart (s : store) : store :=
  match s with
  | SFile cfg fs => SFile cfg (file_init cfg fs)
  | SSimple _ => SSimple []
  end.

Definition step (I : issuer) (s : store) (e : event) : store :=
  match e with
  | Issue now id sub more => fst (create_trust_mark I now id sub more s)
  | Restart => restart s
  end.

(** the store after some events, whatever their outcome *)
Definition run (I : issuer) (s : store) (h : list event) : store := fold_left (step I) h s.

(** the history contains the issue of a mark, which succeeds *)
Definition issued (I : issuer) (s : store) (h : list event) (t : Z) (id sub : string) (more : tmark)
    (mark : tmtoken) : Prop :=
  exists h1 h2, h = h1 ++ Issue t id sub more :: h2 /\
                snd (create_trust_mark I t id sub more (run I s h1)) = Ok mark.

Definition issued_to (I : issuer) (s : store) (h : list event) (id sub : string) : Prop :=
  exists t more mark, issued I s h t id sub more mark.

(** a new file store; every trust mark id has its own file *)
Definition fresh (cfg : fconfig) : store := SFile cfg (file_init cfg []).

Definition own_files (cfg : fconfig) : Prop :=
  forall id id' fn, dget id cfg = Some fn -> dget id' cfg = Some fn -> id = id'.

(** ** Marks *)
Definition claims_of (t : tmtoken) : tmark := match t with TMJunk => [] | TMJws _ p => p end.

Definition unexpired (now : Z) (p : tmark) : Prop :=
  match dget "exp" p with
  | None => True
  | Some v => exists e, as_int v = Ok e /\ (now <= e)%Z
  end.

(** requests *)
Definition by_ids (id sub : string) : status_request := mkSReq None (Some sub) (Some id) None.
Definition by_mark (t : tmtoken) : status_request := mkSReq (Some t) None None None.

(** the clock does not go back *)
Fixpoint times_from (t : Z) (h : list event) : Prop :=
  match h with
  | [] => True
  | Issue t' _ _ _ :: h' => (t <= t')%Z /\ times_from t' h'
  | Restart :: h' => times_from t h'
  end.

Definition orderly (h : list event) : Prop := exists t, times_from t h.

(** no mark is issued with an expiry time of its own *)
Definition no_own_exp (h : list event) : Prop :=
  forall t id sub more, In (Issue t id sub more) h -> dget "exp" more = None.

(** [a] was issued at a time after which [b] was not *)
Definition issued_later (I : issuer) (s : store) (h : list event) (id a b : string) : Prop :=
  exists h1 h2, h = h1 ++ h2 /\ issued_to I (run I s h1) h2 id a /\ ~ issued_to I (run I s h1) h2 id b.
