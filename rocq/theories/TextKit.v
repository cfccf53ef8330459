(** Documents as texts, for examples: a text for every signed document, from which it can be read again. *)
From Verif Require Import PyFacts.
From Coq Require Import Lia.

Local Open Scope string_scope.
Local Open Scope list_scope.

Local Notation "c ;; k" := (String c k) (at level 60, right associativity).

Fixpoint w_nat (n : nat) (k : string) : string := match n with 0 => "0"%char ;; k | S n => "1"%char ;; w_nat n k end.

Fixpoint r_nat (t : string) : option (nat * string) :=
  match t with
  | EmptyString => None
  | String c k => if Ascii.eqb c "1" then match r_nat k with Some (n, k') => Some (S n, k') | None => None end
                  else Some (0, k)
  end.

Fixpoint w_pos (p : positive) (k : string) : string :=
  match p with xH => "."%char ;; k | xO p => "0"%char ;; w_pos p k | xI p => "1"%char ;; w_pos p k end.

Fixpoint r_pos (t : string) : option (positive * string) :=
  match t with
  | EmptyString => None
  | String c k => if Ascii.eqb c "." then Some (xH, k)
                  else match r_pos k with
                       | Some (p, k') => Some (if Ascii.eqb c "1" then xI p else xO p, k')
                       | None => None
                       end
  end.

Fixpoint w_str (s : string) (k : string) : string :=
  match s with EmptyString => "0"%char ;; k | String c s => "1"%char ;; c ;; w_str s k end.

Fixpoint r_str (t : string) : option (string * string) :=
  match t with
  | EmptyString => None
  | String b EmptyString => Some ("", "")
  | String b (String c k as u) =>
      if Ascii.eqb b "1" then match r_str k with Some (s, k') => Some (String c s, k') | None => None end
      else Some ("", u)
  end.

Definition w_Z (z : Z) (k : string) : string :=
  match z with Z0 => "0"%char ;; k | Zpos p => "+"%char ;; w_pos p k | Zneg p => "-"%char ;; w_pos p k end.

Definition r_Z (t : string) : option (Z * string) :=
  match t with
  | EmptyString => None
  | String c k =>
      if Ascii.eqb c "0" then Some (Z0, k)
      else match r_pos k with
           | Some (p, k') => Some (if Ascii.eqb c "+" then Zpos p else Zneg p, k')
           | None => None
           end
  end.

Fixpoint w_val (v : val) (k : string) : string :=
  match v with
  | VNull => "n"%char ;; k
  | VBool true => "t"%char ;; k
  | VBool false => "f"%char ;; k
  | VInt z => "i"%char ;; w_Z z k
  | VStr s => "s"%char ;; w_str s k
  | VList l => "l"%char ;; fold_right (fun x t => "1"%char ;; w_val x t) ("0"%char ;; k) l
  | VDict d => "d"%char ;; fold_right (fun e t => "1"%char ;; w_str (fst e) (w_val (snd e) t)) ("0"%char ;; k) d
  end.

(** how deep to read *)
Fixpoint depth (v : val) : nat :=
  match v with
  | VList l => S (fold_right (fun x n => S (Nat.max (depth x) n)) 0 l)
  | VDict d => S (fold_right (fun e n => S (Nat.max (depth (snd e)) n)) 0 d)
  | _ => 1
  end.

Fixpoint r_items {A} (item : string -> option (A * string)) (n : nat) (t : string) : option (list A * string) :=
  match t with
  | EmptyString => None
  | String c k =>
      if Ascii.eqb c "1" then
        match n with
        | 0 => None
        | S n => match item k with
                 | Some (x, k') => match r_items item n k' with Some (l, k2) => Some (x :: l, k2) | None => None end
                 | None => None
                 end
        end
      else Some ([], k)
  end.

Fixpoint r_val (n : nat) (t : string) : option (val * string) :=
  match n with
  | 0 => None
  | S n =>
      match t with
      | EmptyString => None
      | String c k =>
          if Ascii.eqb c "n" then Some (VNull, k)
          else if Ascii.eqb c "t" then Some (VBool true, k)
          else if Ascii.eqb c "f" then Some (VBool false, k)
          else if Ascii.eqb c "i" then match r_Z k with Some (z, k') => Some (VInt z, k') | None => None end
          else if Ascii.eqb c "s" then match r_str k with Some (z, k') => Some (VStr z, k') | None => None end
          else if Ascii.eqb c "l" then match r_items (r_val n) n k with Some (l, k') => Some (VList l, k') | None => None end
          else match r_items (fun u => match r_str u with
                                       | Some (x, u') => match r_val n u' with Some (v, u2) => Some ((x, v), u2) | None => None end
                                       | None => None
                                       end) n k with
               | Some (d, k') => Some (VDict d, k')
               | None => None
               end
      end
  end.

Lemma r_w_nat n k : r_nat (w_nat n k) = Some (n, k).
Proof. induction n as [|n IH]; [reflexivity|]. cbn [w_nat r_nat]. cbn [Ascii.eqb Bool.eqb]. rewrite IH. reflexivity. Qed.

Lemma r_w_pos p : forall k, r_pos (w_pos p k) = Some (p, k).
Proof. induction p as [p IH|p IH|]; intros k; cbn [w_pos r_pos Ascii.eqb Bool.eqb]; rewrite ?IH; reflexivity. Qed.

Lemma r_w_str s k : k <> "" -> r_str (w_str s k) = Some (s, k).
Proof.
  intros Hk. induction s as [|c s IH].
  - destruct k as [|c k]; [contradiction|]. reflexivity.
  - cbn [w_str r_str Ascii.eqb Bool.eqb]. rewrite IH. reflexivity.
Qed.

Lemma r_w_Z z k : r_Z (w_Z z k) = Some (z, k).
Proof. destruct z as [|p|p]; cbn [w_Z r_Z Ascii.eqb Bool.eqb]; rewrite ?r_w_pos; reflexivity. Qed.

Lemma w_val_more v k : w_val v k <> "".
Proof. destruct v as [|[|]|z|s|l|d]; discriminate. Qed.

Lemma r_w_items A (item : string -> option (A * string)) (w : A -> string -> string) (dp : A -> nat) n k l :
  k <> "" -> (forall x k, In x l -> k <> "" -> item (w x k) = Some (x, k)) -> (forall x t, w x t <> "") ->
  length l <= n -> r_items item n (fold_right (fun x t => "1"%char ;; w x t) ("0"%char ;; k) l) = Some (l, k).
Proof.
  intros Hk. revert n. induction l as [|x l IH]; intros n Hi Hw Hn; [destruct n; reflexivity|].
  destruct n as [|n]; [cbn in Hn; lia|]. cbn [fold_right r_items Ascii.eqb Bool.eqb]. rewrite Hi; [|left; reflexivity|destruct l; discriminate].
  rewrite IH; [reflexivity| |exact Hw|cbn in Hn; lia]. intros y u Hy. apply Hi. right. exact Hy.
Qed.

Lemma depth_list A (f : A -> nat) l : length l <= fold_right (fun x n => S (Nat.max (f x) n)) 0 l.
Proof. induction l as [|x l IH]; [auto|]. cbn [length fold_right]. lia. Qed.

Lemma depth_In A (f : A -> nat) l x : In x l -> f x < fold_right (fun x n => S (Nat.max (f x) n)) 0 l.
Proof. induction l as [|y l IH]; [contradiction|]. intros [->|H]; cbn [fold_right]; [|specialize (IH H)]; lia. Qed.

Lemma r_w_val n : forall v k, k <> "" -> depth v <= n -> r_val n (w_val v k) = Some (v, k).
Proof.
  induction n as [|n IH]; intros v k Hk Hn; [destruct v; cbn in Hn; lia|].
  destruct v as [|[|]|z|s|l|d]; cbn [w_val r_val Ascii.eqb Bool.eqb].
  - reflexivity.
  - reflexivity.
  - reflexivity.
  - rewrite r_w_Z. reflexivity.
  - rewrite r_w_str by exact Hk. reflexivity.
  - cbn [depth] in Hn. rewrite (r_w_items _ _ w_val depth); [reflexivity|exact Hk| |apply w_val_more|].
    + intros x u Hx Hu. apply IH; [exact Hu|]. assert (X := depth_In _ depth l x Hx). lia.
    + assert (X := depth_list _ depth l). lia.
  - cbn [depth] in Hn.
    rewrite (r_w_items _ _ (fun e t => w_str (fst e) (w_val (snd e) t)) (fun e => depth (snd e))); [reflexivity|exact Hk| | |].
    + intros [x v] u Hx Hu. cbn [fst snd]. rewrite r_w_str by apply w_val_more. rewrite IH; [reflexivity|exact Hu|].
      assert (X := depth_In _ (fun e => depth (snd e)) d (x, v) Hx). cbn [snd] in X. lia.
    + intros [x v] t. destruct x; discriminate.
    + assert (X := depth_list _ (fun e : string * val => depth (snd e)) d). lia.
Qed.

(** a signed document as a text *)
Definition text_of (key : nat) (p : dict val) : string := w_nat key (w_nat (depth (VDict p)) (w_val (VDict p) "."))%string.

Definition text_read (t : string) : option (nat * dict val) :=
  match r_nat t with
  | Some (key, u) =>
      match r_nat u with
      | Some (n, w) => match r_val n w with Some (VDict p, _) => Some (key, p) | _ => None end
      | None => None
      end
  | None => None
  end.

Lemma text_read_of key p : text_read (text_of key p) = Some (key, p).
Proof. unfold text_read, text_of. rewrite !r_w_nat, r_w_val; [reflexivity|discriminate|reflexivity]. Qed.
