(** The lists of trust marks that an application that is a trust mark issuer asks for (trust_mark_entity/entity.py). *)
From Verif Require Export TrustMarkModel.

(** None, a list, or the dictionary in which the store in memory has the marks *)
Inductive mark_list := MNone | MSubs (l : list val) | MDict (m : dict tmark).

(** trust_mark_entity/entity.py:124-129; find without a time of issue (entity.py:121-122) *)
Definition entity_list (s : store) (now : Z) (id sub : string) : res mark_list :=
  if negb (String.eqb sub "") then
    let* b := store_find s now id sub 0 in Ok (if b then MSubs [VStr sub] else MNone)
  else match s with
       | SFile cfg fs => let* l := file_list cfg fs id "" in Ok (MSubs l)
       | SSimple db =>
           let* l := simple_list db id "" in
           Ok (match l with LNone => MNone | LSub x => MSubs [VStr x] | LMarks m => MDict m end)
       end.
