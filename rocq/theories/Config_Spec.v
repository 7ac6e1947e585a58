(** Specification of the active set, independent of tables and slots. *)
From Verif Require Import Base.

(** The set of active fwmarks as a duplicate-free list, at most [cap] of them. *)
Definition s_insert (cap : Z) (S : list Z) (fw : Z) : list Z :=
  if fw <? 0 then S
  else if existsb (Z.eqb fw) S then S
  else if zlen S <? cap then fw :: S else S.

Definition s_remove (S : list Z) (fw : Z) : list Z :=
  filter (fun x => negb (x =? fw)) S.

Inductive s_cmd := SAct (fws : list Z) | SDeact (fws : list Z).

Definition s_step (cap : Z) (S : list Z) (c : s_cmd) : list Z :=
  match c with
  | SAct fws => fold_left (s_insert cap) fws S
  | SDeact fws => fold_left s_remove fws S
  end.

Definition s_hist (cap : Z) (cs : list s_cmd) : list Z := fold_left (s_step cap) cs [].
