From Verif.Lib Require Import Py.

(** value of the first write to [k] in a chronological list of writes *)
Fixpoint first_write {K V} `{EqDecision K} (k : K) (l : list (K * V)) : option V :=
  match l with
  | [] => None
  | (k', v) :: l' => if decide (k = k') then Some v else first_write k l'
  end.
