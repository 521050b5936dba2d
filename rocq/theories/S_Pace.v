(* Vocabulary for C35: where the pieces standard input arrives in meet. *)
From Verif Require Import M_Base.

(* the places (counted in bytes from [at]) where one piece ends and the next one begins *)
Fixpoint joints (at_ : N) (pieces : list (list N)) : list N :=
  match pieces with
  | [] => []
  | x :: rest => match rest with [] => [] | _ => (at_ + lenN x) :: joints (at_ + lenN x) rest end
  end.
(* of these, the ones inside the payload number q, not at its ends *)
Definition inside (ds q : N) (pieces : list (list N)) : list N :=
  filter (fun x => (q * ds <? x) && (x <? (q + 1) * ds)) (joints 0 pieces).
(* no payload has more than four of them: it is made of parts of at most five pieces *)
Definition at_most_five (ds : N) (pieces : list (list N)) : Prop := forall q, lenN (inside ds q pieces) <= 4.
