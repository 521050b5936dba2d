(* Vocabulary for the statements about a repair that did not come to its end. *)
From Verif Require Import M_Base M_Specs M_Index S_Block S_Container S_Index S_Scan S_Decode S_Encode S_Repair.

(* [h] is what may be on the disk when a program that would have turned [f] into [w] ends too early: every byte is as before or as it was to become. *)
Definition mixture (f w h : list N) : Prop :=
  lenN f <= lenN h <= lenN w /\ forall i, nthN h i = nthN f i \/ nthN h i = nthN w i.
(* Block number i of [h] is as in [f], or as in [w], or it is torn and not by accident another block of the container. *)
Definition whole_or_broken (v : version) (uid : list N) (f w h : list N) (i : N) : Prop :=
  same_block v f h i \/ same_block v w h i \/
  (forall seq pl, block_at v uid h (i * ver_to_block_size v) seq pl -> block_at v uid w (i * ver_to_block_size v) seq pl).
