(* Positions looked at by a scan (S_Scan.v), numbered in the order of the looks. *)
From Verif Require Import M_Base M_Specs M_Header M_Block M_Scan S_Crc S_Block S_Scan.

Inductive looked (f : file) (lo hi : N) : N -> N -> Prop :=
| looked_start : lo < hi -> looked f lo hi 0 lo
| looked_next i pos n : looked f lo hi i pos -> skip f pos n -> pos + n < hi -> looked f lo hi (i + 1) (pos + n).
