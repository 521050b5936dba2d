(* Specification for C60: a run that was cut short, and the same run again. *)
From Verif Require Import M_Base M_Path M_Cli S_Cli.

(* the same options, and --force *)
Definition plus_force (m m' : matches) : Prop :=
  (forall a, value_of m' a = value_of m a) /\ (forall a, a <> A_force -> is_present m' a = is_present m a) /\ is_present m' A_force = true.
(* s, but with a file of whatever content at l *)
Definition leftover (l : loc) (s s' : fs) : Prop := same_but l s s' /\ exists c, s' l = Some (NFile c).
(* the two runs end alike: same exit code, same output, same files *)
Definition alike (r r' : ran) : Prop :=
  rn_exit r' = rn_exit r /\ rn_stdout r' = rn_stdout r /\ forall x, rn_fs r' x = rn_fs r x.
