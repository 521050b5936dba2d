(* Vocabulary for the statements about a repair stopped with Ctrl-C. *)
From Verif Require Import M_Base M_Repair.

(* the counters of t' are those of t or more *)
Definition counts_le (t t' : pstats) : Prop :=
  ps_meta t <= ps_meta t' /\ ps_data t <= ps_data t' /\ ps_failed t <= ps_failed t' /\ ps_meta_rep t <= ps_meta_rep t' /\ ps_data_rep t <= ps_data_rep t' /\ ps_data_fail t <= ps_data_fail t'.
