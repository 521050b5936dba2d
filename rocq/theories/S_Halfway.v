(* Vocabulary for the statements about an update that did not come to its end. *)
From Coq Require Import String Ascii.
From Verif Require Import M_Base M_Specs M_Encode M_Index M_Path M_Cli S_Index S_Repair S_Cli S_History.

(* [h] is what may be on the disk when a run of update that would have turned [f] into [w] ends too early: at each metadata place there is the old block or the
   new one, whatever the order in which they were written and reached the disk; all the rest is as before. *)
Definition between (v : version) (o : dpb) (f w h : list N) : Prop :=
  lenN h = lenN f /\
  (forall i, meta_index (Some true) o i -> same_block v f h i \/ same_block v w h i) /\
  (forall i, ~ meta_index (Some true) o i -> same_block v f h i).
(* the same changes are asked for *)
Definition same_request (m m' : matches) : Prop :=
  (forall a, In a [A_fnm; A_snm; A_hash_type] -> value_of m' a = value_of m a) /\
  (forall a, In a [A_no_fnm; A_no_snm; A_no_hsh] -> is_present m' a = is_present m a).
(* update is run on the file [f] (found under the path [inp], at the place [l]), and not just to see what it would do *)
Definition runs_on (H : hash_fn) (o : dpb) (E : env) (m : matches) (s : fs) (inp : list N) (l : loc) (f : list N) : Prop :=
  v_H E = H /\ 1 <= v_cpus E /\ value_of m A_in_file = Some inp /\ (exists x, file_name_of inp x) /\ file_at E s inp l f /\ verbosity_option m /\
  (exists b, number_option m A_burst b) /\ level_known m o /\ is_present m A_dry_run = false.
