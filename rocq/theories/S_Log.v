(* What the log of rescue has to be. *)
From Coq Require Import List.
Import ListNotations.
From Verif Require Import M_Log.

(* The log, if it can be read, is the state after some number of buffers, and the blocks of these are all in the files *)
Definition log_true (s : lsys) : Prop := match l_log s with LAt bytes blocks => bytes = blocks /\ bytes <= l_written s | _ => True end.
(* the log at the start of a run: none, or of an earlier run *)
Definition old_log (c0 : nat) (g : log_text) : Prop := g = LAbsent \/ g = LAt c0 c0.
(* a run, with the number of times the log thread woke up after its second *)
Inductive lruns : nat -> lsys -> lsys -> Prop :=
| lruns_nil s : lruns 0 s s
| lruns_wake z s s' t : lruns z s s' -> l_thread s' = TSleep -> lstep s' t -> l_thread t <> TSleep -> lruns (S z) s t
| lruns_step z s s' t : lruns z s s' -> lstep s' t -> (l_thread s' = TSleep -> l_thread t = TSleep) -> lruns z s t.
(* a run in which opening and writing the log works *)
Inductive good_log : lsys -> lsys -> Prop :=
| good_nil s : good_log s s
| good_step s s' t : good_log s s' -> lstep s' t -> l_thread t <> TError -> good_log s t.
