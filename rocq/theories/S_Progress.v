(* What the progress reporter has to do. *)
From Verif Require Import M_Base M_Progress.

(* What the main thread may do, and does in every command: the counters are locked and unlocked in turn, they are changed only when locked; start and
   stop are called, and the other threads waited for, when they are not locked; stop is called when the other threads have ended, and
   nothing is counted after it. *)
Fixpoint orderly (held joined stopped : bool) (os : list op) : bool :=
  match os with
  | [] => negb held
  | OLock :: os' => negb held && orderly true joined stopped os'
  | OUnlock :: os' => held && orderly false joined stopped os'
  | OAdd _ :: os' => held && negb stopped && orderly held joined stopped os'
  | OStart :: os' => negb held && orderly held joined stopped os'
  | OStop :: os' => negb held && joined && orderly held joined true os'
  | OJoin :: os' => negb held && orderly held true stopped os'
  | OPause :: os' | OResume :: os' | OPrint _ :: os' => orderly held joined stopped os'
  end.
Definition orderly_command (os : list op) (todos : list (list N)) : Prop :=
  orderly false (match todos with [] => true | _ => false end) false os = true.
(* how much there is to count *)
Fixpoint sum (l : list N) : N := match l with [] => 0 | n :: l' => n + sum l' end.
Fixpoint counted (os : list op) : N := match os with [] => 0 | OAdd n :: os' => n + counted os' | _ :: os' => counted os' end.
Definition whole (os : list op) (todos : list (list N)) : N := counted os + sum (map sum todos).

(* the command has done all *)
Definition finished (s : sys) : Prop := s_main s = ([], []).
(* the reports among what is seen *)
Definition is_report (e : event) : bool := match e with EHeader | EProgress _ | EFinish _ | EJson _ _ => true | _ => false end.
(* reports of progress at these counts, and of the end *)
Definition reports (json : bool) (us : list N) (fin : option N) : list event :=
  let body := map (fun u => if json then EJson false u else EProgress u) us ++ match fin with Some t => [if json then EJson true t else EFinish t] | None => [] end in
  match body with [] => [] | _ => (if json then [] else [EHeader]) ++ body end.
(* counts that do not go down *)
Fixpoint ascending (from : N) (us : list N) : Prop := match us with [] => True | u :: us' => from <= u /\ ascending u us' end.

(* a run of so many steps, so many of them the reporting thread waking up after 0.3 seconds *)
Inductive runs (v : level) (json : bool) : nat -> nat -> sys -> sys -> Prop :=
| runs_nil s : runs v json O O s s
| runs_sleep k z s s' t : runs v json k z s s' -> s_runner s' = RSleep -> t = mkSys (s_main s') RCheck (s_workers s') (s_shared s') -> runs v json (S k) (S z) s t
| runs_step k z s s' t : runs v json k z s s' -> step v json s' t -> ~ (s_runner s' = RSleep /\ s_runner t <> RSleep) -> runs v json (S k) z s t.

(* Text is printed only between pause and resume, these only with the counters locked, and all between start and stop. *)
Fixpoint polite (held paused : bool) (os : list op) : bool :=
  match os with
  | [] => true
  | OLock :: os' => polite true paused os'
  | OUnlock :: os' => negb paused && polite false paused os'
  | OPause :: os' => held && negb paused && polite held true os'
  | OResume :: os' => held && paused && polite held false os'
  | OPrint _ :: os' => paused && polite held paused os'
  | OStart :: os' | OStop :: os' => false
  | OAdd _ :: os' | OJoin :: os' => polite held paused os'
  end.
(* no report comes between the progress text being wiped out and a text of the command *)
Definition undisturbed (es : list event) : Prop :=
  forall a t b, es = a ++ EText t :: b -> exists a' e, a = a' ++ [e] /\ (e = ECr \/ exists t', e = EText t').
Definition o_is_resume (o : op) : bool := match o with OResume => true | _ => false end.
Definition o_is_pause (o : op) : bool := match o with OPause => true | _ => false end.
