(* Model of src/progress_report.rs: the thread that reports progress, and the command that starts, pauses, resumes and stops it, with their locks,
   flags and barriers. One step is what a thread does between two points where another may come in; the order of the steps is any.
   What a report says besides the number of units (rates, times, bar) is not modelled, but for the percentage and the bar at the end. *)
From Verif Require Import M_Base.

(* What is seen on the screen: header, progress, the last line, the same in JSON, the progress text wiped out by pause (two prints), text of the command *)
Inductive event := EHeader | EProgress (units : N) | EFinish (units : N) | EJson (finish : bool) (units : N) | EErase | ECr | EText (t : N).
(* src/progress_report.rs:15-65 *)
Inductive level := L0 | L1 | L2.
Definition verbose_while_active (v : level) : bool := match v with L2 => true | _ => false end.
Definition verbose_when_done (v : level) : bool := match v with L0 => false | _ => true end.

(* What the main thread of a command does: the calls of ProgressReporter; locking the counters (Mutex<Stats>) over several steps, counting while
   they are locked; printing; waiting for the other threads. Counters only grow: all updates in the commands add to them. *)
Inductive op := OStart | OPause | OResume | OStop | OLock | OUnlock | OAdd (n : N) | OPrint (t : N) | OJoin.
(* the steps inside start, pause and stop *)
Inductive micro := MLockStats | MUnlockStats | MStartBarrier | MLockContext | MErase | MUnlockContext | MCr | MShutdown | MShutdownBarrier.
(* inside print_progress, src/progress_report.rs:279-349 *)
Inductive stage := PLockStats | PLockContext | PReport | PUnlockContext | PUnlockStats.
Inductive print := First | Again | Last.
(* the reporting thread, src/progress_report.rs:150-171 *)
Inductive runner := RStartBarrier | RPrint (p : print) (g : stage) | RStartBarrier2 | RLoop | RSleep | RCheck | RShutdownBarrier | RDone.

Inductive owner := Main | Runner | Worker (i : nat).
(* src/progress_report.rs:67-78, 104-112: what the threads share *)
Record shared := mkShared {
  h_stats : option owner; h_context : option owner;                 (* who holds the mutexes *)
  f_start : bool; f_shutdown : bool; f_active : bool;                 (* the atomic flags *)
  u_units : N;                                                        (* units_so_far *)
  c_header : bool; c_finish : bool; c_last : N;                       (* header_text_printed, finish_text_printed, last_reported_units *)
  seen : list event }.
(* a thread besides: holding the counters or not, what it still has to add, each under the lock *)
Record worker := mkWorker { w_holds : bool; w_todo : list N }.
Record sys := mkSys { s_main : list micro * list op; s_runner : runner; s_workers : list worker; s_shared : shared }.

Definition set_stats (h : option owner) (x : shared) : shared :=
  mkShared h (h_context x) (f_start x) (f_shutdown x) (f_active x) (u_units x) (c_header x) (c_finish x) (c_last x) (seen x).
Definition set_context (h : option owner) (x : shared) : shared :=
  mkShared (h_stats x) h (f_start x) (f_shutdown x) (f_active x) (u_units x) (c_header x) (c_finish x) (c_last x) (seen x).
Definition set_flags (a b c : bool) (x : shared) : shared :=
  mkShared (h_stats x) (h_context x) a b c (u_units x) (c_header x) (c_finish x) (c_last x) (seen x).
Definition add_units (n : N) (x : shared) : shared :=
  mkShared (h_stats x) (h_context x) (f_start x) (f_shutdown x) (f_active x) (u_units x + n) (c_header x) (c_finish x) (c_last x) (seen x).
Definition put (es : list event) (x : shared) : shared :=
  mkShared (h_stats x) (h_context x) (f_start x) (f_shutdown x) (f_active x) (u_units x) (c_header x) (c_finish x) (c_last x) (seen x ++ es).

Section Reporter.
(* the verbosity level, and whether --json was given *)
Variables (v : level) (json : bool).

(* src/progress_report.rs:282-348, both mutexes locked *)
Definition report (finish : bool) (x : shared) : shared :=
  if ((verbose_while_active v && negb finish) || (verbose_when_done v && finish)) && negb (c_finish x) then
    let es := if json then [EJson finish (u_units x)]
              else (if c_header x then [] else [EHeader]) ++ [if finish then EFinish (u_units x) else EProgress (u_units x)] in
    mkShared (h_stats x) (h_context x) (f_start x) (f_shutdown x) (f_active x) (u_units x) (c_header x || negb json) (c_finish x || finish) (u_units x) (seen x ++ es)
  else x.
Definition is_last (p : print) : bool := match p with Last => true | _ => false end.
Definition after_print (p : print) : runner := match p with First => RStartBarrier2 | Again => RLoop | Last => RShutdownBarrier end.
(* One step of the reporting thread; None: it has to wait. src/progress_report.rs:150-171, 266-280 *)
Definition move_runner (r : runner) (x : shared) : option (runner * shared) :=
  match r with
  | RPrint p PLockStats => match h_stats x with None => Some (RPrint p PLockContext, set_stats (Some Runner) x) | _ => None end
  | RPrint p PLockContext => match h_context x with None => Some (RPrint p PReport, set_context (Some Runner) x) | _ => None end
  | RPrint p PReport => Some (RPrint p PUnlockContext, report (is_last p) x)
  | RPrint p PUnlockContext => Some (RPrint p PUnlockStats, set_context None x)
  | RPrint p PUnlockStats => Some (after_print p, set_stats None x)
  | RLoop => Some (if f_shutdown x then RPrint Last PLockStats else RSleep, x)
  | RSleep => Some (RCheck, x)
  | RCheck => Some (if f_active x then RPrint Again PLockStats else RLoop, x)
  | RStartBarrier | RStartBarrier2 | RShutdownBarrier | RDone => None
  end.
(* src/progress_report.rs:183-193 *)
Definition start_steps : list micro := [MLockStats; MUnlockStats; MStartBarrier; MStartBarrier].
(* src/progress_report.rs:195-217; the settings are read under the lock of the context *)
Definition pause_steps : list micro :=
  [MLockContext; MUnlockContext] ++
  (if (verbose_while_active v || verbose_when_done v) && negb json then [MLockContext; MErase; MUnlockContext; MCr] else []).
(* src/progress_report.rs:223-238, also called by drop *)
Definition stop_steps : list micro := [MLockStats; MUnlockStats; MShutdown; MShutdownBarrier].
(* Beginning an operation: flags are looked at and set. Only the main thread writes start_flag and shutdown_flag, so looking at both is one step. *)
Definition begin_op (o : op) (x : shared) (idle : bool) : option (list micro * shared) :=
  match o with
  | OStart => Some (if f_start x then ([], x) else (start_steps, set_flags true (f_shutdown x) (f_active x) x))
  | OPause => Some (if f_start x && negb (f_shutdown x) && f_active x then (pause_steps, set_flags (f_start x) (f_shutdown x) false x) else ([], x))
  | OResume => Some ([], set_flags (f_start x) (f_shutdown x) true x)
  | OStop => Some (if f_start x && negb (f_shutdown x) then (stop_steps, x) else ([], x))
  | OLock => match h_stats x with None => Some ([], set_stats (Some Main) x) | _ => None end
  | OUnlock => Some ([], set_stats None x)
  | OAdd n => Some ([], add_units n x)
  | OPrint t => Some ([], put [EText t] x)
  | OJoin => if idle then Some ([], x) else None
  end.
Definition move_micro (m : micro) (x : shared) : option shared :=
  match m with
  | MLockStats => match h_stats x with None => Some (set_stats (Some Main) x) | _ => None end
  | MUnlockStats => Some (set_stats None x)
  | MLockContext => match h_context x with None => Some (set_context (Some Main) x) | _ => None end
  | MErase => Some (put [EErase] x)
  | MUnlockContext => Some (set_context None x)
  | MCr => Some (put [ECr] x)
  | MShutdown => Some (set_flags (f_start x) true (f_active x) x)
  | MStartBarrier | MShutdownBarrier => None
  end.
Definition idle (w : worker) : bool := match w_todo w with [] => true | _ => false end.
Definition move_main (s : sys) : option sys :=
  match s_main s with
  | (m :: ms, os) => match move_micro m (s_shared s) with Some x => Some (mkSys (ms, os) (s_runner s) (s_workers s) x) | None => None end
  | ([], o :: os) =>
      match begin_op o (s_shared s) (forallb idle (s_workers s)) with
      | Some (ms, x) => Some (mkSys (ms, os) (s_runner s) (s_workers s) x)
      | None => None
      end
  | ([], []) => None
  end.
(* The other threads of a command lock the counters, add to them and unlock them, for example src/encode_core.rs:731-740. *)
Definition move_worker (i : nat) (w : worker) (x : shared) : option (worker * shared) :=
  match w_holds w, w_todo w with
  | _, [] => None
  | false, todo => match h_stats x with None => Some (mkWorker true todo, set_stats (Some (Worker i)) x) | _ => None end
  | true, n :: todo => Some (mkWorker false todo, set_stats None (add_units n x))
  end.
Fixpoint upd_at {A} (i : nat) (a : A) (l : list A) : list A :=
  match l, i with [], _ => [] | _ :: l', O => a :: l' | b :: l', S i' => b :: upd_at i' a l' end.

(* one step of the whole, under some schedule; both barriers are for two threads *)
Inductive step : sys -> sys -> Prop :=
| by_main s s' : move_main s = Some s' -> step s s'
| by_runner s r x : move_runner (s_runner s) (s_shared s) = Some (r, x) -> step s (mkSys (s_main s) r (s_workers s) x)
| by_worker s i w w' x : nth_error (s_workers s) i = Some w -> move_worker i w (s_shared s) = Some (w', x) ->
    step s (mkSys (s_main s) (s_runner s) (upd_at i w' (s_workers s)) x)
| start_barrier ms os r ws x : r = RStartBarrier \/ r = RStartBarrier2 ->
    step (mkSys (MStartBarrier :: ms, os) r ws x) (mkSys (ms, os) (match r with RStartBarrier => RPrint First PLockStats | _ => RLoop end) ws x)
| shutdown_barrier ms os ws x : step (mkSys (MShutdownBarrier :: ms, os) RShutdownBarrier ws x) (mkSys (ms, os) RDone ws x).
Definition begin_sys (os : list op) (todos : list (list N)) : sys :=
  mkSys ([], os) RStartBarrier (map (mkWorker false) todos) (mkShared None None false false true 0 false false 0 []).
Inductive reach (s0 : sys) : sys -> Prop :=
| reach_start : reach s0 s0
| reach_step s s' : reach s0 s -> step s s' -> reach s0 s'.
End Reporter.

(* src/progress_report.rs:552-559; None: 100 * units_so_far does not fit in 64 bits (a panic with overflow checks) *)
Definition calc_percent (units_so_far total_units : N) : option N :=
  if total_units =? 0 then Some 100
  else if U64_MAX <? 100 * units_so_far then None
  else Some (N.min (100 * units_so_far / total_units) 100).
(* src/progress_report.rs:600-616 *)
Definition make_progress_bar (percent : N) : list N :=
  let filled := 25 * percent / 100 in [91] ++ repN filled 35 ++ repN (25 - filled) 45 ++ [93].
