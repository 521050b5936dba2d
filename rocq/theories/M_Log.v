(* Model of the threads of rescue around the log: src/log.rs:101-210 (the thread that writes the log), src/rescue_core.rs:309, 407-462 (start, writer
   thread, stop). The reader and the grouper are not here (M_Pipeline): the buffers come as a list, for each the number of files it is
   appended to. The counters (bytes processed; blocks
   processed, taken as one) are given by the number of buffers they count. *)
From Coq Require Import List.
Import ListNotations.

(* who holds the lock of the counters: the log thread, the writer, another thread (progress report, main) *)
Inductive holder := HLog | HWriter | HOther.
(* the log: not there, opened and truncated, or written with these counters *)
Inductive log_text := LAbsent | LEmpty | LAt (bytes blocks : nat).
(* the log thread, src/log.rs:119-137; the lock of the counters is a temporary of the match and is held until its end, 128-131 *)
Inductive log_thread := TStartBarrier | TLoop | TSleep | TLock | TOpen | TWrite | TError | TUnlock | TShutdownBarrier.
(* the writer thread, src/rescue_core.rs:414-446 *)
Inductive writer_at := WNext | WFiles (left : nat) | WLock | WCount | WCount2 | WUnlock | WDone (failed : bool).
(* the main thread: log_handler.start, join of the three threads, log_handler.stop (or drop if there was an error), 309, 449-458 *)
Inductive main_at := MStart | MStartBarrier | MJoin | MStop | MShutdownBarrier | MEnd.
Record lsys := mkLsys {
  l_main : main_at; l_thread : log_thread; l_writer : writer_at; l_left : list nat;
  l_holder : option holder; l_shutdown : bool; l_error : bool;  (* shutdown_flag; the error kept for pop_error *)
  l_counted : nat; l_blocks : nat; l_written : nat; l_log : log_text }.       (* buffers counted in Stats: bytes, blocks; buffers all of whose files are written *)

(* src/log.rs:119-137. The Boolean says whether opening or writing the file works. *)
Definition move_log (ok : bool) (s : lsys) : option lsys :=
  let 'mkLsys m t w l h d e c b n g := s in
  match t with
  | TLoop => Some (mkLsys m (if d then TShutdownBarrier else TSleep) w l h d e c b n g)
  | TSleep => Some (mkLsys m TLock w l h d e c b n g)
  | TLock => match h with None => Some (mkLsys m TOpen w l (Some HLog) d e c b n g) | _ => None end
  | TOpen => Some (if ok then mkLsys m TWrite w l h d e c b n LEmpty else mkLsys m TError w l h d e c b n g)
  | TWrite => Some (if ok then mkLsys m TUnlock w l h d e c b n (LAt c b) else mkLsys m TError w l h d e c b n g)
  | TError => Some (mkLsys m TUnlock w l h d true c b n g)
  | TUnlock => Some (mkLsys m TLoop w l None d e c b n g)
  | TStartBarrier | TShutdownBarrier => None
  end.
(* src/rescue_core.rs:414-446. The Boolean says whether appending to a file works. *)
Definition move_writer (ok : bool) (s : lsys) : option lsys :=
  let 'mkLsys m t w l h d e c b n g := s in
  match w with
  | WNext => match l with
             | [] => Some (mkLsys m t (WDone false) [] h d e c b n g)
             | k :: l' => Some (if e then mkLsys m t (WDone true) l h d false c b n g else mkLsys m t (WFiles k) l' h d e c b n g)
             end
  | WFiles (S k) => Some (if ok then mkLsys m t (WFiles k) l h d e c b n g else mkLsys m t (WDone true) l h d e c b n g)
  | WFiles O => Some (mkLsys m t WLock l h d e c b (S n) g)
  | WLock => match h with None => Some (mkLsys m t WCount l (Some HWriter) d e c b n g) | _ => None end
  | WCount => Some (mkLsys m t WCount2 l h d e (S c) b n g)
  | WCount2 => Some (mkLsys m t WUnlock l h d e c (S b) n g)
  | WUnlock => Some (mkLsys m t WNext l None d e c b n g)
  | WDone _ => None
  end.
(* the writer is started after log_handler.start() has returned, 309-412 *)
Definition writer_started (m : main_at) : bool := match m with MStart | MStartBarrier => false | _ => true end.
(* src/log.rs:148-160, 206-210 *)
Definition move_main (s : lsys) : option lsys :=
  let 'mkLsys m t w l h d e c b n g := s in
  match m with
  | MStart => Some (mkLsys MStartBarrier t w l h d e c b n g)
  | MJoin => match w with WDone _ => Some (mkLsys MStop t w l h d e c b n g) | _ => None end
  | MStop => Some (mkLsys MShutdownBarrier t w l h true e c b n g)
  | MStartBarrier | MShutdownBarrier | MEnd => None
  end.
Inductive lstep : lsys -> lsys -> Prop :=
| log_steps ok s s' : move_log ok s = Some s' -> lstep s s'
| writer_steps ok s s' : writer_started (l_main s) = true -> move_writer ok s = Some s' -> lstep s s'
| main_steps s s' : move_main s = Some s' -> lstep s s'
| start_together w l h d e c b n g : lstep (mkLsys MStartBarrier TStartBarrier w l h d e c b n g) (mkLsys MJoin TLoop w l h d e c b n g)
| stop_together w l h d e c b n g : lstep (mkLsys MShutdownBarrier TShutdownBarrier w l h d e c b n g) (mkLsys MEnd TStartBarrier w l h d e c b n g)
| other_locks m t w l d e c b n g : lstep (mkLsys m t w l None d e c b n g) (mkLsys m t w l (Some HOther) d e c b n g)
| other_unlocks m t w l d e c b n g : lstep (mkLsys m t w l (Some HOther) d e c b n g) (mkLsys m t w l None d e c b n g).
(* The counters start from the log read (rescue_core.rs:277): c0 buffers of earlier runs, whose files are written *)
Definition begin_log (c0 : nat) (files : list nat) (g : log_text) : lsys := mkLsys MStart TStartBarrier WNext files None false false c0 c0 c0 g.
Inductive lreach (s0 : lsys) : lsys -> Prop :=
| lreach_start : lreach s0 s0
| lreach_step s s' : lreach s0 s -> lstep s s' -> lreach s0 s'.
