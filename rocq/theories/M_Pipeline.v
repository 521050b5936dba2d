(* Model of the threads of a command: a ring of n threads connected by bounded channels, a fixed number of buffers going round.
   src/encode_core.rs:594-772, src/decode_core.rs:837-990,1039-1265,1599-1673, src/sort_core.rs:436-703, src/rescue_core.rs:294-451,
   src/sbx_container_content.rs:55-202 and the macros of src/misc_macros.rs:626-654.
   Thread i receives from channel i and sends to channel i+1, the last one to channel 0. A thread does
     while let Some(m) = receiver.recv() { work on m; on failure or when done break; send what there is to send }
     sender.send(None); barrier.wait()
   The work itself is the parameter f: from the local state and a message to the new local state, the messages to send and whether to
   go on. The error channel is unbounded: an error sent is part of the local state. Receivers and senders are dropped
   when a thread has ended, which is after the barrier, so recv and send do not fail. *)
From Coq Require Import List Arith Bool Lia.
Import ListNotations.
Local Open Scope nat_scope.

Fixpoint upd {A} (i : nat) (x : A) (l : list A) : list A :=
  match l, i with
  | [], _ => []
  | _ :: l', O => x :: l'
  | a :: l', S i' => a :: upd i' x l'
  end.

Section Pipeline.
Variables (M St : Type).
(* waiting to receive; sending these messages, then going on (true) or to the barrier; waiting at the barrier; ended *)
Inductive phase := Ready | Sending (xs : list (option M)) (go_on : bool) | AtBarrier | Done.
Record thread := mkThread { t_state : St; t_phase : phase }.
(* channel i is the one thread i receives from; first in, first out *)
Record sys := mkSys { s_threads : list thread; s_channels : list (list (option M)) }.
Variable n : nat.
(* capacity of the channel thread i sends to *)
Variable cap : nat -> nat.
Variable f : nat -> St -> M -> St * list M * bool.

Definition next (i : nat) : nat := if Nat.eqb (S i) n then 0 else S i.
(* what a thread does with a message received (None: the end) *)
Definition work (i : nat) (st : St) (m : option M) : St * list (option M) * bool :=
  match m with
  | None => (st, [None], false)
  | Some x => let '(st', ms, k) := f i st x in (st', map Some ms ++ (if k then [] else [None]), k)
  end.
(* one move of thread i, if it can move *)
Definition move (i : nat) (s : sys) : option sys :=
  match nth_error (s_threads s) i with
  | None => None
  | Some (mkThread st ph) =>
      match ph with
      | Ready =>
          match nth i (s_channels s) [] with
          | [] => None
          | m :: q =>
              let '(st', xs, k) := work i st m in
              Some (mkSys (upd i (mkThread st' (Sending xs k)) (s_threads s)) (upd i q (s_channels s)))
          end
      | Sending [] k => Some (mkSys (upd i (mkThread st (if k then Ready else AtBarrier)) (s_threads s)) (s_channels s))
      | Sending (x :: xs) k =>
          let c := nth (next i) (s_channels s) [] in
          if length c <? cap i
          then Some (mkSys (upd i (mkThread st (Sending xs k)) (s_threads s)) (upd (next i) (c ++ [x]) (s_channels s)))
          else None
      | AtBarrier | Done => None
      end
  end.
Definition at_barrier (t : thread) : bool := match t_phase t with AtBarrier => true | _ => false end.
(* the barrier lets all threads go when all have arrived *)
Definition release (s : sys) : option sys :=
  if forallb at_barrier (s_threads s) then Some (mkSys (map (fun t => mkThread (t_state t) Done) (s_threads s)) (s_channels s)) else None.
(* one step under some schedule *)
Inductive step : sys -> sys -> Prop :=
| by_thread i s s' : move i s = Some s' -> step s s'
| by_barrier s s' : release s = Some s' -> step s s'.
(* B buffers in channel 0 to begin with (src/decode_core.rs:851-863) *)
Definition init (sts : list St) (bufs : list M) : sys :=
  mkSys (map (fun st => mkThread st Ready) sts) (map Some bufs :: map (fun _ => []) (tl sts)).

(* The same work done one message at a time, each taken through all threads before the next: a stage is the state of a thread and,
   if it has stopped, what has been sent to it since.
   None: no room in a channel. *)
Definition stage : Type := St * option (list (option M)).
Fixpoint deliver (d j : nat) (gs : list stage) (q : list (option M)) (m : option M) : option (list stage * list (option M)) :=
  match gs with
  | [] => if length q <? cap (pred j) then Some ([], q ++ [m]) else None
  | (st, Some junk) :: gs' => if length junk <? cap (pred j) then Some ((st, Some (junk ++ [m])) :: gs', q) else None
  | (st, None) :: gs' =>
      if 0 <? cap (pred j) then
        match d with
        | O => None
        | S d' =>
            let '(st', xs, k) := work j st m in
            match (fix go xs gs q := match xs with
                   | [] => Some (gs, q)
                   | x :: xs' => match deliver d' (S j) gs q x with Some (gs1, q1) => go xs' gs1 q1 | None => None end
                   end) xs gs' q with
            | Some (gs'', q') => Some ((st', if k then None else Some []) :: gs'', q')
            | None => None
            end
        end
      else None
  end.
Fixpoint deliver_all (d j : nat) (xs : list (option M)) (gs : list stage) (q : list (option M)) : option (list stage * list (option M)) :=
  match xs with
  | [] => Some (gs, q)
  | x :: xs' => match deliver d j gs q x with Some (gs1, q1) => deliver_all d j xs' gs1 q1 | None => None end
  end.
(* the loop of thread 0 *)
Fixpoint source (fuel d : nat) (st : St) (gs : list stage) (q : list (option M)) : option (St * list stage * list (option M)) :=
  match fuel with
  | O => None
  | S fuel' =>
      match q with
      | [] => None
      | m :: q' =>
          let '(st', xs, k) := work 0 st m in
          match deliver_all d 1 xs gs q' with
          | None => None
          | Some (gs1, q1) => if k : bool then source fuel' d st' gs1 q1 else Some (st', gs1, q1)
          end
      end
  end.
End Pipeline.
Arguments Ready {M}. Arguments Sending {M}. Arguments AtBarrier {M}. Arguments Done {M}.
Arguments mkThread {M St}. Arguments t_state {M St}. Arguments t_phase {M St}.
Arguments mkSys {M St}. Arguments s_threads {M St}. Arguments s_channels {M St}. Arguments init {M St}.

(* The threads of a command: a reader that fills buffers and may send notes, and workers each passing a buffer on after its
   work, the last one giving it back to the reader. E: errors, F: buffers, T: notes, R: state of the reader, W: of a worker. *)
Section Command.
Variables (E F T R W : Type).
Inductive message := Buf (b : F) | Note (x : T).
Inductive tstate := TReader (r : R) (run : bool) (err : option E) | TWorker (w : W) (err : option E).
(* the reader filling one buffer: new state, notes sent before it, the buffer, whether to go on reading, and error *)
Variable read : R -> F -> R * list T * F * bool * option E.
(* worker i on one buffer *)
Variable worker : nat -> W -> F -> (W * F) + E.
(* worker 1 on a note *)
Variable on_note : W -> T -> W + E.
(* src/encode_core.rs:636-711,720-744,753-765, src/decode_core.rs:873-952,962-975 and the same loops of the other commands:
   while let Some(buffer) = from.recv() { if !run { break; } fill; to.send(Some(buffer)) }; on an error of a worker break *)
Definition thread_work (i : nat) (st : tstate) (m : message) : tstate * list message * bool :=
  match i, st, m with
  | O, TReader r run err, Buf b =>
      if run then
        let '(r', ns, b', run', er) := read r b in
        (TReader r' run' (match err with Some e => Some e | None => er end), map Note ns ++ [Buf b'], true)
      else (st, [], false)
  | S i', TWorker w err, Buf b =>
      match worker (S i') w b with
      | inl (w', b') => (TWorker w' err, [Buf b'], true)
      | inr e => (TWorker w (Some e), [], false)
      end
  | S i', TWorker w err, Note x =>
      match on_note w x with
      | inl w' => (TWorker w' err, [], true)
      | inr e => (TWorker w (Some e), [], false)
      end
  | _, _, _ => (st, [], false)
  end.
(* the buffers are put into the channel to the reader before the threads start (src/encode_core.rs:604-618) *)
Definition command_init (r : R) (ws : list W) (bufs : list F) : sys message tstate :=
  init (TReader r true None :: map (fun w => TWorker w None) ws) (map Buf bufs).

End Command.
Arguments Buf {F T}. Arguments Note {F T}. Arguments TReader {E R W}. Arguments TWorker {E R W}. Arguments command_init {E F T R W}.

(* The same with panics. A thread that panics is unwound: its ends of the channels are dropped and it never reaches the barrier. The thread
   sending to it then fails in `send(..).unwrap()` and the one receiving from it, once the channel is empty, in `recv().unwrap()`. A thread already waiting at
   the barrier is not woken up. *)
Section Panics.
Variables (M St : Type) (n : nat) (cap : nat -> nat) (f : nat -> St -> M -> St * list M * bool).
(* whether working on this message panics *)
Variable panics : nat -> St -> M -> bool.
Record psys := mkPsys { p_sys : sys M St; p_crashed : list nat }.
Definition crashed (i : nat) (p : psys) : bool := existsb (Nat.eqb i) (p_crashed p).
Definition prev (i : nat) : nat := match i with O => pred n | S j => j end.
Definition crash (i : nat) (p : psys) : psys := mkPsys (p_sys p) (i :: p_crashed p).
(* what thread i does next, if it can do something *)
Definition pmove (i : nat) (p : psys) : option psys :=
  if crashed i p then None
  else match nth_error (s_threads (p_sys p)) i with
  | None => None
  | Some (mkThread st ph) =>
      let go := match move M St n cap f i (p_sys p) with Some s' => Some (mkPsys s' (p_crashed p)) | None => None end in
      match ph with
      | Ready =>
          match nth i (s_channels (p_sys p)) [] with
          | [] => if crashed (prev i) p then Some (crash i p) else None
          | Some m :: _ => if panics i st m then Some (crash i p) else go
          | None :: _ => go
          end
      | Sending (x :: xs) k => if crashed (next n i) p then Some (crash i p) else go
      | _ => go
      end
  end.
Inductive pstep : psys -> psys -> Prop :=
| by_pthread i p p' : pmove i p = Some p' -> pstep p p'
| by_pbarrier p s' : p_crashed p = [] -> release M St (p_sys p) = Some s' -> pstep p (mkPsys s' []).
End Panics.
Arguments mkPsys {M St}. Arguments p_sys {M St}. Arguments p_crashed {M St}.
