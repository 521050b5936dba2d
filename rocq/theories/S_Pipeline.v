(* Specification for the threads of a command. *)
From Coq Require Import List Arith Bool.
From Verif Require Import M_Pipeline.
Import ListNotations.
Local Open Scope nat_scope.

(* k steps of some schedule *)
Inductive run_of {A : Type} (step : A -> A -> Prop) : nat -> A -> A -> Prop :=
| run_none s : run_of step 0 s s
| run_more k s s' s'' : step s s' -> run_of step k s' s'' -> run_of step (S k) s s''.
(* Whatever the schedule, the system can go on until it has made exactly k steps and is then in state t, where it stops. *)
Definition always_ends_in {A : Type} (step : A -> A -> Prop) (s t : A) : Prop :=
  exists k, forall m s', run_of step m s s' -> m <= k /\ (m < k -> exists s'', step s' s'') /\ (m = k -> s' = t).

Section Command.
Variables (E F T R W : Type).
Variable read : R -> F -> R * list T * F * bool * option E.
Variable worker : nat -> W -> F -> (W * F) + E.
Variable on_note : W -> T -> W + E.
Definition error_of (st : tstate E R W) : option E := match st with TReader _ _ err => err | TWorker _ err => err end.
(* all threads have ended, with these states *)
Definition ended_with (t : sys (message F T) (tstate E R W)) (sts : list (tstate E R W)) : Prop := s_threads t = map (fun st => mkThread st Done) sts.
(* The same work without threads: each buffer is filled, dealt with by all workers in turn and put back at the end of the queue, until the
   reader stops. None: not over after [fuel] buffers. *)
Inductive outcome := Fine (r : R) (ws : list W) | Failed.
Fixpoint through (i : nat) (ws : list W) (b : F) : option (list W * F) :=
  match ws with
  | [] => Some ([], b)
  | w :: ws' =>
      match worker i w b with
      | inr _ => None
      | inl (w', b') => match through (S i) ws' b' with Some (ws'', b'') => Some (w' :: ws'', b'') | None => None end
      end
  end.
Fixpoint noted (w : W) (ns : list T) : option W :=
  match ns with
  | [] => Some w
  | x :: ns' => match on_note w x with inl w' => noted w' ns' | inr _ => None end
  end.
Definition noted_first (ws : list W) (ns : list T) : option (list W) :=
  match ws with [] => Some [] | w :: ws' => match noted w ns with Some w' => Some (w' :: ws') | None => None end end.
Fixpoint one_by_one (fuel : nat) (q : list F) (r : R) (ws : list W) : option outcome :=
  match fuel, q with
  | S fuel', b :: q' =>
      let '(r', ns, b', run', er) := read r b in
      match noted_first ws ns, er with
      | None, _ => Some Failed
      | Some ws1, er =>
          match through 1 ws1 b', er with
          | Some (ws2, b2), None => if run' : bool then one_by_one fuel' (q' ++ [b2]) r' ws2 else Some (Fine r' ws2)
          | _, _ => Some Failed
          end
      end
  | _, _ => None
  end.
End Command.
Arguments Fine {R W}. Arguments Failed {R W}.
Arguments error_of {E R W}. Arguments ended_with {E F T R W}.
