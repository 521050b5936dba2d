(* Vocabulary for the statements about file access. *)
From Verif Require Import M_Base M_FileIO.

(* the operations of a file handle and their results *)
Inductive fop := OpWrite (d : list N) | OpSeek (p : N) | OpRead (n : N) | OpSetLen (n : N) | OpPos | OpSize.
Inductive fres := GotLen (n : N) | GotData (d : list N) | GotDone | GotError.

(* What they should do: on a file (content, position, append mode) that is written to at once. *)
Definition plain_step (s : file * N * bool) (op : fop) : file * N * bool * fres :=
  let '(f, p, app) := s in
  match op with
  | OpWrite [] => (f, p, app, GotLen 0)
  | OpWrite d => let q := if app : bool then lenN f else p in (file_write f q d, q + lenN d, app, GotLen (lenN d))
  | OpSeek q => (f, q, app, GotDone)
  | OpRead n => let d := sliceN p n f in (f, p + lenN d, app, GotData d)
  | OpSetLen n => (file_set_len f n, p, app, GotDone)
  | OpPos => (f, p, app, GotLen p)
  | OpSize => (f, p, app, GotLen (lenN f))
  end.
Fixpoint plain_run (s : file * N * bool) (l : list fop) : file * N * bool * list fres :=
  match l with
  | [] => (s, [])
  | op :: l' => let (s1, r) := plain_step s op in let (s2, rs) := plain_run s1 l' in (s2, r :: rs)
  end.

(* what FileWriter and FileReader do *)
Definition or_error (x : option N) : fres := match x with Some n => GotLen n | None => GotError end.
Definition fw_step (w : fwriter) (op : fop) : fwriter * fres :=
  match op with
  | OpWrite d => let (w', x) := fw_write w d in (w', or_error x)
  | OpSeek p => let (w', x) := fw_seek w p in (w', if x then GotDone else GotError)
  | OpRead n => let (w', x) := fw_read w n in (w', match x with Some d => GotData d | None => GotError end)
  | OpSetLen n => let (w', x) := fw_set_len w n in (w', if x then GotDone else GotError)
  | OpPos => let (w', x) := fw_cur_pos w in (w', or_error x)
  | OpSize => let (w', x) := fw_size w in (w', or_error x)
  end.
Fixpoint fw_run (w : fwriter) (l : list fop) : fwriter * list fres :=
  match l with
  | [] => (w, [])
  | op :: l' => let (w1, r) := fw_step w op in let (w2, rs) := fw_run w1 l' in (w2, r :: rs)
  end.
(* a FileReader cannot change the length *)
Definition fr_step (r : freader) (op : fop) : freader * fres :=
  match op with
  | OpWrite d => let (r', x) := fr_write r d in (r', or_error x)
  | OpSeek p => (fr_seek r p, GotDone)
  | OpRead n => let (r', d) := fr_read r n in (r', GotData d)
  | OpSetLen n => (r, GotError)
  | OpPos => let (r', n) := fr_cur_pos r in (r', GotLen n)
  | OpSize => let (r', n) := fr_size r in (r', GotLen n)
  end.
Fixpoint fr_run (r : freader) (l : list fop) : freader * list fres :=
  match l with
  | [] => (r, [])
  | op :: l' => let (r1, x) := fr_step r op in let (r2, xs) := fr_run r1 l' in (r2, x :: xs)
  end.

(* the result says that all of it was done *)
Definition whole (op : fop) (r : fres) : Prop :=
  match op with OpWrite d => r = GotLen (lenN d) | _ => r <> GotError end.
(* the system writes all of what it is given or nothing *)
Definition all_or_nothing (answers : list (option N)) : Prop := forall a, In a answers -> a = None \/ a = Some 0.
(* blocks written one after the other *)
Definition written (f : file) (l : list (N * list N)) : file := fold_left (fun f x => file_write f (fst x) (snd x)) l f.
