(* Model of reading through src/file_reader.rs from a system that may hand out less than asked for, or fail.
   As in M_FileIO, BufReader is that of the Rust standard library (a buffer of 8192 bytes): a read takes what is in the buffer, or fills it with one call of the
   system, or, if the buffer is empty and at least 8192 bytes are wanted, calls the system directly. Simplified: seeks do not fail; the file does not change meanwhile. *)
From Verif Require Import M_Base M_FileIO.

(* An open file and what the system will do with the next reads: None fails, Some k hands out at most k bytes (but one at least, unless the file is at its end: read(2)).
   With no entry left it hands out all that is asked for. *)
Record rsys := mkRsys { y_data : file; y_pos : N; y_answers : list (option N) }.
Definition y_take (s : rsys) (n : N) (a : list (option N)) : rsys * option (list N) :=
  let d := file_read (y_data s) (y_pos s) n in (mkRsys (y_data s) (y_pos s + lenN d) a, Some d).
Definition y_read (s : rsys) (n : N) : rsys * option (list N) :=
  match y_answers s with
  | [] => y_take s n []
  | None :: a => (mkRsys (y_data s) (y_pos s) a, None)
  | Some k :: a => y_take s (N.min n (N.max 1 k)) a
  end.
(* src/file_reader.rs:62-71: the handle, with what its buffer holds *)
Record qreader := mkQr { q_sys : rsys; q_buf : option (list N) }.
(* src/file_reader.rs:74-95 *)
Definition q_open (buffered : bool) (data : file) (answers : list (option N)) : qreader := mkQr (mkRsys data 0 answers) (if buffered then Some [] else None).
(* one call of read of the handle; None is an error *)
Definition q_read1 (r : qreader) (n : N) : qreader * option (list N) :=
  match q_buf r with
  | None => let (s, d) := y_read (q_sys r) n in (mkQr s None, d)
  | Some [] =>
      if CAP <=? n then let (s, d) := y_read (q_sys r) n in (mkQr s (Some []), d)
      else match y_read (q_sys r) CAP with
           | (s, Some d) => (mkQr s (Some (dropN n d)), Some (takeN n d))
           | (s, None) => (mkQr s (Some []), None)
           end
  | Some b => (mkQr (q_sys r) (Some (dropN n b)), Some (takeN n b))
  end.
(* src/file_reader.rs:97-119: at most READ_RETRIES calls, an error ends it *)
Fixpoint q_read_loop (tries : nat) (r : qreader) (n : N) (got : list N) : qreader * option (list N) :=
  match tries with
  | O => (r, Some got)
  | S t =>
      if lenN got <? n then
        match q_read1 r (n - lenN got) with
        | (r1, Some d) => q_read_loop t r1 n (got ++ d)
        | (r1, None) => (r1, None)
        end
      else (r, Some got)
  end.
(* the data, and eof_seen *)
Definition q_read (r : qreader) (n : N) : qreader * option (list N * bool) :=
  match q_read_loop READ_RETRIES r n [] with
  | (r1, Some d) => (r1, Some (d, lenN d <? n))
  | (r1, None) => (r1, None)
  end.
(* src/file_reader.rs:132-137 *)
Definition q_seek (r : qreader) (p : N) : qreader :=
  mkQr (mkRsys (y_data (q_sys r)) p (y_answers (q_sys r))) (match q_buf r with None => None | Some _ => Some [] end).
(* src/file_reader.rs:139-144 *)
Definition q_cur_pos (r : qreader) : qreader * N :=
  let p := y_pos (q_sys r) - match q_buf r with None => 0 | Some b => lenN b end in (q_seek r p, p).
(* src/file_reader.rs:153-161 *)
Definition q_size (r : qreader) : qreader * N :=
  let (r1, p) := q_cur_pos r in
  let n := lenN (y_data (q_sys r1)) in (q_seek (q_seek r1 n) p, n).
