(* Model of src/file_writer.rs and src/file_reader.rs over an operating system whose writes may be short or fail.
   BufWriter and BufReader are those of the Rust standard library (buffers of 8192 bytes), modelled as documented:
   a write that does not fit flushes first, one of 8192 bytes or more bypasses the buffer, dropping flushes and ignores errors;
   a read takes what is in the buffer, or fills it, or bypasses it. *)
From Verif Require Import M_Base.

(* An open file: content, offset, append mode; and what the system will do with the next writes: None takes everything,
   Some k at most k bytes, Some 0 fails (as a full disk does). With no entry left everything is taken. *)
Record os := mkOs { o_data : file; o_pos : N; o_append : bool; o_answers : list (option N) }.
Definition o_put (s : os) (d : list N) (a : list (option N)) : os :=
  let p := if o_append s then lenN (o_data s) else o_pos s in
  mkOs (file_write (o_data s) p d) (match d with [] => o_pos s | _ => p + lenN d end) (o_append s) a.
(* write(2): the number of bytes written, None for an error *)
Definition o_write (s : os) (d : list N) : os * option N :=
  match d with
  | [] => (s, Some 0)
  | _ =>
    match o_answers s with
    | [] => (o_put s d [], Some (lenN d))
    | None :: a => (o_put s d a, Some (lenN d))
    | Some k :: a =>
        if k =? 0 then (mkOs (o_data s) (o_pos s) (o_append s) a, None)
        else (o_put s (takeN k d) a, Some (lenN (takeN k d)))
    end
  end.
(* read(2) on a regular file *)
Definition o_read (s : os) (n : N) : os * list N :=
  let d := file_read (o_data s) (o_pos s) n in
  (mkOs (o_data s) (o_pos s + lenN d) (o_append s) (o_answers s), d).
Definition o_seek (s : os) (p : N) : os := mkOs (o_data s) p (o_append s) (o_answers s).
Definition o_set_len (s : os) (n : N) : os := mkOs (file_set_len (o_data s) n) (o_pos s) (o_append s) (o_answers s).

Definition CAP : N := 8192.
Definition READ_RETRIES : nat := 5.  (* src/file_reader.rs:15 *)

(* ---- FileWriter ---- *)
(* src/file_writer.rs:87-96; no buffer: Unbuffered *)
Record fwriter := mkFw { w_os : os; w_buf : option (list N) }.
(* src/file_writer.rs:98-122, on a file that is there (content data) or is created (data empty) *)
Definition fw_open (append truncate buffered : bool) (data : file) (answers : list (option N)) : fwriter :=
  mkFw (mkOs (if negb append && truncate then [] else data) 0 append answers) (if buffered then Some [] else None).
(* BufWriter::flush_buf *)
Fixpoint flush_loop (fuel : nat) (s : os) (b : list N) : os * list N * bool :=
  match b with
  | [] => (s, [], true)
  | _ =>
    match fuel with
    | O => (s, b, false)
    | S fuel' =>
      match o_write s b with
      | (s', Some n) => flush_loop fuel' s' (dropN n b)
      | (s', None) => (s', b, false)
      end
    end
  end.
Definition flush_buf (s : os) (b : list N) : os * list N * bool := flush_loop (length b) s b.

(* src/file_writer.rs:124-129 *)
Definition fw_write (w : fwriter) (d : list N) : fwriter * option N :=
  match w_buf w with
  | None => let (s, r) := o_write (w_os w) d in (mkFw s None, r)
  | Some b =>
      let '(s, b1, ok) := if CAP <? lenN b + lenN d then flush_buf (w_os w) b else (w_os w, b, true) in
      if negb ok then (mkFw s (Some b1), None)
      else if CAP <=? lenN d then let (s', r) := o_write s d in (mkFw s' (Some b1), r)
      else (mkFw s (Some (b1 ++ d)), Some (lenN d))
  end.
(* flush first where there is a buffer; false: the flush failed *)
Definition fw_flush (w : fwriter) : fwriter * bool :=
  match w_buf w with
  | None => (w, true)
  | Some b => let '(s, b1, ok) := flush_buf (w_os w) b in (mkFw s (Some b1), ok)
  end.
(* src/file_writer.rs:162-167, seek to a position *)
Definition fw_seek (w : fwriter) (p : N) : fwriter * bool :=
  let (w1, ok) := fw_flush w in
  if ok then (mkFw (o_seek (w_os w1) p) (w_buf w1), true) else (w1, false).
(* src/file_writer.rs:169-174 *)
Definition fw_cur_pos (w : fwriter) : fwriter * option N :=
  let (w1, ok) := fw_flush w in
  if ok then (w1, Some (o_pos (w_os w1))) else (w1, None).
(* src/file_writer.rs:131-153; each attempt flushes *)
Fixpoint fw_read_loop (tries : nat) (w : fwriter) (n : N) (got : list N) : fwriter * option (list N) :=
  match tries with
  | O => (w, Some got)
  | S t =>
      if n <=? lenN got then (w, Some got)
      else
        let (w1, ok) := fw_flush w in
        if ok then
          let (s, d) := o_read (w_os w1) (n - lenN got) in fw_read_loop t (mkFw s (w_buf w1)) n (got ++ d)
        else (w1, None)
  end.
Definition fw_read (w : fwriter) (n : N) : fwriter * option (list N) := fw_read_loop READ_RETRIES w n [].
(* src/file_writer.rs:155-160 *)
Definition fw_set_len (w : fwriter) (n : N) : fwriter * bool :=
  let (w1, ok) := fw_flush w in
  if ok then (mkFw (o_set_len (w_os w1) n) (w_buf w1), true) else (w1, false).
(* src/file_writer.rs:183-194 *)
Definition fw_size (w : fwriter) : fwriter * option N :=
  match fw_cur_pos w with
  | (w1, Some p) =>
      let n := lenN (o_data (w_os w1)) in
      match fw_seek w1 n with
      | (w2, true) => match fw_seek w2 p with (w3, true) => (w3, Some n) | (w3, false) => (w3, None) end
      | (w2, false) => (w2, None)
      end
  | (w1, None) => (w1, None)
  end.
(* dropping the writer: the content of the file afterwards, and whether the last flush succeeded (nobody is told) *)
Definition fw_close (w : fwriter) : file * bool :=
  let (w1, ok) := fw_flush w in (o_data (w_os w1), ok).

(* What the commands do with a writer: seek to each position and write a block, stopping at the first error. The length
   returned by write is not looked at. src/encode_core.rs:464-472; src/data_block_buffer/mod.rs:516-603,834-842;
   src/sort_core.rs:359-366 (and, on a FileReader opened for writing, src/repair_core.rs:261-267,389-394;
   src/update_core.rs:333-336) *)
Fixpoint write_blocks (w : fwriter) (l : list (N * list N)) : fwriter * bool :=
  match l with
  | [] => (w, true)
  | (p, d) :: l' =>
      match fw_seek w p with
      | (w1, false) => (w1, false)
      | (w1, true) => match fw_write w1 d with (w2, Some _) => write_blocks w2 l' | (w2, None) => (w2, false) end
      end
  end.
(* src/rescue_buffer/mod.rs:114-134, for one UID: blocks appended to the end of the file, then the writer is dropped *)
Fixpoint append_blocks (w : fwriter) (l : list (list N)) : fwriter * bool :=
  match l with
  | [] => (w, true)
  | d :: l' => match fw_write w d with (w1, Some _) => append_blocks w1 l' | (w1, None) => (w1, false) end
  end.
Definition rescue_group (data : file) (answers : list (option N)) (l : list (list N)) : file * bool :=
  let (w, ok) := append_blocks (fw_open true false true data answers) l in (fst (fw_close w), ok).

(* ---- FileReader ---- *)
(* src/file_reader.rs:62-71; the buffer holds what is read from the system but not yet handed out *)
Record freader := mkFr { r_os : os; r_buf : option (list N) }.
Definition fr_open (buffered : bool) (data : file) (answers : list (option N)) : freader :=
  mkFr (mkOs data 0 false answers) (if buffered then Some [] else None).
(* one call of read of the handle *)
Definition fr_read1 (r : freader) (n : N) : freader * list N :=
  match r_buf r with
  | None => let (s, d) := o_read (r_os r) n in (mkFr s None, d)
  | Some [] =>
      if CAP <=? n then let (s, d) := o_read (r_os r) n in (mkFr s (Some []), d)
      else let (s, d) := o_read (r_os r) CAP in (mkFr s (Some (dropN n d)), takeN n d)
  | Some b => (mkFr (r_os r) (Some (dropN n b)), takeN n b)
  end.
(* src/file_reader.rs:97-119 *)
Fixpoint fr_read_loop (tries : nat) (r : freader) (n : N) (got : list N) : freader * list N :=
  match tries with
  | O => (r, got)
  | S t =>
      if n <=? lenN got then (r, got)
      else let (r1, d) := fr_read1 r (n - lenN got) in fr_read_loop t r1 n (got ++ d)
  end.
Definition fr_read (r : freader) (n : N) : freader * list N := fr_read_loop READ_RETRIES r n [].
(* src/file_reader.rs:132-137: seeking drops the buffer *)
Definition fr_seek (r : freader) (p : N) : freader :=
  mkFr (o_seek (r_os r) p) (match r_buf r with None => None | Some _ => Some [] end).
(* src/file_reader.rs:139-144: seek by 0 from where the caller is, which is before what is in the buffer *)
Definition fr_cur_pos (r : freader) : freader * N :=
  let p := o_pos (r_os r) - match r_buf r with None => 0 | Some b => lenN b end in (fr_seek r p, p).
(* src/file_reader.rs:121-130 with 16-33: the buffer is dropped by seeking, then the system is called *)
Definition fr_write (r : freader) (d : list N) : freader * option N :=
  let r1 := match r_buf r with None => r | Some _ => fst (fr_cur_pos r) end in
  let (s, x) := o_write (r_os r1) d in (mkFr s (r_buf r1), x).
(* src/file_reader.rs:153-161 *)
Definition fr_size (r : freader) : freader * N :=
  let (r1, p) := fr_cur_pos r in
  let n := lenN (o_data (r_os r1)) in (fr_seek (fr_seek r1 n) p, n).
