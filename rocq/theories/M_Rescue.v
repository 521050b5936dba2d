(* Model of src/rescue_core.rs, src/rescue_buffer/mod.rs and src/log.rs: copying the blocks found in a file to one file per UID, with
   a log to resume from. The reader, grouper and writer threads are modelled as one after the other on each buffer (the
   threads are in M_Pipeline); the log thread writes at any moment (rescue_step). *)
From Coq Require Import Permutation.
From Verif Require Import M_Base M_Specs M_Header M_Multihash M_Metadata M_Block M_Index M_Buffer M_Hex M_Ranges M_Scan.

(* src/rescue_core.rs:28-39 *)
Record rparam := mkRparam {
  rp_from : option N; rp_to : option range_end; rp_misalign : bool; rp_type : option block_type; rp_uid : option (list N) }.
(* src/rescue_core.rs:76-84: the counters; total_bytes is passed where it is used *)
Record rstats := mkRstats { rs_bytes : N; rs_meta : N; rs_data : N }.

(* ---- the log ---- *)
(* decimal digits, as format! writes a u64 *)
Fixpoint dec_digits (fuel : nat) (n : N) : list N :=
  match fuel with
  | O => []
  | S k => (if n <? 10 then [] else dec_digits k (n / 10)) ++ [48 + n mod 10]
  end.
Definition dec (n : N) : list N := dec_digits (S (N.to_nat (N.log2 n))) n.
(* the names of the fields, as bytes: "bytes_processed=", "blocks_processed=", "meta_blocks_processed=", "data_blocks_processed=" *)
Definition S_BYTES : list N := [98;121;116;101;115;95;112;114;111;99;101;115;115;101;100;61].
Definition S_BLOCKS : list N := [98;108;111;99;107;115;95;112;114;111;99;101;115;115;101;100;61].
Definition S_META : list N := [109;101;116;97;95] ++ S_BLOCKS.
Definition S_DATA : list N := [100;97;116;97;95] ++ S_BLOCKS.
(* src/rescue_core.rs:158-175 *)
Definition serialize (s : rstats) : list N :=
  S_BYTES ++ dec (rs_bytes s) ++ [10] ++ S_BLOCKS ++ dec (rs_meta s + rs_data s) ++ [10]
  ++ S_META ++ dec (rs_meta s) ++ [10] ++ S_DATA ++ dec (rs_data s) ++ [10].
(* tag! of nom *)
Fixpoint p_tag (t : list N) (s : list N) : option (list N) :=
  match t, s with
  | [], _ => Some s
  | a :: t', b :: s' => if a =? b then p_tag t' s' else None
  | _ :: _, [] => None
  end.
Definition is_digit (c : N) : bool := (48 <=? c) && (c <=? 57).
(* digit1 of nom: as many digits as there are, at least one *)
Fixpoint p_digits (s : list N) : list N * list N :=
  match s with
  | c :: s' => if is_digit c then let '(d, r) := p_digits s' in (c :: d, r) else ([], s)
  | [] => ([], [])
  end.
Definition p_digit1 (s : list N) : option (list N * list N) :=
  match p_digits s with ([], _) => None | x => Some x end.
Definition dec_value (d : list N) : N := fold_left (fun a c => a * 10 + (c - 48)) d 0.
(* str::parse::<u64> on digits *)
Definition parse_u64 (d : list N) : option N := let x := dec_value d in if x <? 18446744073709551616 then Some x else None.
Definition obind {A B} (x : option A) (k : A -> option B) : option B := match x with Some a => k a | None => None end.
(* one line of the log *)
Definition p_line (t : list N) (s : list N) : option (list N * list N) :=
  obind (p_tag t s) (fun s => obind (p_digit1 s) (fun '(d, s) => obind (p_tag [10] s) (fun s => Some (d, s)))).
(* src/rescue_core.rs:126-155,177-190; [total] is total_bytes *)
Definition deserialize (total : N) (input : list N) : option rstats :=
  obind (p_line S_BYTES input) (fun '(bytes, s) =>
  obind (p_line S_BLOCKS s) (fun '(blocks, s) =>
  obind (p_line S_META s) (fun '(meta, s) =>
  obind (p_line S_DATA s) (fun '(data, s) =>
  obind (parse_u64 bytes) (fun bytes =>
  obind (parse_u64 blocks) (fun _ =>
  obind (parse_u64 meta) (fun meta =>
  obind (parse_u64 data) (fun data =>
  Some (mkRstats (round_down_to_multiple (ensure_at_most total bytes) SBX_SCAN_BLOCK_SIZE) meta data))))))))).
(* src/log.rs:14 *)
Definition LOG_MAX_SIZE : N := 1024.
(* src/log.rs:67-82,175-194: the log file, if there is one *)
Definition read_log (total : N) (log : option (list N)) : result rstats :=
  match log with
  | None => ROk (mkRstats 0 0 0)
  | Some t =>
      let d := takeN LOG_MAX_SIZE t in
      match deserialize total (d ++ repN (LOG_MAX_SIZE - lenN d) 0) with
      | Some s => ROk s
      | None => RErr OtherError
      end
  end.

(* ---- reading ---- *)
(* what a used slot of a buffer holds: the UID of the block and the bytes to write *)
Record rblock := mkRblock { rb_uid : list N; rb_bytes : list N }.
(* What can end reading early: the stop flag, or a read error: at the first 128 bytes of a block, or at the rest of it. [junk] is what
   the buffer slot holds that was not read. *)
Inductive event := Stopped | ReadError (junk : list N) | ReadErrorInBlock (junk : list N).
Inductive filled := Full | Ended | Failed.
(* src/rescue_core.rs:347-377: whether a block read is kept *)
Definition picked (p : rparam) (b : block) : bool :=
  match rp_type p with Some t => block_type_eqb (block_type_of b) t | None => true end &&
  match rp_uid p with Some u => eqbl (b_uid b) u | None => true end.
Definition count_block (b : block) (len : N) (s : rstats) : rstats :=
  match block_type_of b with
  | TMeta => mkRstats (rs_bytes s + len) (rs_meta s + 1) (rs_data s)
  | TData => mkRstats (rs_bytes s + len) (rs_meta s) (rs_data s + 1)
  end.
(* src/rescue_core.rs:339-342: the slot that stays in the buffer when reading fails; a block object not read into is that of
   Block::dummy (version 1, UID of zeros; src/sbx_block/mod.rs:565-572, src/rescue_buffer/mod.rs:151-156) *)
Definition torn_slot (f : file) (pos : N) (e : event) : list rblock :=
  match e with
  | Stopped => []
  | ReadError junk => [mkRblock [0; 0; 0; 0; 0; 0] (takeN 512 junk)]
  | ReadErrorInBlock junk =>
      let b1 := file_read f pos SBX_SCAN_BLOCK_SIZE in
      match sync_from_buffer_header_only block_dummy b1 with
      | ROk b => [mkRblock (b_uid b) (takeN (ver_to_block_size (b_version b)) (b1 ++ junk))]
      | _ => []
      end
  end.
(* src/rescue_core.rs:330-378: filling one buffer of [size] slots. The reader is at byte [at_ + rs_bytes s] of the file. The event, if any,
   happens when that many bytes were processed. None: still running after [fuel] reads. *)
Fixpoint fill_buffer (fuel : nat) (size : N) (p : rparam) (f : file) (required_len at_ : N) (ev : option (N * event))
    (slots : list rblock) (s : rstats) : option (result (list rblock * rstats * filled)) :=
  if lenN slots =? size then Some (ROk (slots, s, Full))
  else
    let due := match ev with Some (n, e) => if n <=? rs_bytes s then Some e else None | None => None end in
    match due with
    | Some Stopped => Some (ROk (slots, s, Ended))
    | _ =>
        if required_len <=? rs_bytes s then Some (ROk (slots, s, Ended))
        else match due with
             | Some e => Some (ROk (slots ++ torn_slot f (at_ + rs_bytes s) e, s, Failed))
             | None =>
                 match fuel with
                 | O => None
                 | S fuel' =>
                     match read_block_lazily f (at_ + rs_bytes s) with
                     | ROk r =>
                         match lz_block r with
                         | Some b =>
                             fill_buffer fuel' size p f required_len at_ ev
                               (if picked p b then slots ++ [mkRblock (b_uid b) (file_read f (at_ + rs_bytes s) (ver_to_block_size (b_version b)))] else slots)
                               (count_block b (lz_len r) s)
                         | None => fill_buffer fuel' size p f required_len at_ ev slots (mkRstats (rs_bytes s + lz_len r) (rs_meta s) (rs_data s))
                         end
                     | RErr e => Some (RErr e)
                     | RPanic => Some RPanic
                     end
                 end
             end
    end.
(* src/rescue_core.rs:318-390: the buffers sent on, each with the counters; and whether there was an error *)
Fixpoint read_buffers (n fuel : nat) (size : N) (p : rparam) (f : file) (required_len at_ : N) (ev : option (N * event)) (s : rstats)
  : option (result (list (list rblock * rstats) * bool)) :=
  match n with
  | O => None
  | S n' =>
      match fill_buffer fuel size p f required_len at_ ev [] s with
      | None => None
      | Some (ROk (slots, s', Full)) =>
          match read_buffers n' fuel size p f required_len at_ ev s' with
          | Some (ROk (l, e)) => Some (ROk ((slots, s') :: l, e))
          | x => x
          end
      | Some (ROk (slots, s', x)) => Some (ROk ([(slots, s')], match x with Failed => true | _ => false end))
      | Some (RErr e) => Some (RErr e)
      | Some RPanic => Some RPanic
      end
  end.

(* ---- writing ---- *)
(* src/rescue_buffer/mod.rs:99-112: the map from UIDs to slots, entries in the order of first use *)
Fixpoint push_uid (m : list (list N * list (list N))) (b : rblock) : list (list N * list (list N)) :=
  match m with
  | [] => [(rb_uid b, [rb_bytes b])]
  | (u, l) :: m' => if eqbl u (rb_uid b) then (u, l ++ [rb_bytes b]) :: m' else (u, l) :: push_uid m' b
  end.
Definition group_by_uid (bs : list rblock) : list (list N * list (list N)) := fold_left push_uid bs [].
(* a directory: content of each file by name *)
Definition dir := list N -> option (list N).
Definition append_to (name d : list N) (w : dir) : dir :=
  fun x => if eqbl x name then Some (match w x with Some c => c ++ d | None => d end) else w x.
(* src/rescue_buffer/mod.rs:114-137: what is appended to which file. [order] is the order in which the map is iterated. *)
Definition appends (order : list (list N * list (list N)) -> list (list N * list (list N))) (bs : list rblock) : list (list N * list N) :=
  map (fun '(u, l) => (bytes_to_upper_hex_string u, concat l)) (order (group_by_uid bs)).
Definition write_buffer order (bs : list rblock) (w : dir) : dir := fold_left (fun w '(n, d) => append_to n d w) (appends order bs) w.
(* src/rescue_core.rs:414-443: order gives for each buffer, counting from the last, the order of iteration *)
Fixpoint write_buffers (order : nat -> list (list N * list (list N)) -> list (list N * list (list N))) (l : list (list rblock * rstats)) (s : rstats) (w : dir)
  : dir * rstats :=
  match l with
  | [] => (w, s)
  | (bs, s') :: l' => write_buffers order l' s' (write_buffer (order (length l')) bs w)
  end.

(* src/rescue_core.rs:26 *)
Definition BLOCK_COUNT_IN_BUFFER : N := 1000.
(* src/rescue_core.rs:240-292: required length, counters to start with, and position of the reader minus bytes_processed. The latter is
   an integer since seek_to is at least bytes_processed, or there is nothing to do. *)
Definition rescue_start (p : rparam) (f : file) (log : option (list N)) : result (N * rstats * N) :=
  let required_len := fst (calc_required_len_and_seek_to_from_byte_range (rp_from p) (rp_to p) (rp_misalign p) 0 (Len (lenN f)) None) in
  do! s <- read_log required_len log;
  let seek_to := snd (calc_required_len_and_seek_to_from_byte_range (rp_from p) (rp_to p) (rp_misalign p) (rs_bytes s) (Len (lenN f)) None) in
  ROk (required_len, s, seek_to - rs_bytes s).
(* src/rescue_core.rs:237-463. The directory afterwards; the counters, or an error. None: runs for ever as far as [fuel] tells. *)
Definition rescue_from_file (order : nat -> list (list N * list (list N)) -> list (list N * list (list N))) (size : N) (fuel : nat) (p : rparam) (f : file) (ev : option (N * event)) (log : option (list N)) (w : dir) : option (dir * result rstats) :=
  match rescue_start p f log with
  | RErr e => Some (w, RErr e)
  | RPanic => Some (w, RPanic)
  | ROk (required_len, s, at_) =>
      match read_buffers fuel fuel size p f required_len at_ ev s with
      | None => None
      | Some (RErr e) => Some (w, RErr e)
      | Some RPanic => Some (w, RPanic)
      | Some (ROk (l, failed)) =>
          let '(w', s') := write_buffers order l s w in
          Some (w', if failed : bool then RErr OtherError else ROk s')
      end
  end.

(* ---- interruption at any moment ---- *)
(* A running rescue as seen from outside: the directory, the log file, the shared counters, the appends of the buffer being written with
   the counters to publish afterwards, and the buffers to come *)
Record running := mkRunning {
  ru_dir : dir; ru_log : option (list N); ru_stats : rstats;
  ru_now : option (list (list N * list N) * rstats); ru_todo : list (list rblock * rstats) }.
Inductive rescue_step : running -> running -> Prop :=
| step_take w g s bs s' l order : (forall x, Permutation (order x) x) ->
    rescue_step (mkRunning w g s None ((bs, s') :: l)) (mkRunning w g s (Some (appends order bs, s')) l)
(* opening a file and appending some of the bytes *)
| step_write w g s n d1 d2 t s' l :
    rescue_step (mkRunning w g s (Some ((n, d1 ++ d2) :: t, s')) l) (mkRunning (append_to n d1 w) g s (Some ((n, d2) :: t, s')) l)
| step_close w g s n t s' l :
    rescue_step (mkRunning w g s (Some ((n, []) :: t, s')) l) (mkRunning w g s (Some (t, s')) l)
(* src/rescue_core.rs:428-440 *)
| step_publish w g s s' l :
    rescue_step (mkRunning w g s (Some ([], s')) l) (mkRunning w g s' None l)
(* src/log.rs:84-99,125-132: the log thread holds the lock on the counters; the file is emptied and then written, so
   it may be seen with any part of the text *)
| step_log w g s now l k :
    rescue_step (mkRunning w g s now l) (mkRunning w (Some (takeN k (serialize s))) s now l).
