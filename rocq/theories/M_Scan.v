(* Model of src/block_utils.rs: scanning a file for blocks, choosing a reference block, guessing the
   burst level and the starting block index; and of the macros of src/misc_macros.rs built on them.
   The stop flag (Ctrl-C) and progress reports are not modelled. FileReader::read on a regular file
   gives the bytes available up to the length asked (src/file_reader.rs:98-118). *)
From Verif Require Import M_Base M_Specs M_Header M_Multihash M_Metadata M_Block M_Index M_Buffer M_Ranges.

(* src/block_utils.rs:34-38, with the block when usable *)
Record lazy_read := mkLazy { lz_len : N; lz_block : option block; lz_eof : bool }.

(* src/block_utils.rs:74-135; pos is the reader's position. The buffer is 4096 bytes and the Block
   object is reused, which makes no difference to the outcome (theorem c09_history_independence). *)
Definition read_block_lazily (f : file) (pos : N) : result lazy_read :=
  let b1 := file_read f pos SBX_SCAN_BLOCK_SIZE in
  if lenN b1 <? SBX_SCAN_BLOCK_SIZE then ROk (mkLazy (lenN b1) None true)
  else match sync_from_buffer_header_only block_dummy b1 with
       | RPanic => RPanic
       | RErr _ => ROk (mkLazy (lenN b1) None false)
       | ROk b =>
           let block_size := ver_to_block_size (b_version b) in
           let b2 := file_read f (pos + SBX_SCAN_BLOCK_SIZE) (block_size - SBX_SCAN_BLOCK_SIZE) in
           let total := lenN b1 + lenN b2 in
           if total <? block_size then ROk (mkLazy total None true)
           else match sync_from_buffer block_dummy (b1 ++ b2) no_hpred no_pred with
                | RPanic => RPanic
                | RErr _ => ROk (mkLazy total None false)
                | ROk b => ROk (mkLazy total (Some b) false)
                end
       end.

(* src/block_utils.rs:21-26 *)
Inductive ref_choice := Any | Prefer (t : block_type) | MustBe (t : block_type).

Definition some {A} (o : option A) : bool := match o with Some _ => true | None => false end.
(* src/block_utils.rs:220-241: whether to stop scanning *)
Definition ref_found (choice : ref_choice) (m d : option (N * block)) : bool :=
  match choice with
  | Any => some m || some d
  | Prefer TMeta | MustBe TMeta => some m
  | Prefer TData | MustBe TData => some d
  end.
Definition first_some {A} (a b : option A) : option A := match a with Some _ => a | None => b end.
(* src/block_utils.rs:246-273 *)
Definition ref_pick (choice : ref_choice) (m d : option (N * block)) : option (N * block) :=
  match choice with
  | Any | Prefer TMeta => first_some m d
  | Prefer TData => first_some d m
  | MustBe TMeta => m
  | MustBe TData => d
  end.
(* src/block_utils.rs:188-242: the loop, from position seek_to; returns the first metadata and data
   block found with their positions relative to seek_to *)
Fixpoint ref_loop (fuel : nat) (f : file) (seek_to required_len : N) (choice : ref_choice)
    (bytes : N) (m d : option (N * block)) : result (option (N * block) * option (N * block)) :=
  match fuel with
  | O => RErr OtherError
  | S fuel' =>
      if required_len <=? bytes then ROk (m, d)
      else
        do! r <- read_block_lazily f (seek_to + bytes);
        let bytes' := bytes + lz_len r in
        if lz_eof r then ROk (m, d)
        else match lz_block r with
             | None => ref_loop fuel' f seek_to required_len choice bytes' m d
             | Some b =>
                 let m' := match block_type_of b with TMeta => first_some m (Some (bytes, b)) | TData => m end in
                 let d' := match block_type_of b with TMeta => d | TData => first_some d (Some (bytes, b)) end in
                 if ref_found choice m' d' then ROk (m', d')
                 else ref_loop fuel' f seek_to required_len choice bytes' m' d'
             end
  end.
(* src/block_utils.rs:137-274. The loop reads at least 128 bytes per turn or stops, so the file's length
   is enough fuel (lemma ref_loop_fuel). *)
Definition get_ref_block (f : file) (from : option N) (to : option range_end) (misalign : bool)
    (choice : ref_choice) : result (option (N * block)) :=
  let '(required_len, seek_to) :=
    calc_required_len_and_seek_to_from_byte_range from to misalign 0 (Len (lenN f)) None in
  do! (m, d) <- ref_loop (S (length f)) f seek_to required_len choice 0 None None;
  ROk (ref_pick choice m d).

(* src/block_utils.rs:340-362,440-466: the whole blocks read in order from pos, at most [count] of them,
   each with what the reader makes of it (None when it does not parse or has another version or UID).
   Both loops read one more block before noticing that enough were read; that block is unused. *)
Fixpoint sample_blocks (count : nat) (f : file) (pos : N) (ref : block) : result (list (option block)) :=
  match count with
  | O => ROk []
  | S count' =>
      let bs := ver_to_block_size (b_version ref) in
      let buf := file_read f pos bs in
      if lenN buf <? bs then ROk []
      else
        do! x <- match sync_from_buffer block_dummy buf (header_pred_same_ver_uid ref) no_pred with
                 | ROk b => ROk (Some b) | RErr _ => ROk None | RPanic => RPanic
                 end;
        do! xs <- sample_blocks count' f (pos + bs) ref;
        ROk (x :: xs)
  end.

(* src/block_utils.rs:28-32 *)
Inductive guess_from := ShiftToStart (x : N) | NoShift (x : N).
(* src/block_utils.rs:312-330 *)
Definition guess_from_pos (g : option guess_from) (misalign : bool) (block_size : N) : N :=
  match g with
  | None => 0
  | Some (ShiftToStart x) => if misalign then x mod block_size else 0
  | Some (NoShift x) => if misalign then x else round_down_to_multiple x block_size
  end.
(* index in the list of samples, with the sequence numbers found there *)
Definition indexed {A} (l : list A) : list (N * A) := combine (rangeN 0 (lenN l)) l.
(* the samples that are blocks: only these can mismatch (src/block_utils.rs:372-376) *)
Definition found_samples (samples : list (option N)) : list (N * N) :=
  flat_map (fun x => match snd x with Some seq => [(fst x, seq)] | None => [] end) (indexed samples).
(* src/block_utils.rs:364-379: number of mismatches for a level *)
Definition mismatches_of (data parity : N) (found : list (N * N)) (level : N) : N :=
  countN (fun x => negb (snd x =? calc_seq_num_at_index (fst x) None (Some (data, parity, level)))) found.
Definition mismatches (data parity : N) (samples : list (option N)) (level : N) : N :=
  mismatches_of data parity (found_samples samples) level.
(* src/block_utils.rs:381-387 *)
Definition best_level (m : list N) : N :=
  fold_left (fun best level => if nthN m level <? nthN m best then level else best)
            (rangeN 0 (lenN m)) 0.
(* src/block_utils.rs:332-404: from the blocks sampled *)
Definition pick_level (data parity : N) (samples : list (option N)) : option N :=
  let found := found_samples samples in
  let m := map (mismatches_of data parity found) (rangeN 0 (SBX_MAX_BURST_ERR_RESISTANCE + 1)) in
  let best := best_level m in
  if countN (fun x => x =? nthN m best) m =? lenN m then None else Some best.
(* src/misc_macros.rs:137-170 *)
Definition get_RSD (b : block) : result N :=
  match b_data b with
  | DData => RErr IncorrectBlockType
  | DMeta ms => match get_meta_by_id ms IRSD with Some (RSD x) => ROk x | _ => RErr OtherError end
  end.
Definition get_RSP (b : block) : result N :=
  match b_data b with
  | DData => RErr IncorrectBlockType
  | DMeta ms => match get_meta_by_id ms IRSP with Some (RSP x) => ROk x | _ => RErr OtherError end
  end.
(* src/block_utils.rs:276-404 *)
Definition guess_burst (f : file) (g : option guess_from) (misalign : bool) (ref : block)
  : result (option N) :=
  if negb (ver_uses_rs (b_version ref)) then ROk None
  else
    do! data <- get_RSD ref;
    do! parity <- get_RSP ref;
    let pos := guess_from_pos g misalign (ver_to_block_size (b_version ref)) in
    do! bs <- sample_blocks (N.to_nat ((1 + parity) + SBX_MAX_BURST_ERR_RESISTANCE + 1)) f pos ref;
    ROk (pick_level data parity (map (option_map b_seq_num) bs)).

(* src/block_utils.rs:406-536. The indices are counted in a HashMap whose iteration order is arbitrary:
   [order] gives the keys in the order they are visited. *)
Definition start_index_of (o : dpb) (x : N * option block) : option N :=
  match snd x with
  | None => None
  | Some b =>
      if is_meta b then None
      else
        let i := calc_data_block_write_index (b_seq_num b) (Some true) o in
        if i <? fst x then None else Some (i - fst x)
  end.
Definition occurrences (l : list N) (x : N) : N := countN (fun y => y =? x) l.
Definition pick_index (candidates keys : list N) : N :=
  match fold_left (fun best k =>
           Some (match best with
                 | None => k
                 | Some x => if occurrences candidates x <? occurrences candidates k then k else x
                 end)) keys None with
  | Some x => x
  | None => 0
  end.
Definition BLOCKS_TO_SAMPLE : N := 1024.
Definition somes {A} (l : list (option A)) : list A :=
  flat_map (fun x => match x with Some a => [a] | None => [] end) l.
Definition guess_starting_block_index (order : list N -> list N) (f : file) (from : option N)
    (misalign : bool) (ref : block) (o : dpb) : result N :=
  let bs := ver_to_block_size (b_version ref) in
  let pos := match from with
             | None => 0
             | Some x => if misalign then x else round_down_to_multiple x bs
             end in
  do! blocks <- sample_blocks (N.to_nat BLOCKS_TO_SAMPLE) f pos ref;
  let candidates := somes (map (start_index_of o) (indexed blocks)) in
  ROk (pick_index candidates (order (nodup N.eq_dec candidates))).

(* src/misc_macros.rs:12-34: start of the scan for the reference block *)
Definition ref_from_pos (ref_from from : option N) : option N :=
  match ref_from with
  | Some x => Some x
  | None => match from with Some x => Some (x mod SBX_SCAN_BLOCK_SIZE) | None => None end
  end.
(* src/misc_macros.rs:248-262 *)
Definition guess_from_param (guess from : option N) : option guess_from :=
  match guess with
  | Some x => Some (NoShift x)
  | None => match from with None => None | Some x => Some (ShiftToStart x) end
  end.
(* src/misc_macros.rs:264-306 *)
Definition get_burst_or_guess (f : file) (burst : option N) (g : option guess_from) (misalign : bool)
    (ref : block) : result N :=
  match burst with
  | Some b => ROk b
  | None =>
      if ver_uses_rs (b_version ref) then
        if is_data ref then RErr IncorrectBlockType
        else do! r <- guess_burst f g misalign ref;
             match r with Some b => ROk b | None => RErr OtherError end
      else ROk 0
  end.
(* src/misc_macros.rs:190-222 *)
Definition get_data_par_burst (f : file) (burst : option N) (g : option guess_from) (misalign : bool)
    (ref : block) : result dpb :=
  if ver_uses_rs (b_version ref) then
    do! d <- get_RSD ref;
    do! p <- get_RSP ref;
    do! b <- get_burst_or_guess f burst g misalign ref;
    ROk (Some (d, p, b))
  else ROk None.
