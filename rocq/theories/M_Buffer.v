(* Model of src/data_block_buffer/mod.rs: slots, lots and the buffers passed around the pipelines.

   Representation. The code keeps parallel arrays per lot (blocks, data, slot_read_pos, ...); here a
   lot is a list of slot records, one per index. The data of a slot (block_size bytes) keeps whatever
   it held before (stale bytes) until overwritten, as in the code. The fields of Lot that never change
   after construction (version, uid, types, shard counts, sizes) are in the configuration record. *)
From Verif Require Import M_Base M_Specs M_Header M_Block M_Index.

(* Sequencing of fallible computations (`?`, panics). *)
Definition rbind {A B} (r : result A) (f : A -> result B) : result B :=
  match r with ROk a => f a | RErr e => RErr e | RPanic => RPanic end.
Notation "'do!' x <- e ; k" := (rbind e (fun x => k))
  (at level 200, x pattern, e at level 100, k at level 200, right associativity).
Fixpoint rmap {A B} (f : A -> result B) (l : list A) : result (list B) :=
  match l with
  | [] => ROk []
  | a :: l' => do! b <- f a; do! bs <- rmap f l'; ROk (b :: bs)
  end.
Fixpoint rfold {A B} (f : B -> A -> result B) (l : list A) (b : B) : result B :=
  match l with
  | [] => ROk b
  | a :: l' => do! b' <- f b a; rfold f l' b'
  end.
(* assert!(c) *)
Definition rassert (c : bool) : result unit := if c then ROk tt else RPanic.
(* l[i] = x *)
Fixpoint set_nat {A} (l : list A) (i : nat) (x : A) : list A :=
  match l, i with
  | [], _ => []
  | _ :: l', O => x :: l'
  | a :: l', S i' => a :: set_nat l' i' x
  end.
Definition setN {A} (l : list A) (i : N) (x : A) : list A := set_nat l (N.to_nat i) x.
Definition getN {A} (l : list A) (i : N) : option A := nth_error l (N.to_nat i).

(* src/data_block_buffer/mod.rs:98-109 *)
Inductive arrangement := OrderedAndNoMissing | OrderedButSomeMayBeMissing | Unordered.
Inductive input_type := InData | InBlock (a : arrangement).
(* src/data_block_buffer/mod.rs:111-116 *)
Inductive output_type := OutBlock | OutData | OutDisabled.

(* src/data_block_buffer/mod.rs:17-19 *)
Definition DEFAULT_SINGLE_LOT_SIZE : N := 100.
Definition LOT_COUNT_PER_CPU : N := 50.

(* Constant part of Lot (src/data_block_buffer/mod.rs:133-157) and of DataBlockBuffer (159-165):
   lot count and number of buffers in rotation. *)
Record cfg := mkCfg {
  c_ver : version; c_uid : list N; c_in : input_type; c_out : output_type; c_dpb : dpb;
  c_meta : bool; c_skip_good : bool; c_lots : N; c_bufs : N }.

(* src/data_block_buffer/mod.rs:185-191 *)
Definition lot_size (c : cfg) : N :=
  match c_in c with
  | InData => match c_dpb c with None => DEFAULT_SINGLE_LOT_SIZE | Some (d, p, _) => d + p end
  | InBlock _ => DEFAULT_SINGLE_LOT_SIZE
  end.
Definition dws (c : cfg) : N :=
  match c_in c with
  | InData => match c_dpb c with None => DEFAULT_SINGLE_LOT_SIZE | Some (d, p, _) => d end
  | InBlock _ => DEFAULT_SINGLE_LOT_SIZE
  end.

(* one slot: entry i of the arrays blocks, data, slot_read_pos, slot_write_pos,
   slot_content_len_exc_header, slot_is_padding (src/data_block_buffer/mod.rs:146-154) *)
Record slot := mkSlot {
  s_block : block; s_buf : list N; s_rpos : option N; s_wpos : option N; s_clen : option N;
  s_pad : bool }.
(* src/data_block_buffer/mod.rs:133-157, changing part: slots, slots_used,
   padding_byte_count_in_non_padding_blocks *)
Record lot := mkLot { l_slots : list slot; l_used : N; l_padbytes : N }.
(* src/data_block_buffer/mod.rs:159-165, changing part *)
Record dbuf := mkDbuf { d_lots : list lot; d_used : N; d_start : option N }.

(* src/data_block_buffer/mod.rs:203-206,222-229: initial slot *)
Definition slot_new (c : cfg) : slot :=
  mkSlot (block_new (c_ver c) (c_uid c) TData) (repN (ver_to_block_size (c_ver c)) 0)
         None None None false.
(* src/data_block_buffer/mod.rs:168-233 *)
Definition lot_new (c : cfg) : lot := mkLot (repN (lot_size c) (slot_new c)) 0 0.

(* src/data_block_buffer/mod.rs:649-651; `as u32` truncates *)
Definition slots_per_buffer (c : cfg) : N := c_lots c * lot_size c.
Definition seq_num_incre (c : cfg) : N := u32 (slots_per_buffer c * c_bufs c).
(* src/data_block_buffer/mod.rs:609-662 *)
Definition dbuf_new (c : cfg) (index : N) : dbuf :=
  mkDbuf (repN (c_lots c) (lot_new c)) 0 (Some (u32 (1 + u32 (index * slots_per_buffer c)))).
(* src/data_block_buffer/mod.rs:664-691 *)
Definition dbuf_new_multi (c : cfg) : list dbuf := map (dbuf_new c) (rangeN 0 (c_bufs c)).

(* src/data_block_buffer/mod.rs:701-703 *)
Definition is_full (b : dbuf) : bool := d_used b =? lenN (d_lots b).
(* src/data_block_buffer/mod.rs:287-289 *)
Definition lot_active (l : lot) : bool := 0 <? l_used l.

(* src/data_block_buffer/mod.rs:235-260,709-737. Returns the buffer after the call and where the slot
   handed out is; None is Option::None, which every caller unwraps (a panic). *)
Definition get_slot (c : cfg) (b : dbuf) : option (dbuf * (N * N)) :=
  if d_used b =? lenN (d_lots b) then None
  else match getN (d_lots b) (d_used b) with
       | None => None
       | Some l =>
           if l_used l <? dws c then
             let l' := mkLot (l_slots l) (l_used l + 1) (l_padbytes l) in
             Some (mkDbuf (setN (d_lots b) (d_used b) l')
                          (if l_used l' =? dws c then d_used b + 1 else d_used b) (d_start b),
                   (d_used b, l_used l))
           else None
       end.
(* contents of the slot at a location, and the same buffer with that slot replaced (the caller writes
   through the references handed out by get_slot) *)
Definition slot_at (b : dbuf) (loc : N * N) : option slot :=
  match getN (d_lots b) (fst loc) with
  | None => None
  | Some l => getN (l_slots l) (snd loc)
  end.
Definition put_slot (b : dbuf) (loc : N * N) (s : slot) : dbuf :=
  match getN (d_lots b) (fst loc) with
  | None => b
  | Some l => mkDbuf (setN (d_lots b) (fst loc)
                        (mkLot (setN (l_slots l) (snd loc) s) (l_used l) (l_padbytes l)))
                     (d_used b) (d_start b)
  end.

(* What the caller sees of the slot (src/data_block_buffer/mod.rs:241-244): the payload when the input
   is data, the whole block when it is blocks; and writing to its front *)
Definition slot_view_len (c : cfg) : N :=
  match c_in c with InData => ver_to_data_size (c_ver c) | InBlock _ => ver_to_block_size (c_ver c) end.
Definition slot_view_off (c : cfg) : N :=
  match c_in c with InData => SBX_HEADER_SIZE | InBlock _ => 0 end.
Definition fill_view (c : cfg) (s : slot) (d : list N) : slot :=
  mkSlot (s_block s) (put_at (s_buf s) (slot_view_off c) d) (s_rpos s) (s_wpos s) (s_clen s) (s_pad s).
Definition view_of (c : cfg) (s : slot) : list N :=
  sliceN (slot_view_off c) (slot_view_len c) (s_buf s).

(* src/data_block_buffer/mod.rs:452-462 *)
Definition reset_slot (c : cfg) (s : slot) : slot :=
  mkSlot (set_seq_num (set_uid (set_version (s_block s) (c_ver c)) (c_uid c)) SBX_FIRST_DATA_SEQ_NUM)
         (s_buf s) None None None false.
(* src/data_block_buffer/mod.rs:278-285 *)
Definition lot_cancel (c : cfg) (l : lot) : result lot :=
  if (0 <? l_used l) && (l_used l <=? dws c) then
    match getN (l_slots l) (l_used l - 1) with
    | None => RPanic
    | Some s => ROk (mkLot (setN (l_slots l) (l_used l - 1) (reset_slot c s)) (l_used l - 1) (l_padbytes l))
    end
  else RPanic.
(* src/data_block_buffer/mod.rs:705-707,751-761; indexing self.lots out of bounds panics *)
Definition cancel_slot (c : cfg) (b : dbuf) : result dbuf :=
  let cur_used := match getN (d_lots b) (d_used b) with Some l => Some (l_used l) | None => None end in
  let active := (0 <? d_used b) || match cur_used with Some u => 0 <? u | None => false end in
  if negb active then RPanic
  else
    let shift := is_full b || match cur_used with Some u => u =? 0 | None => true end in
    let i := if shift then d_used b - 1 else d_used b in
    match getN (d_lots b) i with
    | None => RPanic
    | Some l => do! l' <- lot_cancel c l; ROk (mkDbuf (setN (d_lots b) i l') i (d_start b))
    end.

(* src/data_block_buffer/mod.rs:464-492 *)
Definition lot_reset (c : cfg) (l : lot) : lot := mkLot (map (reset_slot c) (l_slots l)) 0 0.
(* src/data_block_buffer/mod.rs:788-794 *)
Definition dbuf_reset (c : cfg) (b : dbuf) : dbuf :=
  mkDbuf (map (lot_reset c) (d_lots b)) 0 (d_start b).

(* src/data_block_buffer/mod.rs:327-339: one used slot; returns the number of padding bytes written *)
Definition pad_content (c : cfg) (s : slot) : result (slot * N) :=
  match s_clen s with
  | None => ROk (s, 0)
  | Some len =>
      do! _ <- rassert (0 <? len);
      do! _ <- rassert (len <=? ver_to_data_size (c_ver c));
      if len <? ver_to_data_size (c_ver c) then
        let '(buf, n) := write_padding (c_ver c) len (s_buf s) in
        ROk (mkSlot (s_block s) buf (s_rpos s) (s_wpos s) (s_clen s) (s_pad s), n)
      else ROk (s, 0)
  end.
(* src/data_block_buffer/mod.rs:344-350: one slot of padding *)
Definition pad_slot (c : cfg) (s : slot) : slot :=
  mkSlot (s_block s) (fst (write_padding (c_ver c) 0 (s_buf s))) (s_rpos s) (s_wpos s) (s_clen s) true.
Definition sumN (l : list N) : N := fold_right N.add 0 l.
(* src/data_block_buffer/mod.rs:323-355 *)
Definition lot_fill_in_padding (c : cfg) (l : lot) : result lot :=
  if lot_active l then
    do! r <- rmap (pad_content c) (takeN (l_used l) (l_slots l));
    let used := map fst r in
    let padbytes := l_padbytes l + sumN (map snd r) in
    match c_dpb c with
    | None => ROk (mkLot (used ++ dropN (l_used l) (l_slots l)) (l_used l) padbytes)
    | Some (d, _, _) =>
        do! _ <- rassert (l_used l <=? d);
        ROk (mkLot (used ++ map (pad_slot c) (sliceN (l_used l) (d - l_used l) (l_slots l))
                    ++ dropN d (l_slots l)) d padbytes)
    end
  else ROk l.

(* The Reed-Solomon codec of crate reed_solomon_erasure (external): from the numbers of data and
   parity shards and the data shards, the parity shards. *)
Definition codec := N -> N -> list (list N) -> list (list N).

Definition set_payload (c : cfg) (s : slot) (d : list N) : slot :=
  mkSlot (s_block s) (put_at (s_buf s) SBX_HEADER_SIZE d) (s_rpos s) (s_wpos s) (s_clen s) (s_pad s).
(* src/data_block_buffer/mod.rs:357-376; `encode(..).unwrap()` panics when the number of shards or
   their sizes are wrong, which the model reports when the codec's output does not fit. *)
Definition lot_rs_encode (c : cfg) (rs : codec) (l : lot) : result lot :=
  if lot_active l then
    match c_dpb c with
    | None => ROk l
    | Some (d, p, _) =>
        do! _ <- rassert (l_used l =? d);
        let data := map (fun s => slice_data_buf (c_ver c) (s_buf s)) (takeN d (l_slots l)) in
        let parity := rs d p data in
        let rest := dropN d (l_slots l) in
        if lenN parity =? lenN rest then
          ROk (mkLot (takeN d (l_slots l)
                      ++ map (fun sp => set_payload c (fst sp) (snd sp)) (combine rest parity))
                     (lot_size c) (l_padbytes l))
        else RPanic
    end
  else ROk l.

(* src/data_block_buffer/mod.rs:378-402 on one slot: sequence number, then header and CRC into the
   slot's bytes *)
Definition seal_slot (lot_start : N) (index : N) (s : slot) : result slot :=
  do! _ <- rassert (lot_start + index <=? SBX_LAST_SEQ_NUM);
  match sync_to_buffer (set_seq_num (s_block s) (lot_start + index)) None (s_buf s) with
  | ROk (b, buf) => ROk (mkSlot b buf (s_rpos s) (s_wpos s) (s_clen s) (s_pad s))
  | _ => RPanic
  end.
Fixpoint seal_slots (lot_start : N) (index : N) (l : list slot) : result (list slot) :=
  match l with
  | [] => ROk []
  | s :: l' =>
      do! s' <- seal_slot lot_start index s;
      do! l'' <- seal_slots lot_start (index + 1) l';
      ROk (s' :: l'')
  end.
(* src/data_block_buffer/mod.rs:404-414. The code sets all sequence numbers before serialising; the
   two loops touch each slot independently and are merged here. *)
Definition lot_encode (c : cfg) (rs : codec) (lot_start : N) (l : lot) : result lot :=
  match c_in c with
  | InBlock _ => RPanic
  | InData =>
      do! l1 <- lot_fill_in_padding c l;
      do! l2 <- lot_rs_encode c rs l1;
      do! ss <- seal_slots lot_start 0 (takeN (l_used l2) (l_slots l2));
      ROk (mkLot (ss ++ dropN (l_used l2) (l_slots l2)) (l_used l2) (l_padbytes l2))
  end.
(* src/data_block_buffer/mod.rs:763-786. Lots are independent, so the parallel loop is a map; the u32
   additions wrap as in a release build. *)
Fixpoint encode_lots (c : cfg) (rs : codec) (start : N) (index : N) (ls : list lot) : result (list lot) :=
  match ls with
  | [] => ROk []
  | l :: ls' =>
      do! l' <- lot_encode c rs (u32 (start + u32 (index * lot_size c))) l;
      do! ls'' <- encode_lots c rs start (index + 1) ls';
      ROk (l' :: ls'')
  end.
Definition dbuf_encode (c : cfg) (rs : codec) (b : dbuf) : result dbuf :=
  match d_start b with
  | None => RPanic
  | Some start =>
      do! lots <- encode_lots c rs start 0 (d_lots b);
      let overflow := U32_MAX - seq_num_incre c <? start in
      ROk (mkDbuf lots (d_used b)
             (if is_full b && negb overflow then Some (start + seq_num_incre c) else None))
  end.

(* src/data_block_buffer/mod.rs:494-526 (without the assertion on the arrangement, which the callers
   meet) *)
Definition countN {A} (f : A -> bool) (l : list A) : N := lenN (filter f l).
Definition lot_counts (c : cfg) (l : lot) : N * N * N :=
  let data := match c_dpb c with None => l_used l | Some (d, _, _) => N.min d (l_used l) end in
  let padding := countN s_pad (takeN (l_used l) (l_slots l)) in
  let parity := match c_dpb c with None => 0 | Some (d, _, _) => l_used l - d end in
  (data, padding, parity).
(* src/data_block_buffer/mod.rs:796-810 *)
Definition dbuf_counts (c : cfg) (b : dbuf) : N * N * N :=
  let cs := map (lot_counts c) (d_lots b) in
  (sumN (map (fun x => fst (fst x)) cs), sumN (map (fun x => snd (fst x)) cs), sumN (map snd cs)).
(* src/data_block_buffer/mod.rs:812-820 *)
Definition dbuf_padbytes (b : dbuf) : N := sumN (map l_padbytes (d_lots b)).

(* src/sbx_block/mod.rs:644-655 *)
Definition is_parity (b : block) (data_shards parity_shards : N) : bool :=
  ver_uses_rs (b_version b) && seq_num_is_parity (b_seq_num b) data_shards parity_shards.
Definition is_parity_w_dpb (b : block) (o : dpb) : bool :=
  ver_uses_rs (b_version b) && seq_num_is_parity_w_data_par_burst (b_seq_num b) o.
(* src/data_block_buffer/mod.rs:425-449: bytes fed to the hash for one slot *)
Definition slot_hash_bytes (c : cfg) (s : slot) : result (list N) :=
  if is_data (s_block s) && negb (s_pad s) && negb (is_parity_w_dpb (s_block s) (c_dpb c)) then
    let len := match s_clen s with None => ver_to_data_size (c_ver c) | Some len => len end in
    do! _ <- rassert ((0 <? len) && (len <=? ver_to_data_size (c_ver c)));
    ROk (takeN len (slice_data_buf (c_ver c) (s_buf s)))
  else ROk [].
(* src/data_block_buffer/mod.rs:416-450: the hash context is the bytes fed so far *)
Definition lot_hash (c : cfg) (l : lot) : result (list N) :=
  match c_in c with
  | InBlock Unordered => RPanic
  | _ => do! bs <- rmap (slot_hash_bytes c) (takeN (l_used l) (l_slots l)); ROk (concat bs)
  end.
(* src/data_block_buffer/mod.rs:822-826 *)
Definition dbuf_hash (c : cfg) (b : dbuf) : result (list N) :=
  do! bs <- rmap (lot_hash c) (d_lots b); ROk (concat bs).

(* src/data_block_buffer/mod.rs:295-317; the data position of a metadata block (sequence number 0)
   violates an assertion of calc_data_block_write_index *)
Definition slot_write_pos (c : cfg) (s : slot) : result (option N) :=
  match c_out c with
  | OutBlock =>
      if b_seq_num (s_block s) =? 0 then RPanic
      else ROk (Some (calc_data_block_write_pos (c_ver c) (b_seq_num (s_block s)) (Some (c_meta c)) (c_dpb c)))
  | OutData =>
      ROk (calc_data_chunk_write_pos (c_ver c) (b_seq_num (s_block s))
             (match c_dpb c with None => None | Some (d, p, _) => Some (d, p) end))
  | OutDisabled => RPanic
  end.
(* src/data_block_buffer/mod.rs:291-321 *)
Definition lot_calc_write_pos (c : cfg) (l : lot) : result lot :=
  do! ss <- rmap (fun s => do! p <- slot_write_pos c s;
                           ROk (mkSlot (s_block s) (s_buf s) (s_rpos s) p (s_clen s) (s_pad s)))
                 (takeN (l_used l) (l_slots l));
  ROk (mkLot (ss ++ dropN (l_used l) (l_slots l)) (l_used l) (l_padbytes l)).

(* src/misc_utils.rs:193-201 *)
Definition buffer_is_blank (l : list N) : bool := forallb (fun x => x =? 0) l.

(* src/data_block_buffer/mod.rs:585-595: the bytes written for a slot; slicing beyond the payload
   panics *)
Definition slot_out (c : cfg) (s : slot) : result (list N) :=
  match c_out c with
  | OutBlock => ROk (s_buf s)
  | OutData =>
      let data := slice_data_buf (c_ver c) (s_buf s) in
      match s_clen s with
      | None => ROk data
      | Some len => if lenN data <? len then RPanic else ROk (takeN len data)
      end
  | OutDisabled => RPanic
  end.
(* src/data_block_buffer/mod.rs:542-583: with skip_good, whether to write over what is in the file at
   the position. In block mode 4096 bytes are read whatever the block size. *)
Definition do_write (c : cfg) (f : file) (pos : N) (s : slot) : bool :=
  if c_skip_good c then
    match c_out c with
    | OutBlock =>
        let rd := file_read f pos SBX_LARGEST_BLOCK_SIZE in
        if lenN rd <? SBX_LARGEST_BLOCK_SIZE then true
        else match sync_from_buffer block_dummy rd no_hpred no_pred with
             | ROk b => negb (version_eqb (b_version b) (b_version (s_block s)))
                        || negb (eqbl (b_uid b) (b_uid (s_block s)))
                        || negb (b_seq_num b =? b_seq_num (s_block s))
             | _ => true
             end
    | OutData =>
        let rd := file_read f pos (ver_to_data_size (c_ver c)) in
        (lenN rd <? ver_to_data_size (c_ver c)) || buffer_is_blank rd
    | OutDisabled => true
    end
  else true.
(* src/data_block_buffer/mod.rs:532-605 with seek = true, one slot. Writer::write is modelled as
   writing all bytes (a single OS write; see property C43 for short writes). *)
Definition write_slot (c : cfg) (f : file) (s : slot) : result file :=
  match s_wpos s with
  | None => ROk f
  | Some pos =>
      if do_write c f pos s then do! d <- slot_out c s; ROk (file_write f pos d) else ROk f
  end.
Definition lot_write (c : cfg) (f : file) (l : lot) : result file :=
  match c_out c with
  | OutDisabled => RPanic
  | _ => rfold (write_slot c) (takeN (l_used l) (l_slots l)) f
  end.
(* src/data_block_buffer/mod.rs:834-846: write with seek; returns the buffer with the computed
   positions, and the file *)
Definition dbuf_write (c : cfg) (f : file) (b : dbuf) : result (dbuf * file) :=
  do! ls <- rmap (lot_calc_write_pos c) (d_lots b);
  do! f' <- rfold (lot_write c) ls f;
  ROk (mkDbuf ls (d_used b) (d_start b), f').
(* src/data_block_buffer/mod.rs:848-850: write_no_seek (standard output, never with skip_good):
   the bytes appended *)
Definition slot_append (c : cfg) (s : slot) : result (list N) :=
  match s_wpos s with None => ROk [] | Some _ => slot_out c s end.
Definition lot_append (c : cfg) (l : lot) : result (list N) :=
  do! ds <- rmap (slot_append c) (takeN (l_used l) (l_slots l)); ROk (concat ds).
Definition dbuf_write_no_seek (c : cfg) (b : dbuf) : result (dbuf * list N) :=
  do! ls <- rmap (lot_calc_write_pos c) (d_lots b);
  do! ds <- rmap (lot_append c) ls;
  ROk (mkDbuf ls (d_used b) (d_start b), concat ds).

(* The fill loop common to the reader threads: `while !buffer.is_full() { .. get_slot() .. }`.
   [pre] says whether to stop before taking a slot; [step] is what happens with the slot taken: the
   slot is kept or cancelled, and the loop goes on or the whole run stops. The boolean returned is
   `run`. *)
Inductive action := Keep (s : slot) | Cancel (s : slot).
Fixpoint fill {St : Type} (c : cfg) (pre : St -> bool) (step : St -> slot -> result (St * action * bool))
    (fuel : nat) (st : St) (b : dbuf) : result (St * dbuf * bool) :=
  if is_full b then ROk (st, b, true)
  else match fuel with
  | O => RErr OtherError
  | S fuel' =>
      if pre st then ROk (st, b, false)
      else match get_slot c b with
           | None => RPanic
           | Some (b1, loc) =>
               match slot_at b1 loc with
               | None => RPanic
               | Some s =>
                   do! (st', a, stop) <- step st s;
                   do! b2 <- match a with
                             | Keep s' => ROk (put_slot b1 loc s')
                             | Cancel s' => cancel_slot c (put_slot b1 loc s')
                             end;
                   if stop : bool then ROk (st', b2, false) else fill c pre step fuel' st' b2
               end
           end
  end.
