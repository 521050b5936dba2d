(* Model of the Block type of src/sbx_block/mod.rs. *)
From Verif Require Import M_Base M_Specs M_Crc M_Header M_Multihash M_Metadata.

(* src/sbx_block/mod.rs:99-103 *)
Inductive bdata := DData | DMeta (ms : list metadata).
(* src/sbx_block/mod.rs:105-109 *)
Record block := mkBlock { b_header : header; b_data : bdata }.

Definition b_version (b : block) : version := h_version (b_header b).
Definition b_uid (b : block) : list N := h_uid (b_header b).
Definition b_seq_num (b : block) : N := h_seq_num (b_header b).
Definition b_crc (b : block) : N := h_crc (b_header b).

(* Overwriting part of a buffer in place (copy_from_slice into a sub-slice). *)
Definition put_at (buf : list N) (pos : N) (d : list N) : list N :=
  takeN pos buf ++ d ++ dropN (pos + lenN d) buf.

(* src/sbx_block/mod.rs:170-179: padding byte 0x1A from header+skip to the end of the block;
   returns the new buffer and the number of bytes written *)
Definition write_padding (v : version) (skip : N) (buf : list N) : list N * N :=
  let block_size := ver_to_block_size v in
  let start := SBX_HEADER_SIZE + skip in
  (put_at buf start (repN (block_size - start) 26), block_size - start).

(* src/sbx_block/mod.rs:197-203 *)
Definition slice_data_buf (v : version) (buf : list N) : list N :=
  sliceN SBX_HEADER_SIZE (ver_to_block_size v - SBX_HEADER_SIZE) buf.

(* src/sbx_block/mod.rs:545-563 *)
Definition block_new (v : version) (uid : list N) (t : block_type) : block :=
  match t with
  | TData => mkBlock (header_new v uid SBX_FIRST_DATA_SEQ_NUM) DData
  | TMeta => mkBlock (header_new v uid 0) (DMeta [])
  end.

(* src/sbx_block/mod.rs:565-572 *)
Definition block_dummy : block :=
  mkBlock (header_new V1 [0; 0; 0; 0; 0; 0] SBX_FIRST_DATA_SEQ_NUM) DData.

(* src/sbx_block/mod.rs:623-628 *)
Definition block_type_of (b : block) : block_type :=
  match b_data b with DData => TData | DMeta _ => TMeta end.
(* src/sbx_block/mod.rs:630-642 *)
Definition is_meta (b : block) : bool := match block_type_of b with TData => false | TMeta => true end.
Definition is_data (b : block) : bool := match block_type_of b with TData => true | TMeta => false end.

(* src/sbx_block/mod.rs:743-745 *)
Definition header_type_matches_block_type (b : block) : bool :=
  block_type_eqb (header_type (b_header b)) (block_type_of b).

(* src/sbx_block/mod.rs:781-789 *)
Definition switch_block_type (b : block) : block :=
  match block_type_of b with
  | TMeta => mkBlock (b_header b) DData
  | TData => mkBlock (b_header b) (DMeta [])
  end.

(* src/sbx_block/mod.rs:791-795 *)
Definition switch_block_type_to_match_header (b : block) : block :=
  if negb (header_type_matches_block_type b) then switch_block_type b else b.

(* src/sbx_block/mod.rs:578-580,586-588 *)
Definition set_version (b : block) (v : version) : block :=
  let h := b_header b in mkBlock (mkHeader v (h_crc h) (h_uid h) (h_seq_num h)) (b_data b).
Definition set_uid (b : block) (u : list N) : block :=
  let h := b_header b in mkBlock (mkHeader (h_version h) (h_crc h) u (h_seq_num h)) (b_data b).
(* header.crc = x *)
Definition set_crc (b : block) (x : N) : block :=
  let h := b_header b in mkBlock (mkHeader (h_version h) x (h_uid h) (h_seq_num h)) (b_data b).

(* src/sbx_block/mod.rs:598-602 *)
Definition set_seq_num (b : block) (n : N) : block :=
  let h := b_header b in
  switch_block_type_to_match_header
    (mkBlock (mkHeader (h_version h) (h_crc h) (h_uid h) n) (b_data b)).

(* src/sbx_block/mod.rs:604-617 *)
Definition add_seq_num (b : block) (val : N) : result block :=
  if U32_MAX <? b_seq_num b + val then RErr SeqNumOverflow
  else ROk (set_seq_num b (b_seq_num b + val)).

(* src/sbx_block/mod.rs:697-729 *)
Definition update_meta (b : block) (m : metadata) : result block :=
  match b_data b with
  | DData => RErr IncorrectBlockType
  | DMeta ms => ROk (mkBlock (b_header b) (DMeta (update_meta_list ms m)))
  end.
Definition update_metas (b : block) (us : list metadata) : result block :=
  match b_data b with
  | DData => match us with [] => ROk b | _ => RErr IncorrectBlockType end
  | DMeta ms => ROk (mkBlock (b_header b) (DMeta (update_metas_list ms us)))
  end.
Definition remove_metas (b : block) (ids : list metadata_id) : result block :=
  match b_data b with
  | DData => RErr IncorrectBlockType
  | DMeta ms => ROk (mkBlock (b_header b) (DMeta (remove_metas_list ms ids)))
  end.
(* src/sbx_block/mod.rs:657-662 *)
Definition block_get_meta (b : block) (i : metadata_id) : option metadata :=
  match b_data b with DData => None | DMeta ms => get_meta_by_id ms i end.

(* src/sbx_block/mod.rs:731-737; check_buffer! (144-152) panics on a short buffer *)
Definition calc_crc (b : block) (buf : list N) : result N :=
  if lenN buf <? ver_to_block_size (b_version b) then RPanic
  else ROk (crc_ccitt_generic (header_calc_crc (b_header b)) (slice_data_buf (b_version b) buf)).

(* src/sbx_block/mod.rs:739-741 *)
Definition update_crc (b : block) (buf : list N) : result block :=
  match calc_crc b buf with ROk c => ROk (set_crc b c) | RErr e => RErr e | RPanic => RPanic end.

(* src/sbx_block/mod.rs:747-779. Returns the updated block and buffer. *)
Definition sync_to_buffer (b : block) (upd_crc : option bool) (buf : list N)
  : result (block * list N) :=
  if lenN buf <? ver_to_block_size (b_version b) then RPanic
  else
    let do_crc := match upd_crc with Some x => x | None => true end in
    let buf1 : result (list N) :=
      match b_data b with
      | DMeta ms =>
          if b_seq_num b =? 0 then
            match metas_to_bytes ms (ver_to_block_size (b_version b) - SBX_HEADER_SIZE) with
            | ROk d => ROk (put_at buf SBX_HEADER_SIZE d)
            | RErr e => RErr e
            | RPanic => RPanic
            end
          else ROk buf
      | DData => ROk buf
      end in
    match buf1 with
    | ROk buf1 =>
        let b1 : result block :=
          match block_type_of b with
          | TData => if do_crc then update_crc b buf1 else ROk b
          | TMeta => update_crc b buf1
          end in
        match b1 with
        | ROk b1 => ROk (b1, put_at buf1 0 (header_to_bytes (b_header b1)))
        | RErr e => RErr e
        | RPanic => RPanic
        end
    | RErr e => RErr e
    | RPanic => RPanic
    end.

(* src/sbx_block/mod.rs:797-803; slicing the first 16 bytes of a shorter buffer panics *)
Definition sync_from_buffer_header_only (b : block) (buf : list N) : result block :=
  if lenN buf <? SBX_HEADER_SIZE then RPanic
  else match header_from_bytes (takeN SBX_HEADER_SIZE buf) with
       | ROk h => ROk (switch_block_type_to_match_header (mkBlock h (b_data b)))
       | RErr e => RErr e
       | RPanic => RPanic
       end.

(* src/sbx_block/mod.rs:849-851 *)
Definition verify_crc (b : block) (buf : list N) : result bool :=
  match calc_crc b buf with ROk c => ROk (b_crc b =? c) | RErr e => RErr e | RPanic => RPanic end.

(* src/sbx_block/mod.rs:805-847. On Ok the returned block is the new state of self; on Err the
   real object is left in an intermediate state, which no caller uses as a parsed block. *)
Definition sync_from_buffer (b : block) (buf : list N)
    (header_pred : header -> bool) (pred : block -> bool) : result block :=
  match sync_from_buffer_header_only b buf with
  | RErr e => RErr e
  | RPanic => RPanic
  | ROk b1 =>
      if negb (header_pred (b_header b1)) then RErr FailedPred
      else match verify_crc b1 buf with
           | RErr e => RErr e
           | RPanic => RPanic
           | ROk false => RErr InvalidCRC
           | ROk true =>
               let b2 :=
                 match b_data b1 with
                 | DMeta ms =>
                     if b_seq_num b1 =? 0
                     then mkBlock (b_header b1)
                            (DMeta (metas_from_bytes (slice_data_buf (b_version b1) buf)))
                     else b1
                 | DData => b1
                 end in
               if pred b2 then ROk b2 else RErr FailedPred
           end
  end.

(* `None` predicates *)
Definition no_hpred (_ : header) : bool := true.
Definition no_pred (_ : block) : bool := true.

(* src/sbx_block/mod.rs:205-216 *)
Definition check_if_buffer_valid (buf : list N) : result bool :=
  match sync_from_buffer (block_new V1 [0;0;0;0;0;0] TData) buf no_hpred no_pred with
  | ROk b => verify_crc b buf
  | RErr _ => ROk false
  | RPanic => RPanic
  end.

(* src/header_preds.rs: header_pred_same_ver_uid *)
Definition header_pred_same_ver_uid (r : block) (h : header) : bool :=
  version_eqb (h_version h) (b_version r) && eqbl (h_uid h) (b_uid r).
