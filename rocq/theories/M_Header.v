(* Model of src/sbx_block/header.rs. *)
From Verif Require Import M_Base M_Specs M_Crc.

(* src/sbx_block/header.rs:8-14 *)
Record header := mkHeader {
  h_version : version;
  h_crc : N;
  h_uid : list N;
  h_seq_num : N
}.

(* Type invariants carried by the Rust types u16, [u8; 6], u32. *)
Definition header_ok (h : header) : bool :=
  (h_crc h <? 65536) && (lenN (h_uid h) =? SBX_FILE_UID_LEN) && bytes_ok (h_uid h)
  && (h_seq_num h <=? U32_MAX).

(* src/sbx_block/header.rs:17-24 *)
Definition header_new (v : version) (uid : list N) (seq_num : N) : header :=
  mkHeader v 0 uid seq_num.

(* src/sbx_block/header.rs:26-54: the 16 bytes written. *)
Definition header_to_bytes (h : header) : list N :=
  SBX_SIGNATURE ++ [u8 (ver_to_usize (h_version h))] ++ be_bytes 2 (h_crc h)
  ++ h_uid h ++ be_bytes 4 (h_seq_num h).

(* src/sbx_block/header.rs:92-102 *)
Definition ver_p (b : N) : option version :=
  if b =? 1 then Some V1 else if b =? 2 then Some V2 else if b =? 3 then Some V3
  else if b =? 17 then Some V17 else if b =? 18 then Some V18 else if b =? 19 then Some V19
  else None.

(* src/sbx_block/header.rs:56-68,90,104-124 *)
Definition header_from_bytes (buf : list N) : result header :=
  if negb (lenN buf =? 16) then RErr IncorrectBufferSize
  else if eqbl (takeN 3 buf) SBX_SIGNATURE then
    match ver_p (nthN buf 3) with
    | None => RErr ParseError
    | Some v => ROk (mkHeader v (be_val (sliceN 4 2 buf)) (sliceN 6 6 buf) (be_val (sliceN 12 4 buf)))
    end
  else RErr ParseError.

(* src/sbx_block/header.rs:70-74 *)
Definition header_calc_crc (h : header) : N :=
  crc_ccitt_generic (sbx_crc_ccitt (h_version h) (h_uid h)) (be_bytes 4 (h_seq_num h)).

(* src/sbx_block/mod.rs:82-86 *)
Inductive block_type := TData | TMeta.
Definition block_type_eqb (a b : block_type) : bool :=
  match a, b with TData, TData | TMeta, TMeta => true | _, _ => false end.

(* src/sbx_block/header.rs:76-82 *)
Definition header_type (h : header) : block_type :=
  if h_seq_num h <? SBX_FIRST_DATA_SEQ_NUM then TMeta else TData.
