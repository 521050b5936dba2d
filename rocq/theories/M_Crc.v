(* Model of build.rs, src/crc_ccitt.rs and src/sbx_block/crc.rs. *)
From Verif Require Import M_Base M_Specs.

(* build.rs:47 *)
Definition CRC_POLY_CCITT : N := 4129. (* 0x1021 *)

(* build.rs:58-66, one iteration of the inner loop on the pair (crc, c) of u16 *)
Definition tab_iter (st : N * N) : N * N :=
  let '(crc, c) := st in
  let crc' :=
    if negb (N.land (N.lxor crc c) 32768 =? 0)
    then N.lxor (u16 (N.shiftl crc 1)) CRC_POLY_CCITT
    else u16 (N.shiftl crc 1) in
  (crc', u16 (N.shiftl c 1)).

(* build.rs:55-68, table entry for index i: 8 iterations from crc = 0, c = i << 8 *)
Definition tab_entry (i : N) : N :=
  fst (tab_iter (tab_iter (tab_iter (tab_iter (tab_iter (tab_iter (tab_iter (tab_iter
    (0, u16 (N.shiftl i 8)))))))))).

(* build.rs:49-72 *)
Definition CRCCCITT_TABLE : list N := map tab_entry (rangeN 0 256).

(* src/crc_ccitt.rs, body of the loop of crc_ccitt_generic *)
Definition crc_byte (crc c : N) : N :=
  N.lxor (u16 (N.shiftl crc 8))
         (nthN CRCCCITT_TABLE (N.land (N.lxor (N.shiftr crc 8) c) 255)).

(* src/crc_ccitt.rs: crc_ccitt_generic *)
Definition crc_ccitt_generic (start_val : N) (input : list N) : N :=
  fold_left crc_byte input start_val.

(* src/sbx_block/crc.rs: sbx_crc_ccitt *)
Definition sbx_crc_ccitt (v : version) (buffer : list N) : N :=
  crc_ccitt_generic (u16 (ver_to_usize v)) buffer.
