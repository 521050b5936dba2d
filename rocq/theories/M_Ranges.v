(* Model of the byte range computation of src/misc_utils.rs and src/integer_utils.rs. *)
From Verif Require Import M_Base M_Specs.

(* src/misc_utils.rs:7-11 *)
Inductive range_end := Inc (x : N) | Exc (x : N).
(* src/misc_utils.rs:13-17 *)
Inductive pos_or_len := Pos (x : N) | Len (x : N).

(* src/integer_utils.rs:17-27 *)
Definition round_down_to_multiple (val multiple_of : N) : N := (val / multiple_of) * multiple_of.
Definition round_up_to_multiple (val multiple_of : N) : N :=
  ((val + (multiple_of - 1)) / multiple_of) * multiple_of.
(* src/integer_utils.rs:29-41 *)
Definition ensure_at_least (val at_least : N) : N := N.max val at_least.
Definition ensure_at_most (val at_most : N) : N := N.min val at_most.

(* u64 subtraction in a release build *)
Definition sub64 (a b : N) : N := u64 (a + 18446744073709551616 - b).

(* src/misc_utils.rs:121-181, returns (required_len, seek_to). Subtractions and additions on u64 wrap
   as in a release build (a debug build panics instead). Division by a zero multiple_of panics. *)
Definition calc_required_len_and_seek_to_from_byte_range
    (from_byte : option N) (to_byte : option range_end) (force_misalign : bool) (bytes_so_far : N)
    (last_possible_pos_or_len : pos_or_len) (multiple_of : option N) : N * N :=
  let last_possible_pos :=
    match last_possible_pos_or_len with
    | Pos x => x
    | Len x => if x =? 0 then 0 else x - 1
    end in
  let multiple_of := match multiple_of with Some x => x | None => SBX_SCAN_BLOCK_SIZE end in
  let align := fun x => if force_misalign then x else round_down_to_multiple x multiple_of in
  let from_byte :=
    match from_byte with
    | None => 0
    | Some n => align (ensure_at_most n last_possible_pos)
    end in
  let to_byte_inc :=
    match to_byte with
    | None => last_possible_pos
    | Some (Inc n) => ensure_at_most (ensure_at_least n from_byte) last_possible_pos
    | Some (Exc n) => ensure_at_most (ensure_at_least (sub64 n 1) from_byte) last_possible_pos
    end in
  let seek_to := ensure_at_most (align (u64 (from_byte + bytes_so_far))) last_possible_pos in
  (u64 (sub64 to_byte_inc from_byte + 1), seek_to).
