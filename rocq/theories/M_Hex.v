(* Model of the hexadecimal text functions of src/misc_utils.rs. Strings are their UTF-8 bytes. *)
From Verif Require Import M_Base M_Buffer.

(* src/misc_utils.rs:31-33 *)
Definition is_valid_hex_char (c : N) : bool :=
  ((48 <=? c) && (c <=? 57)) || ((65 <=? c) && (c <=? 70)) || ((97 <=? c) && (c <=? 102)).
(* src/misc_utils.rs:35-45 *)
Definition hex_char_to_value (c : N) : result N :=
  if (48 <=? c) && (c <=? 57) then ROk (c - 48)
  else if (65 <=? c) && (c <=? 70) then ROk (c - 65 + 10)
  else if (97 <=? c) && (c <=? 102) then ROk (c - 97 + 10)
  else RPanic.
(* src/misc_utils.rs:19-23; the Ok and Err cases of the result *)
Inductive hex_result := HexOk (bytes : list N) | InvalidHexString | InvalidLen.
(* src/misc_utils.rs:56-63: the loop over pairs. u8 arithmetic. *)
Fixpoint hex_pairs (s : list N) : result (list N) :=
  match s with
  | l :: r :: s' =>
      do! a <- hex_char_to_value l;
      do! b <- hex_char_to_value r;
      do! rest <- hex_pairs s';
      ROk (u8 (u8 (a * 16) + b) :: rest)
  | _ => ROk []
  end.
(* src/misc_utils.rs:47-68 *)
Definition hex_string_to_bytes (s : list N) : result hex_result :=
  if lenN s mod 2 =? 0 then
    if forallb is_valid_hex_char s then do! r <- hex_pairs s; ROk (HexOk r)
    else ROk InvalidHexString
  else ROk InvalidLen.
(* format!("{:02x}") and "{:02X}" of a u8 *)
Definition hex_digit (upper : bool) (x : N) : N := if x <? 10 then 48 + x else (if upper then 65 else 97) + (x - 10).
Definition fmt_byte (upper : bool) (b : N) : list N := [hex_digit upper (b / 16); hex_digit upper (b mod 16)].
(* src/misc_utils.rs:70-78 *)
Definition bytes_to_lower_hex_string (bytes : list N) : list N := concat (map (fmt_byte false) bytes).
Definition bytes_to_upper_hex_string (bytes : list N) : list N := concat (map (fmt_byte true) bytes).
