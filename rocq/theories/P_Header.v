(* C01, C02: block header. *)
From Verif Require Import M_Base M_Specs M_Header L_Header L_Header2.

(* C01: the 16 header bytes follow the published layout and parse back to the same header. *)
Theorem c01_header_roundtrip : forall h, header_ok h = true ->
  let bs := header_to_bytes h in
  lenN bs = 16 /\
  nthN bs 0 = 83 (* S *) /\ nthN bs 1 = 66 (* B *) /\ nthN bs 2 = 120 (* x *) /\
  nthN bs 3 = ver_to_usize (h_version h) /\
  nthN bs 4 * 256 + nthN bs 5 = h_crc h /\
  sliceN 6 6 bs = h_uid h /\
  ((nthN bs 12 * 256 + nthN bs 13) * 256 + nthN bs 14) * 256 + nthN bs 15 = h_seq_num h /\
  header_from_bytes bs = ROk h.
Proof. exact header_layout. Qed.
Print Assumptions c01_header_roundtrip.

Example c01_example :
  let h := mkHeader V17 43981 [1; 2; 3; 4; 5; 255] 305419896 in
  header_ok h = true /\
  header_to_bytes h = [83; 66; 120; 17; 171; 205; 1; 2; 3; 4; 5; 255; 18; 52; 86; 120] /\
  header_from_bytes (header_to_bytes h) = ROk h.
Proof. vm_compute. repeat split. Qed.

(* C02: acceptance condition, faithfulness of what is accepted, no panic. *)
Theorem c02_header_parser_exact : forall buf, bytes_ok buf = true ->
  ((exists h, header_from_bytes buf = ROk h) <->
     lenN buf = 16 /\ takeN 3 buf = [83; 66; 120] /\ In (nthN buf 3) [1; 2; 3; 17; 18; 19]) /\
  (forall h, header_from_bytes buf = ROk h -> header_ok h = true /\ header_to_bytes h = buf) /\
  header_from_bytes buf <> RPanic.
Proof. exact header_parser_exact. Qed.
Print Assumptions c02_header_parser_exact.

Theorem c02_header_parser_injective : forall buf1 buf2 h,
  bytes_ok buf1 = true -> bytes_ok buf2 = true ->
  header_from_bytes buf1 = ROk h -> header_from_bytes buf2 = ROk h -> buf1 = buf2.
Proof. exact header_parser_injective. Qed.
Print Assumptions c02_header_parser_injective.

Example c02_example_reject :
  header_from_bytes [83; 66; 120; 4; 0; 0; 1; 2; 3; 4; 5; 6; 0; 0; 0; 1] = RErr ParseError /\
  header_from_bytes [83; 66; 121; 1; 0; 0; 1; 2; 3; 4; 5; 6; 0; 0; 0; 1] = RErr ParseError /\
  header_from_bytes [83; 66; 120; 1; 0; 0; 1; 2; 3; 4; 5; 6; 0; 0; 0] = RErr IncorrectBufferSize /\
  header_from_bytes [83; 66; 120; 3; 0; 7; 1; 2; 3; 4; 5; 6; 0; 0; 1; 1] = ROk (mkHeader V3 7 [1;2;3;4;5;6] 257).
Proof. vm_compute. repeat split. Qed.
