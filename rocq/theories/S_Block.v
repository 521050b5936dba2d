(* What a well-formed block is, independently of the code that reads or writes it. *)
From Verif Require Import M_Base M_Specs M_Header M_Metadata M_Block S_Crc S_Meta.

(* The first [block size] bytes of buf are: header, payload; and the check value stored in the
   header is the CRC of UID, sequence number and payload, started at the version number. *)
Definition well_formed_block (buf : list N) (h : header) (payload : list N) : Prop :=
  header_ok h = true /\
  lenN payload = ver_to_block_size (h_version h) - 16 /\
  takeN (ver_to_block_size (h_version h)) buf = header_to_bytes h ++ payload /\
  is_crc (ver_to_usize (h_version h)) (h_uid h ++ be_bytes 4 (h_seq_num h) ++ payload) (h_crc h).

(* A block value the program can hold: header fields in range, type agreeing with the sequence
   number (0 = metadata), metadata fields storable. *)
Definition block_ok (b : block) : Prop :=
  header_ok (b_header b) = true /\
  match b_data b with
  | DData => 1 <= b_seq_num b
  | DMeta ms => b_seq_num b = 0 /\ Forall field_ok ms /\ shards_ok ms
  end.

(* buf' agrees with buf outside the byte range [lo, hi) *)
Definition same_outside (lo hi : N) (buf buf' : list N) : Prop :=
  lenN buf = lenN buf' /\ forall i, i < lo \/ hi <= i -> nthN buf i = nthN buf' i.
