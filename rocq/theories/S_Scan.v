(* What a scan for blocks looks at, as a specification. *)
From Verif Require Import M_Base M_Specs M_Header M_Block M_Scan S_Crc S_Block.

(* the 16 bytes at pos are a block header *)
Definition header_at (f : file) (pos : N) (h : header) : Prop :=
  header_ok h = true /\ sliceN pos 16 f = header_to_bytes h.
(* a well-formed block of any version and UID starts at pos *)
Definition any_block_at (f : file) (pos : N) (h : header) (payload : list N) : Prop :=
  well_formed_block (dropN pos f) h payload.

(* The scan at pos moves on by n bytes: by the size of the block announced if there is a header (whether
   or not the block is intact), by 128 bytes otherwise; it ends if those bytes are not there. *)
Definition skip (f : file) (pos n : N) : Prop :=
  pos + n <= lenN f /\ pos + 128 <= lenN f /\
  ((exists h, header_at f pos h /\ n = ver_to_block_size (h_version h)) \/
   ((forall h, ~ header_at f pos h) /\ n = 128)).
(* Positions looked at by a scan from lo up to (excluding) hi *)
Inductive lands (f : file) (lo hi : N) : N -> Prop :=
| lands_start : lo < hi -> lands f lo hi lo
| lands_next pos n : lands f lo hi pos -> skip f pos n -> pos + n < hi -> lands f lo hi (pos + n).

(* block number seq = 0 is metadata *)
Definition of_type (t : block_type) (h : header) : Prop :=
  match t with TMeta => h_seq_num h = 0 | TData => 1 <= h_seq_num h end.
(* the first block of one of these types that the scan finds is at pos *)
Definition first_block (f : file) (lo hi : N) (P : header -> Prop) (pos : N) (h : header) (pl : list N) : Prop :=
  lands f lo hi pos /\ any_block_at f pos h pl /\ P h /\
  forall pos' h' pl', lands f lo hi pos' -> pos' < pos -> any_block_at f pos' h' pl' -> ~ P h'.
Definition no_block (f : file) (lo hi : N) (P : header -> Prop) : Prop :=
  forall pos h pl, lands f lo hi pos -> any_block_at f pos h pl -> ~ P h.

(* b is what reading the block with this header and payload gives *)
Definition reads_as (h : header) (pl : list N) (b : block) : Prop :=
  b_header b = h /\ b_data b = (if h_seq_num h =? 0 then DMeta (M_Metadata.metas_from_bytes pl) else DData).
(* The outcome of looking for a block satisfying P: position relative to lo, and block *)
Definition found (f : file) (lo hi : N) (P : header -> Prop) (r : option (N * block)) : Prop :=
  match r with
  | Some (p, b) => exists h pl, first_block f lo hi P (lo + p) h pl /\ reads_as h pl b
  | None => no_block f lo hi P
  end.
(* The reference block wanted *)
Definition ref_spec (f : file) (lo hi : N) (choice : ref_choice) (r : option (N * block)) : Prop :=
  match choice with
  | Any => found f lo hi (fun _ => True) r
  | MustBe t => found f lo hi (of_type t) r
  | Prefer t => (r <> None /\ found f lo hi (of_type t) r) \/
                (no_block f lo hi (of_type t) /\ found f lo hi (fun _ => True) r)
  end.
