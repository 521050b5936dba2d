(* Vocabulary for the statements about guessing the layout. *)
From Verif Require Import M_Base M_Specs M_Header M_Index M_Buffer M_Ranges M_Scan S_Index S_Decode.

(* c is the number of k < K with property P *)
Definition count_of (P : N -> Prop) (K c : N) : Prop :=
  exists ks, NoDup ks /\ (forall k, In k ks <-> k < K /\ P k) /\ lenN ks = c.
(* block number seq belongs at block index i in a container with this layout (metadata enabled) *)
Definition placed_at (o : dpb) (i seq : N) : Prop :=
  (seq = 0 /\ meta_index None o i) \/ (1 <= seq /\ calc_data_block_write_index seq None o = i).
(* the block at index k, counted from byte pos, is readable but would not be there at level l *)
Definition misplaced (v : version) (uid : list N) (f : file) (pos d p l k : N) : Prop :=
  exists seq pl, block_at v uid f (pos + k * ver_to_block_size v) seq pl /\ ~ placed_at (Some (d, p, l)) k seq.
(* the block at index k, counted from byte pos, is a data or parity block that suggests that the block at pos
   has index x *)
Definition suggests (v : version) (uid : list N) (o : dpb) (f : file) (pos x k : N) : Prop :=
  exists seq pl, block_at v uid f (pos + k * ver_to_block_size v) seq pl /\ 1 <= seq /\
    calc_data_block_write_index seq None o = x + k.
(* where the search starts: at the beginning; for a position to start reading from, at the first place of the file that is a whole number of blocks before
   it (taken as 0 when aligned); for a position to guess from, there, or where the block holding it starts *)
Definition guess_starts_at (bs : N) (g : option guess_from) (misalign : bool) (pos : N) : Prop :=
  match g with
  | None => pos = 0
  | Some (ShiftToStart x) => pos < bs /\ exists k, (if misalign then x else 0) = pos + k * bs
  | Some (NoShift x) => if misalign then pos = x else pos <= x < pos + bs /\ exists k, pos = k * bs
  end.
