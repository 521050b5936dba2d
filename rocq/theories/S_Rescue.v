(* What a rescue has to do, as a specification. *)
From Coq Require Import Permutation Sorted Relations.
From Verif Require Import M_Base M_Specs M_Header M_Block M_Hex M_Ranges M_Scan M_Rescue S_Block S_Scan S_Repair.

(* the part of the file to scan: from lo up to (excluding) hi *)
Definition rescue_range (p : rparam) (f : file) (lo hi : N) : Prop :=
  exists len, calc_required_len_and_seek_to_from_byte_range (rp_from p) (rp_to p) (rp_misalign p) 0 (Len (lenN f)) None = (len, lo) /\ hi = lo + len.
(* the block passes the filters *)
Definition wanted (p : rparam) (h : header) : Prop :=
  match rp_type p with Some t => of_type t h | None => True end /\
  match rp_uid p with Some u => h_uid h = u | None => True end.
(* A block the scan finds: the position is looked at and a well-formed block starts there *)
Definition block_found (f : file) (lo hi pos : N) (h : header) : Prop :=
  lands f lo hi pos /\ exists pl, any_block_at f pos h pl.
(* a block to rescue at pos: its UID and its bytes *)
Definition to_rescue (p : rparam) (f : file) (lo hi pos : N) (u bytes : list N) : Prop :=
  exists h, block_found f lo hi pos h /\ wanted p h /\ u = h_uid h /\ bytes = sliceN pos (ver_to_block_size (h_version h)) f.
(* [out] is what has to be appended to the file of UID u: the blocks before position c in the order of their positions, each once *)
Definition output_for (p : rparam) (f : file) (lo hi c : N) (u out : list N) : Prop :=
  exists ps bs, StronglySorted N.lt ps /\ Forall2 (fun pos b => to_rescue p f lo hi pos u b /\ pos < c) ps bs /\
    (forall pos b, to_rescue p f lo hi pos u b -> pos < c -> In pos ps) /\ out = concat bs.
(* the file of a UID *)
Definition name_of (u : list N) : list N := bytes_to_upper_hex_string u.
Definition content (w : dir) (name : list N) : list N := match w name with Some c => c | None => [] end.
(* the bytes are somewhere in the file of UID u *)
Definition saved (w : dir) (u bytes : list N) : Prop := exists a b, content w (name_of u) = a ++ bytes ++ b.

(* A run of a rescue from this directory and log, up to some moment. [ev]: the run gets a stop signal or a read error. *)
Definition started (size : N) (p : rparam) (f : file) (ev : option (N * event)) (w : dir) (g : option (list N)) (r : running) : Prop :=
  exists required_len s at_ fuel l failed, rescue_start p f g = ROk (required_len, s, at_) /\
    read_buffers fuel fuel size p f required_len at_ ev s = Some (ROk (l, failed)) /\ r = mkRunning w g s None l.
Definition runs : running -> running -> Prop := clos_refl_trans_1n running rescue_step.
Definition finished (r : running) : Prop := ru_now r = None /\ ru_todo r = [].
(* What can be found after any number of runs, each cut off at any moment (also while writing a block or the log) or
   finished, with the same file and parameters; the log may be removed between runs. *)
Inductive history (size : N) (p : rparam) (f : file) (w0 : dir) : dir -> option (list N) -> Prop :=
| h_start : history size p f w0 w0 None
| h_run w g ev r r' : history size p f w0 w g -> started size p f ev w g r -> runs r r' -> history size p f w0 (ru_dir r') (ru_log r')
| h_remove_log w g : history size p f w0 w g -> history size p f w0 w None.
