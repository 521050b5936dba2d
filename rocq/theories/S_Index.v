(* Layout of a container, as a specification. *)
From Verif Require Import M_Base M_Specs.

(* Parameters the command line accepts: with Reed-Solomon, at least 1 data and 1 parity shard and at
   most 256 in total; any burst level. *)
Definition dpb_ok (o : dpb) : Prop :=
  match o with
  | None => True
  | Some (d, p, _) => 1 <= d /\ 1 <= p /\ d + p <= 256
  end.

(* Block indices holding a copy of the metadata block. Without Reed-Solomon: the first block, unless
   metadata is disabled. With N parity shards: N + 1 copies, 1 + B apart. *)
Definition meta_index (me : option bool) (o : dpb) (i : N) : Prop :=
  match o with
  | None => me <> Some false /\ i = 0
  | Some (_, p, B) => exists j, j <= p /\ i = j * (1 + B)
  end.

(* Reed-Solomon set a data/parity block belongs to *)
Definition set_of (d p seq : N) : N := (seq - 1) / (d + p).

(* a burst error starting at block s and of B blocks *)
Definition hit (B : N) (bursts : list N) (i : N) : Prop := exists s, In s bursts /\ s <= i < s + B.
Definition hitb (B : N) (bursts : list N) (i : N) : bool :=
  existsb (fun s => (s <=? i) && (i <? s + B)) bursts.

(* smallest n with n * b >= a *)
Definition is_ceil_div (a b n : N) : Prop := a <= n * b /\ (forall m, a <= m * b -> n <= m).

(* number of data + parity blocks of a file of [size] bytes: n payloads; with Reed-Solomon, sets of d
   payloads, each giving d + p blocks *)
Definition block_count (v : version) (o : dpb) (size n : N) : Prop :=
  exists chunks, is_ceil_div size (ver_to_block_size v - 16) chunks /\
  match o with
  | None => n = chunks
  | Some (d, p, _) => exists sets, is_ceil_div chunks d sets /\ n = sets * (d + p)
  end.
