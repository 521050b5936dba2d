(* What bursts leave of a container, as in c20_bursts and c67_guess. *)
From Verif Require Import M_Base M_Specs M_Header M_Index S_Index S_Decode.

(* f is f0 with the blocks reached by these bursts (each of B blocks) overwritten with anything but other blocks of the container *)
Definition damaged (v : version) (uid : list N) (B : N) (bursts : list N) (f0 f : file) : Prop :=
  let bs := ver_to_block_size v in
  bytes_ok f = true /\ lenN f = lenN f0 /\ (forall i, ~ hit B bursts (i / bs) -> nthN f i = nthN f0 i) /\
  (forall i seq pl, hit B bursts i -> block_at v uid f (i * bs) seq pl -> block_at v uid f0 (i * bs) seq pl).
