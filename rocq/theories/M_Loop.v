(* The reader / worker / writer loops common to the commands: the buffers in rotation are filled in turn
   and handed to the other threads, which process them in the same order and give them back emptied.
   The threads are modelled as one loop (see M_Pipeline for their interleavings).
   src/decode_core.rs:865-990 and the other instances cited where used. *)
From Verif Require Import M_Base M_Specs M_Header M_Block M_Index M_Buffer.

(* [fuel] bounds the number of buffers, [ffuel] the number of slots taken per buffer. *)
Fixpoint buf_loop {St W : Type} (c : cfg) (pre : St -> bool) (step : St -> slot -> result (St * action * bool))
    (consume : W -> dbuf -> result (dbuf * W)) (ffuel fuel : nat) (q : list dbuf) (st : St) (w : W)
    : result (St * W) :=
  match fuel with
  | O => RErr OtherError
  | S fuel' =>
      match q with
      | [] => RPanic
      | b :: q' =>
          do! (st1, b1, run) <- fill c pre step ffuel st b;
          do! (b2, w1) <- consume w b1;
          if run : bool then buf_loop c pre step consume ffuel fuel' (q' ++ [dbuf_reset c b2]) st1 w1
          else ROk (st1, w1)
      end
  end.

(* consume: write at the computed positions (src/data_block_buffer/mod.rs:834-846) *)
Definition consume_write (c : cfg) (f : file) (b : dbuf) : result (dbuf * file) := dbuf_write c f b.
(* consume: hash, then write to standard output (src/decode_core.rs:1216-1256); what is fed to the hash
   and what is written so far. [hashing] is whether there is a hash context. *)
Definition consume_stdout (c : cfg) (hashing : bool) (w : list N * list N) (b : dbuf)
  : result (dbuf * (list N * list N)) :=
  do! h <- (if hashing then dbuf_hash c b else ROk []);
  do! (b', d) <- dbuf_write_no_seek c b;
  ROk (b', (fst w ++ h, snd w ++ d)).
