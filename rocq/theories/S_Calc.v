(* Vocabulary for the statements about calc. *)
From Coq Require Import String.
From Verif Require Import M_Base M_Specs M_Index M_Json M_Calc S_Index S_Container S_Json S_Show M_Rescue.

(* a burst of len blocks from block s on reaches a block of the super block set number k, each having [size] blocks (those of sequence numbers
   1 to size are the first, and so on); n is the number of data and parity blocks of the container *)
Definition reaches_set (size len : N) (o : dpb) (n k s : N) : Prop :=
  exists seq, 1 <= seq <= n /\ (seq - 1) / size = k /\ s <= calc_data_block_write_index seq (Some true) o < s + len.
(* at most [count] of the bursts reach super block set k *)
Definition at_most (count size len : N) (o : dpb) (n : N) (bursts : list N) (k : N) : Prop :=
  forall l, NoDup l -> (forall s, In s l -> In s bursts /\ reaches_set size len o n k s) -> lenN l <= count.

(* the JSON of a report *)
Definition calc_json (r : calc_report) : json :=
  JObj [(str "stats", JObj (
    [(str "sbxContainerVersion", num (ver_to_usize (cr_ver r))); (str "sbxContainerBlockSize", num (ver_to_block_size (cr_ver r)));
     (str "sbxContainerDataSize", num (ver_to_data_size (cr_ver r)))] ++
    match cr_dpb r with
    | Some (d, p, B) =>
        [(str "metadataBlockCount", num (cr_meta r)); (str "dataOnlyBlockCount", num (cr_data r)); (str "dataParityBlockCount", num (cr_parity r));
         (str "totalBlockCount", num (cr_total r)); (str "rsDataShardCount", num d); (str "rsParityShardCount", num p);
         (str "burstErrorResistanceLevel", num B)]
    | None =>
        [(str "metadataBlockCount", num (cr_meta r)); (str "dataBlockCount", num (cr_data r)); (str "totalBlockCount", num (cr_total r));
         (str "rsDataShardCount", JNull); (str "rsParityShardCount", JNull); (str "burstErrorResistanceLevel", JNull)]
    end ++
    [(str "fileSize", num (cr_file_size r)); (str "sbxContainerSize", num (cr_size r))])); (str "error", JNull)].
