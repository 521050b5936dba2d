(* What encode --info-only has to say, as a JSON value. *)
From Coq Require Import String.
From Verif Require Import M_Base M_Specs M_Index M_Json M_Cli M_Show S_Json S_Show.

(* the same options without --info-only *)
Definition minus_info (m m' : matches) : Prop :=
  (forall a, value_of m' a = value_of m a) /\ (forall a, a <> A_info_only -> is_present m' a = is_present m a) /\ is_present m' A_info_only = false.
Definition mtime_json (cal : calendar) (x : Z) : json :=
  JStr match cal UTC x, cal Local x with
       | Some u, Some l => date_time u ++ str " (UTC)  " ++ date_time l ++ str " (Local)"
       | _, _ => str "Invalid file modification time"
       end.
Definition info_json (cal : calendar) (i : enc_info) : json :=
  JObj ([(str "fileName", JStr (ei_in i)); (str "sbxContainerName", JStr (ei_out i)); (str "sbxContainerVersion", num (ver_to_usize (ei_ver i)));
         (str "sbxContainerBlockSize", num (ver_to_block_size (ei_ver i))); (str "sbxContainerDataSize", num (ver_to_data_size (ei_ver i)))] ++
        match ei_dpb i with
        | Some (d, p, b) => [(str "rsDataShardCount", num d); (str "rsParityShardCount", num p); (str "burstErrorResistanceLevel", num b)]
        | None => []
        end ++
        [(str "fileSize", num (ei_size i)); (str "sbxContainerSize", num (ei_container i)); (str "fileModificationTime", opt (mtime_json cal) (ei_mtime i))]).
