(* What show has to say of an undamaged container: every copy of its metadata, and its burst level. *)
From Coq Require Import String Ascii.
From Verif Require Import M_Base M_Specs M_Header M_Multihash M_Metadata M_Block M_Index M_Json M_Hex M_Show S_Json S_Show S_Look S_Facts.

(* the copies of the metadata are numbered 0, 1, ...; the first one is at the start of the file, and with Reed-Solomon code and burst level B each further one
   is B + 1 blocks after the one before *)
Definition copy_at (v : version) (o : dpb) (j : N) : N := match o with Some (_, _, B) => j * (1 + B) * ver_to_block_size v | None => 0 end.
(* what show says of copy number j *)
Definition copy_json (cal : calendar) (uid : list N) (F : facts) (v : version) (o : dpb) (size j : N) : json :=
  JObj [(str "metadataBlockNumber", num j);
        (str "foundAtByte", num (copy_at v o j));
        (str "fileUID", JStr (hex_text (str "0123456789ABCDEF") uid));
        (str "fileName", opt JStr (fc_name F));
        (str "sbxContainerName", opt JStr (fc_called F));
        (str "sbxContainerVersion", num (ver_to_usize v));
        (str "rsDataShardCount", match o with Some (d, _, _) => num d | None => JNull end);
        (str "rsParityShardCount", match o with Some (_, p, _) => num p | None => JNull end);
        (str "fileSize", num size);
        (str "fileModificationTime", opt (time_json cal) (fc_mtime F));
        (str "sbxEncodingTime", opt (time_json cal) (fc_time F));
        (str "hash", opt hash_json (fc_hash F))].
(* the copies to show: all of them with --show-all, else the first *)
Definition copies_shown (all : bool) (o : dpb) : list N := if all then rangeN 0 (copies o) else [0].
(* with --guess-burst, first: where the first block was found, and the burst level of the container *)
Definition level_json (guess : bool) (v : version) (o : dpb) : list (list N * json) :=
  if guess then
    [(str "refBlockInfo", JObj [(str "type", JStr (str "metadata")); (str "ver", num (ver_to_usize v)); (str "pos", num 0)]);
     (str "bestGuessForBurstErrorResistanceLevel", match o with Some (_, _, B) => num B | None => JNull end)]
  else [].
