(* What show has to print, as a specification. *)
From Coq Require Import String Sorted.
From Verif Require Import M_Base M_Specs M_Header M_Multihash M_Metadata M_Block M_Ranges M_Scan M_Decode M_Hex M_Rescue M_Json M_Show S_Block S_Scan S_Json.

(* the part of the file to scan: from lo up to (excluding) hi *)
Definition show_range (p : sparam) (f : file) (lo hi : N) : Prop :=
  exists len, calc_required_len_and_seek_to_from_byte_range (sp_from p) (sp_to p) (sp_misalign p) 0 (Len (lenN f)) None = (len, lo) /\ hi = lo + len.
(* a metadata block to show: the scan finds it at pos, it has the UID asked for, and it reads as b *)
Definition to_show (p : sparam) (f : file) (lo hi pos : N) (b : block) : Prop :=
  exists h pl, lands f lo hi pos /\ any_block_at f pos h pl /\ h_seq_num h = 0 /\
    match sp_uid p with Some u => h_uid h = u | None => True end /\ reads_as h pl b.
(* all of them in order of position, each once; only the first one unless all are asked for *)
Definition to_show_all (p : sparam) (f : file) (lo hi : N) (l : list (N * block)) : Prop :=
  StronglySorted N.lt (map fst l) /\ forall pos b, In (pos, b) l <-> to_show p f lo hi pos b.
Definition blocks_shown (p : sparam) (f : file) (lo hi : N) (l : list (N * block)) : Prop :=
  exists full, to_show_all p f lo hi full /\ l = if sp_all p then full else firstn 1 full.

Definition num (n : N) : json := JNum (dec n).
Definition opt {A} (f : A -> json) (o : option A) : json := match o with Some x => f x | None => JNull end.
(* "2018-01-02 03:04:05 (UTC)  2018-01-02 03:04:05 (Local)" *)
Definition two (n : N) : list N := if n <? 10 then [48; 48 + n] else dec n.
Definition date_time (d : Z * N * N * N * N * N) : list N :=
  let '(year, month, day, hour, minute, second) := d in
  (if (0 <=? year)%Z then dec (Z.to_N year) else str "-" ++ dec (Z.to_N (- year))) ++ str "-" ++ two month ++ str "-" ++ two day ++
  str " " ++ two hour ++ str ":" ++ two minute ++ str ":" ++ two second.
Definition time_json (cal : calendar) (x : Z) : json :=
  JStr match cal UTC x, cal Local x with
       | Some u, Some l => date_time u ++ str " (UTC)  " ++ date_time l ++ str " (Local)"
       | _, _ => str "Invalid recorded date time"
       end.
(* the names of the hash functions, as in the list of the documentation of encode --hash *)
Definition hash_name (t : hash_type) : list N :=
  match t with
  | SHA1 => str "SHA1"
  | SHA256 => str "SHA256" | SHA2_256 => str "SHA256"
  | SHA512 => str "SHA512" | SHA2_512_512 => str "SHA512"
  | SHA2_512_256 => str "SHA2-512-256"
  | BLAKE2B_256 => str "BLAKE2b-256" | BLAKE2B_512 => str "BLAKE2b-512"
  | BLAKE2S_128 => str "BLAKE2s-128" | BLAKE2S_256 => str "BLAKE2s-256"
  end.
Definition hash_json (h : hash_bytes) : json := JStr (hash_name (fst h) ++ str " - " ++ bytes_to_lower_hex_string (snd h)).
(* two hexadecimal digits for each byte, the high one first *)
Definition hex_text (digits : list N) (bytes : list N) : list N := flat_map (fun b => [nthN digits (b / 16); nthN digits (b mod 16)]) bytes.
(* what is shown of the i-th block shown *)
Definition block_json (cal : calendar) (i : N) (x : N * block) : json :=
  let b := snd x in let rs := ver_uses_rs (b_version b) in
  JObj [(str "metadataBlockNumber", num i);
        (str "foundAtByte", num (fst x));
        (str "fileUID", JStr (bytes_to_upper_hex_string (b_uid b)));
        (str "fileName", opt JStr (get_FNM b));
        (str "sbxContainerName", opt JStr (get_SNM b));
        (str "sbxContainerVersion", num (ver_to_usize (b_version b)));
        (str "rsDataShardCount", if rs then opt num (opt_RSD b) else JNull);
        (str "rsParityShardCount", if rs then opt num (opt_RSP b) else JNull);
        (str "fileSize", opt num (get_FSZ b));
        (str "fileModificationTime", opt (time_json cal) (get_FDT b));
        (str "sbxEncodingTime", opt (time_json cal) (get_SDT b));
        (str "hash", opt hash_json (get_HSH b))].
Fixpoint blocks_json (cal : calendar) (i : N) (l : list (N * block)) : list json :=
  match l with [] => [] | x :: l' => block_json cal i x :: blocks_json cal (i + 1) l' end.
(* names that print as they are: see S_Json; others may not (findings) *)
Definition plain_name (o : option (list N)) : Prop := match o with Some s => plain s /\ shown false s (JStr s) | None => True end.
Definition plain_names (l : list (N * block)) : Prop := Forall (fun x => plain_name (get_FNM (snd x)) /\ plain_name (get_SNM (snd x))) l.
(* the part on guessing the burst level *)
Definition ref_json (pos : N) (b : block) : list N * json :=
  (str "refBlockInfo", JObj [(str "type", JStr (str "metadata")); (str "ver", num (ver_to_usize (b_version b))); (str "pos", num pos)]).
Definition guess_json (o : option N) : list N * json := (str "bestGuessForBurstErrorResistanceLevel", opt num o).
