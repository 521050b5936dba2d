(* Vocabulary for the statements about the commands: what a path names, what options mean. *)
From Coq Require Import String Ascii.
From Verif Require Import M_Base M_Specs M_Header M_Multihash M_Metadata M_Block M_Index M_Buffer M_Ranges M_Encode M_Scan M_Decode M_Json M_Path M_Cli S_Meta S_Index S_Encode.

(* ---- names and places ---- *)
(* A name a directory entry can have *)
Definition good_name (n : list N) : Prop := n <> [] /\ ~ In 47 n /\ n <> [46] /\ n <> [46; 46].
(* l is an entry of the directory d itself, not of one below or above it *)
Definition child (d l : loc) : Prop := exists n, good_name n /\ ~ In 0 n /\ l = d ++ [n].
(* what may follow the last name of a path: slashes, and dots standing for the directory itself *)
Inductive trail : list N -> Prop :=
| trail_nil : trail []
| trail_slash t : trail t -> trail (47 :: t)
| trail_dot t : trail t -> trail (47 :: 46 :: t).
(* n is the last name of the path *)
Definition file_name_of (path n : list N) : Prop :=
  good_name n /\ exists t, trail t /\ (path = n ++ t \/ exists pre, path = pre ++ 47 :: n ++ t).
(* the path names this place (whether or not something is there) *)
Definition named (E : env) (s : fs) (path : list N) (l : loc) : Prop := resolve s (v_cwd E) path = Some l.

(* Nothing has changed; nothing has changed except at l. *)
Definition same (s s' : fs) : Prop := forall x, s' x = s x.
Definition same_but (l : loc) (s s' : fs) : Prop := forall x, x <> l -> s' x = s x.
(* whatever existed still does, as it was *)
Definition kept (s s' : fs) : Prop := forall x n, s x = Some n -> s' x = Some n.

(* there is a file at l now, and nothing else has changed *)
Definition made (s s' : fs) (l : loc) : Prop := (exists c, s' l = Some (NFile c)) /\ same_but l s s'.

(* ---- where output belongs ---- *)
(* encode, sort: name of the input with an extension; beside the input if no OUT is given *)
Definition derived_place (E : env) (m : matches) (s : fs) (ext : list N) (l : loc) : Prop :=
  exists inp, value_of m A_in_file = Some inp /\
  match value_of m A_out with
  | None => exists d n, named E s inp (d ++ [n]) /\ good_name n /\ l = d ++ [n ++ ext]
  | Some out => (named E s out l /\ s l <> Some NDir) \/
                (exists d n, named E s out d /\ s d = Some NDir /\ file_name_of inp n /\ l = d ++ [n ++ ext])
  end.
Definition container_ext (m : matches) : list N :=
  match value_of m A_sbx_version with
  | None => str ".ecsbx"
  | Some x => if eqbl x (str "1") || eqbl x (str "2") || eqbl x (str "3") then str ".sbx" else str ".ecsbx"
  end.
(* decode: OUT itself, or an entry of the directory OUT, or of the working directory if no OUT is given *)
Definition decode_place (E : env) (m : matches) (s : fs) (l : loc) : Prop :=
  match value_of m A_out with
  | None => child (v_cwd E) l
  | Some out => out <> [45] /\
      ((named E s out l /\ s l <> Some NDir) \/ (exists d, named E s out d /\ s d = Some NDir /\ child d l))
  end.
Definition input_place (E : env) (m : matches) (s : fs) (l : loc) : Prop :=
  exists inp, value_of m A_in_file = Some inp /\ named E s inp l.

(* ---- what options mean ---- *)
Fixpoint value (d : list N) : N := match d with [] => 0 | c :: t => (c - 48) * 10 ^ lenN t + value t end.
Definition is_number (x : list N) (n : N) : Prop :=
  exists d, (x = d \/ x = 43 :: d) /\ d <> [] /\ Forall (fun c => 48 <= c <= 57) d /\ value d = n /\ n < 18446744073709551616.
Definition number_option (m : matches) (a : arg) (o : option N) : Prop :=
  match value_of m a, o with None, None => True | Some x, Some n => is_number x n | _, _ => False end.
Definition range_option (m : matches) (inc exc : arg) (o : option range_end) : Prop :=
  match value_of m inc, value_of m exc, o with
  | None, None, None => True
  | Some x, None, Some (Inc n) => is_number x n
  | None, Some x, Some (Exc n) => is_number x n
  | _, _, _ => False
  end.
Definition versions : list (list N * version) :=
  [(str "1", V1); (str "2", V2); (str "3", V3); (str "17", V17); (str "18", V18); (str "19", V19)].
Definition hashes : list (list N * hash_type) :=
  [(str "sha1", SHA1); (str "sha2-256", SHA256); (str "sha256", SHA256); (str "sha2-512-512", SHA512); (str "sha512", SHA512);
   (str "blake2b-256", BLAKE2B_256); (str "blake2b-512", BLAKE2B_512); (str "blake2s-128", BLAKE2S_128); (str "blake2s-256", BLAKE2S_256)].
(* version and error correction: all defaults, or a version with what it needs *)
Definition version_options (m : matches) (v : version) (o : dpb) : Prop :=
  match value_of m A_sbx_version with
  | None => value_of m A_rs_data = None /\ value_of m A_rs_parity = None /\ value_of m A_burst = None /\ v = V17 /\ o = Some (10, 2, 12)
  | Some x => In (x, v) versions /\
      match o with
      | None => v = V1 \/ v = V2 \/ v = V3
      | Some (d, p, B) => (v = V17 \/ v = V18 \/ v = V19) /\
          number_option m A_rs_data (Some d) /\ number_option m A_rs_parity (Some p) /\ 1 <= d /\ 1 <= p /\ d + p <= 256 /\
          (number_option m A_burst (Some B) \/ value_of m A_burst = None /\ B = 0)
      end
  end.
Definition hex_value (c : N) (n : N) : Prop :=
  (48 <= c <= 57 /\ n = c - 48) \/ (65 <= c <= 70 /\ n = c - 55) \/ (97 <= c <= 102 /\ n = c - 87).
Inductive hex_bytes : list N -> list N -> Prop :=
| hex_nil : hex_bytes [] []
| hex_cons a b x y s t : hex_value a x -> hex_value b y -> hex_bytes s t -> hex_bytes (a :: b :: s) (16 * x + y :: t).
Definition uid_option (E : env) (m : matches) (uid : list N) : Prop :=
  match value_of m A_uid with None => uid = v_random E | Some x => lenN uid = 6 /\ hex_bytes x uid end.
Definition hash_option (m : matches) (h : hash_type) : Prop :=
  match value_of m A_hash_type with None => h = SHA256 | Some x => In (map lower x, h) hashes end.
Definition verbosity_option (m : matches) : Prop :=
  match value_of m A_pr_verbosity_level with None => True | Some x => In x [str "0"; str "1"; str "2"] end.
(* clap makes sure of this: options that exclude each other, options that are required *)
Definition clap_ok (m : matches) : Prop :=
  value_of m A_in_file <> None /\
  (value_of m A_to_pos_inc = None \/ value_of m A_to_pos_exc = None) /\
  (value_of m A_ref_to_pos_inc = None \/ value_of m A_ref_to_pos_exc = None) /\
  (is_present m A_multi_pass = false \/ is_present m A_multi_pass_no_skip = false).
(* the input is a file that exists *)
Definition input_file (E : env) (m : matches) (s : fs) : Prop :=
  exists inp l c n, value_of m A_in_file = Some inp /\ named E s inp l /\ s l = Some (NFile c) /\ file_name_of inp n.
(* standard input can be encoded, too, if the output is named *)
Definition input_or_stdin (E : env) (m : matches) (s : fs) : Prop :=
  (value_of m A_in_file <> Some [45] /\ input_file E m s) \/
  (value_of m A_in_file = Some [45] /\ exists out, value_of m A_out = Some out /\ forall l, named E s out l -> s l <> Some NDir).
Definition flags_of (m : matches) (q : dparam) : Prop :=
  dc_choice q = (if is_present m A_no_meta then Any else Prefer TMeta) /\ dc_force_write q = is_present m A_force /\
  dc_misalign q = is_present m A_force_misalign /\
  dc_multi q = (if is_present m A_multi_pass then Some SkipGood else if is_present m A_multi_pass_no_skip then Some OverwriteAll else None).
(* the options decode and sort share *)
Definition scan_options (m : matches) (q : dparam) : Prop :=
  verbosity_option m /\ number_option m A_burst (dc_burst q) /\ number_option m A_from_pos (dc_from q) /\
  range_option m A_to_pos_inc A_to_pos_exc (dc_to q) /\ number_option m A_ref_from_pos (dc_ref_from q) /\
  range_option m A_ref_to_pos_inc A_ref_to_pos_exc (dc_ref_to q) /\ number_option m A_guess_burst_from_pos (dc_guess q) /\ flags_of m q.

(* ---- encoding a file and getting it back ---- *)
(* The machine: six random bytes, a hash function of the right shape, times of 64 bits, names of at most 255 bytes (NAME_MAX) *)
Definition machine_ok (E : env) : Prop :=
  lenN (v_random E) = 6 /\ bytes_ok (v_random E) = true /\ hash_fn_ok (v_H E) /\ 1 <= v_cpus E <= 37000 /\
  time_ok (v_now E) /\ (forall l t, v_mtime E l = Some t -> time_ok t) /\ (forall l n, v_can E l = true -> In n l -> lenN n <= 255).
(* The arguments of a command are text. *)
Definition text_ok (m : matches) : Prop := forall a x, value_of m a = Some x -> utf8_valid x = true /\ bytes_ok x = true.
(* the path names a file of this content, which may be opened *)
Definition file_at (E : env) (s : fs) (path : list N) (l : loc) (c : list N) : Prop :=
  path <> [45] /\ named E s path l /\ s l = Some (NFile c) /\ v_can E l = true.
(* encode is told to store the whole file, with its metadata *)
Definition whole_file (m : matches) : Prop :=
  value_of m A_from_pos = None /\ value_of m A_to_pos_inc = None /\ value_of m A_to_pos_exc = None /\ is_present m A_info_only = false.
Definition with_metadata (m : matches) (o : dpb) : Prop := is_present m A_no_meta = false \/ o <> None.
(* decode is told nothing, except possibly the burst level, --force, --no-meta, --force-misalign and where to write *)
Definition whole_container (m : matches) : Prop :=
  verbosity_option m /\ (exists b, number_option m A_burst b) /\
  value_of m A_from_pos = None /\ value_of m A_to_pos_inc = None /\ value_of m A_to_pos_exc = None /\
  value_of m A_ref_from_pos = None /\ value_of m A_ref_to_pos_inc = None /\ value_of m A_ref_to_pos_exc = None /\
  value_of m A_guess_burst_from_pos = None /\ is_present m A_multi_pass = false /\ is_present m A_multi_pass_no_skip = false.
(* where the file of this name is to be restored *)
Definition decode_target (E : env) (m : matches) (s : fs) (name : list N) (l : loc) : Prop :=
  match value_of m A_out with
  | None => s (v_cwd E) = Some NDir /\ l = v_cwd E ++ [name]
  | Some out => out <> [45] /\ ((named E s out l /\ s l <> Some NDir) \/ (exists d, named E s out d /\ s d = Some NDir /\ l = d ++ [name]))
  end.
(* a file may be written there: it is new, or --force is given *)
Definition writable (E : env) (m : matches) (s : fs) (l : loc) : Prop :=
  v_can E l = true /\ s l <> Some NDir /\ (s l = None \/ is_present m A_force = true).
(* encode does not overwrite what it encodes: only --force makes this possible *)
Definition spares_input (E : env) (m : matches) (s : fs) (li : loc) : Prop :=
  is_present m A_force = true -> forall l, derived_place E m s (container_ext m) l -> l <> li.
(* where encode writes the container, and how it is called: as asked for, or the name of the input with the extension *)
Definition encode_target (E : env) (m : matches) (s : fs) (inp : list N) (l : loc) (called : list N) : Prop :=
  exists d n, file_name_of inp n /\
  match value_of m A_out with
  | None => named E s inp (d ++ [n]) /\ called = n ++ container_ext m /\ l = d ++ [called]
  | Some out => (named E s out l /\ s l <> Some NDir /\ file_name_of out called) \/
                (named E s out d /\ s d = Some NDir /\ called = n ++ container_ext m /\ l = d ++ [called])
  end.
(* the hash function is recorded with one or two bytes *)
Definition hash_code_size (h : hash_type) : N := match h with BLAKE2B_256 | BLAKE2B_512 | BLAKE2S_128 | BLAKE2S_256 => 2 | _ => 1 end.
(* the room the metadata takes in a block: two names, size, one or two times, the hash, shard counts *)
Definition record_size (name called : list N) (dated : bool) (h : hash_type) (o : dpb) : N :=
  (4 + lenN name) + (4 + lenN called) + 12 + (if dated then 12 else 0) + 12 + (4 + hash_code_size h + 1 + hash_len h) + match o with Some _ => 5 + 5 | None => 0 end.
