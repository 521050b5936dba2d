(* Vocabulary for what updates leave recorded in a container, and what show and check then tell. *)
From Coq Require Import String Ascii.
From Verif Require Import M_Base M_Specs M_Header M_Multihash M_Metadata M_Block M_Index M_Encode M_Decode M_Repair M_Hex M_Codec M_Json M_Path M_Cli M_Show
  S_Meta S_Block S_Index S_Container S_Encode S_Decode S_Repair S_Cli S_Json S_Show S_History.

(* what is recorded about the file: its name, the name of the container, the hash, the time of modification and of encoding *)
Record facts := mkFacts { fc_name : option (list N); fc_called : option (list N); fc_hash : option hash_bytes; fc_mtime : option Z; fc_time : option Z }.
(* the name in the option a, or none if the option no_a is given, or the old one *)
Definition option_after (m : matches) (a no_a : arg) (old new : option (list N)) : Prop :=
  match value_of m a with Some x => new = Some x | None => new = if is_present m no_a then None else old end.
(* what update m makes of it: the names given, the hash of the content by the hash function given; nothing else changes *)
Definition facts_after (H : hash_fn) (content : list N) (m : matches) (old new : facts) : Prop :=
  option_after m A_fnm A_no_fnm (fc_name old) (fc_name new) /\ option_after m A_snm A_no_snm (fc_called old) (fc_called new) /\
  match value_of m A_hash_type with
  | Some x => exists t, In (map lower x, t) hashes /\ fc_hash new = Some (t, H t content)
  | None => fc_hash new = if is_present m A_no_hsh then None else fc_hash old
  end /\ fc_mtime new = fc_mtime old /\ fc_time new = fc_time old.

(* As [life] of S_History, with everything recorded: a container that began as [first] with [F0] recorded becomes [f] with [F] recorded. *)
Inductive story (H : hash_fn) (content : list N) (v : version) (uid : list N) (o : dpb) (n : N) (first : list N) (F0 : facts) : list N -> facts -> Prop :=
| story_new : story H content v uid o n first F0 first F0
| story_update E m s inp l f F g G : story H content v uid o n first F0 f F ->
    v_H E = H -> 1 <= v_cpus E -> value_of m A_in_file = Some inp -> file_at E s inp l f -> update_options m -> level_known m o ->
    agreed E m -> is_present m A_dry_run = false -> rn_exit (update_cmd E None m s) = Exit 0 ->
    rn_fs (update_cmd E None m s) l = Some (NFile g) -> facts_after H content m F G -> story H content v uid o n first F0 g G
| story_no_update E m s inp l f F g : story H content v uid o n first F0 f F ->
    v_H E = H -> value_of m A_in_file = Some inp -> file_at E s inp l f ->
    ~ agreed E m \/ is_present m A_dry_run = true \/ rn_exit (update_cmd E None m s) <> Exit 0 ->
    rn_fs (update_cmd E None m s) l = Some (NFile g) -> story H content v uid o n first F0 g F
| story_repair E m s inp l f F g d par B bursts hurt : story H content v uid o n first F0 f F ->
    o = Some (d, par, B) -> burst_damage v uid d par B n bursts f hurt ->
    v_rc E = rs_reconstruct -> value_of m A_in_file = Some inp -> file_at E s inp l hurt -> (exists x, file_name_of inp x) ->
    verbosity_option m -> number_option m A_burst (Some B) -> is_present m A_dry_run = false -> agreed E m ->
    rn_fs (repair_cmd E m s) l = Some (NFile g) -> story H content v uid o n first F0 g F.

(* what show says of its first block *)
Definition now_json (cal : calendar) (uid : list N) (F : facts) (v : version) (o : dpb) (size : N) : json :=
  JObj [(str "metadataBlockNumber", num 0);
        (str "foundAtByte", num 0);
        (str "fileUID", JStr (hex_text (str "0123456789ABCDEF") uid));
        (str "fileName", opt JStr (fc_name F));
        (str "sbxContainerName", opt JStr (fc_called F));
        (str "sbxContainerVersion", num (ver_to_usize v));
        (str "rsDataShardCount", match o with Some (d, _, _) => num d | None => JNull end);
        (str "rsParityShardCount", match o with Some (_, p, _) => num p | None => JNull end);
        (str "fileSize", num size);
        (str "fileModificationTime", opt (time_json cal) (fc_mtime F));
        (str "sbxEncodingTime", opt (time_json cal) (fc_time F));
        (str "hash", opt hash_json (fc_hash F))].
