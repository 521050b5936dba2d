(* Vocabulary for the statements about a container over the years: updates, damage and repairs. *)
From Coq Require Import String Ascii.
From Verif Require Import M_Base M_Specs M_Header M_Metadata M_Block M_Index M_Encode M_Decode M_Repair M_Codec M_Json M_Path M_Cli
  S_Meta S_Block S_Index S_Container S_Encode S_Decode S_Repair S_Cli.

(* the warning the command starts with is switched off or answered with y *)
Definition agreed (E : env) (m : matches) : Prop :=
  is_present m A_skip_warning = true \/ is_present m A_json = true \/ exists rest, concat (v_stdin E) = 121 :: rest.
(* update is given the right burst level, or left to find it out *)
Definition level_known (m : matches) (o : dpb) : Prop :=
  match o with Some (_, _, B) => number_option m A_burst (Some B) \/ (value_of m A_burst = None /\ B <= 1000) | None => True end.
(* What update may be asked for: names the format can hold (see finding F16), no field both set and removed (clap refuses that). *)
Definition short_name (m : matches) (a : arg) : Prop := forall x, value_of m a = Some x -> 1 <= lenN x <= 255.
Definition update_options (m : matches) : Prop :=
  text_ok m /\ short_name m A_fnm /\ short_name m A_snm /\
  (value_of m A_fnm = None \/ is_present m A_no_fnm = false) /\ (value_of m A_snm = None \/ is_present m A_no_snm = false) /\
  (value_of m A_hash_type = None \/ is_present m A_no_hsh = false).
(* the file name recorded after an update *)
Definition name_after (m : matches) (nm : option (list N)) : option (list N) :=
  match value_of m A_fnm with Some x => Some x | None => if is_present m A_no_fnm then None else nm end.
(* [hurt] is the container with at most [par] bursts of at most B blocks destroyed, not the first block among them, and the space between the blocks
   untouched. What is left of a destroyed block is not another block of the same container. *)
Definition burst_damage (v : version) (uid : list N) (d par B n : N) (bursts container hurt : list N) : Prop :=
  let bs := ver_to_block_size v in let o := Some (d, par, B) in
  bytes_ok hurt = true /\ lenN hurt = lenN container /\ lenN bursts <= par /\ ~ hit B bursts 0 /\
  (forall i, ~ hit B bursts (i / bs) \/ ~ used_index true o n (i / bs) -> nthN hurt i = nthN container i) /\
  (forall i seq pl, hit B bursts i -> used_index true o n i -> block_at v uid hurt (i * bs) seq pl -> block_at v uid container (i * bs) seq pl).

(* Everything that may happen to a container that began as [first], recording the file name [name]: it becomes [f], recording [nm]. Between the commands it may
   be moved and copied: every run is on a machine, in a file system and under a path of its own. *)
Inductive life (H : hash_fn) (v : version) (uid : list N) (o : dpb) (n : N) (first : list N) (name : option (list N)) : list N -> option (list N) -> Prop :=
| life_new : life H v uid o n first name first name
  (* update runs to its end *)
| life_update E m s inp l f nm g : life H v uid o n first name f nm ->
    v_H E = H -> 1 <= v_cpus E -> value_of m A_in_file = Some inp -> file_at E s inp l f -> update_options m -> level_known m o ->
    agreed E m -> is_present m A_dry_run = false -> rn_exit (update_cmd E None m s) = Exit 0 ->
    rn_fs (update_cmd E None m s) l = Some (NFile g) -> life H v uid o n first name g (name_after m nm)
  (* update does not: refused, an error, a dry run *)
| life_no_update E m s inp l f nm g : life H v uid o n first name f nm ->
    v_H E = H -> value_of m A_in_file = Some inp -> file_at E s inp l f ->
    ~ agreed E m \/ is_present m A_dry_run = true \/ rn_exit (update_cmd E None m s) <> Exit 0 ->
    rn_fs (update_cmd E None m s) l = Some (NFile g) -> life H v uid o n first name g nm
  (* damage, then repair *)
| life_repair E m s inp l f nm g d par B bursts hurt : life H v uid o n first name f nm ->
    o = Some (d, par, B) -> burst_damage v uid d par B n bursts f hurt ->
    v_rc E = rs_reconstruct -> value_of m A_in_file = Some inp -> file_at E s inp l hurt -> (exists x, file_name_of inp x) ->
    verbosity_option m -> number_option m A_burst (Some B) -> is_present m A_dry_run = false -> agreed E m ->
    rn_fs (repair_cmd E m s) l = Some (NFile g) -> life H v uid o n first name g nm.

(* where decode puts the file: as asked for, or under the name recorded *)
Definition decode_to (E : env) (m : matches) (s : fs) (nm : option (list N)) (l : loc) : Prop :=
  match nm with
  | Some x => exists n, file_name_of x n /\ ~ In 0 n /\ decode_target E m s n l
  | None => exists out, value_of m A_out = Some out /\ out <> [45] /\ named E s out l /\ s l <> Some NDir
  end.
