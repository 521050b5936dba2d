(* C46, C47: what the commands do to the file system. *)
From Coq Require Import String Ascii.
From Verif Require Import M_Base M_Specs M_Header M_Multihash M_Metadata M_Block M_Index M_FileUtils M_Buffer M_Ranges M_Encode
  M_Scan M_Loop M_Decode M_Sort M_Repair M_Content M_Update M_Rescue M_Hex M_Json M_Path M_Cli S_Encode S_Cli L_Base L_Path L_Cli P_Encode.

(* ---- C46: a command changes nothing but its output ---- *)
Theorem c46_encode E m s : let r := encode_cmd E m s in
  same s (rn_fs r) \/ exists l, derived_place E m s (container_ext m) l /\ same_but l s (rn_fs r).
Proof. exact (encode_cmd_touches E m s). Qed.
Print Assumptions c46_encode.
Theorem c46_sort E m s : let r := sort_cmd E m s in
  same s (rn_fs r) \/ exists l, (derived_place E m s (str ".sorted") l /\ is_present m A_dry_run = false) /\ same_but l s (rn_fs r).
Proof. exact (sort_cmd_touches E m s). Qed.
Print Assumptions c46_sort.
Theorem c46_repair E m s : let r := repair_cmd E m s in
  same s (rn_fs r) \/ exists l, (input_place E m s l /\ is_present m A_dry_run = false) /\ same_but l s (rn_fs r).
Proof. exact (repair_cmd_touches E m s). Qed.
Print Assumptions c46_repair.
(* wherever an update is interrupted *)
Theorem c46_update E cut m s : let r := update_cmd E cut m s in
  same s (rn_fs r) \/ exists l, (input_place E m s l /\ is_present m A_dry_run = false) /\ same_but l s (rn_fs r).
Proof. exact (update_cmd_touches E cut m s). Qed.
Print Assumptions c46_update.
(* Whoever does not answer y, when asked, keeps the container as it is. *)
Theorem c46_ask E cut m s : is_present m A_skip_warning = false -> is_present m A_json = false ->
  (forall rest, concat (v_stdin E) <> 121 :: rest) -> same s (rn_fs (repair_cmd E m s)) /\ same s (rn_fs (update_cmd E cut m s)).
Proof.
  intros SW J AN. assert (W : wish_to_continue E = false).
  { unfold wish_to_continue. destruct (concat (v_stdin E)) as [|c r]; [reflexivity|]. specialize (AN r). assert (D : c <> 121) by congruence.
    destruct c as [|q]; [reflexivity|]. repeat (destruct q as [q|q|]; try reflexivity; try (exfalso; apply D; reflexivity)). }
  destruct (is_present m A_dry_run) eqn:D.
  - split; [destruct (c46_repair E m s) as [S|(l & (_ & X) & _)]|destruct (c46_update E cut m s) as [S|(l & (_ & X) & _)]]; try exact S; congruence.
  - assert (R : asked_and_refused E m = true) by (unfold asked_and_refused; rewrite SW, J, W, D; reflexivity).
    split; [unfold repair_cmd|unfold update_cmd]; destruct (gbind _ _) as [[]|]; cbn [run]; try (intro; reflexivity); [rewrite R; intro; reflexivity|].
    destruct p. rewrite R. intro. reflexivity.
Qed.
Print Assumptions c46_ask.

(* Nothing that exists is overwritten without --force (or a multi-pass option). *)
Theorem c46_encode_keeps E m s : is_present m A_force = false -> kept s (rn_fs (encode_cmd E m s)).
Proof. exact (encode_cmd_keeps E m s). Qed.
Print Assumptions c46_encode_keeps.
Theorem c46_decode_keeps E m s : is_present m A_force = false -> is_present m A_multi_pass = false -> is_present m A_multi_pass_no_skip = false ->
  kept s (rn_fs (decode_cmd E m s)).
Proof. exact (decode_cmd_keeps E m s). Qed.
Print Assumptions c46_decode_keeps.
Theorem c46_sort_keeps E m s : is_present m A_force = false -> is_present m A_multi_pass = false -> is_present m A_multi_pass_no_skip = false ->
  kept s (rn_fs (sort_cmd E m s)).
Proof. exact (sort_cmd_keeps E m s). Qed.
Print Assumptions c46_sort_keeps.

(* ---- C47: whatever the container says ---- *)
(* The output of decode is OUT, or an entry of the directory OUT, or of the working directory; never anything else. *)
Theorem c47_decode_stays_inside E m s : let r := decode_cmd E m s in
  same s (rn_fs r) \/ exists l, decode_place E m s l /\ same_but l s (rn_fs r).
Proof. exact (decode_cmd_touches E m s). Qed.
Print Assumptions c47_decode_stays_inside.
(* The name used is the last name of the path recorded. *)
Theorem c47_file_name path n : get_file_name_part_of_path path = Some n <-> file_name_of path n.
Proof. exact (part_iff path n). Qed.
Print Assumptions c47_file_name.
Theorem c47_file_name_unique path n n' : file_name_of path n -> file_name_of path n' -> n = n'.
Proof. intros A B. apply part_iff in A, B. congruence. Qed.
Print Assumptions c47_file_name_unique.

(* Success means a new file where the output belongs. *)
Theorem c46_encode_success E m s : is_present m A_force = false -> is_present m A_info_only = false -> rn_exit (encode_cmd E m s) = Exit 0 ->
  exists l, derived_place E m s (container_ext m) l /\ s l = None /\ made s (rn_fs (encode_cmd E m s)) l.
Proof. exact (encode_cmd_made E m s). Qed.
Print Assumptions c46_encode_success.
Theorem c46_decode_success E m s : is_present m A_force = false -> is_present m A_multi_pass = false -> is_present m A_multi_pass_no_skip = false ->
  value_of m A_out <> Some [45] -> rn_exit (decode_cmd E m s) = Exit 0 ->
  exists l, decode_place E m s l /\ s l = None /\ made s (rn_fs (decode_cmd E m s)) l.
Proof. exact (decode_cmd_made E m s). Qed.
Print Assumptions c46_decode_success.
Theorem c46_sort_success E m s : is_present m A_force = false -> is_present m A_multi_pass = false -> is_present m A_multi_pass_no_skip = false ->
  is_present m A_dry_run = false -> rn_exit (sort_cmd E m s) = Exit 0 ->
  exists l, derived_place E m s (str ".sorted") l /\ s l = None /\ made s (rn_fs (sort_cmd E m s)) l.
Proof. exact (sort_cmd_made E m s). Qed.
Print Assumptions c46_sort_success.

(* ---- examples ---- *)
(* /w is the working directory, with a file a of 300 bytes and a directory o *)
Definition toy_data : list N := map (fun i => i mod 251) (rangeN 0 300).
Definition w_ : loc := [str "w"].
Definition toy_fs : fs := upd (upd (upd (upd (fun _ => None) [] NDir) w_ NDir) (w_ ++ [str "a"]) (NFile toy_data)) (w_ ++ [str "o"]) NDir.
Definition toy_env : env := mkEnv toy_hash toy_rs (fun _ _ _ => None) 2 (fun l => l) 0%nat w_ (fun _ => true) [1;2;3;4;5;6] 1600000000%Z
  (fun _ => Some 1500000000%Z) [] [] (Exit 0).
Definition arg_eqb (a b : arg) : bool := if (ltac:(decide equality) : {a = b} + {a <> b}) then true else false.
Definition cmd (vals : list (arg * list N)) (flags : list arg) : matches :=
  mkMatches (fun a => match find (fun x => arg_eqb (fst x) a) vals with Some (_, v) => Some v | None => None end) (fun a => existsb (arg_eqb a) flags).
Definition content (s : fs) (l : loc) : list N := match s l with Some (NFile c) => c | _ => [] end.
(* encode --sbx-version 2 a o, decode o/a.sbx o, and again without --force; what is in o then *)
Definition enc1 : ran := encode_cmd toy_env (cmd [(A_sbx_version, str "2"); (A_in_file, str "a"); (A_out, str "o")] []) toy_fs.
Definition dec1 (s : fs) : ran := decode_cmd toy_env (cmd [(A_in_file, str "o/a.sbx"); (A_out, str "o")] []) s.
Example c46_run :
  match rn_exit enc1, rn_exit (dec1 (rn_fs enc1)), rn_exit (dec1 (rn_fs (dec1 (rn_fs enc1)))) with Exit 0, Exit 0, Exit 2 => true | _, _, _ => false end
  && (lenN (content (rn_fs enc1) (w_ ++ [str "o"; str "a.sbx"])) =? 512)
  && eqbl (content (rn_fs (dec1 (rn_fs (dec1 (rn_fs enc1))))) (w_ ++ [str "o"; str "a"])) toy_data = true.
Proof. vm_compute. reflexivity. Qed.

(* F27. The container itself is not safe from decode --force: no OUT is given, the name recorded is the name of the container, which is
   emptied before it is read. The command reports success; zeros are left. *)
Definition enc2 : ran := encode_cmd toy_env (cmd [(A_sbx_version, str "2"); (A_in_file, str "a"); (A_out, str "o/a")] []) toy_fs.
Definition in_o : env := mkEnv toy_hash toy_rs (fun _ _ _ => None) 2 (fun l => l) 0%nat (w_ ++ [str "o"]) (fun _ => true) [] 0%Z (fun _ => None) [] [] (Exit 0).
Theorem c46_decode_input_refuted : exists E m s l f, value_of m A_out = None /\ is_present m A_multi_pass = false /\ is_present m A_multi_pass_no_skip = false /\
  input_place E m s l /\ s l = Some (NFile f) /\ lenN f = 512 /\
  rn_exit (decode_cmd E m s) = Exit 0 /\ rn_fs (decode_cmd E m s) l = Some (NFile (repN 300 0)).
Proof.
  exists in_o, (cmd [(A_in_file, str "a")] [A_force]), (rn_fs enc2), (w_ ++ [str "o"; str "a"]), (content (rn_fs enc2) (w_ ++ [str "o"; str "a"])).
  split; [reflexivity|]. split; [reflexivity|]. split; [reflexivity|]. split; [exists (str "a"); split; vm_compute; reflexivity|].
  split; [vm_compute; reflexivity|]. split; [vm_compute; reflexivity|]. split; vm_compute; reflexivity.
Qed.
Print Assumptions c46_decode_input_refuted.

(* A container whose recorded name is "../../etc/passwd", "..", "x/" or "/" *)
Example c47_names : map get_file_name_part_of_path [str "../../etc/passwd"; str ".."; str "x/"; str "/"; str "a/./"; str ""; str "...";  str "./."]
  = [Some (str "passwd"); None; Some (str "x"); None; Some (str "a"); None; Some (str "..."); None].
Proof. vm_compute. reflexivity. Qed.
(* update the name recorded to "../../../w/o/../evil": the output is evil in the directory asked for *)
Definition upd1 : ran := update_cmd toy_env None (cmd [(A_in_file, str "o/a"); (A_fnm, str "../../../w/o/../evil")] [A_skip_warning]) (rn_fs enc2).
Example c47_run : let r := decode_cmd toy_env (cmd [(A_in_file, str "o/a"); (A_out, str "o")] []) (rn_fs upd1) in
  match rn_exit upd1, rn_exit r with Exit 0, Exit 0 => eqbl (content (rn_fs r) (w_ ++ [str "o"; str "evil"])) toy_data | _, _ => false end = true.
Proof. vm_compute. reflexivity. Qed.
(* repair and sort run, too; an unanswered question leaves the container as it is *)
Definition sort1 : ran := sort_cmd toy_env (cmd [(A_in_file, str "o/a")] []) (rn_fs enc2).
Example c46_run_sort : match rn_exit sort1 with Exit 0 => eqbl (content (rn_fs sort1) (w_ ++ [str "o"; str "a.sorted"])) (content (rn_fs enc2) (w_ ++ [str "o"; str "a"])) | _ => false end = true.
Proof. vm_compute. reflexivity. Qed.
Definition upd2 (E : env) : ran := update_cmd E None (cmd [(A_in_file, str "o/a"); (A_fnm, str "b")] []) (rn_fs enc2).
Definition answering (x : list N) : env := mkEnv toy_hash toy_rs (fun _ _ _ => None) 2 (fun l => l) 0%nat w_ (fun _ => true) [] 0%Z (fun _ => None) [x] [] (Exit 0).
Example c46_run_ask : let c r := content (rn_fs r) (w_ ++ [str "o"; str "a"]) in
  eqbl (c (upd2 (answering (str "n")))) (c enc2) && negb (eqbl (c (upd2 (answering (str "y")))) (c enc2)) = true.
Proof. vm_compute. reflexivity. Qed.
