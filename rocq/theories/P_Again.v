(* C60: encode, decode and sort that were cut short can be run again. *)
From Coq Require Import String Ascii.
From Verif Require Import M_Base M_Specs M_Header M_Multihash M_Metadata M_Block M_Index M_FileUtils M_Buffer M_Ranges M_Encode
  M_Scan M_Loop M_Decode M_Sort M_Repair M_Content M_Update M_Rescue M_Hex M_Json M_Path M_Cli S_Cli S_Again L_Base L_Path L_Again P_Cli.

(* s is the file system before the run that was cut short, s' the one it left: its output file is there, with whatever content. The run would
   have ended with exit code 0 and a file at l. Then the same run with --force ends exactly as that one would have, ... *)
Theorem c60_encode E m m' s s' l : plus_force m m' -> s l = None -> leftover l s s' ->
  rn_exit (encode_cmd E m s) = Exit 0 -> rn_fs (encode_cmd E m s) l <> None -> alike (encode_cmd E m s) (encode_cmd E m' s').
Proof. intros (V & P & F) N LO _ H. exact (proj1 (left_encode E m m' s s' l N LO V P H) F). Qed.
Theorem c60_decode E m m' s s' l : is_present m A_multi_pass = false -> is_present m A_multi_pass_no_skip = false ->
  plus_force m m' -> s l = None -> leftover l s s' ->
  rn_exit (decode_cmd E m s) = Exit 0 -> rn_fs (decode_cmd E m s) l <> None -> alike (decode_cmd E m s) (decode_cmd E m' s').
Proof. intros M1 M2 (V & P & F) N LO _ H. exact (proj1 (left_decode E m m' s s' l N LO V P M1 M2 H) F). Qed.
Theorem c60_sort E m m' s s' l : is_present m A_multi_pass = false -> is_present m A_multi_pass_no_skip = false -> is_present m A_dry_run = false ->
  plus_force m m' -> s l = None -> leftover l s s' ->
  rn_exit (sort_cmd E m s) = Exit 0 -> rn_fs (sort_cmd E m s) l <> None -> alike (sort_cmd E m s) (sort_cmd E m' s').
Proof. intros M1 M2 DR (V & P & F) N LO _ H. exact (proj1 (left_sort E m m' s s' l N LO V P M1 M2 DR H) F). Qed.
(* ... and without it, the command refuses to run, and leaves everything as it is. *)
Theorem c60_refused E m s s' l : is_present m A_force = false -> s l = None -> leftover l s s' ->
  (rn_exit (encode_cmd E m s) = Exit 0 -> rn_fs (encode_cmd E m s) l <> None -> encode_cmd E m s' = mkRan s' (Exit 1) []) /\
  (is_present m A_multi_pass = false -> is_present m A_multi_pass_no_skip = false ->
   (rn_exit (decode_cmd E m s) = Exit 0 -> rn_fs (decode_cmd E m s) l <> None -> decode_cmd E m s' = mkRan s' (Exit 2) []) /\
   (is_present m A_dry_run = false ->
    rn_exit (sort_cmd E m s) = Exit 0 -> rn_fs (sort_cmd E m s) l <> None -> sort_cmd E m s' = mkRan s' (Exit 1) [])).
Proof.
  intros F N LO. split; [|intros M1 M2; split].
  - intros _ H. exact (proj2 (left_encode E m m s s' l N LO (fun _ => eq_refl) (fun _ _ => eq_refl) H) F).
  - intros _ H. exact (proj2 (left_decode E m m s s' l N LO (fun _ => eq_refl) (fun _ _ => eq_refl) M1 M2 H) F).
  - intros DR _ H. exact (proj2 (left_sort E m m s s' l N LO (fun _ => eq_refl) (fun _ _ => eq_refl) M1 M2 DR H) F).
Qed.
Print Assumptions c60_encode.
Print Assumptions c60_decode.
Print Assumptions c60_sort.
Print Assumptions c60_refused.

(* ---- examples: 700 bytes are left at o/a.sbx, and at o/b ---- *)
Definition junk : list N := repN 700 7.
Definition vals1 := [(A_sbx_version, str "2"); (A_in_file, str "a"); (A_out, str "o")].
Definition vals2 := [(A_in_file, str "o/a.sbx"); (A_out, str "o/b")].
Definition ol : loc := w_ ++ [str "o"; str "a.sbx"].
Definition ob : loc := w_ ++ [str "o"; str "b"].
Definition fs2 : fs := rn_fs (encode_cmd toy_env (cmd vals1 []) toy_fs).
Lemma cmd_force vals : plus_force (cmd vals []) (cmd vals [A_force]).
Proof. repeat split. intros a N. destruct a; cbn; try reflexivity. congruence. Qed.
Lemma left_upd s l c : leftover l s (upd s l (NFile c)).
Proof. split; [intros x N; apply upd_other, N|exists c; apply upd_same]. Qed.
Example c60_hypotheses :
  (plus_force (cmd vals1 []) (cmd vals1 [A_force]) /\ plus_force (cmd vals2 []) (cmd vals2 [A_force])) /\
  (leftover ol toy_fs (upd toy_fs ol (NFile junk)) /\ leftover ob fs2 (upd fs2 ob (NFile junk))) /\
  (toy_fs ol = None /\ fs2 ob = None) /\
  match rn_fs (encode_cmd toy_env (cmd vals1 []) toy_fs) ol, rn_exit (encode_cmd toy_env (cmd vals1 []) toy_fs),
    rn_fs (decode_cmd toy_env (cmd vals2 []) fs2) ob, rn_exit (decode_cmd toy_env (cmd vals2 []) fs2),
    rn_fs (sort_cmd toy_env (cmd vals2 []) fs2) ob, rn_exit (sort_cmd toy_env (cmd vals2 []) fs2)
  with Some _, Exit 0, Some _, Exit 0, Some _, Exit 0 => true | _, _, _, _, _, _ => false end = true.
Proof. split; [split; apply cmd_force|]. split; [split; apply left_upd|]. split; [split|]; vm_compute; reflexivity. Qed.
Example c60_run :
  (lenN (content (rn_fs (encode_cmd toy_env (cmd vals1 [A_force]) (upd toy_fs ol (NFile junk)))) ol) =? 512) &&
  eqbl (content (rn_fs (decode_cmd toy_env (cmd vals2 [A_force]) (upd fs2 ob (NFile junk)))) ob) toy_data &&
  eqbl (content (rn_fs (sort_cmd toy_env (cmd vals2 [A_force]) (upd fs2 ob (NFile junk)))) ob) (content fs2 ol) = true.
Proof. vm_compute. reflexivity. Qed.
