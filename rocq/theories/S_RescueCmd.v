(* Vocabulary for the statements about the command rescue. *)
From Coq Require Import String Ascii Permutation.
From Verif Require Import M_Base M_Specs M_Header M_Block M_Index M_Ranges M_Scan M_Rescue M_Json M_Path M_Cli M_RescueCmd S_Cli.

(* names of the files of a rescue: twelve hexadecimal digits, letters in upper case *)
Definition hex_name (n : list N) : Prop := lenN n = 12 /\ Forall (fun c => 48 <= c <= 57 \/ 65 <= c <= 70) n.
(* the files of the directory at d, by name *)
Definition dir_of (s : fs) (d : loc) : dir := fun n => match s (d ++ [n]) with Some (NFile c) => Some c | _ => None end.
(* a file that was there or not, and now is there with something added at the end *)
Definition grew (before after : option node) : Prop :=
  match before with
  | None => exists b, after = Some (NFile b)
  | Some (NFile a) => exists b, after = Some (NFile (a ++ b))
  | Some NDir => False
  end.
(* the directory given as OUTDIR, and the place given as log *)
Definition rescue_dir (E : env) (m : matches) (s : fs) (d : loc) : Prop :=
  exists out, value_of m A_out_dir = Some out /\ named E s out d /\ s d = Some NDir.
Definition log_place (E : env) (m : matches) (s : fs) (l : loc) : Prop :=
  exists log, value_of m A_log_file = Some log /\ named E s log l.
(* what the options mean *)
Definition type_option (m : matches) (t : option block_type) : Prop :=
  match value_of m A_block_type, t with
  | None, None => True
  | Some x, None => x = str "any"
  | Some x, Some TMeta => x = str "meta"
  | Some x, Some TData => x = str "data"
  | _, _ => False
  end.
Definition uid_filter (m : matches) (u : option (list N)) : Prop :=
  match value_of m A_uid, u with
  | None, None => True
  | Some x, Some u => lenN u = 6 /\ hex_bytes x u
  | _, _ => False
  end.
Definition rescue_options (m : matches) (p : rparam) : Prop :=
  verbosity_option m /\ number_option m A_from_pos (rp_from p) /\ range_option m A_to_pos_inc A_to_pos_exc (rp_to p) /\
  rp_misalign p = is_present m A_force_misalign /\ type_option m (rp_type p) /\ uid_filter m (rp_uid p).
(* the maps are visited in some order *)
Definition orders (R : rescue_env) : Prop := forall k x, Permutation (re_order R k x) x.
(* no log is there at the start: none is asked for, or the path names a place where nothing is *)
Definition no_log (E : env) (m : matches) (s : fs) : Prop :=
  value_of m A_log_file = None \/ exists l, log_place E m s l /\ s l = None.
(* the log is not one of the files written *)
Definition log_elsewhere (E : env) (m : matches) (s : fs) (d : loc) : Prop := forall n, hex_name n -> ~ log_place E m s (d ++ [n]).
(* files may be written in the directory *)
Definition dir_writable (E : env) (s : fs) (d : loc) : Prop := forall n, hex_name n -> v_can E (d ++ [n]) = true /\ s (d ++ [n]) <> Some NDir.
(* files are made of bytes *)
Definition bytes_only (s : fs) : Prop := forall l c, s l = Some (NFile c) -> bytes_ok c = true.
