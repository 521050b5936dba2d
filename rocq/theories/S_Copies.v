(* Restoring a file from several damaged copies of its container. *)
From Verif Require Import M_Base M_Specs M_Header M_Block M_Index M_Buffer M_Encode M_Scan M_Decode M_Path M_Cli S_Crc S_Block S_Index S_Scan S_Decode S_Cli.

(* In w, part j of the data (parts have ds bytes) is there; it is empty *)
Definition has_part (ds : N) (data w : list N) (j : N) : Prop := forall i, i / ds = j -> i < lenN data -> nthN w i = nthN data i.
Definition lacks_part (ds : N) (w : list N) (j : N) : Prop := forall i, i / ds = j -> nthN w i = 0.
(* each part of the data is there, or empty *)
Definition incomplete (ds : N) (data w : list N) : Prop := forall j, has_part ds data w j \/ lacks_part ds w j.
(* g has a readable block of the container that holds part j *)
Definition holds_part (v : version) (uid : list N) (o : dpb) (g : file) (j : N) : Prop :=
  let bs := ver_to_block_size v in exists k seq pl, (k + 1) * bs <= lenN g /\ block_at v uid g (k * bs) seq pl /\ is_chunk o seq j.
(* g is what is left of a copy of the container f0: the first metadata block found in it is one of f0, and so is every block of this version and
   UID that can be read. Otherwise anything may have happened to it. *)
Definition copy_of (v : version) (uid : list N) (f0 g : file) : Prop :=
  let bs := ver_to_block_size v in bytes_ok g = true /\ lenN g < 18446744073709551616 /\
  (exists pos h pl i, first_block g 0 (lenN g) (of_type TMeta) pos h pl /\ h_version h = v /\ h_uid h = uid /\ block_at v uid f0 (i * bs) 0 pl) /\
  (forall k seq pl, (k + 1) * bs <= lenN g -> block_at v uid g (k * bs) seq pl -> exists i, block_at v uid f0 (i * bs) seq pl).
(* decoding a whole copy, with or without --multi-pass; the burst level is not to be guessed *)
Definition whole_copy (o : dpb) (q : dparam) : Prop :=
  dc_ref_from q = None /\ dc_ref_to q = None /\ dc_guess q = None /\ dc_from q = None /\ dc_to q = None /\
  (dc_choice q = Prefer TMeta \/ dc_choice q = MustBe TMeta) /\ (o = None \/ dc_burst q <> None).
(* ---- the same with the command ---- *)
Definition multi (m : matches) : Prop := is_present m A_multi_pass = true \/ is_present m A_multi_pass_no_skip = true.
(* decode can restore from the copy g to the place l, where nothing is yet, or --force or one of the multi-pass options is given *)
Definition pass_ready (v : version) (uid : list N) (o : dpb) (f0 : file) (name : list N) (l : loc) (E : env) (m : matches) (s : fs) (g : file) : Prop :=
  1 <= v_cpus E /\ clap_ok m /\ verbosity_option m /\ (exists b, number_option m A_burst b) /\
  value_of m A_from_pos = None /\ value_of m A_to_pos_inc = None /\ value_of m A_to_pos_exc = None /\
  value_of m A_ref_from_pos = None /\ value_of m A_ref_to_pos_inc = None /\ value_of m A_ref_to_pos_exc = None /\
  value_of m A_guess_burst_from_pos = None /\ is_present m A_no_meta = false /\ (o = None \/ value_of m A_burst <> None) /\
  (exists inp li, value_of m A_in_file = Some inp /\ file_at E s inp li g /\ (exists x, file_name_of inp x) /\ l <> li) /\
  decode_target E m s name l /\ v_can E l = true /\ s l <> Some NDir /\ (s l = None \/ is_present m A_force = true \/ multi m) /\ copy_of v uid f0 g.
(* Copies are decoded to the same place one after the other, all but the first with a multi-pass option; in between anything may happen to other files. *)
Inductive attempts (v : version) (uid : list N) (o : dpb) (f0 : file) (name : list N) (l : loc) : list file -> fs -> Prop :=
| attempt_first E m s g : pass_ready v uid o f0 name l E m s g -> (s l = None \/ ~ multi m) ->
    attempts v uid o f0 name l [g] (rn_fs (decode_cmd E m s))
| attempt_again gs s0 E m s g : attempts v uid o f0 name l gs s0 -> s l = s0 l -> pass_ready v uid o f0 name l E m s g -> multi m ->
    attempts v uid o f0 name l (gs ++ [g]) (rn_fs (decode_cmd E m s)).
