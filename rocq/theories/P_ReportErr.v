(* C59: the reports with --json of repair, sort and decode that end with an error. *)
From Coq Require Import String Ascii ZArith.
From Verif Require Import M_Base M_Specs M_Header M_Multihash M_Metadata M_Block M_Index M_FileUtils M_Buffer M_Ranges M_Encode M_Scan M_Loop M_Decode
  M_Content M_Check M_Repair M_Sort M_Hex M_Rescue M_Json M_Show M_Report
  S_Crc S_Meta S_Block S_Index S_Container S_Encode S_Scan S_Decode S_Sort S_Content S_Repair S_Check S_Json S_Show S_Report
  L_Base L_File L_Header L_Meta L_Block L_Index L_Index2 L_Ranges L_Ref L_Decode L_Decode2 L_Repair5 L_Repair6 L_Roundtrip L_Json L_Json2 L_Show P_Json L_Report
  P_Encode P_Decode P_Roundtrip P_Repair P_Sort P_Check P_Report P_RepairGuess.
Ltac Zify.zify_post_hook ::= idtac.

(* searching for the reference block never fails otherwise *)
Lemma ref_searched f from to mis choice : bytes_ok f = true -> lenN f < 18446744073709551616 -> exists r, get_ref_block f from to mis choice = ROk r.
Proof.
  intros HB HL. pose proof (get_ref_block_ok f from to mis choice HB) as K.
  destruct (calc_required_len_and_seek_to_from_byte_range _ _ _ _ _ None) as [req lo] eqn:R. destruct (range_in_file _ _ _ _ None _ _ ltac:(unfold mult_of; lia) HL R) as (LO & _).
  destruct (K LO) as (r & G & _). exists r. exact G.
Qed.
Lemma not_found_text : error_text (str "Error : Failed to find reference block").
Proof. split; [is_plain|]. vm_compute. tauto. Qed.

(* If the command fails, the exit code is 2 and the report is an object with what was known and, last, the error: that there is no reference block, and nothing else; or
   the error met, after the burst level (if it is known then) and with --verbose the reference block. *)
Theorem c59_repair_error rc dry burst f e t etext : bytes_ok f = true -> lenN f < 18446744073709551616 -> error_text etext -> repair_file rc dry burst f = RErr e ->
  exists cs ms msg, repair_report rc dry burst f t etext = ROk (cs, 2) /\ stands_for cs (error_json ms msg) /\
    ((get_ref_block f None None false (MustBe TMeta) = ROk None /\ ms = [] /\ msg = str "Error : Failed to find reference block") \/
     exists pos ref, get_ref_block f None None false (MustBe TMeta) = ROk (Some (pos, ref)) /\ ms = level_known (get_data_par_burst f burst None false ref) /\ msg = etext).
Proof.
  intros HB HL ET E. unfold repair_report. destruct (ref_searched f None None false (MustBe TMeta) HB HL) as ([[pos ref]|] & G); rewrite G; cbn [rbind].
  - rewrite E. eexists _, _, _. split; [reflexivity|]. split; [apply (report_error _ _ _ _ (level_members _) (level_calls_items _) ET)|]. right. exists pos, ref. repeat split; reflexivity.
  - eexists _, _, _. split; [reflexivity|]. split; [apply (report_error [] [] _ _ ms_nil eq_refl not_found_text)|]. left. repeat split; reflexivity.
Qed.
Theorem c59_sort_error cpus verbose p f old e t etext : bytes_ok f = true -> lenN f < 18446744073709551616 -> error_text etext -> sort_file cpus p f old = RErr e ->
  let q := M_Sort.sp_scan p in let ref_block := get_ref_block f (ref_from_pos (dc_ref_from q) (dc_from q)) (dc_ref_to q) (dc_misalign q) (dc_choice q) in
  exists cs ms msg, sort_report cpus verbose p f old t etext = ROk (cs, 2) /\ stands_for cs (error_json ms msg) /\
    ((ref_block = ROk None /\ ms = [] /\ msg = str "Error : Failed to find reference block") \/
     exists pos ref, ref_block = ROk (Some (pos, ref)) /\
       ms = (if verbose then [ref_info pos ref] else []) ++ level_known (get_data_par_burst f (dc_burst q) (guess_from_param (dc_guess q) (dc_from q)) (dc_misalign q) ref) /\ msg = etext).
Proof.
  intros HB HL ET E q ref_block. unfold sort_report. fold q. fold ref_block.
  destruct (ref_searched f (ref_from_pos (dc_ref_from q) (dc_from q)) (dc_ref_to q) (dc_misalign q) (dc_choice q) HB HL) as ([[pos ref]|] & G); fold ref_block in G; rewrite G; cbn [rbind].
  - destruct (ref_fine _ _ _ _ _ _ _ HB HL G) as (HP & _). destruct (info_members verbose pos ref HP) as (il & IM & IE). rewrite E. eexists _, _, _. split; [reflexivity|].
    split; [apply (report_error _ _ _ _ (members_app _ _ _ _ IM (level_members (get_data_par_burst f (dc_burst q) (guess_from_param (dc_guess q) (dc_from q)) (dc_misalign q) ref)))); [rewrite flat_map_app, <- IE, <- level_calls_items; reflexivity|exact ET]|].
    right. exists pos, ref. repeat split; reflexivity.
  - eexists _, _, _. split; [reflexivity|]. split; [apply (report_error [] [] _ _ ms_nil eq_refl not_found_text)|]. left. repeat split; reflexivity.
Qed.
(* decode: no level if the output is refused because there is such a file *)
Theorem c59_decode_error H order cpus limit verbose p f target e t_decode t_hash etext : bytes_ok f = true -> lenN f < 18446744073709551616 -> error_text etext ->
  decode_file H order cpus limit p f target = RErr e ->
  let ref_block := get_ref_block f (ref_from_pos (dc_ref_from p) (dc_from p)) (dc_ref_to p) (dc_misalign p) (dc_choice p) in
  let refused := dc_force_write p = false /\ dc_multi p = None /\ exists old, target = ToFile (Some old) in
  exists cs ms msg, decode_report H order cpus limit verbose p f target t_decode t_hash etext = ROk (cs, 2) /\ stands_for cs (error_json ms msg) /\
    ((ref_block = ROk None /\ ms = [] /\ msg = str "Error : Failed to find reference block") \/
     exists pos ref known, ref_block = ROk (Some (pos, ref)) /\ ms = (if verbose then [ref_info pos ref] else []) ++ known /\ msg = etext /\
       (refused -> known = []) /\
       (~ refused -> known = level_known (get_data_par_burst f (dc_burst p) (guess_from_param (dc_guess p) (dc_from p)) (dc_misalign p) ref))).
Proof.
  intros HB HL ET E ref_block refused. unfold decode_report. fold ref_block.
  destruct (ref_searched f (ref_from_pos (dc_ref_from p) (dc_from p)) (dc_ref_to p) (dc_misalign p) (dc_choice p) HB HL) as ([[pos ref]|] & G); fold ref_block in G; rewrite G; cbn [rbind].
  - destruct (ref_fine _ _ _ _ _ _ _ HB HL G) as (HP & _). destruct (info_members verbose pos ref HP) as (il & IM & IE). rewrite E. cbv zeta.
    set (b := negb (dc_force_write p) && match dc_multi p with None => true | _ => false end && match target with ToFile (Some _) => true | _ => false end).
    assert (RB : b = true <-> refused).
    { unfold b, refused. destruct (dc_force_write p); cbn [negb andb]; [split; [discriminate|intros (X & _); discriminate X]|].
      destruct (dc_multi p); cbn [andb]; [split; [discriminate|intros (_ & X & _); discriminate X]|].
      destruct target as [|[old|]]; [split; [discriminate|intros (_ & _ & o & X); discriminate X]| |split; [discriminate|intros (_ & _ & o & X); discriminate X]].
      split; [|reflexivity]. intros _. split; [reflexivity|]. split; [reflexivity|]. exists old. reflexivity. }
    set (lr := if b then RPanic else get_data_par_burst f (dc_burst p) (guess_from_param (dc_guess p) (dc_from p)) (dc_misalign p) ref).
    assert (LC : (if b then [] else level_calls (get_data_par_burst f (dc_burst p) (guess_from_param (dc_guess p) (dc_from p)) (dc_misalign p) ref)) = level_calls lr) by (unfold lr; destruct b; reflexivity).
    rewrite LC. eexists _, _, _. split; [reflexivity|].
    split; [apply (report_error _ _ _ _ (members_app _ _ _ _ IM (level_members lr))); [rewrite flat_map_app, <- IE, <- level_calls_items; reflexivity|exact ET]|].
    right. exists pos, ref, (level_known lr). split; [reflexivity|]. split; [reflexivity|]. split; [reflexivity|]. split.
    + intro R. apply RB in R. unfold lr. rewrite R. reflexivity.
    + intro R. unfold lr. destruct b; [exfalso; apply R, RB; reflexivity|reflexivity].
  - eexists _, _, _. split; [reflexivity|]. split; [apply (report_error [] [] _ _ ms_nil eq_refl not_found_text)|]. left. repeat split; reflexivity.
Qed.

(* the hypotheses are met: nothing to be found; an output that exists *)
Definition err_text : list N := str "Error : some error".
Example c59_error_hypotheses : error_text err_text /\ repair_file toy_rc false None [1; 2; 3] = RErr OtherError /\
  (exists e, sort_file 2 (M_Sort.mkSparam toy_q false) [1; 2; 3] None = RErr e) /\
  (exists e, decode_file toy_hash (fun l => l) 2 0%nat toy_q one_file (ToFile (Some [])) = RErr e) /\
  exists pos ref, get_ref_block one_file None None false (Prefer TMeta) = ROk (Some (pos, ref)).
Proof.
  split; [split; [is_plain|vm_compute; tauto]|]. split; [vm_compute; reflexivity|]. split; [eexists; vm_compute; reflexivity|]. split; [eexists; vm_compute; reflexivity|].
  destruct (get_ref_block one_file None None false (Prefer TMeta)) as [[[pos ref]|]|e|] eqn:E; [eauto|vm_compute in E; discriminate E..].
Qed.
Print Assumptions c59_repair_error.
Print Assumptions c59_sort_error.
Print Assumptions c59_decode_error.
