(* Model of src/check_core.rs: checking the blocks of a container and the hash of its contents. I/O errors, progress
   reports and the formatting of the statistics are not modelled; the stop flag (Ctrl-C) is, in M_Stop. *)
From Verif Require Import M_Base M_Specs M_Header M_Multihash M_Metadata M_Block M_Index M_FileUtils
  M_Buffer M_Ranges M_Encode M_Scan M_Loop M_Decode M_Content.

(* src/check_core.rs:20-24 *)
Inductive hash_action := NoHash | HashAfterCheck | HashOnly.
(* src/check_core.rs:26-41; the misalign, burst, range and reference options as for decoding *)
Record cparam := mkCparam {
  cp_choice : ref_choice; cp_ref_from : option N; cp_ref_to : option range_end; cp_guess : option N;
  cp_report_blank : bool; cp_from : option N; cp_to : option range_end; cp_misalign : bool;
  cp_hash : hash_action; cp_burst : option N; cp_verbose : bool }.
(* src/check_core.rs:77-86, the counters *)
Record cstats := mkCstats { ck_meta : N; ck_data : N; ck_failed : N; ck_blank : N }.
Definition no_cstats : cstats := mkCstats 0 0 0 0.

(* src/misc_utils.rs:186-194 *)
Definition buffer_is_blank (d : list N) : bool := forallb (N.eqb 0) d.

(* src/check_core.rs:350-411, the loop; [ps] collects the positions of the messages printed. [n] bounds the loop. *)
Fixpoint check_loop (n : nat) (p : cparam) (ref : block) (f : file) (required_len seek_to bytes : N) (s : cstats) (ps : list N)
  : result (cstats * list N) :=
  match n with
  | O => RPanic
  | S n' =>
      if required_len <=? bytes then ROk (s, ps)
      else
        let bs := ver_to_block_size (b_version ref) in
        let d := file_read f (seek_to + bytes) bs in
        let bytes' := bytes + lenN d in
        if lenN d <? bs then ROk (s, ps)
        else match sync_from_buffer block_dummy d (header_pred_same_ver_uid ref) no_pred with
             | RPanic => RPanic
             | ROk b =>
                 check_loop n' p ref f required_len seek_to bytes'
                   (if is_meta b then mkCstats (ck_meta s + 1) (ck_data s) (ck_failed s) (ck_blank s)
                    else mkCstats (ck_meta s) (ck_data s + 1) (ck_failed s) (ck_blank s)) ps
             | RErr _ =>
                 if buffer_is_blank d then
                   if cp_report_blank p then
                     check_loop n' p ref f required_len seek_to bytes' (mkCstats (ck_meta s) (ck_data s) (ck_failed s + 1) (ck_blank s))
                       (if cp_verbose p then ps ++ [bytes] else ps)
                   else
                     check_loop n' p ref f required_len seek_to bytes' (mkCstats (ck_meta s) (ck_data s) (ck_failed s) (ck_blank s + 1)) ps
                 else
                   check_loop n' p ref f required_len seek_to bytes' (mkCstats (ck_meta s) (ck_data s) (ck_failed s + 1) (ck_blank s)) ps
             end
  end.
(* src/check_core.rs:305-428 *)
Definition check_blocks (p : cparam) (ref : block) (f : file) (required_len seek_to : N) : result (cstats * list N) :=
  check_loop (S (S (length f))) p ref f required_len seek_to 0 no_cstats [].

(* src/check_core.rs:493-521 *)
Definition check_hash_setup (ref : block) : result (N * hash_bytes) :=
  if is_data ref then RErr OtherError
  else match get_FSZ ref with
       | None => RErr OtherError
       | Some x => match get_HSH ref with
                   | None => RErr OtherError
                   | Some h => if hash_supported (fst h) then ROk (x, h) else RErr OtherError
                   end
       end.
(* What is reported: the counters and messages if blocks are checked; the recorded hash, and the computed one or the error
   met, if the contents are hashed *)
Record coutcome := mkCoutcome { ko_check : option (cstats * list N); ko_hash : option (hash_bytes * result hash_bytes) }.
(* src/check_core.rs:430-547 *)
Definition check_file (H : hash_fn) (cpus : N) (p : cparam) (f : file) : result coutcome :=
  do! r <- get_ref_block f (ref_from_pos (cp_ref_from p) (cp_from p)) (cp_ref_to p) (cp_misalign p) (cp_choice p);
  match r with
  | None => RErr OtherError
  | Some (_, ref) =>
      let '(required_len, seek_to) :=
        calc_required_len_and_seek_to_from_byte_range (cp_from p) (cp_to p) (cp_misalign p) 0 (Len (lenN f))
          (Some (ver_to_block_size (b_version ref))) in
      let do_check := match cp_hash p with HashOnly => false | _ => true end in
      let do_hash := match cp_hash p with NoHash => false | _ => true end in
      do! hs <- (if do_hash then do! x <- check_hash_setup ref; ROk (Some x) else ROk None);
      do! ck <- (if do_check then do! x <- check_blocks p ref f required_len seek_to; ROk (Some x) else ROk None);
      match hs with
      | None => ROk (mkCoutcome ck None)
      | Some (total, h) =>
          match (do! o <- get_data_par_burst f (cp_burst p) (guess_from_param (cp_guess p) (cp_from p)) (cp_misalign p) ref;
                 content_hash H cpus f o total ref (fst h)) with
          | RPanic => RPanic
          | x => ROk (mkCoutcome ck (Some (h, x)))
          end
      end
  end.
(* src/check_core.rs:283-304: the verdict printed: Some true for a match, Some false for a mismatch, None for neither *)
Definition verdict (x : coutcome) : option bool :=
  match ko_hash x with
  | Some (h, ROk h') => Some (eqbl (snd h) (snd h'))
  | _ => None
  end.
