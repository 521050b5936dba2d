(* The search for the reference block and Ctrl-C. [flag] as in M_Stop.v: the flag is looked at before each read and once more when nothing was found. *)
From Verif Require Import M_Base M_Specs M_Header M_Metadata M_Block M_Index M_Buffer M_Ranges M_Scan M_Stop.

(* src/block_utils.rs:188-242, as ref_loop; the flag is looked at in line 201. [i]: number of the next look. *)
Fixpoint ref_loop_stop (stop : flag) (fuel : nat) (f : file) (seek_to required_len : N) (choice : ref_choice)
    (i bytes : N) (m d : option (N * block)) : result (option (N * block) * option (N * block) * N) :=
  match fuel with
  | O => RErr OtherError
  | S fuel' =>
      if raised stop i then ROk (m, d, i + 1)
      else if required_len <=? bytes then ROk (m, d, i + 1)
      else
        do! r <- read_block_lazily f (seek_to + bytes);
        let bytes' := bytes + lz_len r in
        if lz_eof r then ROk (m, d, i + 1)
        else match lz_block r with
             | None => ref_loop_stop stop fuel' f seek_to required_len choice (i + 1) bytes' m d
             | Some b =>
                 let m' := match block_type_of b with TMeta => first_some m (Some (bytes, b)) | TData => m end in
                 let d' := match block_type_of b with TMeta => d | TData => first_some d (Some (bytes, b)) end in
                 if ref_found choice m' d' then ROk (m', d', i + 1)
                 else ref_loop_stop stop fuel' f seek_to required_len choice (i + 1) bytes' m' d'
             end
  end.
(* src/block_utils.rs:137-274, as get_ref_block; returns also the number of the next look *)
Definition get_ref_block_stop (stop : flag) (f : file) (from : option N) (to : option range_end) (misalign : bool)
    (choice : ref_choice) : result (option (N * block) * N) :=
  let '(required_len, seek_to) :=
    calc_required_len_and_seek_to_from_byte_range from to misalign 0 (Len (lenN f)) None in
  do! (m, d, i) <- ref_loop_stop stop (S (length f)) f seek_to required_len choice 0 0 None None;
  ROk (ref_pick choice m d, i).
(* get_ref_block!, src/misc_macros.rs:74-106 (check, decode, repair, sort, update): what the command goes on with.
   [Found x]: it goes on with x. [Quit]: it returns Ok(None), which is success with nothing to report. [Lost]: "Failed to find reference block". *)
Inductive search := Found (x : N * block) | Quit | Lost.
Definition search_ref (stop : flag) (f : file) (from : option N) (to : option range_end) (misalign : bool) (choice : ref_choice) : result search :=
  do! (r, i) <- get_ref_block_stop stop f from to misalign choice;
  ROk match r with
      | Some x => Found x
      | None => if raised stop i then Quit else Lost
      end.
(* src/show_core.rs:131-145, show --guess-burst: the flag is not looked at again *)
Definition search_ref_show (stop : flag) (f : file) (from : option N) (to : option range_end) (misalign : bool) : result search :=
  do! (r, _) <- get_ref_block_stop stop f from to misalign (MustBe TMeta);
  ROk match r with Some x => Found x | None => Lost end.
