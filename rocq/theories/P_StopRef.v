(* C73: the search for the reference block, stopped with Ctrl-C. *)
From Verif Require Import M_Base M_Specs M_Header M_Metadata M_Block M_Index M_Buffer M_Ranges M_Scan M_Stop M_StopRef
  S_Crc S_Meta S_Block S_Scan S_StopRef L_Base L_Crc L_Block L_Scan L_Ref L_Ranges L_StopRef P_Scan.

(* the flag never set: the search as modelled elsewhere (C19), and finding nothing is an error *)
Theorem c73_search_not_stopped f from to misalign choice :
  search_ref None f from to misalign choice = do! r <- get_ref_block f from to misalign choice; ROk match r with Some x => Found x | None => Lost end.
Proof.
  unfold search_ref, get_ref_block_stop, get_ref_block. destruct (calc_required_len_and_seek_to_from_byte_range _ _ _ _ _ _) as [req lo].
  rewrite <- (ref_loop_never f lo req choice (S (length f)) 0 0 None None).
  destruct (ref_loop_stop None _ _ _ _ _ _ _ _ _) as [[[m d] j]|e|]; reflexivity.
Qed.

(* Stopped at look number k: the search ends without panic or error, and what it returns is what C19 says of a search that ends at the position it
   would have looked at next, or of the whole range if the search was over before. *)
Theorem c73_search_stopped k f from to misalign choice : bytes_ok f = true -> lenN f < 18446744073709551616 ->
  exists req lo hi r j, calc_required_len_and_seek_to_from_byte_range from to misalign 0 (Len (lenN f)) None = (req, lo) /\
    get_ref_block_stop (Some k) f from to misalign choice = ROk (r, j) /\ ref_spec f lo hi choice r /\
    (hi = lo + req \/ hi < lo + req /\ looked f lo (lo + req) k hi /\ k < j).
Proof.
  intros HB HL. pose proof (fun req lo => range_in_file from to misalign (lenN f) None req lo ltac:(discriminate) HL) as R.
  unfold get_ref_block_stop. destruct (calc_required_len_and_seek_to_from_byte_range _ _ _ _ _ _) as [req lo].
  assert (LO : lo <= lenN f) by apply (R req lo eq_refl).
  destruct (ref_loop_cut f lo req choice k HB (S (length f)) 0 0 None None) as (m & d & j & hi & E1 & E2 & E3).
  - lia.
  - intro Q. rewrite N.add_0_r. apply looked_start. lia.
  - unfold lenN. lia.
  - lia.
  - exists req, lo, (lo + hi), (ref_pick choice m d), j. split; [reflexivity|]. split; [rewrite E1; reflexivity|].
    split; [apply ref_loop_spec; assumption|]. destruct E3 as [->|(A & B & C)]; [left; reflexivity|]. right. split; [lia|]. split; assumption.
Qed.

(* What the command does next, however the search was stopped. If it goes on with a block, this is the block of the complete search, unless the
   other type of block was only preferred: then it may be a block of the type not preferred. If it says that there is no reference block, the complete search
   finds none. If it ends with nothing to say, the flag was set. *)
Theorem c73_search_outcome stop f from to misalign choice : bytes_ok f = true -> lenN f < 18446744073709551616 ->
  exists s, search_ref stop f from to misalign choice = ROk s /\
    match s with
    | Found x => get_ref_block f from to misalign choice = ROk (Some x) \/ exists t, choice = Prefer t /\ block_type_of (snd x) <> t /\ stop <> None
    | Lost => get_ref_block f from to misalign choice = ROk None
    | Quit => stop <> None
    end.
Proof.
  intros HB HL. destruct stop as [k|].
  2:{ destruct (c19_reference_block f from to misalign choice HB HL) as (req & lo & r & _ & G & _). rewrite c73_search_not_stopped, G. cbn [rbind].
      destruct r as [x|]; eexists; (split; [reflexivity|]); cbv beta iota; [left|]; reflexivity. }
  destruct (c73_search_stopped k f from to misalign choice HB HL) as (req & lo & hi & r & j & ER & EG & _).
  unfold search_ref. rewrite EG. cbn [rbind]. eexists. split; [reflexivity|]. revert EG. unfold get_ref_block_stop, get_ref_block. rewrite ER.
  destruct (ref_loop_stop (Some k) (S (length f)) f lo req choice 0 0 None None) as [[[m d] j']|e|] eqn:EL; cbn [rbind]; intro EG; try discriminate EG.
  apply ROk_inj in EG. injection EG as <- <-.
  assert (T : typed TMeta m /\ typed TData d) by (eapply (ref_loop_stop_typed (Some k)); [| |exact EL]; exact Logic.I).
  apply ref_loop_stop_kept in EL; [|destruct choice as [|[]|[]]; reflexivity]. destruct EL as [EL|[EL KJ]].
  - rewrite EL. cbn [rbind]. destruct (ref_pick choice m d) as [x|]; [left; reflexivity|]. destruct (raised (Some k) j'); [discriminate|reflexivity].
  - destruct T as [TM TD]. assert (KJ' : raised (Some k) j' = true) by (cbn [raised] in *; apply N.leb_le in KJ; apply N.leb_le; lia).
    destruct choice as [|[]|[]]; cbn [ref_found ref_pick] in *.
    + destruct m, d; try discriminate EL. cbn [first_some]. rewrite KJ'. discriminate.
    + destruct d; [discriminate EL|]. cbn [first_some]. destruct m as [x|]; [|rewrite KJ'; discriminate].
      right. exists TData. split; [reflexivity|]. cbn [typed] in TM. rewrite TM. split; discriminate.
    + destruct m; [discriminate EL|]. cbn [first_some]. destruct d as [x|]; [|rewrite KJ'; discriminate].
      right. exists TMeta. split; [reflexivity|]. cbn [typed] in TD. rewrite TD. split; discriminate.
    + destruct d; [discriminate EL|]. rewrite KJ'. discriminate.
    + destruct m; [discriminate EL|]. rewrite KJ'. discriminate.
Qed.

(* 128 bytes of something else, a data block, a metadata block *)
Definition c73_meta : list N :=
  match sync_to_buffer (mkBlock (mkHeader V2 0 [1;2;3;4;5;6] 0) (DMeta [])) None (repN 128 7) with ROk (_, buf) => buf | _ => [] end.
Definition c73_found : file := repN 128 3 ++ c28_block ++ c73_meta.
Definition at_pos (r : result search) : option (option N) := match r with ROk (Found x) => Some (Some (fst x)) | ROk Lost => Some None | _ => None end.

(* False, F45: show --guess-burst stopped during the search says that there is no reference block, although there is one. *)
Theorem c73_search_show_refuted : exists k f x, bytes_ok f = true /\ get_ref_block f None None false (MustBe TMeta) = ROk (Some x) /\
  search_ref_show (Some k) f None None false = ROk Lost.
Proof.
  exists 1, c73_found. destruct (get_ref_block c73_found None None false (MustBe TMeta)) as [[x|]|e|] eqn:E; [|vm_compute in E; discriminate E..].
  exists x. split; [vm_compute; reflexivity|]. split; [reflexivity|vm_compute; reflexivity].
Qed.
(* False, F45: a decode that would go on with the metadata block goes on with a data block, and the flag makes it no error. *)
Theorem c73_search_other_refuted : exists k f x y, bytes_ok f = true /\ get_ref_block f None None false (Prefer TMeta) = ROk (Some x) /\
  search_ref (Some k) f None None false (Prefer TMeta) = ROk (Found y) /\ block_type_of (snd x) = TMeta /\ block_type_of (snd y) = TData.
Proof.
  exists 2, c73_found. destruct (get_ref_block c73_found None None false (Prefer TMeta)) as [[x|]|e|] eqn:E; [|vm_compute in E; discriminate E..].
  destruct (search_ref (Some 2) c73_found None None false (Prefer TMeta)) as [[y| |]|e|] eqn:E2; try (vm_compute in E2; discriminate E2).
  exists x, y. split; [vm_compute; reflexivity|]. split; [reflexivity|]. split; [reflexivity|].
  vm_compute in E, E2. apply ROk_inj in E. apply ROk_inj in E2. injection E as <-. injection E2 as <-. split; vm_compute; reflexivity.
Qed.
(* the hypotheses are met; the search stopped at each look *)
Example c73_search_run : bytes_ok c73_found = true /\ lenN c73_found < 18446744073709551616 /\
  map (fun k => at_pos (search_ref (Some k) c73_found None None false (Prefer TMeta))) [0; 1; 2; 3] = [None; None; Some (Some 128); Some (Some 256)] /\
  search_ref (Some 1) c73_found None None false (Prefer TMeta) = ROk Quit /\
  at_pos (search_ref (Some 5) (repN 256 3) None None false Any) = Some None /\ search_ref (Some 3) (repN 256 3) None None false Any = ROk Quit.
Proof. repeat apply conj; vm_compute; reflexivity. Qed.

Print Assumptions c73_search_not_stopped.
Print Assumptions c73_search_stopped.
Print Assumptions c73_search_outcome.
Print Assumptions c73_search_show_refuted.
Print Assumptions c73_search_other_refuted.
