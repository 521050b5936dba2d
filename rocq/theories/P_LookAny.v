(* C75: the commands check and show on any file whatever. *)
From Coq Require Import String Ascii Sorted.
From Verif Require Import M_Base M_Specs M_Header M_Multihash M_Metadata M_Block M_Index M_FileUtils M_Buffer M_Ranges M_Encode
  M_Scan M_Loop M_Decode M_Content M_Check M_Sort M_Repair M_Rescue M_Hex M_Json M_Codec M_Path M_Cli M_Show M_Report M_Look
  S_Meta S_Block S_Index S_Container S_Encode S_Scan S_Decode S_Repair P_Update S_Check S_Cli S_Json S_Show S_Report
  S_Look L_Base L_Block L_Scan L_Index2 L_Ranges L_Ref L_Intact L_Intact2 L_Path L_Cli L_Cli2 L_Cli3 L_Roundtrip L_Json2 L_Show L_Report L_Check P_Index P_Encode P_Decode P_Roundtrip P_Codec P_Cli P_Options P_Commands P_Json P_Check P_Show P_Report P_Look.

(* the part of the file searched for the reference block *)
Definition ref_range (p : cparam) (f : file) (lo hi : N) : Prop :=
  exists len, calc_required_len_and_seek_to_from_byte_range (ref_from_pos (cp_ref_from p) (cp_from p)) (cp_ref_to p) (cp_misalign p) 0 (Len (lenN f)) None = (len, lo) /\ hi = lo + len.

Lemma check_request_go E m s inp l f p : clap_ok m -> value_of m A_in_file = Some inp -> file_at E s inp l f -> (exists x, file_name_of inp x) ->
  check_options m p -> check_request E s m = Go (inp, p).
Proof.
  intros CK VI (ND & FR & FS & FC) (fname & FNX) OP.
  destruct (proj2 (c62_check_options E s m p CK)) as (inf & RQ); [split; [exact OP|exists inp, l, f, fname; auto]|].
  assert (inf = inp) as ->; [|exact RQ].
  pose proof RQ as RQ'. unfold check_request in RQ'. apply gbind_go in RQ'. destruct RQ' as ([] & _ & RQ'). apply gbind_go in RQ'. destruct RQ' as (i & HI & RQ').
  repeat (apply gbind_go in RQ'; destruct RQ' as (? & _ & RQ'); cbv zeta in RQ'). injection RQ' as <- _. unfold get_in_file in HI. rewrite VI in HI. apply check_in_file_go in HI. destruct HI as (-> & _). reflexivity.
Qed.
Lemma show_request_go E m s inp l f p : clap_ok m -> value_of m A_in_file = Some inp -> file_at E s inp l f -> (exists x, file_name_of inp x) ->
  show_options m p -> show_request E s m = Go (inp, p).
Proof.
  intros CK VI (ND & FR & FS & FC) (fname & FNX) OP.
  destruct (proj2 (c62_show_options E s m p CK)) as (inf & RQ); [split; [exact OP|exists inp, l, f, fname; auto]|].
  assert (inf = inp) as ->; [|exact RQ].
  pose proof RQ as RQ'. unfold show_request in RQ'. apply gbind_go in RQ'. destruct RQ' as (i & HI & RQ').
  repeat (apply gbind_go in RQ'; destruct RQ' as (? & _ & RQ'); cbv zeta in RQ'). injection RQ' as <- _. unfold get_in_file in HI. rewrite VI in HI. apply check_in_file_go in HI. destruct HI as (-> & _). reflexivity.
Qed.

(* check without hashing, of any file and with any options: exit code 2 and nothing but the reason if there is no reference block where it is
   looked for; otherwise exit code 0 and a report with the true numbers of metadata blocks, of data and parity blocks and of broken
   places of the container the reference block belongs to. It never crashes and never changes a file. *)
Theorem c75_check_any E K m s inp l f p lo hi :
  1 <= v_cpus E -> hash_fn_ok (v_H E) -> (0 <= k_check K)%Z -> (0 <= k_hash K)%Z -> error_text (k_text K) ->
  clap_ok m -> value_of m A_in_file = Some inp -> file_at E s inp l f -> (exists x, file_name_of inp x) -> bytes_ok f = true -> lenN f < 18446744073709551616 ->
  check_options m p -> is_present m A_hash = false -> is_present m A_hash_only = false -> ref_range p f lo hi ->
  exists r cs, ref_spec f lo hi (cp_choice p) r /\
  match r with
  | None => check_cmd E K m s = mkSeen s (Exit 2) (Some cs) /\ stands_for cs (error_json [] (str "Error : Failed to find reference block"))
  | Some (pos, ref) => exists len from st ps,
      check_cmd E K m s = mkSeen s (Exit 0) (Some cs) /\
      calc_required_len_and_seek_to_from_byte_range (cp_from p) (cp_to p) (cp_misalign p) 0 (Len (lenN f)) (Some (ver_to_block_size (b_version ref))) = (len, from) /\
      check_counts (b_version ref) (b_uid ref) f from len (is_present m A_report_blank) st /\
      (forall x, In x ps <-> is_present m A_verbose = true /\ is_present m A_report_blank = true /\
         exists k, visited (ver_to_block_size (b_version ref)) f from len k /\
           state_at (b_version ref) (b_uid ref) f (from + k * ver_to_block_size (b_version ref)) SBlank /\ x = k * ver_to_block_size (b_version ref)) /\
      stands_for cs (success_json ((if is_present m A_verbose then [ref_info pos ref; (str "blocksFailed", failed_json ps)] else []) ++
        [(str "stats", check_json (b_version ref) (mkCoutcome (Some (st, ps)) None) (k_check K) (k_hash K) (k_text K))]))
  end.
Proof.
  intros CP HF TC TH ETX CK VI FA FN HB HL OP NH NO (len & RR & ->).
  pose proof (check_request_go E m s inp l f p CK VI FA FN OP) as RQ. destruct FA as (ND & FR & FS & FC).
  assert (NHA : cp_hash p = NoHash) by (destruct OP as (_ & _ & _ & _ & _ & _ & _ & _ & _ & _ & _ & ->); rewrite NH, NO; reflexivity).
  assert (RB : cp_report_blank p = is_present m A_report_blank) by apply OP. assert (VBO : cp_verbose p = is_present m A_verbose) by apply OP.
  pose proof (get_ref_block_ok f (ref_from_pos (cp_ref_from p) (cp_from p)) (cp_ref_to p) (cp_misalign p) (cp_choice p) HB) as G. rewrite RR in G.
  destruct (range_in_file _ _ _ _ None _ _ ltac:(unfold mult_of; lia) HL RR) as (LO & _). destruct (G LO) as (r & GR & SP). clear G.
  assert (CMD : forall y, check_report (v_H E) (v_cpus E) p f (k_check K) (k_hash K) (k_text K) = ROk y -> check_cmd E K m s = mkSeen s (Exit (snd y)) (Some (fst y))).
  { intros [cs x] Y. unfold check_cmd. rewrite RQ. unfold open_read. unfold S_Cli.named in FR. rewrite FR, FS, FC, Y. reflexivity. }
  destruct (c37_ends (v_H E) (v_cpus E) p f HB HL NHA) as [(out & CF)|(CF & GN)].
  - destruct (c59_check (v_H E) (v_cpus E) p f out (k_check K) (k_hash K) (k_text K) HB HL HF TC TH ETX CF) as (pos & ref & len' & from & cs & GR' & (_ & RG) & CR & SF & KN & KC).
    rewrite GR in GR'. apply ROk_inj in GR'. subst r. exists (Some (pos, ref)), cs. split; [exact SP|].
    destruct (ko_check out) as [[st ps]|] eqn:KO; [|rewrite NHA in KN; discriminate (proj1 KN eq_refl)].
    exists len', from, st, ps. split; [exact (CMD _ CR)|]. split; [exact RG|]. split; [rewrite <- RB; exact (KC st ps eq_refl)|].
    split. { rewrite <- RB, <- VBO. exact (c37_messages_partial (v_H E) (v_cpus E) p f out st ps ref len' from HB HL CF KO (conj (ex_intro _ pos GR) RG)). }
    assert (KH : ko_hash out = None).
    { clear - CF NHA. unfold check_file in CF. destruct (get_ref_block _ _ _ _ _) as [[[? ?]|]|?|]; cbn [rbind] in CF; try discriminate CF. rewrite NHA in CF.
      destruct (calc_required_len_and_seek_to_from_byte_range _ _ _ _ _ _) as [? ?]. cbn [rbind] in CF. destruct (check_blocks _ _ _ _ _) as [?|?|]; cbn [rbind] in CF; try discriminate CF. apply ROk_inj in CF. subst out. reflexivity. }
    assert (EO : out = mkCoutcome (Some (st, ps)) None) by (destruct out as [a b]; cbn in KO, KH; congruence).
    unfold check_output in SF. rewrite KO, VBO, EO, NHA in SF. destruct (is_present m A_verbose); exact SF.
  - assert (r = None) as -> by (rewrite GR in GN; apply ROk_inj in GN; exact GN).
    destruct (c59_check_error (v_H E) (v_cpus E) p f OtherError (k_check K) (k_hash K) (k_text K) HB HL ETX CF) as (cs & ms & msg & CR & SF & [(_ & -> & ->)|(pos & ref & GX & _)]); [|rewrite GN in GX; discriminate GX].
    exists None, cs. split; [exact SP|]. split; [exact (CMD _ CR)|exact SF].
Qed.
Print Assumptions c75_check_any.

(* The same with or without hashing, in terms of C36 and C37: what the check finds is what is printed, with exit code 0; an error ends it with
   exit code 2 and the reason. *)
Theorem c75_check_outcome E K m s inp l f p :
  1 <= v_cpus E -> hash_fn_ok (v_H E) -> (0 <= k_check K)%Z -> (0 <= k_hash K)%Z -> error_text (k_text K) ->
  clap_ok m -> value_of m A_in_file = Some inp -> file_at E s inp l f -> (exists x, file_name_of inp x) -> bytes_ok f = true -> lenN f < 18446744073709551616 ->
  check_options m p ->
  match check_file (v_H E) (v_cpus E) p f with
  | ROk out => exists pos ref cs,
      get_ref_block f (ref_from_pos (cp_ref_from p) (cp_from p)) (cp_ref_to p) (cp_misalign p) (cp_choice p) = ROk (Some (pos, ref)) /\
      check_cmd E K m s = mkSeen s (Exit 0) (Some cs) /\ stands_for cs (check_output p pos ref
        (get_data_par_burst f (cp_burst p) (guess_from_param (cp_guess p) (cp_from p)) (cp_misalign p) ref) out (k_check K) (k_hash K) (k_text K))
  | RErr _ => exists cs ms msg, check_cmd E K m s = mkSeen s (Exit 2) (Some cs) /\ stands_for cs (error_json ms msg) /\
      (msg = str "Error : Failed to find reference block" \/ msg = k_text K)
  | RPanic => check_cmd E K m s = mkSeen s Panicked None
  end.
Proof.
  intros CP HF TC TH ETX CK VI FA FN HB HL OP.
  pose proof (check_request_go E m s inp l f p CK VI FA FN OP) as RQ. destruct FA as (ND & FR & FS & FC).
  assert (CMD : forall y, check_report (v_H E) (v_cpus E) p f (k_check K) (k_hash K) (k_text K) = y -> check_cmd E K m s =
    match y with ROk (cs, x) => mkSeen s (Exit x) (Some cs) | RErr _ => mkSeen s (Exit 2) None | RPanic => mkSeen s Panicked None end).
  { intros y Y. unfold check_cmd. rewrite RQ. unfold open_read. unfold S_Cli.named in FR. rewrite FR, FS, FC, Y. reflexivity. }
  destruct (check_file (v_H E) (v_cpus E) p f) as [out|e|] eqn:CF.
  - destruct (c59_check (v_H E) (v_cpus E) p f out (k_check K) (k_hash K) (k_text K) HB HL HF TC TH ETX CF) as (pos & ref & len' & from & cs & GR' & _ & CR & SF & _).
    exists pos, ref, cs. split; [exact GR'|]. split; [exact (CMD _ CR)|exact SF].
  - destruct (c59_check_error (v_H E) (v_cpus E) p f e (k_check K) (k_hash K) (k_text K) HB HL ETX CF) as (cs & ms & msg & CR & SF & MS).
    exists cs, ms, msg. split; [exact (CMD _ CR)|]. split; [exact SF|]. destruct MS as [(_ & _ & ->)|(? & ? & _ & _ & ->)]; auto.
  - rewrite (CMD RPanic); [reflexivity|]. unfold check_report. unfold check_file in CF |- *.
    destruct (get_ref_block _ _ _ _ _) as [[[pos ref]|]|?|]; cbn [rbind] in CF |- *; try discriminate CF; [rewrite CF; reflexivity|reflexivity].
Qed.
Print Assumptions c75_check_outcome.

(* show of any file: the metadata blocks found, of the UID asked for, in order, all or only the first, and exit code 0 even if there are none. *)
Theorem c75_show_any E K cal m s inp l f p lo hi bl :
  clap_ok m -> value_of m A_in_file = Some inp -> file_at E s inp l f -> (exists x, file_name_of inp x) -> bytes_ok f = true -> lenN f < 18446744073709551616 ->
  show_options m p -> is_present m A_guess_burst = false -> show_range p f lo hi -> blocks_shown p f lo hi bl -> plain_names bl ->
  exists cs, show_cmd E K cal (fun _ => None) m s = mkSeen s (Exit 0) (Some cs) /\ stands_for cs (success_json [(str "blocks", JArr (blocks_json cal 0 bl))]).
Proof.
  intros CK VI FA FN HB HL OP SG0 RNG BS PN. pose proof (show_request_go E m s inp l f p CK VI FA FN OP) as RQ. destruct FA as (ND & FR & FS & FC).
  assert (SG : sp_guess p = false) by (rewrite <- SG0; apply OP).
  destruct (c43_show_blocks cal (k_text K) p f _ _ _ HB HL RNG BS PN SG) as (cs & t & SH & DC & J).
  unfold show in SH. apply rbind_ok in SH. destruct SH as ((cs' & e) & SF & SH). apply ROk_inj in SH.
  assert (e = None) as ->.
  { destruct e as [e|]; [|reflexivity]. exfalso. unfold show_file, show_guess in SF. rewrite SG in SF. cbn [negb rbind] in SF.
    destruct (show_list cal p f _ _ HB HL RNG) as (l2 & _ & _ & SL). destruct (calc_required_len_and_seek_to_from_byte_range _ _ _ _ _ _) as [req lo']. rewrite SL in SF. discriminate SF. }
  exists cs. split. { unfold show_cmd. rewrite RQ. unfold open_read. unfold S_Cli.named in FR. rewrite FR, FS, FC, SF. unfold command_calls. rewrite SH. reflexivity. }
  exists t. split; [exact DC|exact J].
Qed.
Print Assumptions c75_show_any.
(* Asked to guess the burst level, show needs a metadata block. *)
Theorem c75_show_guess_any E K cal m s inp l f p lo hi :
  clap_ok m -> value_of m A_in_file = Some inp -> file_at E s inp l f -> (exists x, file_name_of inp x) -> bytes_ok f = true -> lenN f < 18446744073709551616 ->
  show_options m p -> is_present m A_guess_burst = true -> show_range p f lo hi -> no_block f lo hi (of_type TMeta) ->
  exists cs, show_cmd E K cal (fun _ => None) m s = mkSeen s (Exit 2) (Some cs) /\ stands_for cs (error_json [] (str "Error : Failed to find reference block")).
Proof.
  intros CK VI FA FN HB HL OP SG0 RNG NB. pose proof (show_request_go E m s inp l f p CK VI FA FN OP) as RQ. destruct FA as (ND & FR & FS & FC).
  assert (SG : sp_guess p = true) by (rewrite <- SG0; apply OP).
  destruct (c43_show_guess_fails cal (k_text K) p f _ _ HB HL RNG SG NB) as (cs & t & SH & DC & J).
  unfold show in SH. apply rbind_ok in SH. destruct SH as ((cs' & e) & SF & SH). apply ROk_inj in SH.
  assert (EE : exists x, e = Some x).
  { destruct RNG as (req & E0 & ->). destruct (range_in_file _ _ _ _ None _ _ ltac:(unfold mult_of; lia) HL E0) as (LO & _).
    pose proof (get_ref_block_ok f (sp_from p) (sp_to p) (sp_misalign p) (MustBe TMeta) HB) as G. rewrite E0 in G. destruct (G LO) as (r & ER & S). cbn [ref_spec] in S.
    assert (r = None) as ->. { destruct r as [[q b]|]; [|reflexivity]. destruct S as (h' & pl' & (LD' & A' & T' & _) & _). destruct (NB _ _ _ LD' A' T'). }
    unfold show_file, show_guess in SF. rewrite SG, ER in SF. cbn [negb rbind] in SF. apply ROk_inj, pair_inj in SF as [_ <-]. eauto. }
  destruct EE as (x & ->).
  exists cs. split. { unfold show_cmd. rewrite RQ. unfold open_read. unfold S_Cli.named in FR. rewrite FR, FS, FC, SF. unfold command_calls. rewrite SH. reflexivity. }
  exists t. split; [exact DC|exact J].
Qed.
Print Assumptions c75_show_guess_any.

(* Exit code 0 means that the options were understood and the input is a file that can be read; nothing is ever changed. *)
Definition readable_input (E : env) (m : matches) (s : fs) : Prop := exists inp l f, value_of m A_in_file = Some inp /\ S_Cli.named E s inp l /\ s l = Some (NFile f) /\ v_can E l = true.
Lemma readable E m s inf : get_in_file E s m = Go inf -> open_read s (v_cwd E) (v_can E) inf <> None -> readable_input E m s.
Proof.
  unfold get_in_file. destruct (value_of m A_in_file) as [x|] eqn:V; [|discriminate]. intros CI OR. apply check_in_file_go in CI. destruct CI as (-> & _).
  unfold open_read in OR. destruct (resolve s (v_cwd E) x) as [l|] eqn:R; [|congruence]. destruct (s l) as [[c|]|] eqn:SL; try congruence. destruct (v_can E l) eqn:CN; [|congruence].
  exists x, l, c. split; [exact V|]. split; [exact R|]. split; [exact SL|exact CN].
Qed.
Theorem c75_exit E K cal fails m s : clap_ok m ->
  sn_fs (check_cmd E K m s) = s /\ sn_fs (show_cmd E K cal fails m s) = s /\
  (sn_exit (check_cmd E K m s) = Exit 0 -> input_file E m s /\ readable_input E m s /\ exists p, check_options m p) /\
  (sn_exit (show_cmd E K cal fails m s) = Exit 0 -> input_file E m s /\ readable_input E m s /\ exists p, show_options m p).
Proof.
  intro CK. split; [|split; [|split]].
  - unfold check_cmd. destruct (check_request E s m) as [[inf p]|]; [|reflexivity]. destruct (open_read _ _ _ _) as [[? ?]|]; [|reflexivity]. destruct (check_report _ _ _ _ _ _ _) as [[? ?]|?|]; reflexivity.
  - unfold show_cmd. destruct (show_request E s m) as [[inf p]|]; [|reflexivity]. destruct (open_read _ _ _ _) as [[? ?]|]; [|reflexivity]. destruct (show_file _ _ _ _ _) as [[? ?]|?|]; reflexivity.
  - intro X. assert (N0 : never0 (check_request E s m)) by (unfold check_request, get_in_file, check_in_file, get_number, get_range_end, get_pr_verbosity_level; n0).
    destruct (check_request E s m) as [[inf p]|e] eqn:RQ.
    + destruct (proj1 (c62_check_options E s m p CK)) as (A & B); [eauto|]. split; [exact B|]. split; [|exists p; exact A].
      assert (HI : get_in_file E s m = Go inf).
      { unfold check_request in RQ. apply gbind_go in RQ. destruct RQ as ([] & _ & RQ). apply gbind_go in RQ. destruct RQ as (i & HI & RQ). repeat (apply gbind_go in RQ; destruct RQ as (? & _ & RQ); cbv zeta in RQ). injection RQ as <- _. exact HI. }
      apply (readable E m s inf HI). intro OR. unfold check_cmd in X. rewrite RQ, OR in X. discriminate X.
    + exfalso. unfold check_cmd in X. rewrite RQ in X. cbn [sn_exit] in X. apply N0. congruence.
  - intro X. assert (N0 : never0 (show_request E s m)) by (unfold show_request, get_in_file, check_in_file, parse_uid, get_number, get_range_end, get_pr_verbosity_level; n0).
    destruct (show_request E s m) as [[inf p]|e] eqn:RQ.
    + destruct (proj1 (c62_show_options E s m p CK)) as (A & B); [eauto|]. split; [exact B|]. split; [|exists p; exact A].
      assert (HI : get_in_file E s m = Go inf).
      { unfold show_request in RQ. apply gbind_go in RQ. destruct RQ as (i & HI & RQ). repeat (apply gbind_go in RQ; destruct RQ as (? & _ & RQ); cbv zeta in RQ). injection RQ as <- _. exact HI. }
      apply (readable E m s inf HI). intro OR. unfold show_cmd in X. rewrite RQ, OR in X. discriminate X.
    + exfalso. unfold show_cmd in X. rewrite RQ in X. cbn [sn_exit] in X. apply N0. congruence.
Qed.
Print Assumptions c75_exit.

(* ---- concrete cases: a damaged container, and a file without any block ---- *)
Definition damaged_fs : fs := M_Path.upd toy_fs (w_ ++ [str "o"; str "x"]) (NFile (takeN 1030 cont ++ [255] ++ dropN 1031 cont)).
Definition other_fs : fs := M_Path.upd toy_fs (w_ ++ [str "o"; str "x"]) (NFile (repN 700 83)).
Example c75_hypotheses : clap_ok (check_m []) /\ file_at mach damaged_fs (str "o/x") (w_ ++ [str "o"; str "x"]) (takeN 1030 cont ++ [255] ++ dropN 1031 cont) /\
  (exists x, file_name_of (str "o/x") x) /\ error_text (k_text a_timing) /\ (exists p, check_options (check_m []) p) /\ (exists p, show_options (check_m []) p) /\
  is_present (check_m []) A_hash = false /\ is_present (check_m []) A_hash_only = false /\ is_present (check_m []) A_guess_burst = false.
Proof.
  assert (FA : file_at mach damaged_fs (str "o/x") (w_ ++ [str "o"; str "x"]) (takeN 1030 cont ++ [255] ++ dropN 1031 cont)).
  { split; [discriminate|]. split; [vm_compute; reflexivity|]. split; [apply upd_same|reflexivity]. }
  assert (CK : clap_ok (check_m [])) by (split; [discriminate|]; cbn; auto).
  assert (IX : exists x, file_name_of (str "o/x") x).
  { exists (str "x"); split; [split; [discriminate|]; split; [cbn; intuition discriminate|split; discriminate]|]; exists []; split; [constructor|right; exists (str "o"); reflexivity]. }
  split; [exact CK|]. split; [exact FA|]. split; [exact IX|]. split; [split; [is_plain|cbn; tauto]|].
  split. { destruct (check_request mach damaged_fs (check_m [])) as [[inf p]|] eqn:RQ; [|exfalso; vm_compute in RQ; discriminate RQ]. exists p. apply (proj1 (c62_check_options mach damaged_fs (check_m []) p CK)). eauto. }
  split. { destruct (show_request mach damaged_fs (check_m [])) as [[inf p]|] eqn:RQ; [|exfalso; vm_compute in RQ; discriminate RQ]. exists p. apply (proj1 (c62_show_options mach damaged_fs (check_m []) p CK)). eauto. }
  repeat split; reflexivity.
Qed.
(* A damaged data block is counted as failed, and check still ends with exit code 0. *)
Example c75_run :
  (match said (check_cmd mach a_timing (check_m []) damaged_fs) with
   | Some (x, JObj ((_, JObj l) :: e)) => x = Exit 0 /\ nth_error l 5 = Some (str "numberOfBlocksFailedCheck", JNum (str "1")) /\ e = [(str "error", JNull)]
   | _ => False end) /\
  said (check_cmd mach a_timing (check_m []) other_fs) = Some (Exit 2, JObj [(str "error", JStr (str "Error : Failed to find reference block"))]) /\
  said (show_cmd mach a_timing (fun _ _ => None) (fun _ => None) (check_m []) other_fs) = Some (Exit 0, JObj [(str "blocks", JArr []); (str "error", JNull)]).
Proof. split; [vm_compute; auto|]. split; vm_compute; reflexivity. Qed.
