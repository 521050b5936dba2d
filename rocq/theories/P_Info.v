(* C61: encode --info-only. *)
From Coq Require Import String Ascii.
From Verif Require Import M_Base M_Specs M_Header M_Multihash M_Metadata M_Block M_Index M_FileUtils M_Buffer M_Ranges M_Encode
  M_Scan M_Loop M_Decode M_Sort M_Repair M_Rescue M_Hex M_Json M_Codec M_Path M_Cli M_Show M_Report M_Info
  S_Meta S_Block S_Index S_Container S_Encode S_Scan S_Decode S_Cli S_Json S_Show S_Report S_Again S_Info
  L_Base L_Block L_Index2 L_Path L_Cli L_Cli2 L_Cli3 L_Again L_Json2 L_Show L_Report L_Calc P_Index P_Encode P_Roundtrip P_Codec P_Cli P_Options P_Commands P_Calc P_Json.

(* Nothing is written. *)
Theorem c61_changes_nothing E m s : is_present m A_info_only = true -> rn_fs (encode_cmd E m s) = s /\ rn_stdout (encode_cmd E m s) = [].
Proof. intros I. unfold encode_cmd, M_Cli.run. rewrite I. destruct (encode_request E s m); split; reflexivity. Qed.
Print Assumptions c61_changes_nothing.

Lemma run_place E s q l : rn_fs (encode_run E s q) l <> s l -> resolve s (v_cwd E) (eq_out q) = Some l.
Proof.
  unfold encode_run. destruct (if is_dash (eq_in q) then _ else _) as [inp|]; [|cbn; congruence].
  destruct (open_write s (v_cwd E) (v_can E) true (eq_out q)) as [[lo s1]|] eqn:W; [|cbn; congruence].
  apply open_write_some in W as (RO & _ & _ & ->). intro H. destruct (loc_eqb l lo) eqn:Q; [apply loc_eqb_eq in Q; congruence|]. apply loc_eqb_neq in Q. exfalso. apply H.
  repeat match goal with
  | |- context [match ?x with _ => _ end] => destruct x
  | |- _ => progress cbn [rn_fs]
  end; rewrite !upd_other; congruence.
Qed.
Lemma made_place E m s l : s l = None -> rn_fs (encode_cmd E m s) l <> None -> exists q, encode_request E s m = Go q /\ resolve s (v_cwd E) (eq_out q) = Some l.
Proof.
  intros SN. unfold encode_cmd, M_Cli.run. destruct (encode_request E s m) as [q|]; [|cbn; congruence]. cbv beta. destruct (is_present m A_info_only); [cbn; congruence|].
  match goal with |- context [if ?b then _ else _] => destruct b end; [cbn; congruence|]. intro H. exists q. split; [reflexivity|]. apply run_place. congruence.
Qed.

(* If encode writes a container of a whole file, encode --info-only, run before it, ends with exit code 0 and tells: the name and the size of the file, its time, the version and
   the shards, where the container will be and how long it will be. *)
Theorem c61_predicts E m m' s inp li content v o n :
  is_present m A_info_only = true -> minus_info m m' ->
  machine_ok E -> text_ok m' -> value_of m' A_in_file = Some inp -> file_at E s inp li content ->
  bytes_ok content = true -> lenN content < 18446744073709551616 ->
  whole_file m' -> with_metadata m' o -> is_present m' A_force = false -> version_options m' v o ->
  match o with Some (d, p, B) => (d + p) * B < 4294967296 | None => True end -> codec_ok (v_rs E) o ->
  block_count v o (lenN content) n -> n < U32_MAX ->
  rn_exit (encode_cmd E m' s) = Exit 0 ->
  rn_exit (encode_cmd E m s) = Exit 0 /\
  exists q i place container, encode_request E s m = Go q /\ encode_info E s q = Go i /\
    ei_in i = inp /\ ei_size i = lenN content /\ ei_mtime i = v_mtime E li /\ ei_ver i = v /\ ei_dpb i = o /\
    derived_place E m s (container_ext m) place /\ named E s (ei_out i) place /\
    rn_fs (encode_cmd E m' s) place = Some (NFile container) /\ lenN container = ei_container i.
Proof.
  intros IO (MV & MP & MI) MO TX VI FA CB CL WF WM NF VO OB CO BC HN X.
  assert (SI : spares_input E m' s li) by (intro F; congruence).
  destruct (encode_exit0 E m' s inp li content v o n MO TX VI FA CB CL WF WM SI VO OB CO BC HN X)
    as (p & out & lc & name & UI & FN & EV & EO & EI & EF & ET & ME & OK & MF & (mx & HMX & LM) & EN & EC & DP & SN & RC & SB).
  specialize (SN NF). destruct (made_place E m' s lc SN ltac:(congruence)) as (q & Q & RQ).
  assert (Q' : encode_request E s m = Go q).
  { rewrite <- Q. unfold encode_request, get_ver_and_data_par_burst_w_defaults, get_shards, get_in_file_accept_stdin, encode_out_name, get_pr_verbosity_level, get_number, get_range_end.
    rewrite !MV, MP by discriminate. reflexivity. }
  destruct (encode_request_parts _ _ _ _ Q) as (VI' & CI & _ & EM & GV & _). rewrite VI in VI'. injection VI' as EI'.
  pose proof (proj2 (version_options_iff m' v o) VO) as GV'. rewrite GV in GV'. injection GV' as EV' EO'.
  destruct (options_ok m' v o VO) as (DO & _).
  destruct (container_size_ok v (Some (eq_meta q)) o (lenN content) n DO BC HN OB) as (sz & SZ & SE).
  assert (IN : encode_info E s q = Go (mkEncInfo inp (eq_out q) v o (lenN content) sz (v_mtime E li))).
  { unfold encode_info, open_read. pose proof FA as (FD & FR & FS & FC). rewrite <- EI', EV', EO'. unfold named in FR. rewrite FR, FS, FC, SZ.
    assert (ID : is_dash inp = false) by (apply eqbl_neq; exact FD). rewrite ID. reflexivity. }
  split. { unfold encode_cmd, M_Cli.run. rewrite Q', IO, IN. reflexivity. }
  exists q, (mkEncInfo inp (eq_out q) v o (lenN content) sz (v_mtime E li)), lc, (eo_file out). cbn [ei_in ei_out ei_size ei_mtime ei_ver ei_dpb ei_container].
  split; [exact Q'|]. split; [exact IN|]. do 5 (split; [reflexivity|]).
  split. { unfold derived_place, container_ext in *. rewrite !MV in DP. exact DP. }
  split; [exact RQ|]. split; [exact RC|].
  destruct EC as (_ & (meta & IC & _) & _). rewrite ME, EV, EO in IC.
  assert (ME' : forall i, used_index (eq_meta q) o n i <-> used_index true o n i).
  { intro i. destruct o as [[[d r] B]|]; [reflexivity|]. rewrite EM. destruct WM as [->|W]; [reflexivity|congruence]. }
  destruct IC as (n' & BN & _ & _ & _ & I5 & I6). assert (n' = n) by (apply block_count_iff in BC, BN; try exact DO; congruence). subst n'.
  apply (is_end_uniq (ver_to_block_size v) (used_index true o n)).
  - pose proof (block_size_pos v) as BP. split; [intros i U; rewrite N.mul_comm; apply I5, U|].
    destruct I6 as [Z|(i & U & Z)]; [left; split; [exact Z|]|right; exists i; split; [exact U|rewrite Z; apply N.mul_comm]]. intros i U. apply I5 in U. rewrite Z in U. nia.
  - destruct SE as (SE1 & SE2). split; [intros i U; apply SE1, ME', U|].
    destruct SE2 as [(Z & NW)|(i & U & Z)]; [left; split; [exact Z|intros i U; apply (NW i), ME', U]|right; exists i; split; [apply ME', U|exact Z]].
Qed.
Print Assumptions c61_predicts.

(* With --json this is printed as one JSON value. (Of the names: they consist of printable ASCII characters, see C41.) *)
Lemma fine_mtime cal o : fine false (info_time cal o) (opt (mtime_json cal) o).
Proof.
  apply fine_opt. intros x _. unfold mtime_json. rewrite !date_time_ok.
  pose proof (fine_time cal x) as F. unfold show_time, time_json in F. rewrite !date_time_ok in F.
  destruct (cal UTC x) as [u|], (cal Local x) as [l|]; cbn [option_map] in *; try exact F;
    (split; [split; [discriminate|split; [chars|split; discriminate]]|apply shown_space; cbn; tauto]).
Qed.
Lemma info_items cal i : info_stats_calls cal i = flat_map calls [GroupItem (Some (str "stats")) Curly (fields_of (info_stats_calls cal i))].
Proof. unfold info_stats_calls. destruct (ver_uses_rs (ei_ver i)); [destruct (match ei_dpb i with Some x => x | None => (0, 0, 0) end) as [[d p] b]|]; reflexivity. Qed.
Theorem c61_json E cal s q i : encode_info E s q = Go i ->
  S_Json.plain (ei_in i) -> shown false (ei_in i) (JStr (ei_in i)) -> S_Json.plain (ei_out i) -> shown false (ei_out i) (JStr (ei_out i)) ->
  ver_uses_rs (ei_ver i) = match ei_dpb i with Some _ => true | None => false end ->
  match ei_dpb i with Some (d, p, b) => d < 18446744073709551616 /\ p < 18446744073709551616 /\ b < 18446744073709551616 | None => True end ->
  ei_size i < 18446744073709551616 -> ei_container i < 18446744073709551616 ->
  stands_for (info_calls E cal s q) (success_json [(str "stats", info_json cal i)]).
Proof.
  intros IN P1 S1 P2 S2 VR DB Z1 Z2. unfold info_calls. rewrite IN.
  assert (M : member (GroupItem (Some (str "stats")) Curly (fields_of (info_stats_calls cal i))) (str "stats") (info_json cal i)).
  { destruct (ver_small (ei_ver i)) as (V1 & V2 & V3). apply group_lit; try reflexivity. unfold info_json. apply c_object. unfold info_stats_calls. rewrite VR.
    pose proof (fine_mtime cal (ei_mtime i)) as FT. revert FT. generalize (info_time cal (ei_mtime i)) (opt (mtime_json cal) (ei_mtime i)). intros r1 j1 FT.
    destruct (ei_dpb i) as [[[d p] b]|]; fields; repeat (member_of ltac:(first [exact FT|exact (conj P1 S1)|exact (conj P2 S2)|apply fine_dec; lia])); apply ms_nil. }
  apply (report_ok [GroupItem (Some (str "stats")) Curly (fields_of (info_stats_calls cal i))]); [apply ms_cons; [exact M|apply ms_nil]|apply info_items].
Qed.
Print Assumptions c61_json.

(* The size is that of the whole file in a container, even if only a part of it is to be encoded (finding F33). *)
Definition part_vals := [(A_sbx_version, str "2"); (A_in_file, str "a"); (A_from_pos, str "200")].
Theorem c61_range_refuted : exists E m m' s q i place container,
  is_present m A_info_only = true /\ minus_info m m' /\ rn_exit (encode_cmd E m' s) = Exit 0 /\
  encode_request E s m = Go q /\ encode_info E s q = Go i /\ named E s (ei_out i) place /\ rn_fs (encode_cmd E m' s) place = Some (NFile container) /\
  lenN container = 256 /\ ei_container i = 512.
Proof.
  exists toy_env, (cmd part_vals [A_info_only]), (cmd part_vals []), toy_fs. do 2 eexists. exists (w_ ++ [str "a.sbx"]). eexists.
  split; [reflexivity|]. split; [repeat split; intros a N; destruct a; cbn; try reflexivity; congruence|]. split; [vm_compute; reflexivity|]. split; [vm_compute; reflexivity|].
  split; [vm_compute; reflexivity|]. split; [vm_compute; reflexivity|]. split; [vm_compute; reflexivity|]. split; vm_compute; reflexivity.
Qed.
Print Assumptions c61_range_refuted.
(* What is printed with --json when the input is standard input is no JSON: the error is reported inside the group "stats", which is not closed (finding F23). *)
Theorem c61_stdin_json_refuted E cal s q : eq_in q = str "-" ->
  exists t st, do_calls (info_calls E cal s q) [] = ROk (t, st) /\ st <> [] /\ forall j, ~ json_text t j.
Proof.
  intro Q. unfold info_calls, encode_info. rewrite Q. eexists _, _. split; [vm_compute; reflexivity|]. split; [discriminate|]. apply not_json. vm_compute. reflexivity.
Qed.
Print Assumptions c61_stdin_json_refuted.

(* Standard input, and a file that is missing or cannot be read, are refused. *)
Theorem c61_refused E m s inp : is_present m A_info_only = true -> clap_ok m -> value_of m A_in_file = Some inp ->
  (inp = str "-" \/ forall li c, ~ file_at E s inp li c) ->
  same s (rn_fs (encode_cmd E m s)) /\
  (rn_exit (encode_cmd E m s) = Exit 1 \/ rn_exit (encode_cmd E m s) = Panicked /\
     exists d p, number_option m A_rs_data (Some d) /\ number_option m A_rs_parity (Some p) /\ 18446744073709551616 <= d + p).
Proof.
  intros I CK VI R. destruct (encode_request E s m) as [q|e] eqn:Q.
  - unfold encode_cmd. rewrite Q. cbn [M_Cli.run]. rewrite I. cbn [rn_fs rn_exit]. split; [intro; reflexivity|]. left.
    assert (EI : eq_in q = inp).
    { unfold encode_request in Q. repeat (apply gbind_go in Q; let x := fresh in let e := fresh in destruct Q as (x & e & Q); try destruct x as [? ?]).
      injection Q as <-. cbn [eq_in]. match goal with H : get_in_file_accept_stdin _ _ _ = _ |- _ => unfold get_in_file_accept_stdin in H; rewrite VI in H; destruct (is_dash inp) eqn:D end;
      [apply eqbl_eq in D; congruence|]. match goal with H : check_in_file _ _ _ = _ |- _ => apply check_in_file_iff in H; apply H end. }
    unfold encode_info. rewrite EI. destruct (is_dash inp) eqn:D; [reflexivity|]. destruct R as [->|R]; [discriminate D|].
    destruct (open_read s (v_cwd E) (v_can E) inp) as [[li c]|] eqn:O; [|reflexivity]. exfalso. apply (R li c).
    unfold open_read in O. destruct (resolve s (v_cwd E) inp) as [l|] eqn:RS; [|discriminate O]. destruct (s l) as [[c'|]|] eqn:SL; try discriminate O.
    destruct (v_can E l) eqn:VC; [|discriminate O]. injection O as -> ->. split; [intros ->; discriminate D|]. split; [exact RS|]. split; [exact SL|exact VC].
  - apply c48_encode_invalid; [exact CK|]. intros uid v o h from to X. apply c48_encode_options in X. destruct X as (inf & out & X). congruence.
Qed.
Print Assumptions c61_refused.
Example c61_refused_run : rn_exit (encode_cmd mach (cmd [(A_in_file, str "-"); (A_out, str "x")] [A_info_only]) toy_fs) = Exit 1 /\
  rn_exit (encode_cmd mach (cmd [(A_in_file, str "missing")] [A_info_only]) toy_fs) = Exit 1.
Proof. split; vm_compute; reflexivity. Qed.

(* ---- a concrete case: the file of C49 ---- *)
Definition enc_vals := [(A_sbx_version, str "17"); (A_rs_data, str "2"); (A_rs_parity, str "1"); (A_burst, str "2"); (A_in_file, str "a")].
Definition enc_i : matches := cmd enc_vals [A_info_only].
Definition no_cal : calendar := fun _ _ => None.
Example c61_hypotheses : is_present enc_i A_info_only = true /\ minus_info enc_i enc_m /\
  (forall v, In v [str "a"; str "a.ecsbx"] -> S_Json.plain v /\ shown false v (JStr v)).
Proof.
  split; [reflexivity|]. split; [repeat split; intros a N; destruct a; cbn; try reflexivity; congruence|].
  intros v [<-|[<-|[]]]; (split; [is_plain|apply sh_str; try discriminate; apply not_numeral; [reflexivity|discriminate]]).
Qed.
Example c61_run : match encode_request mach toy_fs enc_i with
  | Go q => match encode_info mach toy_fs q with
            | Go i => (ei_size i, ei_container i) = (300, 3584) /\ ei_out i = str "a.ecsbx" /\
                      match do_calls (info_calls mach no_cal toy_fs q) [] with ROk (t, []) => parse_json t = Some (success_json [(str "stats", info_json no_cal i)]) | _ => False end
            | _ => False end
  | _ => False end.
Proof. vm_compute. repeat split. Qed.
