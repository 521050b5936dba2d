(* C48: what options are accepted, and what they mean. *)
From Coq Require Import String Ascii.
From Verif Require Import M_Base M_Specs M_Header M_Multihash M_Metadata M_Block M_Index M_FileUtils M_Buffer M_Ranges M_Encode
  M_Scan M_Loop M_Decode M_Sort M_Rescue M_Hex M_Json M_Path M_Cli S_Index S_Encode S_Cli L_Base L_Path L_Cli L_Cli2 P_Encode P_Cli.

Theorem c48_number x n : parse_unsigned x = Some n <-> is_number x n.
Proof. exact (parse_number x n). Qed.
Print Assumptions c48_number.

Lemma verbosity_iff m u : get_pr_verbosity_level m = Go u <-> verbosity_option m.
Proof.
  destruct u. unfold get_pr_verbosity_level, verbosity_option. destruct (value_of m A_pr_verbosity_level) as [x|]; [|tauto].
  change (str "0") with [48]. change (str "1") with [49]. change (str "2") with [50]. cbn [In].
  destruct (eqbl x [48]) eqn:A; [apply eqbl_eq in A; subst; cbn; tauto|]. destruct (eqbl x [49]) eqn:B; [apply eqbl_eq in B; subst; cbn; tauto|].
  destruct (eqbl x [50]) eqn:C; [apply eqbl_eq in C; subst; cbn; tauto|]. cbn. apply eqbl_neq in A, B, C. split; [discriminate|intuition congruence].
Qed.
Lemma check_in_file_iff E s x y : check_in_file E s x = Go y <-> y = x /\ exists l c n, named E s x l /\ s l = Some (NFile c) /\ file_name_of x n.
Proof.
  split.
  - intro H. apply check_in_file_go in H. destruct H as (-> & l & n & R & NN & ND & P). split; [reflexivity|]. destruct (s l) as [[c|]|] eqn:S; try congruence.
    exists l, c, n. repeat split; auto; apply part_sound in P; apply P.
  - intros (-> & l & c & n & R & S & FN). unfold check_in_file. assert (PE : path_exists s (v_cwd E) x = true) by (apply exists_resolve; exists l; split; [exact R|congruence]).
    rewrite PE. cbn [negb]. apply part_iff in FN. rewrite FN. destruct (path_is_dir s (v_cwd E) x) eqn:PD; [|reflexivity].
    apply is_dir_resolve in PD. destruct PD as (l' & R' & D). unfold named in R. congruence.
Qed.
Lemma in_file_iff E s m : (exists inf, get_in_file E s m = Go inf) <-> input_file E m s.
Proof.
  unfold get_in_file, input_file. split.
  - intros (inf & H). destruct (value_of m A_in_file) as [x|]; [|discriminate]. apply check_in_file_iff in H. destruct H as (-> & l & c & n & H). eauto 6.
  - intros (inp & l & c & n & V & H). rewrite V. exists inp. apply check_in_file_iff. eauto 6.
Qed.
Lemma in_out_iff E s m v : (exists inf out, get_in_file_accept_stdin E s m = Go inf /\ encode_out_name E s m v inf = Go out) <-> input_or_stdin E m s.
Proof.
  unfold get_in_file_accept_stdin, encode_out_name, input_or_stdin, input_file. split.
  - intros (inf & out & HI & HO). destruct (value_of m A_in_file) as [x|]; [|discriminate]. destruct (is_dash x) eqn:D.
    + injection HI as <-. rewrite D in HO. apply eqbl_eq in D. subst x. right. split; [reflexivity|]. destruct (value_of m A_out) as [o|]; [|discriminate].
      destruct (path_is_dir s (v_cwd E) o) eqn:PD; [discriminate|]. exists o. split; [reflexivity|]. intros l N. eapply not_dir_named; eassumption.
    + left. apply eqbl_neq in D. split; [congruence|]. apply check_in_file_iff in HI. destruct HI as (-> & l & c & n & H). eauto 6.
  - intros [(D & x & l & c & n & V & H)|(D & o & VO & ND)].
    + rewrite V in *. assert (D' : is_dash x = false) by (apply eqbl_neq; congruence). rewrite D'.
      assert (C : check_in_file E s x = Go x) by (apply check_in_file_iff; eauto 6). rewrite C. destruct H as (_ & _ & FN). apply part_iff in FN.
      destruct (value_of m A_out) as [o|]; [destruct (path_is_dir s (v_cwd E) o)|]; eexists _, _; (split; [reflexivity|]); try rewrite D'; try rewrite FN; reflexivity.
    + rewrite D, VO. cbn. destruct (path_is_dir s (v_cwd E) o) eqn:PD; [apply is_dir_resolve in PD; destruct PD as (l & R & X); exfalso; exact (ND l R X)|].
      eexists _, _. split; reflexivity.
Qed.
Lemma uid_iff E m uid : match value_of m A_uid with None => Go (v_random E) | Some x => parse_uid x end = Go uid <-> uid_option E m uid.
Proof.
  unfold uid_option. destruct (value_of m A_uid) as [x|]; [apply parse_uid_iff|]. split; congruence.
Qed.
Lemma hash_opt_iff m h : match value_of m A_hash_type with None => Go SHA256 | Some x => match string_to_hash_type x with Some h => Go h | None => Stop (Exit 1) end end = Go h <-> hash_option m h.
Proof.
  unfold hash_option. destruct (value_of m A_hash_type) as [x|]; [|split; congruence]. rewrite <- hash_iff. destruct (string_to_hash_type x); split; congruence.
Qed.

(* encode takes its parameters from the options as documented, and accepts exactly what is valid. *)
Theorem c48_encode_options E s m uid v o h from to :
  (exists inf out, encode_request E s m = Go (mkEncRequest uid v o inf out h (negb (is_present m A_no_meta)) from to)) <->
  uid_option E m uid /\ version_options m v o /\ hash_option m h /\ verbosity_option m /\ number_option m A_from_pos from /\
  range_option m A_to_pos_inc A_to_pos_exc to /\ input_or_stdin E m s.
Proof.
  rewrite <- uid_iff, <- version_options_iff, <- hash_opt_iff, <- (verbosity_iff m tt), <- number_iff, <- range_iff, <- (in_out_iff E s m v).
  unfold encode_request. split.
  - intros (inf & out & H). apply gbind_go in H. destruct H as (u & HU & H). apply gbind_go in H. destruct H as ((v' & o') & HV & H).
    apply gbind_go in H. destruct H as (i & HI & H). apply gbind_go in H. destruct H as (ot & HO & H). apply gbind_go in H. destruct H as (h' & HH & H).
    apply gbind_go in H. destruct H as ([] & HP & H). apply gbind_go in H. destruct H as (f & HF & H). apply gbind_go in H. destruct H as (t & HT & H).
    injection H as -> -> -> -> -> -> -> ->. repeat split; auto. eauto.
  - intros (HU & HV & HH & HP & HF & HT & inf & out & HI & HO). exists inf, out. rewrite HU. cbn [gbind]. rewrite HV. cbn [gbind]. rewrite HI. cbn [gbind].
    rewrite HO. cbn [gbind]. rewrite HH. cbn [gbind]. rewrite HP. cbn [gbind]. rewrite HF. cbn [gbind]. rewrite HT. reflexivity.
Qed.
Print Assumptions c48_encode_options.

(* What is accepted is what the encoder can work with. *)
Theorem c48_encode_parameters E s m q : lenN (v_random E) = 6 -> bytes_ok (v_random E) = true -> encode_request E s m = Go q ->
  lenN (eq_uid q) = 6 /\ bytes_ok (eq_uid q) = true /\ dpb_ok (eq_dpb q) /\
  ver_uses_rs (eq_ver q) = (match eq_dpb q with Some _ => true | None => false end) /\ hash_supported (eq_hash q) = true.
Proof.
  intros R1 R2 Q.
  assert (M : eq_meta q = negb (is_present m A_no_meta)).
  { unfold encode_request in Q. repeat (apply gbind_go in Q; let x := fresh in let e := fresh in destruct Q as (x & e & Q); try destruct x as [? ?]). injection Q as <-. reflexivity. }
  destruct q as [uid v o inf out h me from to]. cbn in *. subst me.
  assert (X : exists inf out, encode_request E s m = Go (mkEncRequest uid v o inf out h (negb (is_present m A_no_meta)) from to)) by eauto.
  apply c48_encode_options in X. destruct X as (U & V & HH & _).
  assert (UU : lenN uid = 6 /\ bytes_ok uid = true).
  { unfold uid_option in U. destruct (value_of m A_uid) as [x|]; [destruct U as (L & HB); split; [exact L|apply (hex_bytes_shape _ _ HB)]|subst; auto]. }
  split; [apply UU|]. split; [apply UU|]. unfold version_options in V. unfold hash_option in HH.
  assert (HS : hash_supported h = true).
  { destruct (value_of m A_hash_type) as [x|]; [|subst; reflexivity]. unfold hashes in HH. cbn [In] in HH.
    repeat (destruct HH as [HH|HH]; [injection HH as _ <-; reflexivity|]). destruct HH. }
  destruct (value_of m A_sbx_version) as [x|].
  - destruct V as (_ & V). destruct o as [[[d p] B]|]; cbn.
    + destruct V as (VV & _ & _ & D1 & D2 & D3 & _). split; [auto|]. split; [destruct VV as [->|[->| ->]]; reflexivity|exact HS].
    + split; [exact Logic.I|]. split; [destruct V as [->|[->| ->]]; reflexivity|exact HS].
  - destruct V as (_ & _ & _ & -> & ->). cbn. split; [lia|]. split; [reflexivity|exact HS].
Qed.
Print Assumptions c48_encode_parameters.

(* Anything else ends the command at once: exit code 1, and nothing is changed. (Shard counts whose sum does not fit in 64 bits make the
   Reed-Solomon library panic instead.) *)
Theorem c48_encode_invalid E s m : clap_ok m ->
  (forall uid v o h from to, ~ (uid_option E m uid /\ version_options m v o /\ hash_option m h /\ verbosity_option m /\
     number_option m A_from_pos from /\ range_option m A_to_pos_inc A_to_pos_exc to /\ input_or_stdin E m s)) ->
  same s (rn_fs (encode_cmd E m s)) /\
  (rn_exit (encode_cmd E m s) = Exit 1 \/ rn_exit (encode_cmd E m s) = Panicked /\
     exists d p, number_option m A_rs_data (Some d) /\ number_option m A_rs_parity (Some p) /\ 18446744073709551616 <= d + p).
Proof.
  intros (CI & CT & _) NV. unfold encode_cmd. destruct (encode_request E s m) as [q|e] eqn:Q.
  - exfalso. assert (M : eq_meta q = negb (is_present m A_no_meta)).
    { unfold encode_request in Q. repeat (apply gbind_go in Q; let x := fresh in let e := fresh in destruct Q as (x & e & Q); try destruct x as [? ?]). injection Q as <-. reflexivity. }
    destruct q as [uid v o inf out h me from to]. cbn in M. subst me. apply (NV uid v o h from to). apply c48_encode_options. eauto.
  - cbn [run rn_fs rn_exit]. split; [intro; reflexivity|]. revert Q. unfold encode_request.
    destruct (match value_of m A_uid with None => _ | Some _ => _ end) as [uid|e'] eqn:U.
    2:{ cbn. intro H. injection H as <-. left. f_equal. destruct (value_of m A_uid); [apply parse_uid_stop in U; exact U|discriminate]. }
    cbn [gbind]. destruct (get_ver_and_data_par_burst_w_defaults m) as [[v o]|e'] eqn:V.
    2:{ cbn. intro H. injection H as <-. apply version_stop in V. destruct V as [->|[-> X]]; [left; reflexivity|right; auto]. }
    cbn [gbind]. unfold get_in_file_accept_stdin. destruct (value_of m A_in_file) as [x|]; [|congruence].
    assert (IC : (if is_dash x then Go x else check_in_file E s x) = Go x /\ (is_dash x = true \/ exists n, get_file_name_part_of_path x = Some n) \/ (if is_dash x then Go x else check_in_file E s x) = Stop (Exit 1)).
    { destruct (is_dash x); [auto|]. unfold check_in_file. destruct (negb _); [auto|]. destruct (get_file_name_part_of_path x) as [n|]; [|auto]. destruct (path_is_dir _ _ _); eauto. }
    destruct IC as [(-> & IC)| ->]; [|cbn; left; congruence]. cbn [gbind].
    assert (OC : (exists out, encode_out_name E s m v x = Go out) \/ encode_out_name E s m v x = Stop (Exit 1)).
    { unfold encode_out_name. destruct (value_of m A_out) as [y|]; [destruct (path_is_dir _ _ _)|]; destruct (is_dash x); eauto.
      destruct IC as [IC|(n & ->)]; [discriminate|]. eauto. }
    destruct OC as [(out & ->)| ->]; [|cbn; left; congruence]. cbn [gbind].
    destruct (value_of m A_hash_type) as [y|]; [destruct (string_to_hash_type y) as [h|]; [|cbn; left; congruence]|]; cbn [gbind].
    all: unfold get_pr_verbosity_level; destruct (value_of m A_pr_verbosity_level) as [z|]; [destruct (_ || _ || _); [|cbn; left; congruence]|]; cbn [gbind].
    all: unfold get_number; destruct (value_of m A_from_pos) as [z1|]; [destruct (parse_unsigned z1); [|cbn; left; congruence]|]; cbn [gbind].
    all: unfold get_range_end; destruct (value_of m A_to_pos_inc) as [z2|], (value_of m A_to_pos_exc) as [z3|]; try (destruct CT; discriminate);
      try (destruct (parse_unsigned z2)); try (destruct (parse_unsigned z3)); cbn [gbind]; try discriminate; left; congruence.
Qed.
Print Assumptions c48_encode_invalid.

(* decode and sort *)
Lemma multi_iff m mp : (is_present m A_multi_pass = false \/ is_present m A_multi_pass_no_skip = false) ->
  (get_multi_pass m = Go mp <-> mp = (if is_present m A_multi_pass then Some SkipGood else if is_present m A_multi_pass_no_skip then Some OverwriteAll else None)).
Proof. unfold get_multi_pass. destruct (is_present m A_multi_pass), (is_present m A_multi_pass_no_skip); intros [?|?]; try discriminate; split; congruence. Qed.
Theorem c48_decode_options E s m q : clap_ok m ->
  ((exists inf, decode_request E s m = Go (inf, q)) <-> scan_options m q /\ input_file E m s).
Proof.
  intros (_ & _ & _ & CM). unfold scan_options, flags_of. rewrite <- (verbosity_iff m tt), <- !number_iff, <- !range_iff, <- in_file_iff, <- (multi_iff m _ CM). unfold decode_request. split.
  - intros (inf & H). apply gbind_go in H. destruct H as ([] & HP & H). apply gbind_go in H. destruct H as (b & HB & H). apply gbind_go in H. destruct H as (i & HI & H).
    apply gbind_go in H. destruct H as (f & HF & H). apply gbind_go in H. destruct H as (t & HT & H). apply gbind_go in H. destruct H as (rf & HRF & H).
    apply gbind_go in H. destruct H as (rt & HRT & H). apply gbind_go in H. destruct H as (g & HG & H). apply gbind_go in H. destruct H as (mp & HM & H).
    injection H as -> <-. cbn. repeat split; auto. eauto.
  - intros ((HP & HB & HF & HT & HRF & HRT & HG & F1 & F2 & F3 & HM) & inf & HI). exists inf. destruct q as [ch rf rt g fw mp f t mi b]. cbn in *.
    rewrite HP. cbn [gbind]. rewrite HB. cbn [gbind]. rewrite HI. cbn [gbind]. rewrite HF. cbn [gbind]. rewrite HT. cbn [gbind]. rewrite HRF. cbn [gbind].
    rewrite HRT. cbn [gbind]. rewrite HG. cbn [gbind]. rewrite HM. cbn [gbind]. subst. reflexivity.
Qed.
Print Assumptions c48_decode_options.
Theorem c48_decode_invalid E s m : clap_ok m -> (forall q, ~ (scan_options m q /\ input_file E m s)) ->
  same s (rn_fs (decode_cmd E m s)) /\ rn_exit (decode_cmd E m s) = Exit 1.
Proof.
  intros C NV. unfold decode_cmd. destruct (decode_request E s m) as [(inf, q)|e] eqn:Q.
  - exfalso. apply (NV q). apply (c48_decode_options E s m q C). eauto.
  - cbn [run rn_fs rn_exit]. split; [intro; reflexivity|]. destruct C as (CI & CT & CR & CM). revert Q.
    unfold decode_request, get_pr_verbosity_level. destruct (value_of m A_pr_verbosity_level) as [z|]; [destruct (_ || _ || _); [|cbn; congruence]|]; cbn [gbind].
    all: unfold get_number; destruct (value_of m A_burst) as [z1|]; [destruct (parse_unsigned z1); [|cbn; congruence]|]; cbn [gbind].
    all: unfold get_in_file, check_in_file; destruct (value_of m A_in_file) as [x|]; [|congruence]; destruct (negb _); [cbn; congruence|];
      destruct (get_file_name_part_of_path x); [|cbn; congruence]; destruct (path_is_dir _ _ _); [cbn; congruence|]; cbn [gbind].
    all: destruct (value_of m A_from_pos) as [z4|]; [destruct (parse_unsigned z4); [|cbn; congruence]|]; cbn [gbind].
    all: unfold get_range_end; destruct (value_of m A_to_pos_inc) as [z2|], (value_of m A_to_pos_exc) as [z3|]; try (destruct CT; discriminate);
      try (destruct (parse_unsigned z2); [|cbn; congruence]); try (destruct (parse_unsigned z3); [|cbn; congruence]); cbn [gbind].
    all: destruct (value_of m A_ref_from_pos) as [z5|]; [destruct (parse_unsigned z5); [|cbn; congruence]|]; cbn [gbind].
    all: destruct (value_of m A_ref_to_pos_inc) as [z6|], (value_of m A_ref_to_pos_exc) as [z7|]; try (destruct CR; discriminate);
      try (destruct (parse_unsigned z6); [|cbn; congruence]); try (destruct (parse_unsigned z7); [|cbn; congruence]); cbn [gbind].
    all: destruct (value_of m A_guess_burst_from_pos) as [z8|]; [destruct (parse_unsigned z8); [|cbn; congruence]|]; cbn [gbind].
    all: unfold get_multi_pass; destruct (is_present m A_multi_pass), (is_present m A_multi_pass_no_skip); destruct CM; try discriminate; cbn; congruence.
Qed.
Print Assumptions c48_decode_invalid.

Example c48_numbers : map parse_unsigned [str "0"; str "+7"; str "18446744073709551615"; str "18446744073709551616"; str ""; str "+"; str "-1"; str "1 "; str "++1"; str "007"]
  = [Some 0; Some 7; Some 18446744073709551615; None; None; None; None; None; None; Some 7].
Proof. vm_compute. reflexivity. Qed.
Definition ok_m : matches := cmd [(A_sbx_version, str "18"); (A_rs_data, str "3"); (A_rs_parity, str "2"); (A_burst, str "4"); (A_uid, str "0a1B2c3D4e5F");
  (A_hash_type, str "BLAKE2b-512"); (A_in_file, str "a"); (A_from_pos, str "+5"); (A_to_pos_exc, str "20")] [A_no_meta].
Example c48_run : clap_ok ok_m /\ encode_request toy_env toy_fs ok_m =
  Go (mkEncRequest [10; 27; 44; 61; 78; 95] V18 (Some (3, 2, 4)) (str "a") (str "a.ecsbx") BLAKE2B_512 false (Some 5) (Some (Exc 20))).
Proof. split; [repeat split; vm_compute; try discriminate; auto|vm_compute; reflexivity]. Qed.
Example c48_run_bad : forallb (fun x => match rn_exit (encode_cmd toy_env (cmd ((A_in_file, str "a") :: x) []) toy_fs) with Exit 1 => true | _ => false end)
  [[(A_sbx_version, str "4")]; [(A_rs_data, str "3")]; [(A_sbx_version, str "17"); (A_rs_data, str "3")]; [(A_uid, str "0a1b2c3d4e")]; [(A_hash_type, str "md5")];
   [(A_sbx_version, str "17"); (A_rs_data, str "255"); (A_rs_parity, str "2")]; [(A_from_pos, str "x")]; [(A_hash_type, str "sha2-512-256")]] = true.
Proof. vm_compute. reflexivity. Qed.
