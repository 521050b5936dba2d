(* C76: decode to standard output puts the content there, and nothing else. *)
From Coq Require Import String Ascii.
From Verif Require Import M_Base M_Specs M_Header M_Multihash M_Metadata M_Block M_Index M_FileUtils M_Buffer M_Ranges M_Encode
  M_Scan M_Loop M_Decode M_Content M_Hex M_Rescue M_Json M_Codec M_Path M_Cli M_Channel
  S_Meta S_Block S_Index S_Container S_Encode S_Scan S_Decode P_Update S_Cli L_Base L_Scan L_Ref L_Cli L_Cli2 L_Cli3 P_Encode P_Decode P_Roundtrip P_Codec P_Cli P_Options P_Commands.

(* what arrives at a channel *)
Fixpoint on (ch : channel) (t : trace) : list N :=
  match t with
  | [] => []
  | (c, x) :: t' => (match c, ch with Stdout, Stdout | Stderr, Stderr => x | _, _ => [] end) ++ on ch t'
  end.
(* [t] is made of [a] and [b], each in its order: what two threads print *)
Inductive merged : trace -> trace -> trace -> Prop :=
| merged_nil : merged [] [] []
| merged_left e a b t : merged a b t -> merged (e :: a) b (e :: t)
| merged_right e a b t : merged a b t -> merged a (e :: b) (e :: t).
(* the progress reports: any texts, at any moments, on standard error (src/progress_report.rs) *)
Definition progress (b : trace) : Prop := Forall (fun e => fst e = Stderr) b.

Lemma on_app ch a b : on ch (a ++ b) = on ch a ++ on ch b.
Proof. induction a as [|[c x] a IH]; [reflexivity|]. cbn [on List.app]. rewrite IH, List.app_assoc. reflexivity. Qed.
Lemma on_merged a b t : merged a b t -> progress b -> on Stdout t = on Stdout a.
Proof.
  induction 1 as [|[c x] a b t M IH|[c x] a b t M IH]; intro P; [reflexivity| |].
  - cbn [on]. rewrite (IH P). reflexivity.
  - inversion P as [|? ? Q P']; subst. cbn in Q. subst c. cbn [on List.app]. exact (IH P').
Qed.
Lemma on_ending W e : on Stdout (ending W Stderr e) = [].
Proof. destruct e as [[|[p|p|]]|]; reflexivity. Qed.

Lemma on_if (c : bool) x : on Stdout (if c then [(Stderr, x)] else []) = [].
Proof. destruct c; reflexivity. Qed.
Lemma on_if_not (c : bool) x : on Stdout (if c then [] else [(Stderr, x)]) = [].
Proof. destruct c; reflexivity. Qed.

Lemma dash_out m : value_of m A_out = Some [45] -> to_stdout m = true.
Proof. intro V. unfold to_stdout. rewrite V. reflexivity. Qed.

(* The whole of what arrives at standard output, for every input, all options and texts and whatever the progress reports are: the content decoded,
   preceded, with --verbose and without --json, by the line about the reference block, if one is found. *)
Theorem c76_stdout_exact E W m s b t : value_of m A_out = Some [45] -> progress b -> merged (decode_said E W m s) b t ->
  exists line, on Stdout t = line ++ rn_stdout (decode_cmd E m s) /\
    (line = [] \/ (is_present m A_verbose = true /\ is_present m A_json = false /\
       exists inf q li f pos ref, decode_request E s m = Go (inf, q) /\ open_read s (v_cwd E) (v_can E) inf = Some (li, f) /\
         get_ref_block f (ref_from_pos (dc_ref_from q) (dc_from q)) (dc_ref_to q) (dc_misalign q) (dc_choice q) = ROk (Some (pos, ref)) /\ line = ref_block_line pos ref)).
Proof.
  intros TS P M. apply dash_out in TS. rewrite (on_merged _ _ _ M P). clear M P. unfold decode_said, decode_cmd, decode_channel. rewrite TS. cbn [andb].
  cbv zeta. rewrite !on_app, !on_if. cbn [List.app].
  destruct (decode_request E s m) as [[inf q]|e]; cbn [run]; [|exists []; rewrite on_ending; auto].
  rewrite on_app, on_if_not. cbn [List.app].
  destruct (open_read s (v_cwd E) (v_can E) inf) as [[li f]|] eqn:OR; [|exists []; rewrite on_ending; auto].
  destruct (get_ref_block _ _ _ _ _) as [[[pos ref]|]|e|] eqn:GR; try (exists []; rewrite on_ending; auto; fail).
  rewrite on_app. exists (on Stdout (ref_block_said W m pos ref)). split.
  - f_equal. destruct (decode_out_path E s (value_of m A_out) ref) as [path|e]; cbn [run]; [|apply on_ending].
    destruct (_ && _ && _)%bool; [apply on_ending|]. cbv zeta. set (r := decode_run E s li f q ref path). cbn [List.app on]. rewrite !on_app, on_ending, List.app_nil_r.
    assert (PD : on Stdout (padding_said W m ref (rn_exit r)) = []).
    { unfold padding_said, decode_channel. rewrite TS. destruct (rn_exit r) as [[|?]|]; try reflexivity. destruct (is_data ref && negb (is_present m A_json)); reflexivity. }
    rewrite PD, List.app_nil_r. reflexivity.
  - unfold ref_block_said, decode_channel. rewrite TS. destruct (is_present m A_verbose); [|left; reflexivity]. destruct (is_present m A_json); [left; reflexivity|].
    right. split; [reflexivity|]. split; [reflexivity|]. exists inf, q, li, f, pos, ref. split; [reflexivity|]. split; [exact OR|]. split; [exact GR|]. cbn [on List.app]. apply List.app_nil_r.
Qed.
Print Assumptions c76_stdout_exact.
(* C76 as stated is that standard output gets rn_stdout (decode_cmd E m s) with all options. Proved without --verbose, or with --json. *)
Theorem c76_stdout_partial E W m s b t : value_of m A_out = Some [45] -> (is_present m A_verbose = false \/ is_present m A_json = true) -> progress b -> merged (decode_said E W m s) b t ->
  on Stdout t = rn_stdout (decode_cmd E m s).
Proof.
  intros TS V P M. destruct (c76_stdout_exact E W m s b t TS P M) as (line & -> & [->|(X & Y & _)]); [reflexivity|]. destruct V as [V|V]; congruence.
Qed.
Print Assumptions c76_stdout_partial.

(* With --verbose and without --json it is never so when decoding succeeds: the line is there, before the content. *)
Theorem c76_verbose_refuted E W m s b t : value_of m A_out = Some [45] -> is_present m A_verbose = true -> is_present m A_json = false -> rn_exit (decode_cmd E m s) = Exit 0 ->
  progress b -> merged (decode_said E W m s) b t ->
  (exists inf q li f pos ref, decode_request E s m = Go (inf, q) /\ open_read s (v_cwd E) (v_can E) inf = Some (li, f) /\
     get_ref_block f (ref_from_pos (dc_ref_from q) (dc_from q)) (dc_ref_to q) (dc_misalign q) (dc_choice q) = ROk (Some (pos, ref)) /\
     on Stdout t = ref_block_line pos ref ++ rn_stdout (decode_cmd E m s)) /\
  on Stdout t <> rn_stdout (decode_cmd E m s).
Proof.
  intros TS V J X P M. apply dash_out in TS.
  assert (A : exists inf q li f pos ref, decode_request E s m = Go (inf, q) /\ open_read s (v_cwd E) (v_can E) inf = Some (li, f) /\
     get_ref_block f (ref_from_pos (dc_ref_from q) (dc_from q)) (dc_ref_to q) (dc_misalign q) (dc_choice q) = ROk (Some (pos, ref)) /\
     on Stdout t = ref_block_line pos ref ++ rn_stdout (decode_cmd E m s)).
  2:{ split; [exact A|]. destruct A as (inf & q & li & f & pos & ref & _ & _ & _ & ->). intro Q. apply (f_equal (@length N)) in Q. rewrite app_length in Q.
      unfold ref_block_line in Q. cbn [str list_ascii_of_string map List.app length] in Q. clear - Q. cbn in Q. lia. }
  rewrite (on_merged _ _ _ M P). clear M P.
  assert (N0 : never0 (decode_request E s m)) by (unfold decode_request, get_in_file, check_in_file, get_number, get_range_end, get_pr_verbosity_level, get_multi_pass; n0).
  unfold decode_cmd in X. destruct (decode_request E s m) as [[inf q]|e] eqn:RQ; cbn [run rn_exit] in X; [|exfalso; apply N0; congruence].
  destruct (open_read s (v_cwd E) (v_can E) inf) as [[li f]|] eqn:OR; [|discriminate X].
  destruct (get_ref_block _ _ _ _ _) as [[[pos ref]|]|e|] eqn:GR; try discriminate X.
  exists inf, q, li, f, pos, ref. split; [reflexivity|]. split; [exact OR|]. split; [exact GR|].
  unfold decode_said, decode_cmd, decode_channel. rewrite TS, RQ. cbv zeta. cbn [run]. rewrite OR, GR. rewrite !on_app, !on_if, on_if_not. cbn [List.app]. f_equal.
  - unfold ref_block_said, decode_channel. rewrite TS, V, J. cbn [on List.app]. apply List.app_nil_r.
  - destruct (decode_out_path E s (value_of m A_out) ref) as [path|e]; cbn [run]; [|apply on_ending].
    destruct (_ && _ && _)%bool; [apply on_ending|]. set (r := decode_run E s li f q ref path). cbn [List.app on]. rewrite !on_app, on_ending, List.app_nil_r.
    assert (PD : on Stdout (padding_said W m ref (rn_exit r)) = []).
    { unfold padding_said, decode_channel. rewrite TS. destruct (rn_exit r) as [[|?]|]; try reflexivity. apply on_if. }
    rewrite PD, List.app_nil_r. reflexivity.
Qed.
Print Assumptions c76_verbose_refuted.

(* With any other OUT, or none, it is the other way round: no content at standard output, and the report is the end of what arrives there. On standard
   error there is then only the note on how to interrupt, if not --json. *)
Theorem c76_report_on_stdout E W m s b t : value_of m A_out <> Some [45] -> rn_exit (decode_cmd E m s) = Exit 0 -> progress b -> merged (decode_said E W m s) b t ->
  rn_stdout (decode_cmd E m s) = [] /\ (exists pre, on Stdout t = pre ++ w_stats W ++ w_end W) /\
  on Stderr (decode_said E W m s) = (if is_present m A_json then [] else str "Press Ctrl-C to interrupt" ++ [10]).
Proof.
  intros NO X P M. rewrite (on_merged _ _ _ M P). clear M P.
  assert (TS : to_stdout m = false).
  { unfold to_stdout. destruct (value_of m A_out) as [o|]; [|reflexivity]. unfold is_dash. destruct (eqbl o [45]) eqn:Q; [|reflexivity]. apply eqbl_eq in Q. congruence. }
  assert (N0 : never0 (decode_request E s m)) by (unfold decode_request, get_in_file, check_in_file, get_number, get_range_end, get_pr_verbosity_level, get_multi_pass; n0).
  unfold decode_said, decode_channel. rewrite TS. cbn [andb]. cbv zeta. unfold decode_cmd in *.
  destruct (decode_request E s m) as [[inf q]|e] eqn:RQ; cbn [run rn_exit] in X |- *; [|exfalso; apply N0; congruence].
  destruct (open_read s (v_cwd E) (v_can E) inf) as [[li f]|] eqn:OR; [|discriminate X].
  destruct (get_ref_block _ _ _ _ _) as [[[pos ref]|]|e|] eqn:GR; try discriminate X.
  assert (NP : decode_out_path E s (value_of m A_out) ref <> Go None /\ never0 (decode_out_path E s (value_of m A_out) ref)).
  { unfold decode_out_path, to_stdout in *. destruct (get_FNM ref) as [x|]; [destruct (get_file_name_part_of_path x)|]; cbn [gbind]; destruct (value_of m A_out) as [o|]; try rewrite TS; try destruct (path_is_dir s (v_cwd E) o); split; discriminate. }
  destruct NP as [NP N1]. destruct (decode_out_path E s (value_of m A_out) ref) as [[path|]|e]; cbn [run rn_exit] in X |- *; [|congruence|exfalso; apply N1; congruence].
  destruct (_ && _ && _)%bool; [discriminate X|]. set (r := decode_run E s li f q ref (Some path)) in *.
  assert (RO : rn_stdout r = []).
  { unfold r, decode_run. destruct (get_data_par_burst _ _ _ _ _); try reflexivity. destruct (open_write _ _ _ _ _) as [[lo s1]|]; [|reflexivity]. cbv zeta.
    destruct (_ && _)%bool; [reflexivity|]. destruct (decode _ _ _ _ _ _ _ _); reflexivity. }
  rewrite X, RO. split; [reflexivity|]. split.
  - eexists. rewrite !on_app. cbn [ending on List.app]. rewrite !List.app_nil_r, !List.app_assoc. reflexivity.
  - unfold ref_block_said, padding_said, decode_channel. rewrite TS. cbn [ending].
    destruct (is_present m A_json), (is_present m A_verbose), (is_data ref); reflexivity.
Qed.
Print Assumptions c76_report_on_stdout.

(* Together with C49: encode a file, then decode the container to standard output, wherever it was copied to. Another program reading that output gets
   the file, if decode is run without --verbose or with --json. *)
Theorem c76_encode_decode_pipe E m s inp li content v o n :
  machine_ok E -> text_ok m -> value_of m A_in_file = Some inp -> file_at E s inp li content ->
  bytes_ok content = true -> lenN content < 18446744073709551616 ->
  whole_file m -> with_metadata m o -> spares_input E m s li -> version_options m v o ->
  match o with Some (d, p, B) => (d + p) * B < 4294967296 | None => True end -> codec_ok (v_rs E) o ->
  block_count v o (lenN content) n -> n < U32_MAX -> (o = None \/ content <> []) ->
  rn_exit (encode_cmd E m s) = Exit 0 ->
  exists place container, derived_place E m s (container_ext m) place /\ rn_fs (encode_cmd E m s) place = Some (NFile container) /\
  forall E' W m' s' inp' l' b t,
    v_H E' = v_H E -> 1 <= v_cpus E' -> (forall l x, In x (v_order E' l) <-> In x l) -> n <= N.of_nat (v_limit E') ->
    clap_ok m' -> value_of m' A_in_file = Some inp' -> file_at E' s' inp' l' container -> (exists x, file_name_of inp' x) ->
    whole_container m' -> value_of m' A_out = Some [45] ->
    match o with
    | Some (_, _, B) => (value_of m' A_burst = None /\ B <= 1000) \/ number_option m' A_burst (Some B)
    | None => True end ->
    progress b -> merged (decode_said E' W m' s') b t ->
    ((is_present m' A_verbose = false \/ is_present m' A_json = true) -> on Stdout t = content) /\
    ((is_present m' A_verbose = true /\ is_present m' A_json = false) -> exists pos ref, on Stdout t = ref_block_line pos ref ++ content).
Proof.
  intros MO TX VI FA CB CL WF WM NF VO OB CO BC HN NEM X.
  destruct (c49_encode_decode_stdout E m s inp li content v o n MO TX VI FA CB CL WF WM NF VO OB CO BC HN NEM X) as (place & container & DP & RC & D).
  exists place, container. split; [exact DP|]. split; [exact RC|]. intros E' W m' s' inp' l' b t VH CP OR LI CK VI' FA' NM WC OUT BU P M.
  pose proof (D E' m' s' inp' l' VH CP OR LI CK VI' FA' NM WC OUT BU) as R.
  split.
  - intro V. rewrite (c76_stdout_partial E' W m' s' b t OUT V P M), R. reflexivity.
  - intros (V & J). destruct (c76_verbose_refuted E' W m' s' b t OUT V J ltac:(rewrite R; reflexivity) P M) as ((? & ? & ? & ? & pos & ref & _ & _ & _ & Q) & _).
    exists pos, ref. rewrite Q, R. reflexivity.
Qed.
Print Assumptions c76_encode_decode_pipe.

(* ---- a concrete case ---- *)
Definition some_words : words := mkWords (str "Warning") (str "{") (str "bad option") (str "failed") (str "refBlockInfo") (str "padding") (str "stats") (str "}") (str "panicked").
Definition pipe_m (flags : list arg) : matches := cmd [(A_in_file, str "o/x"); (A_out, str "-")] flags.
Example c76_run :
  on Stdout (decode_said mach some_words (pipe_m []) (rn_fs rep_r)) = toy_data /\
  on Stdout (decode_said mach some_words (pipe_m [A_verbose; A_json]) (rn_fs rep_r)) = toy_data /\
  on Stderr (decode_said mach some_words (pipe_m [A_verbose; A_json]) (rn_fs rep_r)) = str "{refBlockInfostats}" /\
  on Stdout (decode_said mach some_words (pipe_m [A_verbose]) (rn_fs rep_r)) =
    str "Using metadata block as reference block, SBX version 17, located at byte 0 (0x0)" ++ [10] ++ toy_data /\
  on Stdout (decode_said mach some_words (cmd [(A_in_file, str "o/x"); (A_out, str "new")] [A_json]) (rn_fs rep_r)) = str "{stats}".
Proof. split; [vm_compute; reflexivity|]. split; [vm_compute; reflexivity|]. split; [vm_compute; reflexivity|]. split; vm_compute; reflexivity. Qed.
Example c76_hypotheses : value_of (pipe_m [A_verbose]) A_out = Some [45] /\ rn_exit (decode_cmd mach (cmd [(A_in_file, str "o/x"); (A_out, str "new")] [A_json]) (rn_fs rep_r)) = Exit 0 /\ rn_exit (decode_cmd mach (pipe_m [A_verbose]) (rn_fs rep_r)) = Exit 0 /\
  progress [(Stderr, str "10%"); (Stderr, str "100%")] /\ merged [(Stderr, str "a"); (Stdout, str "b")] [(Stderr, str "10%")] [(Stderr, str "a"); (Stderr, str "10%"); (Stdout, str "b")].
Proof. split; [reflexivity|]. split; [vm_compute; reflexivity|]. split; [vm_compute; reflexivity|]. split; [repeat constructor|repeat constructor]. Qed.
Example c76_hex : fmt_X 0 = str "0" /\ fmt_X 43981 = str "ABCD" /\ fmt_X 18446744073709551615 = str "FFFFFFFFFFFFFFFF".
Proof. split; [vm_compute; reflexivity|]. split; vm_compute; reflexivity. Qed.
