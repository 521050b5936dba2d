(* Lemmas for C60: a file more, where there was none, does not change how paths are resolved. *)
From Coq Require Import String Ascii.
From Verif Require Import M_Base M_Specs M_Header M_Multihash M_Metadata M_Block M_Index M_FileUtils M_Buffer M_Ranges M_Encode
  M_Scan M_Loop M_Decode M_Sort M_Repair M_Content M_Update M_Rescue M_Hex M_Json M_Path M_Cli S_Cli S_Again L_Base L_Path.

Lemma walk_dirs s s' : (forall x, is_dir_at s' x = is_dir_at s x) -> forall ps l, walk s' l ps = walk s l ps.
Proof. intros D ps. induction ps as [|p ps IH]; intros l; cbn [walk]; [reflexivity|]. rewrite D, IH. reflexivity. Qed.

Section Leftover.
Set Default Proof Using "All".
Variables (E : env) (m m' : matches) (s s' : fs) (l : loc).
Hypothesis N : s l = None.
Hypothesis LO : leftover l s s'.
Hypothesis V : forall a, value_of m' a = value_of m a.
Hypothesis P : forall a, a <> A_force -> is_present m' a = is_present m a.

Lemma left_other x : s x <> None -> s' x = s x.
Proof. intros H. apply LO. intros ->. exact (H N). Qed.
Lemma left_dir x : is_dir_at s' x = is_dir_at s x.
Proof.
  unfold is_dir_at. destruct LO as (SB & c & C). destruct (loc_eqb x l) eqn:Q.
  - apply loc_eqb_eq in Q. subst x. rewrite N, C. reflexivity.
  - apply loc_eqb_neq in Q. rewrite (SB _ Q). reflexivity.
Qed.
Lemma left_resolve cwd p : resolve s' cwd p = resolve s cwd p.
Proof. unfold resolve. destruct (_ || _); [reflexivity|]. apply walk_dirs, left_dir. Qed.
Lemma left_is_dir cwd p : path_is_dir s' cwd p = path_is_dir s cwd p.
Proof.
  unfold path_is_dir, lookup. rewrite left_resolve. destruct (resolve s cwd p) as [x|]; [|reflexivity].
  pose proof (left_dir x) as D. unfold is_dir_at in D. exact D.
Qed.
Lemma left_exists cwd p : path_exists s cwd p = true -> path_exists s' cwd p = true.
Proof.
  unfold path_exists, lookup. rewrite left_resolve. destruct (resolve s cwd p) as [x|]; [|auto].
  destruct (s x) eqn:Q; [|discriminate]. rewrite left_other by congruence. rewrite Q. auto.
Qed.
Lemma left_read cwd can p r : open_read s cwd can p = Some r -> open_read s' cwd can p = Some r /\ fst r <> l.
Proof.
  unfold open_read. rewrite left_resolve. destruct (resolve s cwd p) as [x|]; [|discriminate].
  destruct (s x) as [[c|]|] eqn:Q; try discriminate. rewrite left_other by congruence. rewrite Q.
  destruct (can x); [|discriminate]. intros [= <-]. split; [reflexivity|]. cbn. intros ->. congruence.
Qed.
Lemma left_write cwd can p lo s1 : open_write s cwd can true p = Some (lo, s1) -> exists s1', open_write s' cwd can true p = Some (lo, s1') /\
  resolve s cwd p = Some lo /\ (forall x, x <> lo -> s1 x = s x) /\ (forall x, x <> lo -> s1' x = s' x) /\ (s1 lo = s1' lo).
Proof.
  unfold open_write. rewrite left_resolve. destruct (resolve s cwd p) as [x|]; [|discriminate].
  destruct (can x); cbn [negb]; [|discriminate]. pose proof (left_dir x) as D. unfold is_dir_at in D.
  destruct (s x) as [[c|]|] eqn:Q; try discriminate; intros [= <- <-];
  (destruct (s' x) as [[c'|]|] eqn:Q'; try discriminate);
  (eexists; split; [reflexivity|]; split; [reflexivity|]; split; [intros; apply upd_other; assumption|];
   split; [intros; apply upd_other; assumption|rewrite !upd_same; reflexivity]).
Qed.

Lemma left_check x y : check_in_file E s x = Go y -> check_in_file E s' x = Go y.
Proof.
  unfold check_in_file. rewrite left_is_dir. destruct (path_exists s (v_cwd E) x) eqn:Q; cbn [negb]; [|discriminate].
  rewrite (left_exists _ _ Q). cbn [negb]. auto.
Qed.
Lemma left_in y : get_in_file E s m = Go y -> get_in_file E s' m' = Go y.
Proof. unfold get_in_file. rewrite V. destruct (value_of m A_in_file); [apply left_check|discriminate]. Qed.
Lemma left_in_stdin y : get_in_file_accept_stdin E s m = Go y -> get_in_file_accept_stdin E s' m' = Go y.
Proof. unfold get_in_file_accept_stdin. rewrite V. destruct (value_of m A_in_file); [|discriminate]. destruct (is_dash _); [auto|apply left_check]. Qed.
Lemma same_number a : get_number m' a = get_number m a.
Proof. unfold get_number. rewrite V. reflexivity. Qed.
Lemma same_range a b : get_range_end m' a b = get_range_end m a b.
Proof. unfold get_range_end. rewrite !V. reflexivity. Qed.
Lemma same_verb : get_pr_verbosity_level m' = get_pr_verbosity_level m.
Proof. unfold get_pr_verbosity_level. rewrite !V. reflexivity. Qed.
Lemma same_ver : get_ver_and_data_par_burst_w_defaults m' = get_ver_and_data_par_burst_w_defaults m.
Proof. unfold get_ver_and_data_par_burst_w_defaults, get_shards. rewrite !V, !same_number. reflexivity. Qed.
Lemma same_multi : get_multi_pass m' = get_multi_pass m.
Proof. unfold get_multi_pass. rewrite !P by discriminate. reflexivity. Qed.
Lemma same_choice : get_ref_block_choice m' = get_ref_block_choice m.
Proof. unfold get_ref_block_choice. rewrite !P by discriminate. reflexivity. Qed.
Lemma left_out v inf : encode_out_name E s' m' v inf = encode_out_name E s m v inf.
Proof. unfold encode_out_name. rewrite V. destruct (value_of m A_out); [|reflexivity]. rewrite left_is_dir. reflexivity. Qed.
Lemma left_sort_out inf : sort_out_name E s' m' inf = sort_out_name E s m inf.
Proof. unfold sort_out_name. rewrite V. destruct (value_of m A_out); [|reflexivity]. rewrite left_is_dir. reflexivity. Qed.

Lemma left_encode_request q : encode_request E s m = Go q -> encode_request E s' m' = Go q.
Proof.
  unfold encode_request. rewrite !V, same_ver, same_verb, same_number, same_range, P by discriminate.
  destruct (match value_of m A_uid with None => Go (v_random E) | Some x => parse_uid x end) as [uid|]; cbn [gbind]; [|discriminate].
  destruct (get_ver_and_data_par_burst_w_defaults m) as [[v o]|]; cbn [gbind]; [|discriminate].
  destruct (get_in_file_accept_stdin E s m) as [inf|] eqn:I; cbn [gbind]; [|discriminate].
  rewrite (left_in_stdin _ I). cbn [gbind]. rewrite left_out. auto.
Qed.

Lemma upd_alike s1 s1' lo n : (forall x, x <> lo -> s1 x = s x) -> (forall x, x <> lo -> s1' x = s' x) -> (forall x, x <> lo -> s' x = s x) ->
  forall x, upd s1' lo n x = upd s1 lo n x.
Proof.
  intros A B C x. destruct (loc_eqb x lo) eqn:Q.
  - apply loc_eqb_eq in Q. subst. rewrite !upd_same. reflexivity.
  - apply loc_eqb_neq in Q. rewrite !upd_other, A, B, C by assumption. reflexivity.
Qed.

Lemma left_encode_run q : rn_fs (encode_run E s q) l <> None -> alike (encode_run E s q) (encode_run E s' q) /\ path_exists s' (v_cwd E) (eq_out q) = true.
Proof.
  unfold encode_run.
  assert (exists inp, (match (if is_dash (eq_in q) then Some None else match open_read s (v_cwd E) (v_can E) (eq_in q) with Some (x, c) => Some (Some (x, c)) | None => None end)
     with None => True | Some i => i = inp /\ (if is_dash (eq_in q) then Some None else match open_read s' (v_cwd E) (v_can E) (eq_in q) with Some (x, c) => Some (Some (x, c)) | None => None end) = Some i end)) as (inp & I).
  { destruct (is_dash (eq_in q)); [exists None; auto|]. destruct (open_read s (v_cwd E) (v_can E) (eq_in q)) as [[li c]|] eqn:R; [|exists None; exact Logic.I].
    destruct (left_read _ _ _ _ R) as (R' & _). rewrite R'. exists (Some (li, c)). auto. }
  destruct (if is_dash (eq_in q) then _ else _) as [i|]; [|cbn; intros H; exact (False_ind _ (H N))].
  destruct I as (-> & ->).
  destruct (open_write s (v_cwd E) (v_can E) true (eq_out q)) as [[lo s1]|] eqn:W; [|cbn; intros H; exact (False_ind _ (H N))].
  destruct (left_write _ _ _ _ _ W) as (s1' & W' & RS & O1 & O2 & _). rewrite W'.
  intros H.
  assert (Q : lo = l).
  { destruct (loc_eqb l lo) eqn:Q; [apply loc_eqb_eq in Q; congruence|]. apply loc_eqb_neq in Q. exfalso. apply H.
    rewrite <- N. rewrite <- (O1 l) by congruence.
    repeat match goal with
    | |- context [match ?x with _ => _ end] => destruct x
    | |- _ => progress cbn [rn_fs]
    end; apply upd_other; congruence. }
  subst lo. pose proof (upd_alike s1 s1' l) as U.
  assert (U' : forall n x, upd s1' l n x = upd s1 l n x) by (intros n x; apply U; [assumption|assumption|apply LO]).
  split; [|unfold path_exists, lookup; rewrite left_resolve, RS; destruct LO as (_ & c & ->); reflexivity].
  unfold alike.
  repeat match goal with
  | |- context [match ?x with _ => _ end] => destruct x
  | |- _ => progress cbn [rn_fs rn_exit rn_stdout]
  end; auto.
Qed.

Definition forced (b : bool) (q : dparam) : dparam :=
  mkDparam (dc_choice q) (dc_ref_from q) (dc_ref_to q) (dc_guess q) b (dc_multi q) (dc_from q) (dc_to q) (dc_misalign q) (dc_burst q).
Lemma param_forced mp f t rf rt g b : decode_param m' mp f t rf rt g b = forced (is_present m' A_force) (decode_param m mp f t rf rt g b).
Proof. unfold decode_param, forced. cbn. rewrite same_choice, (P A_force_misalign) by discriminate. reflexivity. Qed.

Lemma left_decode_request inf q : decode_request E s m = Go (inf, q) -> decode_request E s' m' = Go (inf, forced (is_present m' A_force) q).
Proof.
  unfold decode_request. rewrite same_verb, !same_number, !same_range, same_multi.
  destruct (get_pr_verbosity_level m); cbn [gbind]; [|discriminate].
  destruct (get_number m A_burst); cbn [gbind]; [|discriminate].
  destruct (get_in_file E s m) as [x|] eqn:I; cbn [gbind]; [|discriminate]. rewrite (left_in _ I). cbn [gbind].
  destruct (get_number m A_from_pos); cbn [gbind]; [|discriminate].
  destruct (get_range_end m A_to_pos_inc A_to_pos_exc); cbn [gbind]; [|discriminate].
  destruct (get_number m A_ref_from_pos); cbn [gbind]; [|discriminate].
  destruct (get_range_end m A_ref_to_pos_inc A_ref_to_pos_exc); cbn [gbind]; [|discriminate].
  destruct (get_number m A_guess_burst_from_pos); cbn [gbind]; [|discriminate].
  destruct (get_multi_pass m); cbn [gbind]; [|discriminate].
  intros [= <- <-]. rewrite param_forced. reflexivity.
Qed.
Lemma left_decode_path out ref : decode_out_path E s' out ref = decode_out_path E s out ref.
Proof.
  unfold decode_out_path. destruct (match get_FNM ref with None => Go None | Some x => _ end) as [name|]; cbn [gbind]; [|reflexivity].
  destruct out as [o|]; [|reflexivity]. rewrite left_is_dir. reflexivity.
Qed.
Lemma decode_forced H ord cpus lim b q f ref t : decode H ord cpus lim (forced b q) f ref t = decode H ord cpus lim q f ref t.
Proof. destruct q. reflexivity. Qed.
Lemma burst_forced b q o : with_burst (forced b q) o = forced b (with_burst q o).
Proof. reflexivity. Qed.

Lemma left_decode_run li f q b ref path : li <> l -> dc_multi q = None -> rn_fs (decode_run E s li f q ref path) l <> None ->
  alike (decode_run E s li f q ref path) (decode_run E s' li f (forced b q) ref path) /\
  exists o, path = Some o /\ path_exists s' (v_cwd E) o = true.
Proof.
  intros NL MU. unfold decode_run, truncating. cbn [forced dc_burst dc_guess dc_from dc_misalign dc_multi]. rewrite MU.
  destruct (get_data_par_burst f (dc_burst q) (guess_from_param (dc_guess q) (dc_from q)) (dc_misalign q) ref) as [o| |]; try (cbn; intros H; exact (False_ind _ (H N))).
  destruct path as [out|].
  2:{ destruct (decode (v_H E) (v_order E) (v_cpus E) (v_limit E) q f ref ToStdout); cbn; intros H; exact (False_ind _ (H N)). }
  destruct (open_write s (v_cwd E) (v_can E) true out) as [[lo s1]|] eqn:W; [|cbn; intros H; exact (False_ind _ (H N))].
  destruct (left_write _ _ _ _ _ W) as (s1' & W' & RS & O1 & O2 & _). rewrite W'. rewrite !andb_false_r, burst_forced, decode_forced.
  intros H.
  assert (Q : lo = l).
  { destruct (loc_eqb l lo) eqn:Q; [apply loc_eqb_eq in Q; congruence|]. apply loc_eqb_neq in Q. exfalso. apply H.
    rewrite <- N. rewrite <- (O1 l) by congruence.
    destruct (decode _ _ _ _ _ _ _ _); cbn [rn_fs]; apply upd_other; congruence. }
  subst lo. apply loc_eqb_neq in NL. rewrite NL in *.
  assert (U' : forall n x, upd s1' l n x = upd s1 l n x) by (intros n x; apply upd_alike; [assumption|assumption|apply LO]).
  split; [|exists out; split; [reflexivity|]; unfold path_exists, lookup; rewrite left_resolve, RS; destruct LO as (_ & c & ->); reflexivity].
  assert (DE : forall a c, dc_multi (with_burst q a) = None -> decode (v_H E) (v_order E) (v_cpus E) (v_limit E) (with_burst q a) f ref (ToFile c) =
    decode (v_H E) (v_order E) (v_cpus E) (v_limit E) (with_burst q a) f ref (ToFile None)) by (intros a c MB; unfold decode; rewrite MB; reflexivity).
  rewrite (DE o (match s' l with Some (NFile c) => Some c | _ => None end)), (DE o (match s l with Some (NFile c) => Some c | _ => None end)) by exact MU.
  clear H. unfold alike. destruct (decode (v_H E) (v_order E) (v_cpus E) (v_limit E) (with_burst q o) f ref (ToFile None)); cbn [rn_fs rn_exit rn_stdout]; auto.
Qed.

Lemma left_decode : is_present m A_multi_pass = false -> is_present m A_multi_pass_no_skip = false ->
  rn_fs (decode_cmd E m s) l <> None ->
  (is_present m' A_force = true -> alike (decode_cmd E m s) (decode_cmd E m' s')) /\
  (is_present m' A_force = false -> decode_cmd E m' s' = mkRan s' (Exit 2) []).
Proof.
  intros M1 M2. unfold decode_cmd, run at 1.
  destruct (decode_request E s m) as [[inf q]|] eqn:R; [|cbn; intros H; exact (False_ind _ (H N))].
  assert (MU : dc_multi q = None).
  { revert R. unfold decode_request, get_multi_pass. rewrite M1, M2.
    destruct (get_pr_verbosity_level m); cbn [gbind]; [|discriminate].
    destruct (get_number m A_burst); cbn [gbind]; [|discriminate].
    destruct (get_in_file E s m) as [x|]; cbn [gbind]; [|discriminate].
    destruct (get_number m A_from_pos); cbn [gbind]; [|discriminate].
    destruct (get_range_end m A_to_pos_inc A_to_pos_exc); cbn [gbind]; [|discriminate].
    destruct (get_number m A_ref_from_pos); cbn [gbind]; [|discriminate].
    destruct (get_range_end m A_ref_to_pos_inc A_ref_to_pos_exc); cbn [gbind]; [|discriminate].
    destruct (get_number m A_guess_burst_from_pos); cbn [gbind]; [|discriminate].
    intros [= <- <-]. reflexivity. }
  rewrite (left_decode_request _ _ R). cbn [run].
  destruct (open_read s (v_cwd E) (v_can E) inf) as [[li f]|] eqn:O; [|cbn; intros H; exact (False_ind _ (H N))].
  destruct (left_read _ _ _ _ O) as (O' & NL). rewrite O'. cbn [fst] in NL.
  cbn [forced dc_ref_from dc_from dc_ref_to dc_misalign dc_choice dc_force_write].
  destruct (get_ref_block f (ref_from_pos (dc_ref_from q) (dc_from q)) (dc_ref_to q) (dc_misalign q) (dc_choice q)) as [[[pos ref]|]| |];
    try (cbn; intros H; exact (False_ind _ (H N))).
  rewrite V, left_decode_path.
  destruct (decode_out_path E s (value_of m A_out) ref) as [path|]; [|cbn; intros H; exact (False_ind _ (H N))]. cbn [run].
  assert (T : truncating (forced (is_present m' A_force) q) = true) by (unfold truncating; cbn; rewrite MU; reflexivity). rewrite T.
  destruct (negb (dc_force_write q) && _ && _); [cbn; intros H; exact (False_ind _ (H N))|].
  intros H. destruct (left_decode_run li f q (is_present m' A_force) ref path NL MU H) as (AL & o & -> & EX). rewrite EX.
  destruct (is_present m' A_force); cbn [negb andb]; split; intros F; try discriminate; auto.
Qed.

Lemma sort_forced cpus b q r f old : sort_file cpus (mkSparam (forced b q) r) f old = sort_file cpus (mkSparam q r) f old.
Proof. destruct q. reflexivity. Qed.

Lemma left_sort : is_present m A_multi_pass = false -> is_present m A_multi_pass_no_skip = false -> is_present m A_dry_run = false ->
  rn_fs (sort_cmd E m s) l <> None ->
  (is_present m' A_force = true -> alike (sort_cmd E m s) (sort_cmd E m' s')) /\
  (is_present m' A_force = false -> sort_cmd E m' s' = mkRan s' (Exit 1) []).
Proof.
  intros M1 M2 DR. unfold sort_cmd, run, sort_request.
  rewrite same_verb, !same_number, !same_range, same_multi, (P A_dry_run), (P A_report_blank), DR by discriminate. unfold get_multi_pass. rewrite M1, M2.
  destruct (get_in_file E s m) as [inf|] eqn:I; cbn [gbind]; [|cbn; intros H; exact (False_ind _ (H N))].
  rewrite (left_in _ I). cbn [gbind]. rewrite left_sort_out.
  destruct (sort_out_name E s m inf) as [out|]; cbn [gbind]; [|cbn; intros H; exact (False_ind _ (H N))].
  destruct (get_number m A_burst) as [burst|]; cbn [gbind]; [|cbn; intros H; exact (False_ind _ (H N))].
  destruct (path_exists s (v_cwd E) out && negb (is_present m A_force || false || false)); cbn [gbind]; [cbn; intros H; exact (False_ind _ (H N))|].
  rewrite !orb_false_r.
  destruct (get_pr_verbosity_level m); cbn [gbind]; [|cbn; intros H; exact (False_ind _ (H N))].
  destruct (get_number m A_from_pos) as [from|]; cbn [gbind]; [|cbn; intros H; exact (False_ind _ (H N))].
  destruct (get_range_end m A_to_pos_inc A_to_pos_exc) as [to|]; cbn [gbind]; [|cbn; intros H; exact (False_ind _ (H N))].
  destruct (get_number m A_ref_from_pos) as [rf|]; cbn [gbind]; [|cbn; intros H; exact (False_ind _ (H N))].
  destruct (get_range_end m A_ref_to_pos_inc A_ref_to_pos_exc) as [rt|]; cbn [gbind]; [|cbn; intros H; exact (False_ind _ (H N))].
  destruct (get_number m A_guess_burst_from_pos) as [g|]; cbn [gbind]; [|cbn; intros H; exact (False_ind _ (H N))].
  rewrite param_forced. set (q := decode_param m None from to rf rt g burst). assert (MU : dc_multi q = None) by reflexivity. clearbody q.
  destruct (open_read s (v_cwd E) (v_can E) inf) as [[li f]|] eqn:O; [|cbn; intros H; exact (False_ind _ (H N))].
  destruct (left_read _ _ _ _ O) as (O' & NL). cbn [fst] in NL.
  match goal with |- context [match ?x with ROk _ => _ | RErr _ => _ | RPanic => _ end] => destruct x as [o| |] eqn:RX end;
    try (cbn; intros H; exact (False_ind _ (H N))).
  unfold truncating at 1. rewrite MU.
  destruct (open_write s (v_cwd E) (v_can E) true out) as [[lo s1]|] eqn:W; [|cbn; intros H; exact (False_ind _ (H N))].
  destruct (left_write _ _ _ _ _ W) as (s1' & W' & RS & O1 & O2 & O3).
  intros H.
  assert (Q : lo = l).
  { destruct (loc_eqb l lo) eqn:Q; [apply loc_eqb_eq in Q; congruence|]. apply loc_eqb_neq in Q. exfalso. apply H.
    rewrite <- N. rewrite <- (O1 l) by congruence.
    destruct (loc_eqb li lo); [cbn [rn_fs]; apply upd_other; congruence|].
    destruct (sort_file _ _ _ _) as [[[? ?] [?|]]| |]; cbn [rn_fs]; try reflexivity; apply upd_other; congruence. }
  subst lo. apply loc_eqb_neq in NL. rewrite NL in *.
  assert (EX : path_exists s' (v_cwd E) out = true) by (unfold path_exists, lookup; rewrite left_resolve, RS; destruct LO as (_ & c & ->); reflexivity).
  rewrite EX. split; intros F; rewrite F; cbn [negb andb gbind]; [|reflexivity].
  rewrite O'. cbn [forced dc_ref_from dc_from dc_ref_to dc_misalign dc_choice dc_force_write dc_burst dc_guess dc_multi].
  rewrite RX. unfold truncating. cbn [forced dc_multi]. rewrite MU, W, W', NL, sort_forced.
  assert (U' : forall n x, upd s1' l n x = upd s1 l n x) by (intros n x; apply upd_alike; [assumption|assumption|apply LO]).
  assert (U2 : forall x, s1' x = s1 x).
  { intros x. destruct (loc_eqb x l) eqn:Q; [apply loc_eqb_eq in Q; subst; congruence|apply loc_eqb_neq in Q].
    rewrite O1, O2 by assumption. apply LO, Q. }
  assert (SE : forall c, sort_file (v_cpus E) (mkSparam q (is_present m A_report_blank)) f (Some c) = sort_file (v_cpus E) (mkSparam q (is_present m A_report_blank)) f (Some None))
    by (intros c; unfold sort_file; cbn [sp_scan]; rewrite MU; reflexivity).
  rewrite (SE (match s' l with Some (NFile c) => Some c | _ => None end)), (SE (match s l with Some (NFile c) => Some c | _ => None end)).
  clear H. unfold alike. destruct (sort_file (v_cpus E) (mkSparam q (is_present m A_report_blank)) f (Some None)) as [[[? ?] [?|]]| |]; cbn [rn_fs rn_exit rn_stdout]; auto.
Qed.
End Leftover.

Lemma left_encode E m m' s s' l : s l = None -> leftover l s s' -> (forall a, value_of m' a = value_of m a) ->
  (forall a, a <> A_force -> is_present m' a = is_present m a) -> rn_fs (encode_cmd E m s) l <> None ->
  (is_present m' A_force = true -> alike (encode_cmd E m s) (encode_cmd E m' s')) /\
  (is_present m' A_force = false -> encode_cmd E m' s' = mkRan s' (Exit 1) []).
Proof.
  intros N LO V P. unfold encode_cmd, run. rewrite (P A_info_only) by discriminate.
  destruct (encode_request E s m) as [q|] eqn:R; [|cbn; intros H; exact (False_ind _ (H N))].
  rewrite (left_encode_request E m m' s s' l N LO V P q R).
  destruct (is_present m A_info_only); [cbn; intros H; exact (False_ind _ (H N))|].
  destruct (path_exists s (v_cwd E) (eq_out q) && negb (is_present m A_force)); [cbn; intros H; exact (False_ind _ (H N))|].
  intros H. destruct (left_encode_run E m m' s s' l N LO V P q H) as (AL & EX). rewrite EX.
  split; intros F; rewrite F; cbn [negb andb]; [exact AL|reflexivity].
Qed.
