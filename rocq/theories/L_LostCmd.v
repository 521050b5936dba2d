(* Lemmas about the commands on files that decode, sort and repair can cope with. *)
From Coq Require Import String Ascii Permutation.
From Verif Require Import M_Base M_Specs M_Header M_Multihash M_Metadata M_Block M_Index M_FileUtils M_Buffer M_Ranges M_Encode
  M_Scan M_Loop M_Decode M_Sort M_Repair M_Rescue M_Hex M_Json M_Path M_Cli S_Meta S_Block S_Index S_Container S_Encode S_Scan S_Decode S_Repair S_Cli
  L_Base L_Path L_Cli L_Cli2 L_Cli3 L_Roundtrip P_Decode P_Roundtrip P_Cli P_Options.

(* decode, if decode_file does what it should *)
Lemma decode_gives E m s inp li l f name content :
  clap_ok m -> value_of m A_in_file = Some inp -> (exists x, file_name_of inp x) -> named E s inp li -> s li = Some (NFile f) -> v_can E li = true -> whole_container m ->
  good_name name -> ~ In 0 name -> decode_target E m s name l -> l <> li -> writable E m s l ->
  (forall q, plain q -> flags_of m q -> number_option m A_burst (dc_burst q) ->
     exists pos ref o', get_ref_block f (ref_from_pos (dc_ref_from q) (dc_from q)) (dc_ref_to q) (dc_misalign q) (dc_choice q) = ROk (Some (pos, ref)) /\
       get_data_par_burst f (dc_burst q) (guess_from_param (dc_guess q) (dc_from q)) (dc_misalign q) ref = ROk o' /\ get_FNM ref = Some name /\
       forall old, (dc_force_write q = true \/ old = None) ->
         exists dout, decode_file (v_H E) (v_order E) (v_cpus E) (v_limit E) (with_burst q o') f (ToFile old) = ROk dout /\ do_out dout = content) ->
  decode_cmd E m s = mkRan (upd (upd s l (NFile [])) l (NFile content)) (Exit 0) [].
Proof.
  intros CK VI NM FR FS FC WC GN NZ TG NE WR X.
  destruct (whole_request E s m inp li _ CK VI FR FS NM WC) as (q & Q & PQ & FL & NB). destruct (X q PQ FL NB) as (pos & ref & o' & GR & GD & FN & DEC).
  destruct FL as (FL1 & FL2 & FL3 & FL4). destruct (target_path name E m s li l GN NZ TG NE WR ref FN) as (op & DP & RO).
  destruct WR as (WC1 & WC2 & WC3). unfold decode_cmd. rewrite Q. cbn [run]. unfold open_read. unfold named in FR. rewrite FR, FS, FC, GR, DP. cbn [run].
  assert (MU : dc_multi q = None) by apply PQ. unfold truncating at 1. rewrite MU, FL2. cbn [andb]. rewrite andb_true_r.
  assert (PE : negb (is_present m A_force) && path_exists s (v_cwd E) op = false).
  { destruct WC3 as [Z|Z]; [|rewrite Z; reflexivity]. apply andb_false_iff. right. destruct (path_exists s (v_cwd E) op) eqn:PE; [|reflexivity].
    apply exists_resolve in PE. destruct PE as (l' & R' & Y). congruence. }
  rewrite PE. unfold decode_run. rewrite GD. assert (TR : truncating q = true) by (unfold truncating; rewrite MU; reflexivity). rewrite TR.
  assert (OW : exists s1, open_write s (v_cwd E) (v_can E) true op = Some (l, s1) /\ s1 = upd s l (NFile [])).
  { unfold open_write. rewrite RO, WC1. cbn [negb]. destruct (s l) as [[c|]|]; [eauto|congruence|eauto]. }
  destruct OW as (s1 & OW & ->). rewrite OW. assert (LN : loc_eqb li l = false) by (apply loc_eqb_neq; congruence). rewrite LN. cbn [negb andb].
  set (q' := with_burst q o') in *. set (old := match s l with Some (NFile c) => Some c | _ => None end).
  assert (FW : dc_force_write q = true \/ old = None) by (rewrite FL2; destruct WC3 as [Z|Z]; [right; unfold old; rewrite Z; reflexivity|left; exact Z]).
  destruct (DEC old FW) as (dout & ED & DO).
  assert (ED' : decode (v_H E) (v_order E) (v_cpus E) (v_limit E) q' f ref (ToFile old) = ROk dout).
  { revert ED. unfold decode_file. unfold q' at 1 2 3 4 5. cbn [with_burst dc_ref_from dc_from dc_ref_to dc_misalign dc_choice]. rewrite GR. cbn [rbind]. destruct (_ && _ && _); [discriminate|auto]. }
  rewrite ED', DO. reflexivity.
Qed.

(* sort writes where derived_place says *)
Lemma sort_name E s m inp li f n l : value_of m A_in_file = Some inp -> named E s inp li -> s li = Some (NFile f) -> file_name_of inp n ->
  derived_place E m s (str ".sorted") l -> exists out, sort_out_name E s m inp = Go out /\ resolve s (v_cwd E) out = Some l.
Proof.
  intros VI RI SI FN (i & VI' & DP). rewrite VI in VI'. injection VI' as <-. unfold sort_out_name. pose proof (proj2 (c47_file_name inp n) FN) as PN.
  assert (X1 : ~ In 47 (str ".sorted")) by (cbn; intuition discriminate). assert (X2 : zero (str ".sorted") = false) by reflexivity. assert (X3 : (3 <= length (str ".sorted"))%nat) by (cbn; lia).
  assert (G : good_name (n ++ str ".sorted")) by (apply good_ext; [apply FN|exact X1|exact X3]).
  destruct (value_of m A_out) as [x|].
  - destruct DP as [(R & ND)|(d & n' & R & D & FN' & ->)]; unfold named in R.
    + exists x. split; [|exact R]. destruct (path_is_dir s (v_cwd E) x) eqn:PD; [|reflexivity]. apply is_dir_resolve in PD. destruct PD as (l' & R' & D'). congruence.
    + rewrite (c47_file_name_unique inp n' n FN' FN). assert (PD : path_is_dir s (v_cwd E) x = true) by (apply is_dir_resolve; eauto). rewrite PD, PN.
      eexists. split; [reflexivity|]. rewrite (resolve_child _ _ _ _ _ R D G). rewrite zero_app, X2. assert (Z : zero n = false) by (apply zero_In; eapply no_zero; [exact RI|exact FN]). rewrite Z. reflexivity.
  - destruct DP as (d & n' & R & GN & ->). unfold named in *. exists (inp ++ str ".sorted"). split; [reflexivity|].
    rewrite RI in R. injection R as ->. destruct (resolve_beside s (v_cwd E) inp (d ++ [n']) n (str ".sorted") RI ltac:(congruence) PN G X2) as (d' & EQ & _ & R).
    apply app_inj_tail in EQ as [<- <-]. exact R.
Qed.
(* sort, if sort_file does what it should *)
Lemma sort_gives E m s inp li l f (P : list N -> Prop) :
  clap_ok m -> value_of m A_in_file = Some inp -> (exists x, file_name_of inp x) -> named E s inp li -> s li = Some (NFile f) -> v_can E li = true -> whole_container m ->
  derived_place E m s (str ".sorted") l -> l <> li -> writable E m s l -> is_present m A_dry_run = false ->
  (forall q rb, plain q -> flags_of m q -> number_option m A_burst (dc_burst q) -> forall old,
     exists t u srt, sort_file (v_cpus E) (mkSparam q rb) f (Some old) = ROk (t, u, Some srt) /\ P srt) ->
  exists srt, sort_cmd E m s = mkRan (upd (upd s l (NFile [])) l (NFile srt)) (Exit 0) [] /\ P srt.
Proof.
  intros CK VI (x & FN) FR FS FC WC DP NE WR DR X. destruct (sort_name E s m inp li f x l VI FR FS FN DP) as (out & SO & RO).
  assert (GI : get_in_file E s m = Go inp) by (unfold get_in_file; rewrite VI; apply check_in_file_iff; split; [reflexivity|]; exists li, f, x; auto).
  destruct WC as (W1 & (b & W2) & W3 & W4 & W5 & W6 & W7 & W8 & W9 & W10 & W11). destruct WR as (WC1 & WC2 & WC3).
  set (q := mkDparam (get_ref_block_choice m) None None None (is_present m A_force) None None None (is_present m A_force_misalign) b).
  assert (SR : sort_request E s m = Go (inp, out, q)).
  { unfold sort_request. rewrite GI. cbn [gbind]. rewrite SO. cbn [gbind]. unfold get_multi_pass. rewrite W10, W11. cbn [gbind]. rewrite (proj2 (number_iff m A_burst b) W2). cbn [gbind].
    assert (PE : path_exists s (v_cwd E) out && negb (is_present m A_force || false || is_present m A_dry_run) = false).
    { destruct WC3 as [Z|Z]; [|rewrite Z; apply andb_false_r]. apply andb_false_iff. left. destruct (path_exists s (v_cwd E) out) eqn:PE; [|reflexivity].
      apply exists_resolve in PE. destruct PE as (l' & R' & Y). congruence. }
    rewrite PE. cbn [gbind]. rewrite (proj2 (verbosity_iff m tt) W1). cbn [gbind]. unfold get_number, get_range_end. rewrite W3, W4, W5, W6, W7, W8, W9. reflexivity. }
  assert (PQ : plain q) by (repeat split; reflexivity).
  assert (FL : flags_of m q) by (unfold flags_of, q; cbn; rewrite W10, W11; repeat split; unfold get_ref_block_choice; destruct (is_present m A_no_meta); reflexivity).
  set (old := match s l with Some (NFile c) => Some c | _ => None end). destruct (X q (is_present m A_report_blank) PQ FL W2 old) as (t & u & srt & SF & PS).
  exists srt. split; [|exact PS]. unfold sort_cmd. rewrite SR. cbn [run]. unfold open_read. unfold named in FR. rewrite FR, FS, FC.
  pose proof SF as SF'. unfold sort_file in SF'. cbn [sp_scan] in SF'. destruct (get_ref_block _ _ _ _ _) as [[[pos ref]|]| |] eqn:GR; try discriminate SF'. cbn [rbind] in SF' |- *.
  destruct (get_data_par_burst _ _ _ _ _) as [o| |] eqn:GD; try discriminate SF'. clear SF'. rewrite DR.
  assert (TR : truncating q = true) by reflexivity. rewrite TR.
  assert (OW : open_write s (v_cwd E) (v_can E) true out = Some (l, upd s l (NFile []))).
  { unfold open_write. rewrite RO, WC1. cbn [negb]. destruct (s l) as [[c|]|]; [reflexivity|congruence|reflexivity]. }
  rewrite OW. assert (LN : loc_eqb li l = false) by (apply loc_eqb_neq; congruence). rewrite LN. fold old. rewrite SF. reflexivity.
Qed.
(* repair, if repair_file does what it should *)
Lemma repair_gives E m s inp li f t f' B : value_of m A_in_file = Some inp -> (exists x, file_name_of inp x) -> named E s inp li -> s li = Some (NFile f) -> v_can E li = true ->
  verbosity_option m -> number_option m A_burst B -> is_present m A_dry_run = false ->
  (is_present m A_skip_warning = true \/ is_present m A_json = true \/ exists rest, concat (v_stdin E) = 121 :: rest) ->
  repair_file (v_rc E) false B f = ROk (Some (t, f')) -> repair_cmd E m s = mkRan (upd s li (NFile f')) (Exit 0) [].
Proof.
  intros VI (x & FNX) FR FS FC VB NB DR AN RF.
  assert (GI : get_in_file E s m = Go inp) by (unfold get_in_file; rewrite VI; apply check_in_file_iff; split; [reflexivity|]; exists li, f, x; auto).
  apply (verbosity_iff m tt) in VB. apply number_iff in NB.
  assert (AR : asked_and_refused E m = false).
  { unfold asked_and_refused. destruct AN as [->|[->|(rest & AN)]]; [reflexivity|apply andb_false_iff; left; apply andb_false_r|]. unfold wish_to_continue. rewrite AN. apply andb_false_r. }
  unfold repair_cmd. rewrite GI. cbn [gbind]. rewrite VB. cbn [gbind]. rewrite NB. cbn [gbind run]. rewrite AR. unfold open_read. unfold named in FR. rewrite FR, FS, FC, DR, RF. reflexivity.
Qed.
