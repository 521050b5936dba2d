(* C69: restoring a file from several damaged copies of its container with --multi-pass. *)
From Coq Require Import String Ascii Permutation.
From Verif Require Import M_Base M_Specs M_Header M_Multihash M_Metadata M_Block M_Index M_FileUtils M_Buffer M_Ranges M_Encode
  M_Scan M_Loop M_Decode M_Sort M_Repair M_Rescue M_Hex M_Json M_Codec M_Path M_Cli M_RescueCmd P_Cli
  S_Crc S_Meta S_Block S_Index S_Container S_Encode S_Scan S_Decode S_Repair S_Sort S_Rescue S_Cli S_RescueCmd S_Lost S_Copies
  L_Base L_File L_Block L_Index2 L_Path L_Cli L_Cli2 L_Cli3 L_LostCmd L_Roundtrip L_Container L_Intact L_Decode2 L_Scan L_Ref L_Ranges L_Decode L_Copies S_History L_History P_Index P_Encode P_Decode P_Roundtrip P_Options P_Sort.

Section Cmd.
Variables (v : version) (uid : list N) (o : dpb) (rs : codec) (ms : list metadata) (data f0 : list N) (n : N) (name : list N) (l : loc).
Hypothesis IT : intact v uid true o rs ms data f0 n.
Hypothesis MD : match o with Some (d, p, _) => get_meta_by_id ms IRSD = Some (RSD d) /\ get_meta_by_id ms IRSP = Some (RSP p) | None => True end.
Hypothesis FZ : get_meta_by_id ms IFSZ = Some (FSZ (lenN data)).
Hypothesis NM : get_meta_by_id ms IFNM = Some (FNM name).
Hypothesis GN : good_name name.
Hypothesis NZ : ~ In 0 name.
Let ds := ver_to_block_size v - 16.
Lemma pass_cmd E m s g : pass_ready v uid o f0 name l E m s g ->
  let old := match s l with Some (NFile c) => Some c | _ => None end in
  exists q out, whole_copy o q /\ (dc_multi q = None <-> ~ multi m) /\ decode_file (v_H E) (v_order E) (v_cpus E) (v_limit E) q g (ToFile old) = ROk out /\
    rn_exit (decode_cmd E m s) = Exit 0 /\ rn_fs (decode_cmd E m s) l = Some (NFile (do_out out)) /\ same_but l s (rn_fs (decode_cmd E m s)).
Proof using All.
  intros (CP & CK & W1 & (b & W2) & W3 & W4 & W5 & W6 & W7 & W8 & W9 & NMETA & BU & (inp & li & VI & (ND & FR & FS & FC) & (x & FN) & NE) & TG & WC1 & WC2 & WC3 & CO) old.
  set (mp := if is_present m A_multi_pass then Some SkipGood else if is_present m A_multi_pass_no_skip then Some OverwriteAll else None).
  set (q := mkDparam (Prefer TMeta) None None None (is_present m A_force) mp None None (is_present m A_force_misalign) b).
  assert (MU : mp = None <-> ~ multi m).
  { unfold mp, multi. destruct (is_present m A_multi_pass), (is_present m A_multi_pass_no_skip); split; intro X; try discriminate X; try (exfalso; apply X; auto; fail); try reflexivity. intros [Y|Y]; discriminate Y. }
  assert (Q : decode_request E s m = Go (inp, q)).
  { assert (SO : scan_options m q).
    { unfold scan_options, number_option, range_option, flags_of. cbn. rewrite W3, W4, W5, W6, W7, W8, W9, NMETA. repeat split; auto. }
    destruct (proj2 (c48_decode_options E s m q CK)) as (i & D); [split; [exact SO|]; exists inp, li, g, x; auto|].
    assert (i = inp). { apply decode_request_go in D. destruct D as (D & _). apply get_in_file_go in D. destruct D as (D & _). congruence. } subst i. exact D. }
  assert (BQ : o = None \/ b <> None).
  { destruct BU as [BU|BU]; [left; exact BU|]. right. intro Z. unfold number_option in W2. rewrite Z in W2. destruct (value_of m A_burst); [contradiction|congruence]. }
  assert (WQ : whole_copy o q) by (unfold whole_copy, q; cbn; repeat split; auto).
  destruct (copy_setup v uid o rs ms data f0 n IT MD FZ q g CO WQ) as (ref & o' & ST & RV & RU & RD & IC). pose proof ST as ((pos & GR) & GD & SR).
  assert (GF : get_FNM ref = Some name) by (unfold get_FNM, block_get_meta; rewrite RD, NM; reflexivity).
  set (q' := with_burst q o').
  assert (WQ' : whole_copy o q').
  { unfold whole_copy, q', with_burst, q. cbn. repeat split; auto. destruct o' as [[[d' p'] B']|]; [right; discriminate|exact BQ]. }
  assert (FO : dc_force_write q' = true \/ dc_multi q' <> None \/ old = None).
  { unfold q', with_burst, q. cbn [dc_force_write dc_multi]. destruct WC3 as [Z|[Z|Z]]; [right; right; unfold old; rewrite Z; reflexivity|left; exact Z|]. right. left. intro Y. apply MU in Y. exact (Y Z). }
  destruct (copy_setup v uid o rs ms data f0 n IT MD FZ q' g CO WQ') as (ref1 & o1 & ST1 & _ & _ & RD1 & _).
  destruct (decode_file_total (v_H E) (v_order E) (v_cpus E) (v_limit E) q' g old ref1 o1 _ _ CP ST1) as (out & DE).
  { unfold is_data, block_type_of. rewrite RD1. apply andb_false_r. } { exact FO. }
  exists q', out. split; [exact WQ'|]. split; [exact MU|]. split; [exact DE|].
  assert (PO : exists op, decode_out_path E s (value_of m A_out) ref = Go (Some op) /\ resolve s (v_cwd E) op = Some l).
  { apply (decode_path E m s (Some name) l ref GF). exists name. split; [split; [exact GN|]; exists []; split; [constructor|left; symmetry; apply app_nil_r]|]. auto. }
  destruct PO as (op & DP & RO).
  assert (EQ : decode_cmd E m s = mkRan (upd (upd s l (NFile (match s l with Some (NFile c) => if truncating q then [] else c | _ => [] end))) l (NFile (do_out out))) (Exit 0) []).
  { unfold decode_cmd. rewrite Q. cbn [run]. unfold open_read. unfold named in FR. rewrite FR, FS, FC, GR, DP. cbn [run].
    assert (PE : negb (dc_force_write q) && truncating q && path_exists s (v_cwd E) op = false).
    { destruct WC3 as [Z|[Z|Z]].
      - apply andb_false_iff. right. destruct (path_exists s (v_cwd E) op) eqn:PE; [|reflexivity]. apply exists_resolve in PE. destruct PE as (l' & R' & Y). congruence.
      - unfold q. cbn [dc_force_write]. rewrite Z. reflexivity.
      - unfold truncating, q. cbn [dc_multi]. destruct mp eqn:EM; [rewrite andb_false_r; reflexivity|]. exfalso. exact (proj1 MU eq_refl Z). }
    rewrite PE. unfold decode_run. rewrite GD. unfold open_write. rewrite RO, WC1. cbn [negb].
    assert (LN : loc_eqb li l = false) by (apply loc_eqb_neq; congruence).
    assert (ED' : decode (v_H E) (v_order E) (v_cpus E) (v_limit E) q' g ref (ToFile old) = ROk out).
    { revert DE. unfold decode_file. unfold q' at 1 2 3 4 5. cbn [with_burst dc_ref_from dc_from dc_ref_to dc_misalign dc_choice]. rewrite GR. cbn [rbind]. match goal with |- (if ?b then _ else _) = _ -> _ => destruct b end; [discriminate|auto]. }
    destruct (s l) as [[c|]|] eqn:SL; [|congruence|]; cbv zeta; rewrite ?SL, LN; cbn [negb andb]; fold q'; unfold old in ED'; rewrite ED'; reflexivity. }
  rewrite EQ. cbn [rn_exit rn_fs]. split; [reflexivity|]. split; [apply upd_same|].
  intros y D. rewrite !upd_other by exact D. reflexivity.
Qed.
Lemma no_file : incomplete ds data [].
Proof. intro j. right. intros i _. apply nthN_nil. Qed.
(* what the copies gs have given *)
Definition gathered (gs : list file) (w : file) : Prop :=
  lenN w = lenN data /\ forall j, ((exists g, In g gs /\ holds_part v uid o g j) /\ has_part ds data w j) \/ ((forall g, In g gs -> ~ holds_part v uid o g j) /\ lacks_part ds w j).
Lemma gather E m s g x gs : pass_ready v uid o f0 name l E m s g -> gathered gs x \/ (gs = [] /\ x = []) ->
  (multi m /\ s l = Some (NFile x)) \/ (x = [] /\ (s l = None \/ ~ multi m)) ->
  rn_exit (decode_cmd E m s) = Exit 0 /\ same_but l s (rn_fs (decode_cmd E m s)) /\ exists w, rn_fs (decode_cmd E m s) l = Some (NFile w) /\ gathered (gs ++ [g]) w.
Proof using All.
  intros PR GA SX. destruct (pass_cmd E m s g PR) as (q & out & WQ & MU & DE & X & FS & SB). pose proof PR as (CP & _).
  split; [exact X|]. split; [exact SB|]. exists (do_out out). split; [exact FS|].
  assert (CO : copy_of v uid f0 g) by apply PR.
  assert (SF : start_file q (match s l with Some (NFile c) => Some c | _ => None end) = x).
  { unfold start_file. destruct SX as [[M ->]|[-> [-> |M]]].
    - destruct (dc_multi q); [reflexivity|]. exfalso. exact (proj1 MU eq_refl M).
    - destruct (dc_multi q); reflexivity.
    - apply MU in M. rewrite M. reflexivity. }
  assert (INC : incomplete ds data x).
  { destruct GA as [[_ GA]|[_ ->]]; [|apply no_file]. intro j. destruct (GA j) as [[_ Y]|[_ Y]]; auto. }
  pose proof (copy_pass v uid o rs ms data f0 n IT MD FZ (v_H E) (v_order E) (v_cpus E) (v_limit E) q g _ out CP CO WQ DE) as P. cbv zeta in P. rewrite SF in P.
  destruct (P INC) as [LE PJ]. split; [exact LE|]. intro j. fold ds in PJ. destruct (PJ j) as [[HP HA]|(HN & KP & KL)].
  - left. split; [|exact HA]. exists g. split; [apply in_elt|exact HP].
  - destruct GA as [[_ GA]|[-> ->]].
    + destruct (GA j) as [[(g' & I & HP) HA]|[NH LA]].
      * left. split; [exists g'; split; [apply in_app_iff; auto|exact HP]|exact (KP HA)].
      * right. split; [|exact (KL LA)]. intros g' I. apply in_app_iff in I as [I|[<- |[]]]; [exact (NH g' I)|exact HN].
    + right. split; [|apply KL; intros i _; apply nthN_nil]. intros g' [<- |[]]. exact HN.
Qed.
Lemma attempts_gather gs s : attempts v uid o f0 name l gs s -> exists w, s l = Some (NFile w) /\ gathered gs w.
Proof using All.
  induction 1 as [E m s g PR FI|gs s0 E m s g A (x & IH1 & IH2) SL PR M].
  - destruct (gather E m s g [] [] PR) as (_ & _ & R); [right; auto|right; auto|exact R].
  - destruct (gather E m s g x gs PR) as (_ & _ & R); [left; exact IH2|left; split; [exact M|congruence]|exact R].
Qed.
Lemma gathered_all gs w : gathered gs w -> (forall j, j * ds < lenN data -> exists g, In g gs /\ holds_part v uid o g j) -> w = data.
Proof using All.
  intros [LE GA] ALL. apply list_ext_N; [exact LE|]. intros i Hi. rewrite LE in Hi.
  assert (DP : 1 <= ds) by (pose proof (block_size_pos v); unfold ds; lia). pose proof (N.div_mod' i ds) as DM.
  destruct (GA (i / ds)) as [[_ H]|[H _]]; [exact (H i eq_refl Hi)|]. exfalso. destruct (ALL (i / ds)) as (g & I & HP); [lia|exact (H g I HP)].
Qed.
End Cmd.

(* A file was encoded. Of the container there are damaged copies. Decoding them one after the other to the same place, with --multi-pass or --multi-pass-no-skip,
   gives a file of the right length that has every part of the original some copy still holds, and zeros for the others. If every part is held by some copy,
   it is the original. No run fails, and nothing else is touched. *)
Theorem c69_copies E m s inp li content v o n :
  machine_ok E -> text_ok m -> value_of m A_in_file = Some inp -> file_at E s inp li content ->
  bytes_ok content = true -> lenN content < 18446744073709551616 ->
  whole_file m -> with_metadata m o -> spares_input E m s li -> version_options m v o ->
  match o with Some (d, p, B) => (d + p) * B < 4294967296 | None => True end -> codec_ok (v_rs E) o ->
  block_count v o (lenN content) n -> n < U32_MAX ->
  rn_exit (encode_cmd E m s) = Exit 0 ->
  exists place container name uid, derived_place E m s (container_ext m) place /\ rn_fs (encode_cmd E m s) place = Some (NFile container) /\
    file_name_of inp name /\ uid_option E m uid /\ let ds := ver_to_block_size v - 16 in
  forall l gs s1, attempts v uid o container name l gs s1 ->
    (exists w, s1 l = Some (NFile w) /\ lenN w = lenN content /\
       forall j, ((exists g, In g gs /\ holds_part v uid o g j) -> has_part ds content w j) /\
                 ((forall g, In g gs -> ~ holds_part v uid o g j) -> lacks_part ds w j)) /\
    ((forall j, j * ds < lenN content -> exists g, In g gs /\ holds_part v uid o g j) -> s1 l = Some (NFile content)) /\
    forall E2 m2 s2 g, pass_ready v uid o container name l E2 m2 s2 g -> multi m2 -> s2 l = s1 l ->
      rn_exit (decode_cmd E2 m2 s2) = Exit 0 /\ same_but l s2 (rn_fs (decode_cmd E2 m2 s2)).
Proof.
  intros MO TX VI FA CB CL WF WM NF VO OB CO BC HN X.
  destruct (encode_exit0 E m s inp li content v o n MO TX VI FA CB CL WF WM NF VO OB CO BC HN X)
    as (p & out & lc & name & UI & FN & EV & EO & EI & EF & ET & ME & OK & MF & (mx & HMX & LM) & EN & EC & DP & SN & RC & SB).
  exists lc, (eo_file out), name, (e_uid p). split; [exact DP|]. split; [exact RC|]. split; [exact FN|]. split; [exact UI|].
  rewrite <- EV, <- EO in HMX, BC. rewrite <- EV, <- EO. destruct (encoded_intact (v_H E) (v_rs E) (v_cpus E) p content out n OK CB EC BC ltac:(lia)) as [IT _]. rewrite ME in IT.
  assert (FZ : get_meta_by_id (recorded (v_H E) p content) IFSZ = Some (FSZ (lenN content))) by (unfold recorded; destruct (e_in_name p), (e_fdt p); reflexivity).
  assert (MD : match e_dpb p with Some (dd, par, _) => get_meta_by_id (recorded (v_H E) p content) IRSD = Some (RSD dd) /\ get_meta_by_id (recorded (v_H E) p content) IRSP = Some (RSP par) | None => True end).
  { destruct (e_dpb p) as [[[dd par] B]|] eqn:EO'; [|exact Logic.I]. unfold recorded. rewrite EO'. destruct (e_in_name p), (e_fdt p); split; reflexivity. }
  assert (NM : get_meta_by_id (recorded (v_H E) p content) IFNM = Some (FNM name)) by (unfold recorded; rewrite EI; reflexivity).
  assert (GN : good_name name) by apply FN. assert (NZ : ~ In 0 name) by (eapply no_zero; [apply FA|exact FN]).
  cbv zeta. intros l gs s1 AT.
  destruct (attempts_gather (e_ver p) (e_uid p) (e_dpb p) (v_rs E) _ content (eo_file out) n name l IT MD FZ NM GN NZ gs s1 AT) as (w & SW & GA). split; [|split].
  - exists w. split; [exact SW|]. pose proof GA as [LE GJ]. split; [exact LE|]. intro j. destruct (GJ j) as [[H1 H2]|[H1 H2]]; (split; [|]); intro Y; try exact H2.
    + exfalso. destruct H1 as (g & I & HP). exact (Y g I HP).
    + exfalso. destruct Y as (g & I & HP). exact (H1 g I HP).
  - intro ALL. rewrite SW. do 2 f_equal. exact (gathered_all (e_ver p) (e_uid p) (e_dpb p) (v_rs E) _ content (eo_file out) n name l IT MD FZ NM GN NZ gs w GA ALL).
  - intros E2 m2 s2 g PR M S2.
    destruct (gather (e_ver p) (e_uid p) (e_dpb p) (v_rs E) _ content (eo_file out) n name l IT MD FZ NM GN NZ E2 m2 s2 g w gs PR (or_introl GA)) as (R1 & R2 & _); [left; split; [exact M|congruence]|auto].
Qed.
Print Assumptions c69_copies.

(* sort: the same for a container. What is in the output file already is kept with the multi-pass options, and blocks of the input are added. *)
Theorem c69_sort_again E m s q inp li f ref o len lo l :
  1 <= v_cpus E -> clap_ok m -> scan_options m q -> is_present m A_dry_run = false ->
  value_of m A_in_file = Some inp -> file_at E s inp li f -> (exists x, file_name_of inp x) -> bytes_ok f = true -> lenN f < 18446744073709551616 ->
  setup q f ref o len lo ->
  derived_place E m s (str ".sorted") l -> l <> li -> v_can E l = true -> s l <> Some NDir -> (s l = None \/ is_present m A_force = true \/ multi m) ->
  (forall c, s l = Some (NFile c) -> bytes_ok c = true) ->
  let r := sort_cmd E m s in
  rn_exit r = Exit 0 /\ same_but l s (rn_fs r) /\
  exists old w, rn_fs r l = Some (NFile w) /\
    (multi m -> s l = Some (NFile old) \/ (s l = None /\ old = [])) /\ (~ multi m -> old = []) /\
    if is_present m A_multi_pass then skip_result (b_version ref) (b_uid ref) o f lo len old w
    else sort_result (b_version ref) (b_uid ref) o f lo len old w.
Proof.
  intros CP CK SO DR VI (ND & FR & FS & FC) (x & FN) FB FL ST DP NE WC1 WC2 WC3 OB r.
  destruct (sort_name E s m inp li f x l VI FR FS FN DP) as (out & SN & RO).
  assert (GI : get_in_file E s m = Go inp) by (unfold get_in_file; rewrite VI; apply check_in_file_iff; split; [reflexivity|]; exists li, f, x; auto).
  pose proof SO as (W1 & W2 & W3 & W4 & W5 & W6 & W7 & FL1 & FL2 & FL3 & FL4).
  assert (MU : dc_multi q = None <-> ~ multi m).
  { rewrite FL4. unfold multi. destruct (is_present m A_multi_pass), (is_present m A_multi_pass_no_skip); split; intro X; try discriminate X; try (exfalso; apply X; auto; fail); try reflexivity. intros [Y|Y]; discriminate Y. }
  assert (SR : sort_request E s m = Go (inp, out, q)).
  { unfold sort_request. rewrite GI. cbn [gbind]. rewrite SN. cbn [gbind]. destruct CK as (_ & C1 & C2 & CM). rewrite (proj2 (multi_iff m _ CM) FL4). cbn [gbind].
    rewrite (proj2 (number_iff m A_burst _) W2). cbn [gbind].
    assert (PE : path_exists s (v_cwd E) out && negb (is_present m A_force || match dc_multi q with None => false | Some _ => true end || is_present m A_dry_run) = false).
    { destruct WC3 as [Z|[Z|Z]].
      - apply andb_false_iff. left. destruct (path_exists s (v_cwd E) out) eqn:PE; [|reflexivity]. apply exists_resolve in PE. destruct PE as (l' & R' & Y). congruence.
      - rewrite Z. apply andb_false_r.
      - destruct (dc_multi q); [rewrite orb_true_r; apply andb_false_r|]. exfalso. exact (proj1 MU eq_refl Z). }
    rewrite PE. cbn [gbind]. rewrite (proj2 (verbosity_iff m tt) W1). cbn [gbind].
    rewrite (proj2 (number_iff _ _ _) W3). cbn [gbind]. rewrite (proj2 (range_iff _ _ _ _) W4). cbn [gbind].
    rewrite (proj2 (number_iff _ _ _) W5). cbn [gbind]. rewrite (proj2 (range_iff _ _ _ _) W6). cbn [gbind]. rewrite (proj2 (number_iff _ _ _) W7). cbn [gbind].
    unfold decode_param, get_ref_block_choice. rewrite <- FL1, <- FL2, <- FL3. destruct q. reflexivity. }
  set (old0 := match s l with Some (NFile c) => Some c | _ => None end). set (p := mkSparam q (is_present m A_report_blank)).
  destruct (c22_sort_ends (v_cpus E) p f (Some old0) ref o len lo CP FB) as (t & u & ou & SF & _); [exact ST|].
  assert (RW : exists w, ou = Some w /\ if is_present m A_multi_pass then skip_result (b_version ref) (b_uid ref) o f lo len (start_file q old0) w else sort_result (b_version ref) (b_uid ref) o f lo len (start_file q old0) w).
  { destruct (is_present m A_multi_pass) eqn:MP.
    - destruct (c23_sort_skip_good_partial (v_cpus E) p f old0 t u ou CP FB FL) as (ref' & o' & len' & lo' & w & ST' & EO & R).
      + exact FL4.
      + cbn [sp_scan p]. unfold start_file. rewrite FL4. unfold old0. destruct (s l) as [[c|]|] eqn:SL; [exact (OB c eq_refl)|reflexivity|reflexivity].
      + exact SF.
      + destruct (setup_unique _ _ _ _ _ _ _ _ _ _ ST ST') as (<- & <- & <- & <-). exists w. split; [exact EO|exact R].
    - destruct (c22_sorted_file (v_cpus E) p f old0 t u ou CP FB FL) as (ref' & o' & len' & lo' & w & ST' & _ & EO & R).
      + cbn [sp_scan p]. rewrite FL4. destruct (is_present m A_multi_pass_no_skip); reflexivity.
      + exact SF.
      + destruct (setup_unique _ _ _ _ _ _ _ _ _ _ ST ST') as (<- & <- & <- & <-). exists w. split; [exact EO|exact R]. }
  destruct RW as (w & -> & RW).
  assert (EQ : r = mkRan (upd (upd s l (NFile (match s l with Some (NFile c) => if truncating q then [] else c | _ => [] end))) l (NFile w)) (Exit 0) []).
  { unfold r, sort_cmd. rewrite SR. cbn [run]. unfold open_read. unfold named in FR. rewrite FR, FS, FC. destruct ST as ((pos & GR) & GD & _). rewrite GR. cbn [rbind]. rewrite GD, DR.
    unfold open_write. rewrite RO, WC1. cbn [negb]. assert (LN : loc_eqb li l = false) by (apply loc_eqb_neq; congruence). fold p. unfold old0 in SF.
    destruct (s l) as [[c|]|] eqn:SL; [|congruence|]; cbv zeta; rewrite ?SL, LN, SF; reflexivity. }
  rewrite EQ. cbn [rn_exit rn_fs]. split; [reflexivity|]. split; [intros y D; rewrite !upd_other by exact D; reflexivity|].
  exists (start_file q old0), w. split; [apply upd_same|]. unfold start_file, old0. split; [|split].
  - intro M. destruct (dc_multi q) eqn:DM; [|exfalso; exact (proj1 MU eq_refl M)]. destruct (s l) as [[c|]|]; [auto|congruence|auto].
  - intro M. rewrite (proj2 MU M). reflexivity.
  - exact RW.
Qed.
Print Assumptions c69_sort_again.

(* ---- the hypotheses are met ---- *)
(* g is a copy of f0 if each of its blocks is that of f0 or none at all *)
Lemma copy_check v uid f0 g ref : bytes_ok f0 = true -> bytes_ok g = true -> 1 <= lenN g -> lenN g < 18446744073709551616 -> get_ref_block g None None false (MustBe TMeta) = ROk (Some (0, ref)) ->
  b_version ref = v -> b_uid ref = uid ->
  forallb (fun k => eqbl (sliceN (k * ver_to_block_size v) (ver_to_block_size v) g) (sliceN (k * ver_to_block_size v) (ver_to_block_size v) f0) ||
    match accept ref (sliceN (k * ver_to_block_size v) (ver_to_block_size v) g) with None => true | Some _ => false end) (rangeN 0 (lenN g / ver_to_block_size v)) = true ->
  copy_of v uid f0 g.
Proof.
  intros FB GB L1 GL GR RV RU CH. set (bs := ver_to_block_size v) in *. assert (BP : 1 <= bs) by (pose proof (block_size_pos v); unfold bs; lia).
  assert (ALL : forall k seq pl, (k + 1) * bs <= lenN g -> block_at v uid g (k * bs) seq pl -> exists i, block_at v uid f0 (i * bs) seq pl).
  { intros k seq pl HK B. rewrite forallb_forall in CH. assert (I : In k (rangeN 0 (lenN g / bs))).
    { apply In_rangeN. split; [lia|]. assert (k + 1 <= lenN g / bs) by (apply N.div_le_lower_bound; lia). lia. }
    apply CH in I. apply orb_true_iff in I as [I|I].
    - exists k. apply eqbl_eq in I. destruct B as (h & W & X). exists h. split; [|exact X]. fold bs in W. fold bs. rewrite <- I. exact W.
    - exfalso. pose proof (accept_block_at ref g (k * bs) GB) as A. rewrite RV in A. fold bs in A. destruct (accept ref _); [discriminate I|]. rewrite RU in A. exact (A seq pl B). }
  split; [exact GB|]. split; [exact GL|]. split; [|exact ALL].
  pose proof (get_ref_block_ok g None None false (MustBe TMeta) GB) as K. rewrite range_whole in K by (exact GL || (unfold mult_of, SBX_SCAN_BLOCK_SIZE; lia)).
  destruct (K ltac:(lia)) as (r & E & R). clear K. rewrite GR in E. injection E as <-. cbn [ref_spec found] in R. destruct R as (h & pl & FB0 & RH & RD). rewrite !N.add_0_l in FB0.
  replace (N.max 1 (lenN g)) with (lenN g) in FB0 by lia. pose proof FB0 as (_ & W & T & _). cbn [of_type] in T. unfold any_block_at in W.
  assert (HV : h_version h = v) by (unfold b_version in RV; rewrite RH in RV; exact RV). assert (HU : h_uid h = uid) by (unfold b_uid in RU; rewrite RH in RU; exact RU).
  pose proof (wf_len _ _ _ W) as LW. rewrite HV in LW. change (dropN 0 g) with g in W, LW. fold bs in LW.
  assert (B : block_at v uid g (0 * bs) 0 pl).
  { exists h. split; [|auto]. rewrite N.mul_0_l. fold bs. destruct W as (W1 & W2 & W3 & W4). split; [exact W1|]. split; [exact W2|]. split; [|exact W4]. rewrite <- W3, HV. fold bs.
    unfold sliceN. change (dropN 0 g) with g. rewrite take_take, N.min_id. reflexivity. }
  destruct (ALL 0 0 pl) as (i & BI); [lia|exact B|]. exists 0, h, pl, i. auto.
Qed.
(* the container of 300 bytes (c46_run); in a copy b of it the blocks 1 and 3 are destroyed, in a copy c block 2 *)
Definition toy_f0 : file := P_Cli.content (rn_fs enc1) (w_ ++ [str "o"; str "a.sbx"]).
Definition toy_b : file := takeN 128 toy_f0 ++ repN 128 0 ++ sliceN 256 128 toy_f0 ++ repN 128 7.
Definition toy_c : file := takeN 256 toy_f0 ++ repN 128 0 ++ dropN 384 toy_f0.
Definition copies_fs : fs := M_Path.upd (M_Path.upd toy_fs (w_ ++ [str "b"]) (NFile toy_b)) (w_ ++ [str "c"]) (NFile toy_c).
Definition pass1 : ran := decode_cmd toy_env (cmd [(A_in_file, str "b"); (A_out, str "o")] []) copies_fs.
Definition pass2 (flag : arg) : ran := decode_cmd toy_env (cmd [(A_in_file, str "c"); (A_out, str "o")] [flag]) (rn_fs pass1).
Definition toy_oa : loc := w_ ++ [str "o"; str "a"].
Definition ended_well (r : ran) : bool := match rn_exit r with Exit 0 => true | _ => false end.
Example c69_run : ended_well pass1 && negb (eqbl (P_Cli.content (rn_fs pass1) toy_oa) toy_data) && ended_well (pass2 A_multi_pass) && ended_well (pass2 A_multi_pass_no_skip)
  && eqbl (P_Cli.content (rn_fs (pass2 A_multi_pass)) toy_oa) toy_data && eqbl (P_Cli.content (rn_fs (pass2 A_multi_pass_no_skip)) toy_oa) toy_data = true.
Proof. vm_compute. reflexivity. Qed.
Example c69_hypotheses : attempts V2 [1;2;3;4;5;6] None toy_f0 (str "a") toy_oa [toy_b; toy_c] (rn_fs (pass2 A_multi_pass)) /\
  forall j, j * 112 < lenN toy_data -> exists g, In g [toy_b; toy_c] /\ holds_part V2 [1;2;3;4;5;6] None g j.
Proof.
  assert (FB : bytes_ok toy_f0 = true) by (vm_compute; reflexivity).
  assert (CB : exists ref, get_ref_block toy_b None None false (MustBe TMeta) = ROk (Some (0, ref)) /\ get_ref_block toy_c None None false (MustBe TMeta) = ROk (Some (0, ref)) /\ b_version ref = V2 /\ b_uid ref = [1;2;3;4;5;6]).
  { destruct (get_ref_block toy_b None None false (MustBe TMeta)) as [[[pos ref]|]| |] eqn:G; [|revert G; vm_compute; discriminate..].
    exists ref. revert G. vm_compute. intro G. injection G as <- <-. repeat split. }
  destruct CB as (ref & G1 & G2 & RV & RU).
  assert (C1 : copy_of V2 [1;2;3;4;5;6] toy_f0 toy_b).
  { apply (copy_check _ _ _ _ ref FB); [vm_compute; reflexivity|vm_compute; discriminate|vm_compute; reflexivity|exact G1|exact RV|exact RU|]. revert G1. vm_compute. intro Q. injection Q as <-. reflexivity. }
  assert (C2 : copy_of V2 [1;2;3;4;5;6] toy_f0 toy_c).
  { apply (copy_check _ _ _ _ ref FB); [vm_compute; reflexivity|vm_compute; discriminate|vm_compute; reflexivity|exact G2|exact RV|exact RU|]. revert G2. vm_compute. intro Q. injection Q as <-. reflexivity. }
  split.
  - change [toy_b; toy_c] with ([toy_b] ++ [toy_c]). unfold pass2.
    apply (attempt_again V2 [1;2;3;4;5;6] None toy_f0 (str "a") toy_oa [toy_b] (rn_fs pass1) toy_env (cmd [(A_in_file, str "c"); (A_out, str "o")] [A_multi_pass]) (rn_fs pass1) toy_c);
      [unfold pass1; apply attempt_first| | |].
    + split; [vm_compute; discriminate|]. split; [split; [discriminate|]; cbn; auto|]. split; [exact Logic.I|]. split; [exists None; exact Logic.I|]. repeat (split; [reflexivity|]).
      split; [left; reflexivity|]. split; [exists (str "b"), (w_ ++ [str "b"]); split; [reflexivity|]; split; [split; [discriminate|]; split; [vm_compute; reflexivity|]; split; reflexivity|]; split; [exists (str "b"); apply c47_file_name; vm_compute; reflexivity|discriminate]|].
      split; [split; [discriminate|]; right; exists (w_ ++ [str "o"]); split; [vm_compute; reflexivity|split; reflexivity]|]. split; [reflexivity|]. split; [discriminate|]. split; [left; reflexivity|exact C1].
    + left. reflexivity.
    + reflexivity.
    + split; [vm_compute; discriminate|]. split; [split; [discriminate|]; cbn; auto|]. split; [exact Logic.I|]. split; [exists None; exact Logic.I|]. repeat (split; [reflexivity|]).
      split; [left; reflexivity|]. split; [exists (str "c"), (w_ ++ [str "c"]); split; [reflexivity|]; split; [split; [discriminate|]; split; [vm_compute; reflexivity|]; split; [vm_compute; reflexivity|reflexivity]|]; split; [exists (str "c"); apply c47_file_name; vm_compute; reflexivity|discriminate]|].
      split; [split; [discriminate|]; right; exists (w_ ++ [str "o"]); split; [vm_compute; reflexivity|split; [vm_compute; reflexivity|reflexivity]]|]. split; [reflexivity|]. split; [vm_compute; discriminate|]. split; [right; right; left; reflexivity|exact C2].
    + left. reflexivity.
  - assert (L : lenN toy_data = 300) by (vm_compute; reflexivity). rewrite L. intros j HJ. assert (J : j = 0 \/ j = 1 \/ j = 2) by lia.
    assert (HB : forall g k, bytes_ok g = true -> match accept ref (sliceN (k * 128) 128 g) with Some b => b_seq_num b =? k | None => false end = true -> exists pl, block_at V2 [1;2;3;4;5;6] g (k * 128) k pl).
    { intros g k GB A. pose proof (accept_block_at ref g (k * 128) GB) as AB. rewrite RV, RU in AB. change (ver_to_block_size V2) with 128 in AB.
      destruct (accept ref _) as [b|]; [|discriminate A]. apply N.eqb_eq in A. rewrite A in AB. destruct AB as [AB _]. eauto. }
    assert (B1 : bytes_ok toy_b = true) by (vm_compute; reflexivity). assert (B2 : bytes_ok toy_c = true) by (vm_compute; reflexivity).
    destruct J as [-> |[-> | ->]].
    + exists toy_c. split; [right; left; reflexivity|]. destruct (HB toy_c 1 B2) as (pl & B); [revert G2; vm_compute; intro Q; injection Q as <-; reflexivity|].
      exists 1, 1, pl. split; [vm_compute; discriminate|]. split; [exact B|]. split; [vm_compute; discriminate|reflexivity].
    + exists toy_b. split; [left; reflexivity|]. destruct (HB toy_b 2 B1) as (pl & B); [revert G1; vm_compute; intro Q; injection Q as <-; reflexivity|].
      exists 2, 2, pl. split; [vm_compute; discriminate|]. split; [exact B|]. split; [vm_compute; discriminate|reflexivity].
    + exists toy_c. split; [right; left; reflexivity|]. destruct (HB toy_c 3 B2) as (pl & B); [revert G2; vm_compute; intro Q; injection Q as <-; reflexivity|].
      exists 3, 3, pl. split; [vm_compute; discriminate|]. split; [exact B|]. split; [vm_compute; discriminate|reflexivity].
Qed.
