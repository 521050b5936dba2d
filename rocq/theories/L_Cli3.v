(* The commands encode and decode together. *)
From Coq Require Import String Ascii.
From Verif Require Import M_Base M_Specs M_Header M_Multihash M_Metadata M_Block M_Index M_FileUtils M_Buffer M_Ranges M_Encode
  M_Scan M_Loop M_Decode M_Sort M_Rescue M_Hex M_Json M_Path M_Cli S_Meta S_Index S_Container S_Encode S_Scan S_Decode S_Cli L_Base L_Utf8 L_Index2 L_Ranges L_Path L_Cli L_Cli2
  L_Intact L_Roundtrip P_Index P_Encode P_Decode P_Roundtrip P_Stdout P_Options.

(* ---- text ---- *)
Lemma utf8_app a b : utf8_valid a = true -> utf8_valid b = true -> utf8_valid (a ++ b) = true.
Proof.
  rewrite !utf8_valid_iff. intros (x & X & ->) (y & Y & ->). exists (x ++ y). split; [apply Forall_app; auto|]. symmetry. apply flat_map_app.
Qed.
Lemma utf8_split a c b : c < 128 -> utf8_valid (a ++ c :: b) = true -> utf8_valid a = true /\ utf8_valid b = true.
Proof.
  intro C. remember (length a) as k eqn:K. assert (L : (length a <= k)%nat) by lia. clear K. revert a L.
  assert (NC : forall lo hi, 128 <= lo -> inr lo hi c = false) by (intros; apply inr_f; lia).
  induction k as [|k IH]; intros [|x a] L; cbn [app length] in *; try lia; try (cbn [utf8_valid]; destruct (N.ltb_spec c 128); [auto|lia]).
  cbn [utf8_valid]. destruct (x <? 128); [apply IH; lia|].
  destruct (inr 194 223 x).
  { destruct a as [|y a]; cbn [app]; [rewrite NC by lia; discriminate|]. intro V. apply andb_true_iff in V as [V1 V2]. rewrite V1. apply IH; [cbn in L; lia|exact V2]. }
  destruct (inr 224 239 x).
  { destruct a as [|y [|z a]]; cbn [app].
    - destruct b; [discriminate|]. destruct (x =? 224), (x =? 237); rewrite NC by lia; discriminate.
    - rewrite (NC 128 191) by lia. rewrite andb_false_r. discriminate.
    - intro V. apply andb_true_iff in V as [V V2]. rewrite V. apply IH; [cbn in L; lia|exact V2]. }
  destruct (inr 240 244 x); [|discriminate].
  destruct a as [|y [|z [|w a]]]; cbn [app].
  - destruct b as [|b1 [|b2 b]]; try discriminate. destruct (x =? 240), (x =? 244); rewrite NC by lia; discriminate.
  - destruct b; [discriminate|]. rewrite (NC 128 191) by lia. rewrite andb_false_r. discriminate.
  - rewrite (NC 128 191) by lia. rewrite andb_false_r. discriminate.
  - intro V. apply andb_true_iff in V as [V V2]. rewrite V. apply IH; [cbn in L; lia|exact V2].
Qed.
Lemma name_text x n : file_name_of x n -> utf8_valid x = true -> bytes_ok x = true -> utf8_valid n = true /\ bytes_ok n = true.
Proof.
  intros (_ & t & T & C) U B.
  assert (H : utf8_valid (n ++ t) = true /\ bytes_ok (n ++ t) = true).
  { destruct C as [->|(pre & ->)]; [auto|]. split; [apply (utf8_split pre 47 (n ++ t)); [lia|exact U]|].
    rewrite bytes_ok_app in B. apply andb_true_iff in B as [_ B]. cbn in B. exact B. }
  destruct H as [U' B']. rewrite bytes_ok_app in B'. apply andb_true_iff in B' as [B' _]. split; [|exact B'].
  destruct T as [|t T|t T]; [rewrite app_nil_r in U'; exact U'|apply (utf8_split n 47 t); [lia|exact U']|apply (utf8_split n 47 (46 :: t)); [lia|exact U']].
Qed.
Lemma no_zero s cwd x l n : resolve s cwd x = Some l -> file_name_of x n -> ~ In 0 n.
Proof.
  intros R (_ & t & _ & C) I. apply resolve_some in R. destruct R as (_ & Z & _). apply zero_In in Z. apply Z.
  destruct C as [->|(pre & ->)]; apply in_or_app; [left; exact I|right; right; apply in_or_app; left; exact I].
Qed.

Definition is_text (x : list N) : Prop := utf8_valid x = true /\ bytes_ok x = true.
Lemma text_app a b : is_text a -> is_text b -> is_text (a ++ b).
Proof. intros [A1 A2] [B1 B2]. split; [apply utf8_app; assumption|rewrite bytes_ok_app, A2, B2; reflexivity]. Qed.
Lemma text_ext v : is_text (if ver_uses_rs v then str ".ecsbx" else str ".sbx").
Proof. destruct v; split; reflexivity. Qed.
Lemma text_path x n : is_text x -> is_text n -> ~ In 47 n -> is_text (make_path [x; n]).
Proof.
  intros X NT NS. unfold make_path. cbn [fold_left]. rewrite push_nil, push_no by exact NS. destruct (rev x); [exact NT|].
  destruct (_ =? 47); [apply text_app; assumption|]. apply text_app; [exact X|]. apply (text_app [47] n); [split; reflexivity|exact NT].
Qed.
Lemma encode_request_parts E s m q : encode_request E s m = Go q ->
  value_of m A_in_file = Some (eq_in q) /\ (is_dash (eq_in q) = true \/ check_in_file E s (eq_in q) = Go (eq_in q)) /\
  encode_out_name E s m (eq_ver q) (eq_in q) = Go (eq_out q) /\ eq_meta q = negb (is_present m A_no_meta) /\
  get_ver_and_data_par_burst_w_defaults m = Go (eq_ver q, eq_dpb q) /\
  get_number m A_from_pos = Go (eq_from q) /\ get_range_end m A_to_pos_inc A_to_pos_exc = Go (eq_to q).
Proof.
  unfold encode_request. intros H. apply gbind_go in H. destruct H as (uid & _ & H). apply gbind_go in H. destruct H as ((v & o) & HV & H).
  apply gbind_go in H. destruct H as (inf & HI & H). apply gbind_go in H. destruct H as (out & HO & H). apply gbind_go in H. destruct H as (h & _ & H).
  apply gbind_go in H. destruct H as (u & _ & H). apply gbind_go in H. destruct H as (from & HF & H). apply gbind_go in H. destruct H as (to & HT & H).
  injection H as <-. cbn [eq_in eq_out eq_ver eq_dpb eq_meta eq_from eq_to].
  assert (VI : value_of m A_in_file = Some inf /\ (is_dash inf = true \/ check_in_file E s inf = Go inf)).
  { unfold get_in_file_accept_stdin in HI. destruct (value_of m A_in_file) as [y|]; [|discriminate]. destruct (is_dash y) eqn:D; [injection HI as <-; auto|].
    pose proof HI as HI'. apply check_in_file_go in HI. destruct HI as (-> & _). auto. }
  destruct VI. auto 10.
Qed.
Lemma request_uid E s m q : encode_request E s m = Go q -> uid_option E m (eq_uid q).
Proof. unfold encode_request. intro H. apply gbind_go in H. destruct H as (uid & HU & H). apply uid_iff in HU. repeat (apply gbind_go in H; let x := fresh in let e := fresh in destruct H as (x & e & H); try destruct x as [? ?]). injection H as <-. exact HU. Qed.
Lemma request_hash E s m q : encode_request E s m = Go q -> hash_option m (eq_hash q).
Proof.
  unfold encode_request. intro H. do 4 (apply gbind_go in H; let x := fresh in let e := fresh in destruct H as (x & e & H); try destruct x as [? ?]). apply gbind_go in H. destruct H as (h & HH & H).
  apply hash_opt_iff in HH. repeat (apply gbind_go in H; let x := fresh in let e := fresh in destruct H as (x & e & H); try destruct x as [? ?]). injection H as <-. exact HH.
Qed.
Lemma encode_out_text E s m q : text_ok m -> encode_request E s m = Go q -> is_text (eq_out q).
Proof.
  intros T Q. destruct (encode_request_parts _ _ _ _ Q) as (VI & CI & HO & _). assert (TI : is_text (eq_in q)) by (eapply T; exact VI).
  unfold encode_out_name in HO. destruct (value_of m A_out) as [x|] eqn:VO.
  - assert (TX : is_text x) by (eapply T; exact VO). destruct (path_is_dir s (v_cwd E) x); [|injection HO as <-; exact TX].
    destruct (is_dash (eq_in q)); [discriminate|]. destruct (get_file_name_part_of_path (eq_in q)) as [n|] eqn:P; [|discriminate]. injection HO as <-.
    apply text_path; [exact TX|apply text_app; [|apply text_ext]|].
    + apply part_sound in P. eapply name_text; [exact P|apply TI|apply TI].
    + apply part_good in P. intro I. apply in_app_or in I as [I|I]; [destruct P as (_ & P & _); exact (P I)|]. revert I. destruct (eq_ver q); vm_compute; intuition congruence.
  - destruct (is_dash (eq_in q)); [discriminate|]. injection HO as <-. apply text_app; [exact TI|apply text_ext].
Qed.
Lemma opened_name E s path l n : (forall l n, v_can E l = true -> In n l -> lenN n <= 255) -> is_text path -> resolve s (v_cwd E) path = Some l ->
  v_can E l = true -> s l <> Some NDir -> get_file_name_part_of_path path = Some n -> name_ok n.
Proof.
  intros M T R C ND P. destruct (last_name _ _ _ _ _ R ND P) as (d & -> & G & _). split.
  - split; [|apply (M (d ++ [n])); [exact C|apply in_or_app; right; left; reflexivity]]. destruct G as [G _]. destruct n; [congruence|]. unfold lenN. cbn [length]. lia.
  - apply part_sound in P. eapply name_text; [exact P|apply T|apply T].
Qed.

Section Enc.
Variables (E : env) (m : matches) (s : fs) (inp : list N) (li : loc) (content : list N) (v : version) (o : dpb) (n : N).
Hypothesis MO : machine_ok E.
Hypothesis TX : text_ok m.
Hypothesis VI : value_of m A_in_file = Some inp.
Hypothesis FA : file_at E s inp li content.
Hypothesis CB : bytes_ok content = true.
Hypothesis CL : lenN content < 18446744073709551616.
Hypothesis WF : whole_file m.
Hypothesis WM : with_metadata m o.
Hypothesis NF : spares_input E m s li.
Hypothesis VO : version_options m v o.
Hypothesis OB : match o with Some (d, p, B) => (d + p) * B < 4294967296 | None => True end.
Hypothesis CO : codec_ok (v_rs E) o.
Hypothesis BC : block_count v o (lenN content) n.
Hypothesis HN : n < U32_MAX.

(* the parameters of encode_file *)
Definition params_of (q : enc_request) (name oname : list N) : eparam :=
  mkEparam (eq_ver q) (eq_uid q) (eq_dpb q) (eq_meta q) (eq_hash q) (eq_from q) (eq_to q) (Some name) oname (v_mtime E li) (v_now E).
Lemma encode_params q lo name oname : encode_request E s m = Go q -> resolve s (v_cwd E) (eq_out q) = Some lo -> v_can E lo = true -> s lo <> Some NDir ->
  get_file_name_part_of_path inp = Some name -> get_file_name_part_of_path (eq_out q) = Some oname ->
  eq_in q = inp /\ eq_ver q = v /\ eq_dpb q = o /\ let p := params_of q name oname in
  enc_ok (v_H E) (v_rs E) (v_cpus E) p /\ e_from p = None /\ e_to p = None /\ meta_on p = true.
Proof.
  intros Q RO CO' ND PI PO. destruct MO as (R1 & R2 & HO & CP & TN & TM & NL). destruct FA as (FD & FR & FS & FC).
  destruct (encode_request_parts _ _ _ _ Q) as (VI' & CI & _ & EM & GV & GF & GT). rewrite VI in VI'. injection VI' as EI.
  pose proof (proj2 (version_options_iff m v o) VO) as GV'. rewrite GV in GV'. injection GV' as EV EO.
  destruct (c48_encode_parameters E s m q R1 R2 Q) as (P1 & P2 & P3 & P4 & P5).
  destruct WF as (W1 & W2 & W3 & _). unfold get_number in GF. rewrite W1 in GF. injection GF as GF. unfold get_range_end in GT. rewrite W2, W3 in GT. injection GT as GT.
  split; [auto|]. split; [exact EV|]. split; [exact EO|]. cbv zeta. split; [|split; [symmetry; exact GF|split; [symmetry; exact GT|]]].
  - assert (N1 : name_ok name) by (apply (opened_name E s inp li name NL (TX _ _ VI) FR FC); [congruence|exact PI]).
    assert (N2 : name_ok oname) by (apply (opened_name E s (eq_out q) lo oname NL (encode_out_text E s m q TX Q) RO CO' ND PO)).
    assert (FM : match v_mtime E li with Some t => time_ok t | None => True end) by (destruct (v_mtime E li) eqn:MT; [exact (TM _ _ MT)|exact Logic.I]).
    unfold enc_ok, params_of. cbn. rewrite <- EO in OB, CO. exact (conj P1 (conj P2 (conj P3 (conj P4 (conj OB (conj P5 (conj N1 (conj N2 (conj FM (conj TN (conj CO (conj HO CP)))))))))))).
  - unfold meta_on, params_of. cbn. rewrite EM, EV. destruct WM as [->|NO]; [apply orb_true_r|]. rewrite EV, EO in P4. destruct o; [|congruence].
    destruct v; try discriminate; reflexivity.
Qed.

Lemma encode_exit0_full : rn_exit (encode_cmd E m s) = Exit 0 ->
  exists p out lc name, (hash_option m (e_hash p) /\ e_fdt p = v_mtime E li /\ e_sdt p = v_now E /\ exists d, lc = d ++ [e_out_name p]) /\
    uid_option E m (e_uid p) /\ file_name_of inp name /\ e_ver p = v /\ e_dpb p = o /\ e_in_name p = Some name /\ e_from p = None /\ e_to p = None /\ meta_on p = true /\
    enc_ok (v_H E) (v_rs E) (v_cpus E) p /\ meta_fits (v_H E) p /\ (exists mx, ver_to_max_data_file_size v o = ROk mx /\ lenN content <= mx) /\
    encode_file (v_H E) (v_rs E) (v_cpus E) p (SrcFile content) = ROk out /\ encoded (v_H E) (v_rs E) p content out /\
    derived_place E m s (container_ext m) lc /\ (is_present m A_force = false -> s lc = None) /\ rn_fs (encode_cmd E m s) lc = Some (NFile (eo_file out)) /\ same_but lc s (rn_fs (encode_cmd E m s)).
Proof.
  intro X. destruct WF as (W1 & W2 & W3 & NI). destruct (run0 _ _ _ (n0_encode E s m) X) as (q & Q & EQ). unfold encode_cmd in *. rewrite EQ in *. clear EQ. rewrite NI in *.
  destruct (path_exists s (v_cwd E) (eq_out q) && negb (is_present m A_force)) eqn:PE; [discriminate|].
  destruct (encode_request_parts _ _ _ _ Q) as (VI' & CI & _). pose proof VI as VI2. rewrite VI2 in VI'. injection VI' as EI. pose proof FA as (FD & FR & FS & FC).
  assert (ID : is_dash (eq_in q) = false) by (apply eqbl_neq; congruence). destruct CI as [CI|CI]; [congruence|]. apply check_in_file_go in CI.
  destruct CI as (_ & l' & name & _ & _ & _ & PI). rewrite <- EI in PI. unfold encode_run in *. rewrite ID in *. rewrite <- EI in *. unfold open_read in *.
  unfold named in FR. rewrite FR, FS, FC in *. destruct (open_write s (v_cwd E) (v_can E) true (eq_out q)) as [[lo s1]|] eqn:OW; [|discriminate].
  pose proof (open_write_some _ _ _ _ _ _ _ OW) as (RO & CO' & ND & ES). assert (SN : is_present m A_force = false -> s lo = None).
  { intro F. rewrite F in PE. cbn [negb] in PE. rewrite andb_true_r in PE. destruct (s lo) eqn:S; [|reflexivity]. exfalso. assert (Y : path_exists s (v_cwd E) (eq_out q) = true) by (apply exists_resolve; exists lo; split; [exact RO|congruence]). congruence. }
  assert (NE : loc_eqb li lo = false).
  { apply loc_eqb_neq. intros ->. destruct (is_present m A_force) eqn:F; [|rewrite (SN eq_refl) in FS; discriminate]. apply (NF F lo); [|reflexivity]. eapply encode_request_out; eassumption. }
  rewrite NE, PI in *.
  assert (DM : ver_forces_meta_enabled (eq_ver q) || eq_meta q = true -> get_file_name_part_of_path (eq_out q) <> None).
  { intros ME Z. rewrite Z, ME in X. discriminate. }
  assert (exists oname, get_file_name_part_of_path (eq_out q) = Some oname) as (oname & PO).
  { destruct (get_file_name_part_of_path (eq_out q)) as [y|] eqn:Z; [eauto|]. exfalso. apply DM; [|reflexivity].
    destruct (encode_request_parts _ _ _ _ Q) as (_ & _ & _ & EM & GV & _). pose proof (proj2 (version_options_iff m v o) VO) as GV'. rewrite GV in GV'. injection GV' as EV EO.
    rewrite EM. destruct WM as [->|NO]; [apply orb_true_r|]. destruct MO as (R1 & R2 & _). destruct (c48_encode_parameters E s m q R1 R2 Q) as (_ & _ & _ & P4 & _).
    rewrite EV, EO in P4. rewrite EV. destruct o; [|congruence]. destruct v; try discriminate; reflexivity. }
  destruct (encode_params q lo name oname Q RO CO' ND PI PO) as (_ & EV & EO & OK & EF & ET & ME). rewrite PO in *. fold (params_of q name oname) in *.
  set (p := params_of q name oname) in *. cbv zeta in *.
  destruct (encode_file (v_H E) (v_rs E) (v_cpus E) p (SrcFile content)) as [out| |] eqn:EN; [|discriminate|discriminate]. cbn [rn_exit rn_fs] in *.
  assert (ER : eo_err out = false) by (destruct (eo_err out); [discriminate|reflexivity]).
  assert (V : e_ver p = v) by exact EV. assert (O : e_dpb p = o) by exact EO.
  assert (exists mx, ver_to_max_data_file_size v o = ROk mx) as (mx & HMX).
  { destruct (ver_to_max_data_file_size v o) as [mx| |] eqn:Z; [eauto| |]; exfalso; unfold encode_file in EN; rewrite V, O, Z in EN; discriminate. }
  assert (IO : input_ok (SrcFile content)) by (split; assumption).
  assert (LM : lenN content <= mx).
  { apply N.nlt_ge. intro LT. destruct (c38_too_large_refused (v_H E) (v_rs E) p (v_cpus E) content mx) as (out' & E' & R' & _); [rewrite V, O; exact HMX| |rewrite EN in E'; injection E' as <-; congruence].
    unfold asked. rewrite EF, ET, range_whole by (exact CL || (unfold mult_of; lia)). cbn [fst]. lia. }
  assert (MF : meta_fits (v_H E) p).
  { intros _. apply N.nlt_ge. intro LT. destruct (c38_metadata_too_big_refused (v_H E) (v_rs E) (v_cpus E) p content mx OK ME LT) as (out' & E' & R' & _); [auto|exact IO|rewrite V, O; exact HMX|].
    rewrite EN in E'. injection E' as <-. congruence. }
  destruct (c38_encoded_container_is_the_file (v_H E) (v_rs E) p (v_cpus E) content mx n OK MF IO EF ET) as (out' & E' & EC); try (rewrite V, O; assumption); try assumption.
  rewrite EN in E'. injection E' as <-. exists p, out, lo, name.
  split. { split; [apply (request_hash _ _ _ _ Q)|]. split; [reflexivity|]. split; [reflexivity|]. destruct (last_name _ _ _ _ _ RO ND PO) as (d & -> & _). exists d. reflexivity. }
  split; [change (e_uid p) with (eq_uid q); apply (request_uid _ _ _ _ Q)|]. subst s1. repeat (split; [first [assumption|reflexivity|apply part_sound; assumption]|]).
  split; [eauto|]. split; [exact EN|]. split; [exact EC|]. split; [eapply encode_request_out; eassumption|]. split; [exact SN|]. split; [apply upd_same|]. intros x D. rewrite !upd_other by exact D. reflexivity.
Qed.

Lemma encode_exit0 : rn_exit (encode_cmd E m s) = Exit 0 ->
  exists p out lc name, uid_option E m (e_uid p) /\ file_name_of inp name /\ e_ver p = v /\ e_dpb p = o /\ e_in_name p = Some name /\ e_from p = None /\ e_to p = None /\ meta_on p = true /\
    enc_ok (v_H E) (v_rs E) (v_cpus E) p /\ meta_fits (v_H E) p /\ (exists mx, ver_to_max_data_file_size v o = ROk mx /\ lenN content <= mx) /\
    encode_file (v_H E) (v_rs E) (v_cpus E) p (SrcFile content) = ROk out /\ encoded (v_H E) (v_rs E) p content out /\
    derived_place E m s (container_ext m) lc /\ (is_present m A_force = false -> s lc = None) /\ rn_fs (encode_cmd E m s) lc = Some (NFile (eo_file out)) /\ same_but lc s (rn_fs (encode_cmd E m s)).
Proof. intro X. destruct (encode_exit0_full X) as (p & out & lc & name & _ & R). exists p, out, lc, name. exact R. Qed.
Lemma target_out q lo called : encode_request E s m = Go q -> encode_target E m s inp lo called -> s lo <> Some NDir -> ~ In 0 (container_ext m) ->
  resolve s (v_cwd E) (eq_out q) = Some lo /\ get_file_name_part_of_path (eq_out q) = Some called.
Proof.
  intros Q (d & name & FN & T) ND ZE. destruct (encode_request_parts _ _ _ _ Q) as (VI' & CI & HO & _ & GV & _). rewrite VI in VI'. injection VI' as EI.
  pose proof FA as (FD & FR & FS & FC). unfold encode_out_name in HO. fold (ext_of (eq_ver q)) in HO. rewrite (ext_version _ _ _ GV) in HO. rewrite <- EI in HO.
  assert (ID : is_dash inp = false) by (apply eqbl_neq; exact FD). rewrite ID in HO. apply part_iff in FN. rewrite FN in HO.
  assert (X1 : ~ In 47 (container_ext m) /\ (3 <= length (container_ext m))%nat) by (rewrite <- (ext_version _ _ _ GV); destruct (ext_no (eq_ver q)) as (X1 & _ & X3); auto).
  destruct X1 as (X1 & X3). pose proof (good_ext _ _ (part_good _ _ FN) X1 X3) as G. apply zero_In in ZE.
  destruct (value_of m A_out) as [x|].
  - destruct T as [(R & NDX & FO)|(R & DD & -> & ->)].
    + destruct (path_is_dir s (v_cwd E) x) eqn:PD; [apply is_dir_resolve in PD; destruct PD as (l' & R' & D'); unfold named in R; congruence|].
      injection HO as <-. split; [exact R|]. apply part_iff. exact FO.
    + assert (PD : path_is_dir s (v_cwd E) x = true) by (apply is_dir_resolve; eauto). rewrite PD in HO. injection HO as <-.
      rewrite (resolve_child _ _ _ _ _ R DD G). assert (Z : zero (name ++ container_ext m) = false).
      { apply part_iff in FN. pose proof (no_zero _ _ _ _ _ FR FN) as NZ. apply zero_In in NZ. rewrite zero_app, NZ, ZE. reflexivity. }
      rewrite Z. split; [reflexivity|]. apply part_iff. split; [exact G|]. exists []. split; [constructor|]. rewrite app_nil_r. unfold make_path. cbn [fold_left]. rewrite push_nil, push_no by apply G.
      destruct (rev x) as [|c r] eqn:RX; [left; reflexivity|]. right. destruct (N.eqb_spec c 47) as [->|_]; [|exists x; reflexivity].
      exists (rev r). rewrite <- (rev_involutive x), RX. cbn [rev]. rewrite <- app_assoc. reflexivity.
  - destruct T as (R & -> & ->). injection HO as <-. unfold named in R, FR. rewrite FR in R. injection R as R. assert (ND' : s li <> Some NDir) by congruence.
    destruct (resolve_beside _ _ _ _ _ (container_ext m) FR ND' FN G ZE) as (d' & EL & _ & RO). rewrite R in EL. apply app_inj_tail in EL. destruct EL as (<- & _). split; [exact RO|].
    destruct (last_name _ _ _ _ _ FR ND' FN) as (d2 & _ & _ & _ & [(-> & _)|(a & -> & _)]); apply part_iff; (split; [exact G|]); exists []; (split; [constructor|]); rewrite app_nil_r; [left; reflexivity|].
    right. exists a. rewrite <- app_assoc. reflexivity.
Qed.
Lemma record_size_ok q name called : eq_dpb q = o ->
  fields_size (recorded (v_H E) (params_of q name called) []) = record_size name called (match v_mtime E li with Some _ => true | None => false end) (eq_hash q) o.
Proof using.
  intros EO. unfold recorded, params_of, record_size. cbn [e_in_name e_out_name e_fdt e_sdt e_hash e_dpb]. rewrite EO.
  assert (HC : hash_len (canon_hash (eq_hash q)) = hash_len (eq_hash q)) by (destruct (eq_hash q); reflexivity).
  assert (HK : lenN (hash_code (canon_hash (eq_hash q))) = hash_code_size (eq_hash q)) by (destruct (eq_hash q); reflexivity).
  clear - HC HK. destruct (v_mtime E li), o as [[[d p] B]|]; unfold fields_size; cbn [app fold_right]; unfold field_size; rewrite HC, HK; lia.
Qed.
Lemma encode_exit0_iff q lo name called : encode_request E s m = Go q -> file_name_of inp name -> encode_target E m s inp lo called -> writable E m s lo ->
  (rn_exit (encode_cmd E m s) = Exit 0 <->
   record_size name called (match v_mtime E li with Some _ => true | None => false end) (eq_hash q) o <= ver_to_block_size v - 16).
Proof.
  intros Q FN TG (WC & WD & WN). destruct WF as (W1 & W2 & W3 & NI). pose proof FA as (FD & FR & FS & FC).
  assert (ZE : ~ In 0 (container_ext m)).
  { destruct (encode_request_parts _ _ _ _ Q) as (_ & _ & _ & _ & GV & _). rewrite <- (ext_version _ _ _ GV). apply zero_In. apply ext_no. }
  destruct (target_out q lo called Q TG WD ZE) as (RO & PO). pose proof (proj2 (part_iff _ _) FN) as PI.
  destruct (encode_params q lo name called Q RO WC WD PI PO) as (EI & EV & EO & OK & EF & ET & ME). cbv zeta in *.
  pose proof (record_size_ok q name called EO) as RS. rewrite <- RS. set (p := params_of q name called) in *.
  assert (V : e_ver p = v) by exact EV. assert (O : e_dpb p = o) by exact EO. assert (IO : input_ok (SrcFile content)) by (split; assumption).
  assert (exists mx, ver_to_max_data_file_size v o = ROk mx /\ lenN content <= mx) as (mx & HMX & LM).
  { destruct OK as (_ & _ & DK & VR & _). rewrite O in DK. rewrite V, O in VR. assert (VK : ver_ok v o) by (unfold ver_ok; exact VR).
    eexists. split; [apply max_size_eq; assumption|]. apply (c34_size_limit_is_exact v o _ _ n DK VK); [apply max_size_eq; assumption|exact BC|lia]. }
  assert (RUN : encode_cmd E m s = match encode_file (v_H E) (v_rs E) (v_cpus E) p (SrcFile content) with
                | ROk out => mkRan (upd (upd s lo (NFile [])) lo (NFile (eo_file out))) (Exit (if eo_err out then 2 else 0)) []
                | RErr _ => mkRan (upd (upd s lo (NFile [])) lo (NFile (v_left E))) (Exit 2) []
                | RPanic => mkRan (upd (upd s lo (NFile [])) lo (NFile (v_left E))) Panicked []
                end).
  { unfold encode_cmd. rewrite Q. cbn [run]. rewrite NI.
    assert (PE : path_exists s (v_cwd E) (eq_out q) && negb (is_present m A_force) = false).
    { destruct WN as [SN| ->]; [|apply andb_false_r]. destruct (path_exists s (v_cwd E) (eq_out q)) eqn:PE; [|reflexivity]. apply exists_resolve in PE. destruct PE as (l' & R' & X). congruence. }
    assert (NE : loc_eqb li lo = false).
    { apply loc_eqb_neq. intros ->. destruct WN as [SN|F]; [congruence|]. apply (NF F lo); [|reflexivity]. eapply encode_request_out; eassumption. }
    rewrite PE. unfold encode_run. rewrite EI. assert (ID : is_dash inp = false) by (apply eqbl_neq; congruence). rewrite ID. unfold open_read. unfold named in FR. rewrite FR, FS, FC.
    unfold open_write. rewrite RO, WC. cbn [negb]. destruct (s lo) as [[c|]|]; [|congruence|]; rewrite NE, PI, PO; reflexivity. }
  rewrite RUN. split.
  - intro X. apply N.nlt_ge. intro LT. rewrite <- V in LT. destruct (c38_metadata_too_big_refused (v_H E) (v_rs E) (v_cpus E) p content mx OK ME LT) as (out' & E' & R' & _); [auto|exact IO|rewrite V, O; exact HMX|].
    rewrite E' in X. cbn in X. rewrite R' in X. discriminate.
  - intro LE. assert (MF : meta_fits (v_H E) p) by (intros _; rewrite V; exact LE).
    destruct (c38_encoded_container_is_the_file (v_H E) (v_rs E) p (v_cpus E) content mx n OK MF IO EF ET) as (out' & E' & EC); try (rewrite V, O; assumption); try assumption.
    rewrite E'. cbn. destruct EC as (-> & _). reflexivity.
Qed.
End Enc.

Lemma whole_request E s m inp l c : clap_ok m -> value_of m A_in_file = Some inp -> named E s inp l -> s l = Some (NFile c) -> (exists x, file_name_of inp x) ->
  whole_container m -> exists q, decode_request E s m = Go (inp, q) /\ plain q /\ flags_of m q /\ number_option m A_burst (dc_burst q).
Proof.
  intros CK VI R S (x & FN) (W1 & (b & W2) & W3 & W4 & W5 & W6 & W7 & W8 & W9 & W10 & W11).
  set (q := mkDparam (if is_present m A_no_meta then Any else Prefer TMeta) None None None (is_present m A_force) None None None (is_present m A_force_misalign) b).
  assert (SO : scan_options m q).
  { unfold scan_options, number_option, range_option, flags_of. cbn. rewrite W3, W4, W5, W6, W7, W8, W9, W10, W11. repeat split; auto. }
  destruct (proj2 (c48_decode_options E s m q CK)) as (i & D); [split; [exact SO|]; exists inp, l, c, x; auto|].
  exists q. assert (i = inp). { apply decode_request_go in D. destruct D as (D & _). apply get_in_file_go in D. destruct D as (D & _). congruence. } subst i.
  split; [exact D|]. split; [repeat split; reflexivity|]. split; [apply SO|exact W2].
Qed.
Lemma plain_burst q o : plain q -> plain (with_burst q o).
Proof. intro P. exact P. Qed.

Section Dec.
Variables (H : hash_fn) (rs : codec) (cpus : N) (p : eparam) (content : list N) (mx n : N) (out : eoutcome) (name : list N).
Hypothesis OK : enc_ok H rs cpus p.
Hypothesis F : meta_fits H p.
Hypothesis IO : input_ok (SrcFile content).
Hypothesis EF : e_from p = None.
Hypothesis ET : e_to p = None.
Hypothesis ME : meta_on p = true.
Hypothesis HMX : ver_to_max_data_file_size (e_ver p) (e_dpb p) = ROk mx.
Hypothesis HL : lenN content <= mx.
Hypothesis HBC : block_count (e_ver p) (e_dpb p) (lenN content) n.
Hypothesis HN : n < U32_MAX.
Hypothesis EN : encode_file H rs cpus p (SrcFile content) = ROk out.
Hypothesis IN : e_in_name p = Some name.

Lemma container_ref q : plain q -> (dc_choice q = Any \/ dc_choice q = Prefer TMeta \/ dc_choice q = MustBe TMeta) ->
  match e_dpb p with Some (_, _, B) => dc_burst q = None -> B <= SBX_MAX_BURST_ERR_RESISTANCE \/ content <> [] | None => True end ->
  exists pos ref o', get_ref_block (eo_file out) (ref_from_pos (dc_ref_from q) (dc_from q)) (dc_ref_to q) (dc_misalign q) (dc_choice q) = ROk (Some (pos, ref)) /\
    get_data_par_burst (eo_file out) (dc_burst q) (guess_from_param (dc_guess q) (dc_from q)) (dc_misalign q) ref = ROk o' /\ get_FNM ref = Some name /\
    match e_dpb p, o' with Some _, Some _ => True | None, None => True | _, _ => False end.
Proof.
  intros PQ CH BU. destruct (c38_encoded_container_is_the_file H rs p cpus content mx n OK F IO EF ET HMX HL HBC HN) as (out' & E' & EC). rewrite EN in E'. injection E' as <-.
  destruct IO as [IB IL]. destruct (encoded_intact H rs cpus p content out n OK IB EC HBC ltac:(lia)) as [IT FL].
  assert (MD : match e_dpb p with
    | Some (d, par, B) => get_meta_by_id (recorded H p content) IRSD = Some (RSD d) /\ get_meta_by_id (recorded H p content) IRSP = Some (RSP par) /\ (dc_burst q = None -> B <= SBX_MAX_BURST_ERR_RESISTANCE \/ 1 <= n)
    | None => True end).
  { destruct (e_dpb p) as [[[d par] B]|] eqn:EO; [|exact Logic.I].
    assert (BU' : dc_burst q = None -> B <= SBX_MAX_BURST_ERR_RESISTANCE \/ 1 <= n) by (intro Q; destruct (BU Q) as [X|X]; [auto|right; refine (block_count_pos _ _ content _ X HBC _); destruct OK as (_ & _ & O & _); rewrite EO in O; apply O]).
    unfold recorded. rewrite EO. destruct (e_in_name p), (e_fdt p); cbn; auto. }
  destruct (setup_meta_large _ _ _ _ _ _ _ _ _ q IT FL PQ ME CH MD) as (ref & o' & ((pos & GR) & GD & _) & RV & RU & RD & _).
  exists pos, ref, o'. split; [exact GR|]. split; [exact GD|]. split.
  - unfold get_FNM, block_get_meta. rewrite RD. unfold recorded. rewrite IN. reflexivity.
  - destruct OK as (_ & _ & _ & O2 & _). unfold get_data_par_burst in GD. rewrite RV, O2 in GD. destruct (e_dpb p); [|apply ROk_inj in GD; subst o'; exact Logic.I].
    apply rbind_ok in GD. destruct GD as (d & _ & GD). apply rbind_ok in GD. destruct GD as (pp & _ & GD). apply rbind_ok in GD. destruct GD as (b & _ & GD). apply ROk_inj in GD. subst o'. exact Logic.I.
Qed.

Variables (E : env) (m : matches) (s : fs) (inp : list N) (li l : loc).
Hypothesis VH : v_H E = H.
Hypothesis CP : 1 <= v_cpus E.
Hypothesis CK : clap_ok m.
Hypothesis VI : value_of m A_in_file = Some inp.
Hypothesis NM : exists x, file_name_of inp x.
Hypothesis FR : named E s inp li.
Hypothesis FS : s li = Some (NFile (eo_file out)).
Hypothesis FC : v_can E li = true.
Hypothesis WC : whole_container m.
Hypothesis BU : match e_dpb p with Some (_, _, B) => value_of m A_burst = None -> B <= SBX_MAX_BURST_ERR_RESISTANCE \/ content <> [] | None => True end.
Hypothesis GN : good_name name.
Lemma decode_prints : value_of m A_out = Some [45] -> (e_dpb p <> None -> 1 <= lenN content) -> (forall l x, In x (v_order E l) <-> In x l) ->
  n <= N.of_nat (v_limit E) -> (forall d par B b, e_dpb p = Some (d, par, B) -> number_option m A_burst (Some b) -> b = B) ->
  match e_dpb p with Some (_, _, B) => value_of m A_burst = None -> B <= SBX_MAX_BURST_ERR_RESISTANCE | None => True end ->
  decode_cmd E m s = mkRan s (Exit 0) content.
Proof.
  intros VO NE OR LIM BB BM. destruct (whole_request E s m inp li _ CK VI FR FS NM WC) as (q & Q & PQ & (FL1 & FL2 & FL3 & FL4) & NB).
  assert (CH : dc_choice q = Any \/ dc_choice q = Prefer TMeta \/ dc_choice q = MustBe TMeta) by (rewrite FL1; destruct (is_present m A_no_meta); auto).
  assert (BQ : match e_dpb p with Some (_, _, B) => dc_burst q = None -> B <= SBX_MAX_BURST_ERR_RESISTANCE \/ content <> [] | None => True end).
  { destruct (e_dpb p) as [[[d par] B]|]; [|exact Logic.I]. intro Z. apply BU. unfold number_option in NB. rewrite Z in NB. destruct (value_of m A_burst); [contradiction|reflexivity]. }
  destruct (container_ref q PQ CH BQ) as (pos & ref & o' & GR & GD & FN & OO).
  assert (BQ' : match e_dpb p with Some (_, _, B) => (dc_burst q = None /\ B <= SBX_MAX_BURST_ERR_RESISTANCE) \/ dc_burst q = Some B | None => True end).
  { destruct (e_dpb p) as [[[d par] B]|]; [|exact Logic.I]. destruct (dc_burst q) as [b|] eqn:Z; [right|left; split; [reflexivity|apply BM; unfold number_option in NB; destruct (value_of m A_burst); [contradiction|reflexivity] ] ]. f_equal. eapply BB; [reflexivity|]. exact NB. }
  destruct (c40_roundtrip H rs p cpus content mx n OK F IO EF ET ME NE HMX HL HBC HN) as (out' & E' & _ & RT). rewrite EN in E'. injection E' as <-.
  destruct (RT (v_order E) (v_cpus E) (v_limit E) q OR CP PQ CH BQ' LIM) as (dout & ED & DO & _).
  assert (PN : get_file_name_part_of_path name = Some name).
  { apply part_iff. split; [exact GN|]. exists []. split; [constructor|]. left. symmetry. apply app_nil_r. }
  unfold decode_cmd. rewrite Q. cbn [run]. unfold open_read. unfold named in FR. rewrite FR, FS, FC, GR. unfold decode_out_path. rewrite FN, PN. cbn [gbind]. rewrite VO.
  change (is_dash [45]) with true. cbn [run]. rewrite andb_false_r. unfold decode_run. rewrite GD, VH.
  unfold decode_file in ED. rewrite GR in ED. cbn [rbind] in ED. rewrite andb_false_r in ED. rewrite ED, DO. reflexivity.
Qed.
Hypothesis NZ : ~ In 0 name.
Hypothesis TG : decode_target E m s name l.
Hypothesis NE : l <> li.
Hypothesis WR : writable E m s l.

Lemma target_path ref : get_FNM ref = Some name -> exists o, decode_out_path E s (value_of m A_out) ref = Go (Some o) /\ resolve s (v_cwd E) o = Some l.
Proof.
  intro FN. assert (PN : get_file_name_part_of_path name = Some name).
  { apply part_iff. split; [exact GN|]. exists []. split; [constructor|]. left. symmetry. apply app_nil_r. }
  unfold decode_out_path. rewrite FN, PN. cbn [gbind]. unfold decode_target in TG. destruct (value_of m A_out) as [o|].
  - destruct TG as (ND & [(R & NDI)|(d & R & D & ->)]).
    + assert (X : is_dash o = false) by (apply eqbl_neq; exact ND). rewrite X. destruct (path_is_dir s (v_cwd E) o) eqn:PD; [|eauto].
      apply is_dir_resolve in PD. destruct PD as (l' & R' & D'). unfold named in R. congruence.
    + assert (X : is_dash o = false) by (apply eqbl_neq; exact ND). rewrite X. assert (PD : path_is_dir s (v_cwd E) o = true) by (apply is_dir_resolve; eauto). rewrite PD.
      exists (make_path [o; name]). split; [reflexivity|]. rewrite (resolve_child _ _ _ _ _ R D GN). apply zero_In in NZ. rewrite NZ. reflexivity.
  - destruct TG as (D & ->). exists name. split; [reflexivity|]. rewrite resolve_name by exact GN. apply zero_In in NZ. rewrite NZ. unfold is_dir_at. rewrite D. reflexivity.
Qed.
Lemma decode_restores_eq : decode_cmd E m s = mkRan (upd (upd s l (NFile [])) l (NFile content)) (Exit 0) [].
Proof.
  destruct (whole_request E s m inp li _ CK VI FR FS NM WC) as (q & Q & PQ & (FL1 & FL2 & FL3 & FL4) & NB).
  assert (CH : dc_choice q = Any \/ dc_choice q = Prefer TMeta \/ dc_choice q = MustBe TMeta) by (rewrite FL1; destruct (is_present m A_no_meta); auto).
  assert (BQ : match e_dpb p with Some (_, _, B) => dc_burst q = None -> B <= SBX_MAX_BURST_ERR_RESISTANCE \/ content <> [] | None => True end).
  { destruct (e_dpb p) as [[[d par] B]|]; [|exact Logic.I]. intro Z. apply BU. unfold number_option in NB. rewrite Z in NB. destruct (value_of m A_burst); [contradiction|reflexivity]. }
  destruct (container_ref q PQ CH BQ) as (pos & ref & o' & GR & GD & FN & OO). destruct (target_path ref FN) as (op & DP & RO).
  destruct WR as (WC1 & WC2 & WC3). unfold decode_cmd. rewrite Q. cbn [run]. unfold open_read. unfold named in FR. rewrite FR, FS, FC, GR, DP. cbn [run].
  assert (MU : dc_multi q = None) by apply PQ. unfold truncating at 1. rewrite MU, FL2. cbn [andb]. rewrite andb_true_r.
  assert (PE : negb (is_present m A_force) && path_exists s (v_cwd E) op = false).
  { destruct WC3 as [Z|Z]; [|rewrite Z; reflexivity]. apply andb_false_iff. right. destruct (path_exists s (v_cwd E) op) eqn:PE; [|reflexivity].
    apply exists_resolve in PE. destruct PE as (l' & R' & X). congruence. }
  rewrite PE. unfold decode_run. rewrite GD. assert (TR : truncating q = true) by (unfold truncating; rewrite MU; reflexivity). rewrite TR.
  assert (OW : exists s1, open_write s (v_cwd E) (v_can E) true op = Some (l, s1) /\ s1 = upd s l (NFile [])).
  { unfold open_write. rewrite RO, WC1. cbn [negb]. destruct (s l) as [[c|]|]; [eauto|congruence|eauto]. }
  destruct OW as (s1 & OW & ->). rewrite OW. assert (LN : loc_eqb li l = false) by (apply loc_eqb_neq; congruence). rewrite LN. cbn [negb andb].
  set (q' := with_burst q o'). assert (PQ' : plain q') by exact (plain_burst q o' PQ).
  assert (BQ' : match e_dpb p with Some (_, _, B) => dc_burst q' = None -> B <= SBX_MAX_BURST_ERR_RESISTANCE \/ content <> [] | None => True end).
  { destruct (e_dpb p) as [[[d par] B]|]; [|exact Logic.I]. unfold q'. destruct o' as [[[d' p'] B']|]; [|contradiction]. cbn. discriminate. }
  destruct (c16_roundtrip H rs p cpus content mx n OK F IO EF ET ME HMX HL HBC HN) as (out' & E' & _ & RT). rewrite EN in E'. injection E' as <-.
  assert (OLD : exists dout, decode (v_H E) (v_order E) (v_cpus E) (v_limit E) q' (eo_file out) ref (ToFile (match s l with Some (NFile c) => Some c | _ => None end)) = ROk dout /\ do_out dout = content).
  { set (old := match s l with Some (NFile c) => Some c | _ => None end).
    assert (FW : dc_force_write q' = true \/ old = None) by (unfold q', with_burst; cbn; rewrite FL2; destruct WC3 as [Z|Z]; [right; unfold old; rewrite Z; reflexivity|left; exact Z]).
    destruct (RT (v_order E) (v_cpus E) (v_limit E) q' old CP PQ' CH BQ' FW) as (dout & ED & DO & _). exists dout. split; [|exact DO]. rewrite VH.
    revert ED. unfold decode_file. unfold q' at 1 2 3 4 5. cbn [with_burst dc_ref_from dc_from dc_ref_to dc_misalign dc_choice]. rewrite GR. cbn [rbind]. destruct (_ && _ && _); [discriminate|auto]. }
  destruct OLD as (dout & ED & DO). rewrite ED. rewrite DO. reflexivity.
Qed.
Lemma decode_restores : let r := decode_cmd E m s in
  rn_exit r = Exit 0 /\ rn_fs r l = Some (NFile content) /\ same_but l s (rn_fs r).
Proof.
  cbv zeta. rewrite decode_restores_eq. cbn. split; [reflexivity|]. split; [apply upd_same|]. intros x D. rewrite !upd_other by exact D. reflexivity.
Qed.
End Dec.
