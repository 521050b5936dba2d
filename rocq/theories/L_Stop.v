(* A loop stopped at a look behaves as one that was asked to treat fewer bytes. *)
From Verif Require Import M_Base M_Specs M_Crc M_Header M_Multihash M_Metadata M_Block M_Index M_FileUtils M_Buffer M_Ranges M_Encode M_Scan M_Loop M_Decode M_Content M_Check M_Stop
  S_Crc S_Meta S_Block S_Index S_Container S_Encode S_Decode
  L_Base L_File L_Crc L_Header L_Meta L_Block L_Index L_Index2 L_Buffer L_Lot L_Encode L_Container L_Encode2 L_Encode3 L_Encode4.
Ltac Zify.zify_post_hook ::= idtac.

Section Sim.
Context {St : Type}.
Variables (c : cfg) (stop : flag) (pre pre' : St -> bool) (step : St -> slot -> result (St * action * bool)) (Inv : N -> St -> Prop).
Hypothesis HP : forall i st, Inv i st -> raised stop i || pre st = pre' st.
Hypothesis HS : forall i st s st' a, Inv i st -> step st s = ROk (st', a, false) -> Inv (i + 1) st'.
Lemma fill_stop n : forall i st b, Inv i st ->
  match fill c pre' step n st b with
  | ROk (st', b', run) => exists i', fill c (stop_pre stop pre) (stop_step step) n (i, st) b = ROk ((i', st'), b', run) /\ (run = true -> Inv i' st')
  | RErr e => fill c (stop_pre stop pre) (stop_step step) n (i, st) b = RErr e
  | RPanic => fill c (stop_pre stop pre) (stop_step step) n (i, st) b = RPanic
  end.
Proof.
  induction n as [|n IH]; intros i st b HI; cbn [fill].
  - destruct (is_full b); [exists i; auto|reflexivity].
  - destruct (is_full b); [exists i; auto|]. unfold stop_pre at 1 3 5. cbn [fst snd]. rewrite (HP i st HI). destruct (pre' st); [exists i; split; [reflexivity|discriminate]|].
    destruct (get_slot c b) as [[b1 loc]|]; [|reflexivity]. destruct (slot_at b1 loc) as [s|]; [|reflexivity].
    unfold stop_step at 1 3 5. cbn [fst snd]. destruct (step st s) as [[[st1 a] fin]|e|] eqn:ES; [|reflexivity|reflexivity]. cbn [rbind].
    destruct (match a with Keep s' => ROk (put_slot b1 loc s') | Cancel s' => cancel_slot c (put_slot b1 loc s') end) as [b2|e|]; [|reflexivity|reflexivity]. cbn [rbind].
    destruct fin; [exists (i + 1); split; [reflexivity|discriminate]|]. apply IH. apply (HS _ _ _ _ _ HI ES).
Qed.
Lemma loop_stop {W : Type} (consume : W -> dbuf -> result (dbuf * W)) ff n : forall q i st w, Inv i st ->
  match buf_loop c pre' step consume ff n q st w with
  | ROk (st', w') => exists i', buf_loop c (stop_pre stop pre) (stop_step step) consume ff n q (i, st) w = ROk ((i', st'), w')
  | RErr e => buf_loop c (stop_pre stop pre) (stop_step step) consume ff n q (i, st) w = RErr e
  | RPanic => buf_loop c (stop_pre stop pre) (stop_step step) consume ff n q (i, st) w = RPanic
  end.
Proof.
  induction n as [|n IH]; intros q i st w HI; cbn [buf_loop]; [reflexivity|]. destruct q as [|b q]; [reflexivity|].
  pose proof (fill_stop ff i st b HI) as F. destruct (fill c pre' step ff st b) as [[[st1 b1] run]|e|].
  - destruct F as (i' & F1 & F2). rewrite F1. cbn [rbind]. destruct (consume w b1) as [[b2 w1]|e|]; [|reflexivity|reflexivity]. cbn [rbind].
    destruct run; [|exists i'; reflexivity]. apply IH, F2. reflexivity.
  - rewrite F. reflexivity.
  - rewrite F. reflexivity.
Qed.
End Sim.

(* ---- encoding ---- *)
Definition cut_len (stop : flag) (q : N) (r : option N) : option N :=
  match stop with Some k => Some (match r with Some r => N.min r (k * q) | None => k * q end) | None => r end.
Lemma raised_cut stop q r i : 1 <= q -> raised stop i || (match r with Some r => r <=? i * q | None => false end) = match cut_len stop q r with Some r => r <=? i * q | None => false end.
Proof.
  intro HQ. destruct stop as [k|]; cbn [raised cut_len orb]; [|reflexivity].
  assert (E : (k <=? i) = (k * q <=? i * q)).
  { destruct (N.leb_spec k i) as [A|A], (N.leb_spec (k * q) (i * q)) as [B|B]; try reflexivity; exfalso.
    - assert (k * q <= i * q) by (apply N.mul_le_mono_r; exact A). lia.
    - assert (i * q < k * q) by (apply N.mul_lt_mono_pos_r; lia). lia. }
  rewrite E. destruct r as [r|]; [|apply orb_false_r]. destruct (N.leb_spec (k * q) (i * q)), (N.leb_spec r (i * q)), (N.leb_spec (N.min r (k * q)) (i * q)); try reflexivity; lia.
Qed.
Lemma enc_loop_stop_eq stop c rs r last ff n : c_in c = InData -> forall q i st stats f, es_bytes st = i * ver_to_data_size (c_ver c) ->
  enc_loop_stop stop c rs r last ff n q (i, st) stats f = enc_loop c rs (cut_len stop (ver_to_data_size (c_ver c)) r) last ff n q st stats f.
Proof.
  intro CIN. destruct (data_size_pos (c_ver c)) as [DP _]. set (ds := ver_to_data_size (c_ver c)) in *.
  induction n as [|n IH]; intros q i st stats f HI; cbn [enc_loop_stop enc_loop]; [reflexivity|]. destruct q as [|b q]; [reflexivity|].
  pose proof (fill_stop c stop (enc_pre r) (enc_pre (cut_len stop ds r)) (enc_step c last) (fun i st => es_bytes st = i * ds)) as F.
  assert (F' := F (fun i st E => eq_trans (f_equal2 orb eq_refl (f_equal (fun x => match r with Some r => r <=? x | None => false end) E))
    (eq_trans (raised_cut stop ds r i DP) (f_equal (fun x => match cut_len stop ds r with Some r => r <=? x | None => false end) (eq_sym E))))). clear F.
  specialize (F' ltac:(
    intros i0 st0 s st' a E ES; unfold enc_step in ES; fold ds in ES;
    pose proof (src_read_ok (es_src st0) (slot_view_len c)) as SR; destruct (src_read (es_src st0) (slot_view_len c)) as [d src']; destruct SR as [SR _];
    assert (SV : slot_view_len c = ds) by (unfold slot_view_len; rewrite CIN; reflexivity); rewrite SV in SR;
    destruct (lenN d =? 0); [discriminate ES|]; destruct (es_last st0 || (es_seq st0 =? U32_MAX)); [discriminate ES|];
    destruct (N.ltb_spec (lenN d) ds) as [L|L]; [discriminate ES|];
    assert (LD : lenN d = ds) by lia;
    assert (EB : es_bytes st' = es_bytes st0 + lenN d);
    [destruct (c_dpb c) as [[[dd pp] bb]|]; [destruct (_ =? dd - 1); [destruct (U32_MAX <? _); [discriminate ES|]|]|];
     injection ES as <- _; reflexivity|]; rewrite EB, E, LD; lia) ff i st b HI).
  destruct (fill c (enc_pre (cut_len stop ds r)) (enc_step c last) ff st b) as [[[st1 b1] run]|e|].
  - destruct F' as (i' & F1 & F2). rewrite F1. cbn [rbind]. destruct (enc_encode c rs stats b1) as [[b2 stats1]|e|]; [|reflexivity|reflexivity]. cbn [rbind].
    destruct (dbuf_write c f b2) as [[b3 f1]|e|]; [|reflexivity|reflexivity]. cbn [rbind]. destruct run; [|reflexivity]. apply IH, F2. reflexivity.
  - rewrite F'. reflexivity.
  - rewrite F'. reflexivity.
Qed.
Lemma encode_file_stop_eq stop H rs cpus p input : encode_file_stop stop H rs cpus p input =
  match input with
  | SrcFile content => enc_main H rs cpus p (Some (fst (asked p content))) (cut_len stop (ver_to_data_size (e_ver p)) (Some (fst (asked p content)))) (SrcFile (dropN (snd (asked p content)) content))
  | SrcStdin _ => enc_main H rs cpus p None (cut_len stop (ver_to_data_size (e_ver p)) None) input
  end.
Proof.
  assert (X : forall r src stats f last ff n, enc_loop_stop stop (enc_cfg p cpus) rs r last ff n (dbuf_new_multi (enc_cfg p cpus)) (0, mkEstate src 0 0 false [] false) stats f
     = enc_loop (enc_cfg p cpus) rs (cut_len stop (ver_to_data_size (e_ver p)) r) last ff n (dbuf_new_multi (enc_cfg p cpus)) (mkEstate src 0 0 false [] false) stats f).
  { intros. apply (enc_loop_stop_eq stop (enc_cfg p cpus)); reflexivity. }
  destruct input as [content|ps]; unfold encode_file_stop, enc_main, asked.
  - destruct (calc_required_len_and_seek_to_from_byte_range _ _ _ _ _ _) as [len lo]. cbn [fst snd].
    destruct (ver_to_max_data_file_size _ _); [|reflexivity|reflexivity]. cbn [rbind]. destruct (_ <? len); [reflexivity|]. destruct (negb _); [reflexivity|].
    destruct (if meta_on p then _ else _); [|reflexivity|reflexivity]. destruct (ver_to_last_data_seq_num_exc_parity _ _); [|reflexivity|reflexivity]. cbn [rbind]. cbv zeta. rewrite X. reflexivity.
  - destruct (ver_to_max_data_file_size _ _); [|reflexivity|reflexivity]. cbn [rbind]. destruct (negb _); [reflexivity|].
    destruct (if meta_on p then _ else _); [|reflexivity|reflexivity]. destruct (ver_to_last_data_seq_num_exc_parity _ _); [|reflexivity|reflexivity]. cbn [rbind]. cbv zeta. rewrite X. reflexivity.
Qed.
Lemma encode_never_stopped H rs cpus p input : encode_file_stop None H rs cpus p input = encode_file H rs cpus p input.
Proof. rewrite encode_file_stop_eq, encode_file_eq. reflexivity. Qed.
Section Encode.
Variables (H : hash_fn) (rs : codec) (p : eparam) (cpus : N).
Hypothesis OK : enc_ok H rs cpus p.
Hypothesis FITS : meta_fits H p.
Let v := e_ver p.
Let o := e_dpb p.
Let ds := ver_to_data_size v.
Lemma max_pos mx : ver_to_max_data_file_size v o = ROk mx -> 1 <= mx.
Proof.
  intro HMX. pose proof OK as (_ & _ & O1 & O2 & _). pose proof (max_size_eq v o O1 O2) as MXE. rewrite HMX in MXE. apply ROk_inj in MXE. subst mx.
  destruct (data_size_pos v) as [D1 _]. fold o in O1. destruct o as [[[d q] B]|]; [|unfold U32_MAX; lia].
  destruct (sets_pos d q) as [S1 _]; [destruct O1; lia|destruct O1; lia|]. destruct O1 as [O1 _]. nia.
Qed.
Lemma encode_stopped content mx n k : input_ok (SrcFile content) -> e_from p = None -> e_to p = None ->
  ver_to_max_data_file_size v o = ROk mx -> lenN content <= mx ->
  block_count v o (lenN (takeN (k * ds) content)) n -> n < U32_MAX ->
  exists out, encode_file_stop (Some k) H rs cpus p (SrcFile content) = ROk out /\ encoded H rs p (takeN (k * ds) content) out.
Proof.
  intros [IB IL] E1 E2 HMX HL HBC HN. pose proof (max_pos mx HMX) as MP. rewrite encode_file_stop_eq, (asked_whole p content E1 E2 IL). cbn [fst snd]. rewrite drop_0.
  cbn [cut_len]. fold v ds. assert (DS : 1 <= ds) by (destruct (data_size_pos v); assumption). set (r := N.max 1 (lenN content)). set (r' := N.min r (k * ds)).
  destruct (main_ok H rs p (OK1 H rs p cpus OK) FITS (Some r) (Some r') (SrcFile content) mx) as (res & data & rest & k' & RE & D1 & D2 & D3 & D4 & D5).
  { split; assumption. } { unfold r; lia. } { unfold r', r; lia. } { exact HMX. }
  fold v ds in D2, D3, D5. cbn [src_bytes] in D1. pose proof (f_equal (@lenN _) D1) as LE. rewrite lenN_app in LE. destruct D2 as [D21 D22].
  destruct D5 as [(out & _ & _ & _ & _ & X)|[X1 X2]]; [discriminate X|]. rewrite RE by exact (CP H rs p cpus OK).
  assert (KK : k' <= k). { destruct D3 as [->|D3]; [lia|]. assert (k' - 1 < k); [|lia]. apply (N.mul_lt_mono_pos_r ds); unfold r' in D3; lia. }
  assert (KD : k' * ds <= k * ds) by (apply N.mul_le_mono_r; exact KK).
  assert (ED : takeN (k * ds) content = data); [|rewrite ED in *; exact (X2 n HBC HN)].
  assert (DD : lenN data = k * ds \/ rest = []).
  { destruct X1 as [[X3 X4]|[X3 _]]; [|right; exact (X3 I)]. destruct (N.le_ge_cases r (k * ds)) as [L|L].
    - right. unfold r' in X3. rewrite N.min_l in X3 by exact L. destruct rest as [|z rest]; [reflexivity|]. exfalso. rewrite lenN_cons in LE. unfold r in X3. lia.
    - left. unfold r' in X3. rewrite N.min_r in X3 by exact L. lia. }
  rewrite D1. destruct DD as [DD| ->].
  - rewrite take_app, take_all by lia. replace (k * ds - lenN data) with 0 by lia. rewrite take_0, app_nil_r. reflexivity.
  - rewrite app_nil_r, take_all by lia. reflexivity.
Qed.
Lemma encode_stdin_stopped script mx n k : input_ok (SrcStdin script) -> well_paced ds script ->
  ver_to_max_data_file_size v o = ROk mx -> k * ds <= mx ->
  block_count v o (lenN (takeN (k * ds) (concat script))) n -> n < U32_MAX ->
  exists out, encode_file_stop (Some k) H rs cpus p (SrcStdin script) = ROk out /\ encoded H rs p (takeN (k * ds) (concat script)) out.
Proof.
  intros [IB IL] WP HMX HL HBC HN. rewrite encode_file_stop_eq. cbn [cut_len]. fold v ds. assert (DS : 1 <= ds) by (destruct (data_size_pos v); assumption).
  assert (M64 : mx < 18446744073709551616).
  { pose proof OK as (_ & _ & O1 & O2 & _). pose proof (max_size_eq v o O1 O2) as MXE. rewrite HMX in MXE. apply ROk_inj in MXE. subst mx.
    assert (DU : ds <= 4080) by (unfold ds; destruct v; vm_compute; discriminate). clear - O1 DU. fold ds. fold o in O1.
    destruct o as [[[d q] B]|].
    - destruct O1 as (A1 & A2 & A3). destruct (sets_pos d q) as [S1 S2]; [lia|lia|].
      match goal with |- ?a * ds < _ => assert (a <= U32_MAX) by (unfold U32_MAX in *; nia) end.
      match goal with |- ?a * ds < _ => assert (a * ds <= U32_MAX * 4080) by (apply N.mul_le_mono; assumption) end. unfold U32_MAX in *. lia.
    - match goal with |- ?a * ds < _ => assert (a * ds <= U32_MAX * 4080) by (apply N.mul_le_mono; [reflexivity|assumption]) end. unfold U32_MAX in *. lia. }
  destruct (main_ok H rs p (OK1 H rs p cpus OK) FITS None (Some (k * ds)) (SrcStdin script) mx) as (res & data & rest & k' & RE & D1 & D2 & D3 & D4 & D5).
  { split; assumption. } { exact I. } { split; [lia|exact HL]. } { exact HMX. }
  fold v ds in D2, D3, D5. cbn [src_bytes] in D1. destruct D2 as [D21 D22].
  destruct D5 as [(out & _ & _ & _ & _ & X)|[X1 X2]]; [discriminate X|]. rewrite RE by exact (CP H rs p cpus OK).
  assert (KK : k' <= k). { destruct D3 as [->|D3]; [lia|]. assert (k' - 1 < k); [|lia]. apply (N.mul_lt_mono_pos_r ds); lia. }
  assert (KD : k' * ds <= k * ds) by (apply N.mul_le_mono_r; exact KK).
  assert (ED : takeN (k * ds) (concat script) = data); [|rewrite ED in *; exact (X2 n HBC HN)].
  rewrite D1. destruct X1 as [[X3 X4]|[X3 _]].
  - rewrite take_app, take_all by lia. replace (k * ds - lenN data) with 0 by lia. rewrite take_0, app_nil_r. reflexivity.
  - rewrite (X3 (well_paced_from ds script DS WP)), app_nil_r, take_all by lia. reflexivity.
Qed.
End Encode.
