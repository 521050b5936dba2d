(* Repairing, part 2: one metadata position, one data block, one set. *)
From Verif Require Import M_Base M_Specs M_Crc M_Header M_Multihash M_Metadata M_Block M_Index M_FileUtils M_Buffer M_Ranges M_Encode M_Scan M_Loop M_Decode M_Repair
  S_Crc S_Meta S_Block S_Index S_Container S_Scan S_Decode S_Encode S_Repair
  L_Base L_Crc L_File L_Header L_Meta L_Block L_Block2 L_Index L_Index2 L_Buffer L_Encode L_Loop L_Scan L_Container L_Decode L_Decode2 L_Ref L_Lot L_Sort2 L_Intact L_Repair.
Ltac Zify.zify_post_hook ::= idtac.

Section Repair.
Variables (rs : codec) (rc : recon) (ref : block) (ms : list metadata) (d p B : N).
Let v := b_version ref.
Let uid := b_uid ref.
Let bs := ver_to_block_size v.
Let o := Some (d, p, B).
Let widx seq := calc_data_block_write_index seq (Some true) o.
Let hp := header_pred_same_ver_uid ref.
Hypothesis HO : dpb_ok o.
Hypothesis HR : recon_ok rs rc d p.
Hypothesis HH : header_ok (b_header ref) = true.
Hypothesis HD : b_data ref = DMeta ms.
Hypothesis HS : b_seq_num ref = 0.
Hypothesis HF : Forall field_ok ms.
Hypothesis HZ : fields_size ms <= bs - 16.

Lemma BSR : 128 <= bs <= 4096. Proof. apply block_size_pos. Qed.
Lemma DP : 1 <= d /\ 1 <= p /\ d + p <= 256. Proof. exact HO. Qed.
Lemma UIDOK : lenN uid = 6 /\ bytes_ok uid = true.
Proof. pose proof (proj1 (header_ok_spec _) HH). unfold uid, b_uid. tauto. Qed.

(* ---- metadata ---- *)
Definition meta_payload : list N := fields_bytes ms ++ repN (bs - 16 - fields_size ms) 26.
Definition meta_bytes : list N := header_to_bytes (mkHeader v (crc_of v uid 0 meta_payload) uid 0) ++ meta_payload.
Lemma meta_payload_ok : lenN meta_payload = bs - 16 /\ bytes_ok meta_payload = true.
Proof.
  unfold meta_payload. rewrite lenN_app, fields_bytes_len, lenN_rep, bytes_ok_app, fields_bytes_ok, bytes_ok_rep by (try exact HF; lia).
  split; [lia|reflexivity].
Qed.
Lemma meta_crc : crc_of v uid 0 meta_payload < 65536.
Proof. apply crc_of_lt; [apply UIDOK|apply meta_payload_ok]. Qed.
Lemma meta_bytes_ok : lenN meta_bytes = bs /\ bytes_ok meta_bytes = true.
Proof.
  pose proof BSR. destruct UIDOK, meta_payload_ok. unfold meta_bytes. rewrite lenN_app, lenN_header_to_bytes, bytes_ok_app, bytes_ok_header by assumption.
  split; [lia|assumption].
Qed.
Lemma meta_bytes_block w pos : sliceN pos bs w = meta_bytes -> block_at v uid w pos 0 meta_payload.
Proof.
  intro E. unfold block_at. fold bs. rewrite E. destruct UIDOK as [U1 U2], meta_payload_ok as [P1 P2]. exists (mkHeader v (crc_of v uid 0 meta_payload) uid 0).
  split; [|auto]. split; [apply header_ok_spec; cbn [h_crc h_uid h_seq_num]; pose proof meta_crc; repeat split; try assumption; try lia|].
  split; [exact P1|]. split.
  - unfold meta_bytes. cbn [h_version]. apply take_all. rewrite lenN_app, lenN_header_to_bytes by assumption. fold bs. pose proof BSR. lia.
  - apply crc_is_remainder; [pose proof (ver_usize_lt v); cbn [h_version]; lia|]. cbn [h_uid h_seq_num]. rewrite !bytes_ok_app, U2, bytes_ok_be, P2. reflexivity.
Qed.
(* the reference block during the metadata stage *)
Definition refgood (b : block) : Prop :=
  b_version b = v /\ b_uid b = uid /\ b_seq_num b = 0 /\ b_data b = DMeta ms.
Lemma write_ref b buf : refgood b -> lenN buf = 4096 -> bytes_ok buf = true ->
  exists b' buf', sync_to_buffer b None buf = ROk (b', buf') /\ refgood b' /\ lenN buf' = 4096 /\ bytes_ok buf' = true /\ takeN bs buf' = meta_bytes.
Proof.
  intros (V & U & S & D) LB BB. pose proof BSR as BZ. destruct UIDOK as [U1 U2], meta_payload_ok as [P1 P2].
  rewrite (sync_to_meta b None buf ms D S HF) by (rewrite V; fold bs; lia). rewrite V, U. fold bs.
  destruct (N.ltb_spec (bs - 16) (fields_size ms)); [lia|]. cbv zeta. fold meta_payload.
  eexists _, _. split; [reflexivity|]. split; [unfold refgood, b_version, b_uid, b_seq_num in *; cbn [set_crc b_header h_version h_uid h_seq_num b_data]; auto|].
  set (h := b_header (set_crc b (crc_of v uid (b_seq_num b) meta_payload))).
  assert (Hh : h = mkHeader v (crc_of v uid 0 meta_payload) uid 0).
  { unfold h, set_crc. cbn [b_header]. unfold b_version, b_uid, b_seq_num in *. rewrite V, U, S. reflexivity. }
  rewrite Hh. assert (L16 : lenN (header_to_bytes (mkHeader v (crc_of v uid 0 meta_payload) uid 0)) = 16) by (apply lenN_header_to_bytes; exact U1).
  assert (L1 : lenN (put_at buf 16 meta_payload) = 4096) by (rewrite lenN_put_at by lia; exact LB).
  split; [rewrite lenN_put_at by lia; exact L1|]. split.
  - apply bytes_ok_put_at; [apply bytes_ok_put_at; assumption|]. apply bytes_ok_header. exact U2.
  - apply list_ext_N.
    + destruct meta_bytes_ok as [M _]. rewrite lenN_take, lenN_put_at, L1, M by lia. lia.
    + intros i Hi. rewrite lenN_take, lenN_put_at, L1 in Hi by lia. rewrite nthN_take. destruct (N.ltb_spec i bs); [|lia].
      rewrite nthN_put_at by lia. unfold meta_bytes. rewrite nthN_app, L16.
      destruct (N.ltb_spec i 16); destruct (N.leb_spec 0 i); try lia; destruct (N.ltb_spec i (0 + 16)); try lia; cbn [andb]; [f_equal; lia|].
      rewrite nthN_put_at by lia. destruct (N.leb_spec 16 i); [|lia]. destruct (N.ltb_spec i (16 + lenN meta_payload)); [|lia]. reflexivity.
Qed.
Lemma accept_some_block w i : bytes_ok w = true ->
  match accept ref (sliceN (i * bs) bs w) with Some _ => some_block v uid w i | None => ~ some_block v uid w i end.
Proof.
  intro HB. pose proof (accept_block_at ref w (i * bs) HB) as AB. fold v uid bs in AB. destruct (accept ref _) as [b|].
  - destruct AB as [BA _]. eexists _, _. exact BA.
  - intros (seq & pl & BA). exact (AB _ _ BA).
Qed.
Definition mmark (w : file) (i : N) : bool := match accept ref (sliceN (i * bs) bs w) with Some _ => true | None => false end.
Lemma mmark_iff w i : bytes_ok w = true -> mmark w i = true <-> some_block v uid w i.
Proof. intro HB. unfold mmark. pose proof (accept_some_block w i HB). destruct (accept ref _); split; intro; try assumption; try reflexivity; try discriminate; contradiction. Qed.
Definition add_meta (g : bool) (t : pstats) : pstats :=
  if g then mkPstats (ps_meta t + 1) (ps_data t) (ps_failed t) (ps_meta_rep t) (ps_data_rep t) (ps_data_fail t)
  else mkPstats (ps_meta t) (ps_data t) (ps_failed t + 1) (ps_meta_rep t + 1) (ps_data_rep t) (ps_data_fail t).
(* what a buffer starting with a whole block is taken for *)
Lemma accept_take buf : bytes_ok buf = true -> bs <= lenN buf -> accept ref buf = accept ref (takeN bs buf).
Proof.
  intros HB L. assert (HB' : bytes_ok (takeN bs buf) = true) by (apply bytes_ok_take; exact HB).
  destruct (accept ref (takeN bs buf)) as [b|] eqn:E.
  - apply accept_iff in E as (h & pl & W & V & U & X); [|exact HB']. apply accept_iff; [exact HB|]. exists h, pl. split; [|auto].
    apply (wf_take buf h pl bs); [rewrite V; fold v bs; lia|exact W].
  - destruct (accept ref buf) as [b|] eqn:E2; [|reflexivity]. apply accept_iff in E2 as (h & pl & W & V & U & X); [|exact HB].
    enough (accept ref (takeN bs buf) = Some b) by congruence. apply accept_iff; [exact HB'|]. exists h, pl. split; [|auto].
    apply (wf_take buf h pl bs); [rewrite V; fold v bs; lia|exact W].
Qed.
Lemma short_not_block w i : lenN w < (i + 1) * bs -> ~ some_block v uid w i.
Proof. intros L (seq & pl & BA). apply block_at_len in BA. fold bs in BA. lia. Qed.
Lemma meta_step_ok dry w b buf t i : refgood b -> lenN buf = 4096 -> bytes_ok buf = true -> bytes_ok w = true ->
  exists b' buf', repair_meta_step dry hp (w, b, buf, t) (i * bs) =
    ROk (if mmark w i then w else if dry then w else file_write w (i * bs) meta_bytes, b', buf', add_meta (mmark w i) t) /\
    refgood b' /\ lenN buf' = 4096 /\ bytes_ok buf' = true.
Proof.
  intros G LB BB BW. pose proof BSR as BZ. unfold repair_meta_step. rewrite (proj1 G). fold bs.
  assert (LD : lenN (file_read w (i * bs) bs) <= bs) by (unfold file_read; rewrite lenN_slice; lia).
  assert (BD : bytes_ok (file_read w (i * bs) bs) = true) by (apply bytes_ok_slice; exact BW).
  set (buf1 := put_at buf 0 (file_read w (i * bs) bs)).
  assert (L1 : lenN buf1 = 4096) by (unfold buf1; rewrite lenN_put_at by lia; exact LB).
  assert (B1 : bytes_ok buf1 = true) by (apply bytes_ok_put_at; assumption).
  assert (E : (if lenN (file_read w (i * bs) bs) <? bs then ROk true
               else match sync_from_buffer block_dummy buf1 hp no_pred with ROk _ => ROk false | RErr _ => ROk true | RPanic => RPanic end)
              = ROk (negb (mmark w i))).
  { pose proof (mmark_iff w i BW) as MI. rewrite short_read by lia. destruct (N.ltb_spec (lenN w) (i * bs + bs)) as [LT|GE].
    - destruct (mmark w i); [|reflexivity]. exfalso. apply (short_not_block w i); [lia|]. apply MI. reflexivity.
    - assert (T : takeN bs buf1 = sliceN (i * bs) bs w).
      { unfold buf1, put_at. rewrite take_0. cbn [app]. unfold file_read. apply take_app_exact. rewrite lenN_slice. lia. }
      pose proof (accept_cases ref block_dummy buf1 ltac:(fold v bs; lia)) as AC. rewrite (accept_take buf1 B1 ltac:(lia)), T in AC.
      unfold mmark. fold hp in AC. destruct (accept ref (sliceN (i * bs) bs w)) as [b0|].
      + rewrite AC. reflexivity.
      + destruct AC as (e & ->). reflexivity. }
  rewrite E. cbn [rbind]. destruct (mmark w i); cbn [negb].
  - eexists _, _. split; [reflexivity|]. auto.
  - destruct (write_ref b buf1 G L1 B1) as (b' & buf' & -> & G' & L' & B' & T'). cbn [unwrap rbind]. rewrite T'.
    eexists _, _. split; [reflexivity|]. auto.
Qed.

(* ---- data and parity blocks ---- *)
Definition mark (w : file) (seq : N) : bool :=
  match accept ref (sliceN (widx seq * bs) bs w) with Some b => b_seq_num b =? seq | None => false end.
Lemma mark_block w seq : bytes_ok w = true -> if mark w seq
  then block_at v uid w (widx seq * bs) seq (slice_data_buf v (sliceN (widx seq * bs) bs w))
  else ~ in_place v uid d p B w seq.
Proof.
  intro HB. unfold mark. pose proof (accept_block_at ref w (widx seq * bs) HB) as AB. fold v uid bs in AB. destruct (accept ref _) as [b|].
  - destruct AB as (BA & _). destruct (N.eqb_spec (b_seq_num b) seq) as [E|E].
    + rewrite E in BA. exact BA.
    + intros (pl & BA'). fold o in BA'. fold (widx seq) bs in BA'. destruct (block_at_unique _ _ _ _ _ _ _ _ BA BA'). congruence.
  - intros (pl & BA). exact (AB _ _ BA).
Qed.
Lemma mark_iff w seq : bytes_ok w = true -> mark w seq = true <-> in_place v uid d p B w seq.
Proof.
  intro HB. pose proof (mark_block w seq HB) as M. destruct (mark w seq); split; intro H; try reflexivity; try discriminate.
  - eexists. exact M.
  - contradiction.
Qed.
Definition add_data (g : bool) (t : pstats) : pstats :=
  if g then mkPstats (ps_meta t) (ps_data t + 1) (ps_failed t) (ps_meta_rep t) (ps_data_rep t) (ps_data_fail t)
  else mkPstats (ps_meta t) (ps_data t) (ps_failed t + 1) (ps_meta_rep t) (ps_data_rep t) (ps_data_fail t).
Definition RG (i : N) (R : repairer) : Prop :=
  rr_index R = i /\ lenN (rr_buf R) = d + p /\ (forall b, In b (rr_buf R) -> lenN b = bs /\ bytes_ok b = true) /\
  lenN (rr_present R) = d + p /\ b_version (rr_ref R) = v /\ b_uid (rr_ref R) = uid.
Lemma RG_new : RG 0 (repairer_new ref d p).
Proof.
  unfold RG, repairer_new. cbn [rr_index rr_buf rr_present rr_ref]. rewrite !lenN_rep. repeat split.
  - unfold repN in H. apply repeat_spec in H. subst b. apply lenN_rep.
  - unfold repN in H. apply repeat_spec in H. subst b. apply bytes_ok_rep. lia.
Qed.
Lemma In_setN {A} (l : list A) i x y : i < lenN l -> In y (setN l i x) -> y = x \/ In y l.
Proof.
  intros H HI. rewrite setN_split in HI by exact H. apply in_app_iff in HI as [HI|[HI|HI]]; auto.
  - right. eapply In_take. exact HI.
  - right. eapply In_drop. exact HI.
Qed.
Lemma update_ok w seq R t i : RG i R -> i < d + p -> bytes_ok w = true -> 1 <= seq ->
  exists b1, update_codec v hp seq (file_read w (widx seq * bs) bs) R t
    = ROk (mkRepairer (i + 1) (setN (rr_buf R) i b1) (setN (rr_present R) i (mark w seq)) (rr_ref R), add_data (mark w seq) t) /\
    lenN b1 = bs /\ bytes_ok b1 = true /\ (mark w seq = true -> b1 = sliceN (widx seq * bs) bs w).
Proof.
  intros (RI & RL & RB & RP & RV & RU) Hi BW Hs. pose proof BSR as BZ. unfold update_codec. rewrite RI.
  destruct (getN_in (rr_buf R) i ltac:(lia)) as (b0 & E0). rewrite E0. fold bs.
  destruct (RB b0) as [LB0 BB0]; [unfold getN in E0; eapply nth_error_In; exact E0|].
  set (dt := file_read w (widx seq * bs) bs). assert (LD : lenN dt <= bs) by (unfold dt, file_read; rewrite lenN_slice; lia).
  assert (BD : bytes_ok dt = true) by (apply bytes_ok_slice; exact BW).
  exists (put_at b0 0 dt). assert (L1 : lenN (put_at b0 0 dt) = bs) by (rewrite lenN_put_at by lia; exact LB0).
  assert (B1 : bytes_ok (put_at b0 0 dt) = true) by (apply bytes_ok_put_at; assumption).
  pose proof (mark_iff w seq BW) as MI. split; [|split; [exact L1|split; [exact B1|]]].
  - unfold dt at 1. rewrite short_read by lia. destruct (N.ltb_spec (lenN w) (widx seq * bs + bs)) as [LT|GE].
    + destruct (mark w seq); [|reflexivity]. exfalso. destruct (proj1 MI eq_refl) as (pl & BA). apply block_at_len in BA. fold o in BA. fold (widx seq) bs in BA. lia.
    + assert (T : put_at b0 0 dt = sliceN (widx seq * bs) bs w).
      { unfold put_at. rewrite take_0. cbn [app]. rewrite drop_all; [apply app_nil_r|]. unfold dt, file_read. rewrite lenN_slice. lia. }
      rewrite T. pose proof (accept_cases ref block_dummy (sliceN (widx seq * bs) bs w) ltac:(fold v bs; rewrite lenN_slice; lia)) as AC. fold hp in AC.
      pose proof (accept_block_at ref w (widx seq * bs) BW) as AB. fold v uid bs in AB.
      unfold mark. destruct (accept ref (sliceN (widx seq * bs) bs w)) as [b|].
      * rewrite AC. destruct AB as (_ & _ & _ & EM). destruct (N.eqb_spec (b_seq_num b) seq) as [E|E]; cbn [negb]; [|reflexivity].
        rewrite EM, E. destruct (N.eqb_spec seq 0); [lia|]. reflexivity.
      * destruct AC as (e & ->). reflexivity.
  - intro M. apply MI in M as (pl & BA). apply block_at_len in BA. fold o in BA. fold (widx seq) bs in BA.
    unfold put_at. rewrite take_0. cbn [app]. rewrite drop_all; [apply app_nil_r|]. unfold dt, file_read. rewrite lenN_slice. lia.
Qed.

(* in the middle of a set that starts with number [first], i blocks done *)
Definition SI (w : file) (first i : N) (R : repairer) : Prop :=
  RG i R /\ forall j, j < i -> getN (rr_present R) j = Some (mark w (first + j)) /\
     (mark w (first + j) = true -> getN (rr_buf R) j = Some (sliceN (widx (first + j) * bs) bs w)).
Lemma SI_step w first i R t : SI w first i R -> i < d + p -> bytes_ok w = true -> 1 <= first ->
  exists R', update_codec v hp (first + i) (file_read w (widx (first + i) * bs) bs) R t = ROk (R', add_data (mark w (first + i)) t) /\ SI w first (i + 1) R'.
Proof.
  intros (G & H) Hi BW Hs. destruct (update_ok w (first + i) R t i G Hi BW ltac:(lia)) as (b1 & E & L1 & B1 & M).
  eexists. split; [exact E|]. destruct G as (RI & RL & RB & RP & RV & RU). split.
  - unfold RG. cbn [rr_index rr_buf rr_present rr_ref]. rewrite !lenN_setN. repeat split; try assumption.
    + apply In_setN in H0 as [->|H0]; [exact L1|apply (RB _ H0)|lia].
    + apply In_setN in H0 as [->|H0]; [exact B1|apply (RB _ H0)|lia].
  - intros j Hj. cbn [rr_present rr_buf]. destruct (N.eq_dec i j) as [<-|NE].
    + rewrite !getN_setN_same by lia. split; [reflexivity|]. intro X. rewrite (M X). reflexivity.
    + rewrite !getN_setN_other by exact NE. apply H. lia.
Qed.

(* ---- completing a set ---- *)
Definition seal (seq : N) (b : list N) : list N :=
  put_at b 0 (header_to_bytes (mkHeader v (crc_of v uid seq (slice_data_buf v b)) uid seq)).
Lemma seal_is seq b : lenN b = bs -> bytes_ok b = true -> seq < 4294967296 ->
  is_block v uid seq (slice_data_buf v b) (seal seq b) /\ lenN (seal seq b) = bs /\ bytes_ok (seal seq b) = true.
Proof.
  intros LB BB Hs. pose proof BSR as BZ. destruct UIDOK as [U1 U2].
  set (pl := slice_data_buf v b). assert (LP : lenN pl = bs - 16).
  { unfold pl, slice_data_buf, SBX_HEADER_SIZE. fold bs. rewrite lenN_slice. lia. }
  assert (BP : bytes_ok pl = true) by (apply bytes_ok_slice; exact BB).
  set (h := mkHeader v (crc_of v uid seq pl) uid seq). assert (L16 : lenN (header_to_bytes h) = 16) by (apply lenN_header_to_bytes; exact U1).
  assert (E : seal seq b = header_to_bytes h ++ pl).
  { unfold seal. fold pl. fold h. unfold put_at. rewrite take_0. cbn [app]. f_equal. unfold pl, slice_data_buf, sliceN, SBX_HEADER_SIZE. fold bs.
    rewrite L16, take_all; [reflexivity|]. rewrite lenN_drop. lia. }
  rewrite E. split; [|split].
  - exists (crc_of v uid seq pl). split.
    + apply crc_is_remainder; [pose proof (ver_usize_lt v); lia|]. rewrite !bytes_ok_app, U2, bytes_ok_be, BP. reflexivity.
    + unfold header_to_bytes, h. cbn [h_version h_crc h_uid h_seq_num].
      replace (u8 (ver_to_usize v)) with (ver_to_usize v) by (destruct v; reflexivity). rewrite <- !app_assoc. reflexivity.
  - rewrite lenN_app, L16, LP. lia.
  - rewrite bytes_ok_app, BP, bytes_ok_header by exact U2. reflexivity.
Qed.
Lemma getN_cons {A} j (a : A) l k : getN (a :: l) j = Some k <-> (j = 0 /\ k = a) \/ (1 <= j /\ getN l (j - 1) = Some k).
Proof.
  unfold getN. destruct (N.eq_dec j 0) as [->|NE].
  - change (nth_error (a :: l) (N.to_nat 0)) with (Some a). split; [intro E; apply Some_inj in E; left; split; congruence|]. intros [[_ ->]|[H _]]; [reflexivity|lia].
  - replace (N.to_nat j) with (S (N.to_nat (j - 1))) by lia. cbn [nth_error]. split; [intro E; right; split; [lia|exact E]|]. intros [[H _]|[_ H]]; [lia|exact H].
Qed.
Definition RGref (b : block) : Prop := b_version b = v /\ b_uid b = uid.
Lemma seal_missing_ok bufs : forall present first i b, RGref b -> lenN bufs = lenN present ->
  (forall x, In x bufs -> lenN x = bs /\ bytes_ok x = true) -> 1 <= first ->
  exists b' bufs', seal_missing first i b bufs present = ROk (b', bufs') /\ RGref b' /\ lenN bufs' = lenN bufs /\
    forall j x, getN bufs j = Some x -> getN bufs' j = Some (match getN present j with Some false => seal (first + i + j) x | _ => x end).
Proof.
  induction bufs as [|x bufs IH]; intros [|pr present] first i b G L HX H1; rewrite ?lenN_cons, ?lenN_nil in L; try lia.
  - cbn [seal_missing]. eexists _, _. split; [reflexivity|]. split; [exact G|]. split; [reflexivity|].
    intros j x E. unfold getN in E. destruct (N.to_nat j); discriminate.
  - pose proof BSR as BZ. destruct (HX x (or_introl eq_refl)) as [LX BX].
    assert (HX' : forall y, In y bufs -> lenN y = bs /\ bytes_ok y = true) by (intros; apply HX; right; assumption).
    assert (NXT : forall j (y0 : list N) l k, getN (y0 :: l) j = Some k -> (j = 0 /\ k = y0) \/ (1 <= j /\ getN l (j - 1) = Some k)).
    { intros j y0 l k E. apply getN_cons. exact E. }
    assert (SUC : forall A j (a : A) l, 1 <= j -> getN (a :: l) j = getN l (j - 1)).
    { intros A j a l Hj. unfold getN. replace (N.to_nat j) with (S (N.to_nat (j - 1))) by lia. reflexivity. }
    destruct pr; cbn [seal_missing].
    + destruct (IH present first (i + 1) b G ltac:(lia) HX' H1) as (b' & bufs' & -> & G' & L' & P). cbn [rbind].
      eexists _, _. split; [reflexivity|]. split; [exact G'|]. split; [rewrite !lenN_cons; lia|].
      intros j y E. apply NXT in E as [[-> ->]|[Hj E]]; [reflexivity|]. rewrite !SUC by exact Hj.
      rewrite (P _ _ E). replace (first + (i + 1) + (j - 1)) with (first + i + j) by lia. reflexivity.
    + destruct G as [GV GU].
      assert (ES : set_seq_num b (first + i) = mkBlock (mkHeader v (h_crc (b_header b)) uid (first + i)) DData).
      { unfold set_seq_num. rewrite switch_canon. cbn [h_seq_num]. destruct (N.ltb_spec (first + i) 1); [lia|].
        unfold b_version, b_uid in GV, GU. rewrite GV, GU. reflexivity. }
      rewrite ES. rewrite sync_to_data by (try reflexivity; cbn [b_version b_header h_version]; fold bs; lia).
      cbn [do_crc unwrap]. cbv zeta. cbn [rbind set_crc b_header b_data b_version b_uid b_seq_num h_version h_uid h_seq_num].
      unfold b_version, b_uid, b_seq_num. cbn [b_header h_version h_uid h_seq_num]. fold (seal (first + i) x).
      match goal with |- context [seal_missing _ _ ?b1 _ _] => set (bb := b1) end.
      assert (GB : RGref bb) by (split; reflexivity).
      destruct (IH present first (i + 1) bb GB ltac:(lia) HX' H1) as (b' & bufs' & -> & G' & L' & P). cbn [rbind].
      eexists _, _. split; [reflexivity|]. split; [exact G'|]. split; [rewrite !lenN_cons; lia|].
      intros j y E. apply NXT in E as [[-> ->]|[Hj E]].
      * cbn [getN N.to_nat nth_error]. rewrite N.add_0_r. reflexivity.
      * rewrite !SUC by exact Hj. rewrite (P _ _ E). replace (first + (i + 1) + (j - 1)) with (first + i + j) by lia. reflexivity.
Qed.
Lemma repaired_in bufs : forall present first i pos b, In (pos, b) (repaired_blocks v o first i bufs present) <->
  exists j c, getN present j = Some false /\ getN bufs j = Some c /\ pos = widx (first + i + j) * bs /\ b = takeN bs c.
Proof.
  induction bufs as [|x bufs IH]; intros [|pr present] first i pos b; cbn [repaired_blocks].
  - split; [intros []|]. intros (j & c & E & _). unfold getN in E. destruct (N.to_nat j); discriminate.
  - split; [intros []|]. intros (j & c & _ & E & _). unfold getN in E. destruct (N.to_nat j); discriminate.
  - split; [intros []|]. intros (j & c & E & _). unfold getN in E. destruct (N.to_nat j); discriminate.
  - rewrite in_app_iff, IH. split.
    + intros [H|(j & c & E1 & E2 & -> & ->)].
      * destruct pr; [destruct H|]. destruct H as [H|[]]. apply pair_inj in H as [<- <-]. exists 0, x. rewrite N.add_0_r. repeat split; reflexivity.
      * exists (j + 1), c. rewrite !getN_cons. replace (j + 1 - 1) with j by lia. split; [right; split; [lia|exact E1]|].
        split; [right; split; [lia|exact E2]|]. split; [|reflexivity]. do 2 f_equal. lia.
    + intros (j & c & E1 & E2 & -> & ->). apply getN_cons in E1. apply getN_cons in E2. destruct E1 as [[-> <-]|[Hj E1]].
      * destruct E2 as [[_ ->]|[E2 _]]; [|lia]. left. left. rewrite N.add_0_r. reflexivity.
      * destruct E2 as [[E2 _]|[_ E2]]; [lia|]. right. exists (j - 1), c. repeat split; try assumption. do 2 f_equal. lia.
Qed.
Lemma repaired_pos bufs : forall present first i, exists ws, repaired_blocks v o first i bufs present = map (fun x => (fst x * bs, snd x)) ws.
Proof.
  induction bufs as [|x bufs IH]; intros [|pr present] first i; cbn [repaired_blocks]; try (exists []; reflexivity).
  destruct (IH present first (i + 1)) as (ws & ->). destruct pr; [exists ws; reflexivity|]. exists ((widx (first + i), takeN bs x) :: ws). reflexivity.
Qed.
Lemma put_fold ws w : fold_left (fun w b => file_write w (fst b) (snd b)) (map (fun x => (fst x * bs, snd x)) ws) w = put_blocks bs ws w.
Proof. revert w. induction ws as [|x ws IH]; intro w; [reflexivity|]. cbn [map fold_left fst snd]. rewrite IH. reflexivity. Qed.

(* payloads cw of set k form a code word *)
Definition codeword (cw : N -> list N) (k : N) : Prop :=
  exists data, lenN data = d /\ (forall x, In x data -> lenN x = bs - 16 /\ bytes_ok x = true) /\
    forall j, j < d + p -> getN (data ++ rs d p data) j = Some (cw (1 + k * (d + p) + j)).
Definition held (w : file) (k : N) : N := countN (mark w) (seqs_of_set d p k).
(* what is written for set k *)
Definition SetStep (w : file) (k : N) (ws : list (N * list N)) : Prop :=
  if d <=? held w k then
    (forall seq, In seq (seqs_of_set d p k) -> mark w seq = false -> exists b, In (widx seq, b) ws) /\
    (forall a b b', In (a, b) ws -> In (a, b') ws -> b = b') /\
    (forall a b, In (a, b) ws -> exists seq pl, In seq (seqs_of_set d p k) /\ mark w seq = false /\ a = widx seq /\
       is_block v uid seq pl b /\ lenN b = bs /\ bytes_ok b = true /\ lenN pl = bs - 16 /\
       forall cw, codeword cw k -> (forall s pl', In s (seqs_of_set d p k) -> block_at v uid w (widx s * bs) s pl' -> pl' = cw s) -> pl = cw seq)
  else ws = [].
Definition set_stats (w : file) (k : N) (t : pstats) : pstats :=
  let miss := (d + p) - held w k in
  if d <=? held w k
  then mkPstats (ps_meta t) (ps_data t) (ps_failed t) (ps_meta_rep t) (ps_data_rep t + miss) (ps_data_fail t)
  else mkPstats (ps_meta t) (ps_data t) (ps_failed t) (ps_meta_rep t) (ps_data_rep t) (ps_data_fail t + miss).
Lemma list_by_get {A} (l m : list A) : lenN l = lenN m -> (forall j x, getN l j = Some x -> getN m j = Some x) -> l = m.
Proof.
  intros L H. apply list_ext. intro i. change (nth_optN ?a ?b) with (getN a b). destruct (getN l i) as [x|] eqn:E.
  - symmetry. apply H. exact E.
  - destruct (getN m i) as [y|] eqn:E2; [|reflexivity]. apply getN_lt in E2. rewrite <- L in E2. destruct (getN_in l i E2). congruence.
Qed.
Lemma getN_map {A C} (g : A -> C) l j : getN (map g l) j = option_map g (getN l j).
Proof. unfold getN. apply nth_error_map. Qed.
Lemma getN_combine {A C} (l : list A) (m : list C) j a c : getN (combine l m) j = Some (a, c) <-> getN l j = Some a /\ getN m j = Some c.
Proof.
  unfold getN. generalize (N.to_nat j). clear j. revert m. induction l as [|x l IH]; intros [|y m] [|n]; cbn; try (split; [discriminate|intros []; discriminate]).
  - split; [intro E; split; congruence|intros [E1 E2]; congruence].
  - apply IH.
Qed.
Lemma lenN_combine {A C} (l : list A) (m : list C) : lenN (combine l m) = N.min (lenN l) (lenN m).
Proof. unfold lenN. rewrite combine_length. lia. Qed.
Lemma getN_range lo hi j : j < hi - lo -> getN (rangeN lo hi) j = Some (lo + j).
Proof. intro H. apply (nth_optN_range lo hi j H). Qed.
Lemma present_marks w k R : SI w (1 + k * (d + p)) (d + p) R -> rr_present R = map (mark w) (seqs_of_set d p k).
Proof.
  intros ((RI & RL & RB & RP & RV & RU) & H). symmetry. apply list_by_get.
  - unfold seqs_of_set. rewrite !lenN_map, lenN_range. lia.
  - intros j x E. unfold seqs_of_set in E. rewrite map_map, getN_map in E. destruct (getN (rangeN 0 (d + p)) j) as [k0|] eqn:E0; [|discriminate].
    pose proof (getN_lt _ _ _ E0) as LT. rewrite lenN_range in LT. rewrite getN_range in E0 by lia. apply Some_inj in E0. cbn [option_map] in E. apply Some_inj in E. subst k0 x.
    rewrite N.add_0_l. apply H. lia.
Qed.
Lemma countN_map {A C} (g : C -> bool) (h : A -> C) l : countN g (map h l) = countN (fun x => g (h x)) l.
Proof. unfold countN. induction l as [|x l IH]; [reflexivity|]. cbn [map filter]. destruct (g (h x)); rewrite ?lenN_cons, IH; reflexivity. Qed.
Lemma countN_snd_combine {A} (l : list A) (m : list bool) : lenN l = lenN m -> countN snd (combine l m) = countN (fun x => x) m.
Proof.
  revert m. induction l as [|x l IH]; intros [|y m] L; rewrite ?lenN_cons, ?lenN_nil in L; try lia; [reflexivity|].
  specialize (IH m ltac:(lia)). unfold countN in *. cbn [combine filter snd]. destruct y; rewrite ?lenN_cons, IH; reflexivity.
Qed.
Lemma set_ok dry w k R t : SI w (1 + k * (d + p)) (d + p) R -> bytes_ok w = true -> (k + 1) * (d + p) < 4294967296 ->
  exists ws R', repair_set rc dry d p B ((k + 1) * (d + p)) (w, R, t) = ROk (if dry then w else put_blocks bs ws w, R', set_stats w k t) /\
    SetStep w k ws /\ RG 0 R'.
Proof.
  intros SIH BW HK. pose proof (present_marks w k R SIH) as PM. destruct SIH as (G & H). pose proof G as (RI & RL & RB & RP & RV & RU). pose proof DP as (D1 & D2 & D3). pose proof BSR as BZ.
  set (first := 1 + k * (d + p)) in *.
  unfold repair_set, repair_with_block_sync. rewrite RI, RV, N.eqb_refl. cbn [rassert rbind]. unfold SBX_FIRST_DATA_SEQ_NUM.
  destruct (N.leb_spec 1 ((k + 1) * (d + p))) as [_|X]; [|nia]. cbn [rassert rbind].
  assert (EF : ((k + 1) * (d + p) - 1) / (d + p) * (d + p) + 1 = first).
  { destruct (dm_eq ((k + 1) * (d + p) - 1) (d + p) k (d + p - 1) ltac:(nia) ltac:(lia)) as [-> _]. unfold first. lia. }
  rewrite EF.
  set (sh := combine (map (slice_data_buf v) (rr_buf R)) (rr_present R)).
  assert (LSH : lenN sh = d + p) by (unfold sh; rewrite lenN_combine, lenN_map; lia).
  assert (CNT : countN snd sh = held w k).
  { unfold sh. rewrite countN_snd_combine by (rewrite lenN_map; lia). rewrite PM, countN_map. reflexivity. }
  assert (CP : countN (fun x => x) (rr_present R) = held w k) by (rewrite PM, countN_map; reflexivity).
  assert (SHP : forall x b, In (x, b) sh -> lenN x = bs - 16 /\ bytes_ok x = true).
  { intros x b Hx. unfold sh in Hx. apply in_combine_l in Hx. apply in_map_iff in Hx as (y & <- & Hy). destruct (RB y Hy) as [LY BY].
    unfold slice_data_buf, SBX_HEADER_SIZE. fold bs. split; [rewrite lenN_slice; lia|apply bytes_ok_slice; exact BY]. }
  assert (GSH : forall j, j < d + p -> mark w (first + j) = true -> getN sh j = Some (slice_data_buf v (sliceN (widx (first + j) * bs) bs w), true)).
  { intros j Hj M. unfold sh. apply getN_combine. destruct (H j Hj) as [H1 H2]. rewrite getN_map, (H2 M). split; [reflexivity|]. rewrite H1, M. reflexivity. }
  pose proof (HR (bs - 16) sh LSH SHP) as RC. rewrite CNT in RC. unfold SetStep, set_stats. rewrite CP.
  destruct (d <=? held w k) eqn:EH.
  2:{ rewrite RC. cbn [rbind fold_left]. exists [], (mkRepairer 0 (rr_buf R) (rr_present R) (rr_ref R)). split; [destruct dry; reflexivity|]. split; [reflexivity|].
      unfold RG. cbn [rr_index rr_buf rr_present rr_ref]. auto 10. }
  destruct RC as (out & -> & LO & OO & OP & OC).
  set (bufs := map (fun x => put_at (fst x) SBX_HEADER_SIZE (snd x)) (combine (rr_buf R) out)).
  assert (LBF : lenN bufs = d + p) by (unfold bufs; rewrite lenN_map, lenN_combine; lia).
  assert (GB : forall j x, getN bufs j = Some x -> exists y z, getN (rr_buf R) j = Some y /\ getN out j = Some z /\ x = put_at y 16 z).
  { intros j x E. unfold bufs in E. rewrite getN_map in E. destruct (getN (combine (rr_buf R) out) j) as [[y z]|] eqn:E2; [|discriminate].
    apply getN_combine in E2 as [E2 E3]. cbn [option_map fst snd] in E. apply Some_inj in E. exists y, z. auto. }
  assert (GP : forall j x y z, getN bufs j = Some x -> getN (rr_buf R) j = Some y -> getN out j = Some z -> lenN x = bs /\ bytes_ok x = true /\ slice_data_buf v x = z /\ lenN z = bs - 16).
  { intros j x y z E1 E2 E3. destruct (GB j x E1) as (y' & z' & E2' & E3' & ->). assert (y' = y) by congruence. assert (z' = z) by congruence. subst y' z'.
    destruct (RB y) as [LY BY]; [eapply nth_error_In; exact E2|]. destruct (OO z) as [LZ BZ2]; [eapply nth_error_In; exact E3|].
    split; [rewrite lenN_put_at by lia; exact LY|]. split; [apply bytes_ok_put_at; assumption|]. split; [|exact LZ].
    unfold slice_data_buf, SBX_HEADER_SIZE. fold bs. rewrite <- LZ. apply slice_put_same. lia. }
  assert (BP : forall x, In x bufs -> lenN x = bs /\ bytes_ok x = true).
  { intros x Hx. apply In_nth_error in Hx as (n & E). assert (E' : getN bufs (N.of_nat n) = Some x) by (unfold getN; rewrite Nnat.Nat2N.id; exact E).
    destruct (GB _ _ E') as (y & z & E2 & E3 & _). destruct (GP _ _ _ _ E' E2 E3) as (? & ? & _). auto. }
  destruct (seal_missing_ok bufs (rr_present R) first 0 (rr_ref R) (conj RV RU) ltac:(lia) BP ltac:(unfold first; lia)) as (ref' & bufs' & ES & GR & LB' & P).
  change (put_at (fst ?x) SBX_HEADER_SIZE (snd ?x)) with (put_at (fst x) 16 (snd x)) in *. 
  match goal with |- context [seal_missing first 0 (rr_ref R) ?bb (rr_present R)] => change bb with bufs end. rewrite ES. cbn [rbind].
  destruct (repaired_pos bufs' (rr_present R) first 0) as (ws & EW).
  assert (WI : forall a b, In (a, b) ws <-> exists j x z, j < d + p /\ mark w (first + j) = false /\ getN bufs j = Some x /\ getN out j = Some z /\ a = widx (first + j) /\ b = seal (first + j) x).
  { intros a b. transitivity (In (a * bs, b) (repaired_blocks v o first 0 bufs' (rr_present R))).
    - rewrite EW, in_map_iff. split.
      + intro Hx. exists (a, b). split; [reflexivity|exact Hx].
      + intros ([a' b'] & E & Hx). cbn [fst snd] in E. apply pair_inj in E as [E ->]. assert (a' = a) by nia. subst a'. exact Hx.
    - rewrite repaired_in. rewrite N.add_0_r. split.
      + intros (j & c & E1 & E2 & E3 & ->). pose proof (getN_lt _ _ _ E1) as LT. rewrite RP in LT. destruct (H j LT) as [H1 _]. rewrite H1 in E1. apply Some_inj in E1.
        destruct (getN_in bufs j ltac:(lia)) as (x & EX). destruct (getN_in out j ltac:(lia)) as (z & EZ). exists j, x, z. rewrite (P _ _ EX), H1, E1, N.add_0_r in E2. apply Some_inj in E2. subst c.
        destruct (GB _ _ EX) as (y & z' & Y1 & Y2 & _). destruct (GP _ _ _ _ EX Y1 Y2) as (LX & BX & _).
        repeat split; try assumption; [nia|]. apply take_all. destruct (seal_is (first + j) x LX BX ltac:(unfold first; nia)) as (_ & -> & _). lia.
      + intros (j & x & z & LT & M & EX & EZ & -> & ->). destruct (H j LT) as [H1 _]. exists j, (seal (first + j) x). rewrite (P _ _ EX), H1, M, N.add_0_r.
        destruct (GB _ _ EX) as (y & z' & Y1 & Y2 & _). destruct (GP _ _ _ _ EX Y1 Y2) as (LX & BX & _).
        repeat split. symmetry. apply take_all. destruct (seal_is (first + j) x LX BX ltac:(unfold first; nia)) as (_ & -> & _). lia. }
  exists ws, (mkRepairer 0 bufs' (rr_present R) ref'). split; [|split].
  - change (Some (d, p, B)) with o. rewrite EW, put_fold. reflexivity.
  - split; [|split].
    + intros seq Hs M. unfold seqs_of_set in Hs. apply in_map_iff in Hs as (j & <- & Hj). apply In_rangeN in Hj. fold first in M |- *.
      destruct (getN_in bufs j ltac:(lia)) as (x & EX). destruct (getN_in out j ltac:(lia)) as (z & EZ). exists (seal (first + j) x). apply WI. exists j, x, z. repeat split; try assumption. lia.
    + intros a b b' H1 H2. apply WI in H1 as (j & x & z & LT & M & EX & EZ & -> & ->). apply WI in H2 as (j' & x' & z' & LT' & M' & EX' & EZ' & E & ->).
      apply write_index_inj in E; [|exact HO|unfold first; lia|unfold first; lia]. assert (j' = j) by lia. subst j'. congruence.
    + intros a b H1. apply WI in H1 as (j & x & z & LT & M & EX & EZ & -> & ->). destruct (GB _ _ EX) as (y & z' & Y1 & Y2 & _). assert (z' = z) by congruence. subst z'.
      destruct (GP _ _ _ _ EX Y1 EZ) as (LX & BX & SX & LZ). destruct (seal_is (first + j) x LX BX ltac:(unfold first; nia)) as (S1 & S2 & S3). rewrite SX in S1.
      exists (first + j), z. split; [unfold seqs_of_set; apply in_map_iff; exists j; split; [reflexivity|apply In_rangeN; lia]|]. repeat split; try assumption.
      intros cw (data & C1 & C2 & C3) HC. enough (out = data ++ rs d p data) as -> by (rewrite C3 in EZ by exact LT; fold first in EZ; congruence).
      apply OC; [exact C1|exact C2|]. intros i q Hq. assert (LT2 : i < d + p) by (pose proof (getN_lt _ _ _ Hq); lia).
      unfold sh in Hq. apply getN_combine in Hq as [Q1 Q2]. destruct (H i LT2) as [H1 H2]. rewrite H1 in Q2. apply Some_inj in Q2.
      rewrite getN_map, (H2 Q2) in Q1. cbn [option_map] in Q1. apply Some_inj in Q1. rewrite C3 by exact LT2. f_equal. fold first.
      pose proof (mark_block w (first + i) BW) as MB. rewrite Q2 in MB. rewrite Q1 in MB. symmetry. apply (HC (first + i)); [|exact MB].
      unfold seqs_of_set. apply in_map_iff. exists i. split; [reflexivity|apply In_rangeN; lia].
  - unfold RG. cbn [rr_index rr_buf rr_present rr_ref]. destruct GR as [GR1 GR2]. repeat split; try assumption; try lia.
    + apply In_nth_error in H0 as (n & E). assert (E' : getN bufs' (N.of_nat n) = Some b) by (unfold getN; rewrite Nnat.Nat2N.id; exact E).
      pose proof (getN_lt _ _ _ E') as LT. destruct (getN_in bufs (N.of_nat n) ltac:(lia)) as (x & EX). rewrite (P _ _ EX) in E'. apply Some_inj in E'. 
      destruct (BP x) as [LX BX]; [eapply nth_error_In; exact EX|]. destruct (getN (rr_present R) (N.of_nat n)) as [[]|]; subst b; try assumption.
      apply (seal_is _ x LX BX). unfold first. nia.
    + apply In_nth_error in H0 as (n & E). assert (E' : getN bufs' (N.of_nat n) = Some b) by (unfold getN; rewrite Nnat.Nat2N.id; exact E).
      pose proof (getN_lt _ _ _ E') as LT. destruct (getN_in bufs (N.of_nat n) ltac:(lia)) as (x & EX). rewrite (P _ _ EX) in E'. apply Some_inj in E'. 
      destruct (BP x) as [LX BX]; [eapply nth_error_In; exact EX|]. destruct (getN (rr_present R) (N.of_nat n)) as [[]|]; subst b; try assumption.
      apply (seal_is _ x LX BX). unfold first. nia.
Qed.
End Repair.
