(* The reference block scan meets its specification. *)
From Verif Require Import M_Base M_Specs M_Crc M_Header M_Metadata M_Block M_Index M_Buffer M_Ranges M_Scan
  S_Crc S_Meta S_Block S_Scan
  L_Base L_File L_Crc L_Header L_Meta L_Block L_Block2 L_Index2 L_Scan.
Ltac Zify.zify_post_hook ::= idtac.

Lemma header_at_parse f pos h : bytes_ok f = true -> header_at f pos h <-> header_from_bytes (sliceN pos 16 f) = ROk h.
Proof.
  intro HB. unfold header_at. split.
  - intros [HO E]. rewrite E. apply header_roundtrip, HO.
  - intro E. apply header_from_bytes_inv in E as (L & E & O); [|apply bytes_ok_slice, HB]. auto.
Qed.
Lemma wf_header f pos h pl : any_block_at f pos h pl -> header_at f pos h /\ pos + ver_to_block_size (h_version h) <= lenN f.
Proof.
  intro W. pose proof (wf_len _ _ _ W) as L. rewrite lenN_drop in L. pose proof (block_size_pos (h_version h)).
  destruct W as (HO & HL & HT & _). pose proof (proj1 (header_ok_spec h) HO) as (_ & U & _).
  split; [|lia]. split; [exact HO|]. unfold sliceN.
  replace 16 with (N.min 16 (ver_to_block_size (h_version h))) by lia. rewrite <- take_take, HT.
  apply take_app_exact. rewrite lenN_header_to_bytes by exact U. reflexivity.
Qed.
Lemma wf_take buf h pl n : ver_to_block_size (h_version h) <= n ->
  well_formed_block (takeN n buf) h pl <-> well_formed_block buf h pl.
Proof. intro H. unfold well_formed_block. rewrite take_take, N.min_l by exact H. reflexivity. Qed.

Lemma lazy_spec f pos : bytes_ok f = true -> exists r, read_block_lazily f pos = ROk r /\
  if lz_eof r then (forall n, ~ skip f pos n) /\ (forall h pl, ~ any_block_at f pos h pl) /\ lz_block r = None
  else skip f pos (lz_len r) /\ 128 <= lz_len r /\ match lz_block r with
       | Some b => exists h pl, any_block_at f pos h pl /\ b = block_of h pl
       | None => forall h pl, ~ any_block_at f pos h pl
       end.
Proof.
  intro HB. unfold read_block_lazily, file_read, SBX_SCAN_BLOCK_SIZE.
  set (b1 := sliceN pos 128 f). assert (L1 : lenN b1 = N.min 128 (lenN f - pos)) by apply lenN_slice.
  destruct (N.ltb_spec (lenN b1) 128) as [H|H].
  { eexists. split; [reflexivity|]. cbn [lz_eof lz_block]. split; [|split; [|reflexivity]].
    - intros n (A & B & C). lia.
    - intros h pl W. apply wf_header in W as [_ W]. pose proof (block_size_pos (h_version h)). lia. }
  assert (T16 : takeN 16 b1 = sliceN pos 16 f) by (unfold b1, sliceN; rewrite take_take; reflexivity).
  unfold sync_from_buffer_header_only, SBX_HEADER_SIZE. destruct (N.ltb_spec (lenN b1) 16); [lia|]. rewrite T16.
  destruct (header_from_bytes (sliceN pos 16 f)) as [h|e|] eqn:EH.
  - pose proof (proj2 (header_at_parse f pos h HB) EH) as HA.
    rewrite switch_canon. unfold b_version. cbn [b_header]. set (bs := ver_to_block_size (h_version h)).
    pose proof (block_size_pos (h_version h)) as BS. fold bs in BS.
    assert (LT : lenN b1 + lenN (sliceN (pos + 128) (bs - 128) f) = N.min bs (lenN f - pos)) by (rewrite L1, lenN_slice; lia).
    assert (EB : b1 ++ sliceN (pos + 128) (bs - 128) f = sliceN pos bs f).
    { unfold b1. rewrite <- slice_split. f_equal. lia. }
    rewrite LT. destruct (N.ltb_spec (N.min bs (lenN f - pos)) bs) as [HS|HS].
    + eexists. split; [reflexivity|]. cbn [lz_eof lz_block]. split; [|split; [|reflexivity]].
      * intros n (A & B & [(h' & HA' & ->)|[C _]]); [|exact (C h HA)].
        apply (header_at_parse _ _ _ HB) in HA'. rewrite EH in HA'. apply ROk_inj in HA'. subst h'. fold bs in A. lia.
      * intros h' pl W. apply wf_header in W as [HA' W]. apply (header_at_parse _ _ _ HB) in HA'. rewrite EH in HA'. apply ROk_inj in HA'. subst h'. fold bs in W. lia.
    + rewrite EB. assert (HBS : bytes_ok (sliceN pos bs f) = true) by (apply bytes_ok_slice, HB).
      assert (WI : forall h' pl, well_formed_block (sliceN pos bs f) h' pl <-> any_block_at f pos h' pl).
      { intros h' pl. unfold any_block_at. split; intro W.
        - assert (h' = h).
          { pose proof (wf_len _ _ _ W) as WL. unfold sliceN in W. destruct W as (W1 & W2 & W3 & W4). pose proof (proj1 (header_ok_spec h') W1) as (_ & U & _).
            apply ROk_inj. rewrite <- EH, <- (header_roundtrip h' W1). f_equal.
            apply (f_equal (takeN 16)) in W3. rewrite take_take in W3. pose proof (block_size_pos (h_version h')). rewrite N.min_l in W3 by lia.
            rewrite take_take, N.min_l in W3 by lia.
            unfold sliceN. rewrite W3. symmetry. apply take_app_exact. rewrite lenN_header_to_bytes by exact U. reflexivity. }
          subst h'. apply (proj1 (wf_take (dropN pos f) h pl bs ltac:(fold bs; lia))), W.
        - pose proof (wf_header _ _ _ _ W) as [HA' _]. apply (header_at_parse _ _ _ HB) in HA'. rewrite EH in HA'. apply ROk_inj in HA'. subst h'.
          apply (proj2 (wf_take (dropN pos f) h pl bs ltac:(fold bs; lia))), W. }
      assert (SK : skip f pos bs). { split; [lia|]. split; [lia|]. left. exists h. auto. }
      assert (EM : N.min bs (lenN f - pos) = bs) by lia. rewrite EM.
      change (sync_from_buffer block_dummy (sliceN pos bs f) no_hpred no_pred) with (parse (sliceN pos bs f)).
      destruct (parse (sliceN pos bs f)) as [b|e|] eqn:EP.
      * apply parse_ok_iff in EP as (h' & pl & W & ->); [|exact HBS]. eexists. split; [reflexivity|]. cbn [lz_eof lz_block lz_len].
        split; [exact SK|]. split; [lia|]. exists h', pl. split; [apply WI, W|reflexivity].
      * eexists. split; [reflexivity|]. cbn [lz_eof lz_block lz_len]. split; [exact SK|]. split; [lia|]. intros h' pl W. apply WI in W.
        assert (parse (sliceN pos bs f) = ROk (block_of h' pl)) by (apply parse_ok_iff; eauto). congruence.
      * exfalso. unfold parse in EP. rewrite sync_from_unfold in EP. rewrite lenN_slice, EM in EP. destruct (N.ltb_spec bs 16); [lia|].
        assert (T : takeN 16 (sliceN pos bs f) = sliceN pos 16 f) by (unfold sliceN; rewrite take_take; f_equal; lia).
        rewrite T, EH in EP. cbn [negb no_hpred] in EP. unfold no_hpred in EP. cbn [negb] in EP. fold bs in EP. destruct (N.ltb_spec bs bs); [lia|].
        cbv zeta in EP. destruct (_ =? _); [|discriminate]. unfold no_pred in EP. discriminate.
  - eexists. split; [reflexivity|]. cbn [lz_eof lz_block lz_len].
    assert (NH : forall h, ~ header_at f pos h) by (intros h HA; apply (header_at_parse _ _ _ HB) in HA; congruence).
    split; [|split; [lia|]].
    + split; [lia|]. split; [lia|]. right. split; [exact NH|lia].
    + intros h pl W. apply wf_header in W as [W _]. exact (NH _ W).
  - exfalso. exact (header_from_bytes_no_panic _ EH).
Qed.
Lemma skip_fun f pos n m : bytes_ok f = true -> skip f pos n -> skip f pos m -> n = m.
Proof.
  intros HB (_ & _ & [(h & A & ->)|[A ->]]) (_ & _ & [(h' & A' & ->)|[A' ->]]); try reflexivity; try (exfalso; eauto; fail).
  - apply (header_at_parse _ _ _ HB) in A, A'. rewrite A in A'. apply ROk_inj in A'. congruence.
  - exfalso. exact (A' _ A).
  - exfalso. exact (A _ A').
Qed.
Lemma skip_pos f pos n : skip f pos n -> 128 <= n.
Proof. intros (_ & _ & [(h & _ & ->)|[_ ->]]); [apply block_size_pos|lia]. Qed.

Definition isM (h : header) := h_seq_num h = 0.
Definition isD (h : header) := 1 <= h_seq_num h.
Lemma any_type h : isM h \/ isD h. Proof. unfold isM, isD. lia. Qed.
Lemma swap_type h : isD h \/ isM h. Proof. destruct (any_type h); auto. Qed.
Section Scan.
Variables (f : file) (lo hi : N).
Hypothesis HB : bytes_ok f = true.
Lemma lands_ge pos : lands f lo hi pos -> lo <= pos < hi.
Proof. induction 1 as [|pos n H IH S L]; [lia|]. lia. Qed.
(* the scan is at cur: every position looked at before leads to one not after cur *)
Definition Inv (cur : N) : Prop := forall q m, lands f lo hi q -> q < cur -> skip f q m -> q + m <= cur.
Lemma inv_start : Inv lo.
Proof. intros q m HL Hq. apply lands_ge in HL. lia. Qed.
Lemma inv_before cur n q : Inv cur -> lo <= cur -> skip f cur n -> lands f lo hi q -> q < cur + n -> q <= cur.
Proof.
  intros HI HC HS HL. induction HL as [|q m HL IH S L]; intro HQ; [exact HC|].
  pose proof (skip_pos _ _ _ S). assert (Q : q <= cur) by (apply IH; lia).
  destruct (N.eq_dec q cur) as [->|NE]; [|apply HI; [exact HL|lia|exact S]].
  rewrite (skip_fun _ _ _ _ HB S HS) in HQ. lia.
Qed.
Lemma inv_next cur n : Inv cur -> lo <= cur -> skip f cur n -> Inv (cur + n).
Proof.
  intros HI HC HS q m HL HQ S. pose proof (inv_before _ _ _ HI HC HS HL HQ) as Q.
  destruct (N.eq_dec q cur) as [->|NE]; [rewrite (skip_fun _ _ _ _ HB S HS); lia|].
  specialize (HI q m HL ltac:(lia) S). lia.
Qed.
Lemma inv_end cur q : Inv cur -> lo <= cur -> (forall n, ~ skip f cur n) -> lands f lo hi q -> q <= cur.
Proof.
  intros HI HC HN HL. induction HL as [|q m HL IH S L]; [exact HC|].
  destruct (N.eq_dec q cur) as [->|NE]; [exfalso; exact (HN _ S)|]. apply HI; [exact HL|lia|exact S].
Qed.

(* first block satisfying P found before cur *)
Definition upto (P : header -> Prop) (cur : N) (r : option (N * block)) : Prop :=
  match r with
  | Some (p, b) => exists h pl, first_block f lo hi P (lo + p) h pl /\ b = block_of h pl /\ lo + p < cur
  | None => forall pos h pl, lands f lo hi pos -> pos < cur -> any_block_at f pos h pl -> ~ P h
  end.
Lemma upto_next P cur n r : Inv cur -> lo <= cur -> cur < hi -> lands f lo hi cur -> skip f cur n -> upto P cur r ->
  (forall h pl, any_block_at f cur h pl -> ~ P h) -> upto P (cur + n) r.
Proof.
  intros HI HC HH HLc HS HU HN. pose proof (skip_pos _ _ _ HS). destruct r as [[p b]|].
  - destruct HU as (h & pl & A & B & C). exists h, pl. split; [exact A|]. split; [exact B|lia].
  - intros pos h pl HL HP W. pose proof (inv_before _ _ _ HI HC HS HL HP) as Q.
    destruct (N.eq_dec pos cur) as [->|NE]; [eapply HN, W|]. apply (HU pos h pl); auto. lia.
Qed.
Lemma upto_found P bytes n r h pl : Inv (lo + bytes) -> lands f lo hi (lo + bytes) -> skip f (lo + bytes) n -> upto P (lo + bytes) r ->
  any_block_at f (lo + bytes) h pl -> P h -> upto P (lo + bytes + n) (first_some r (Some (bytes, block_of h pl))).
Proof.
  intros HI HLc HS HU W HP. pose proof (skip_pos _ _ _ HS). destruct r as [[p b]|]; cbn [first_some].
  - destruct HU as (h' & pl' & A & B & C). exists h', pl'. split; [exact A|]. split; [exact B|lia].
  - exists h, pl. split; [|split; [reflexivity|lia]]. split; [exact HLc|]. split; [exact W|]. split; [exact HP|].
    intros pos' h' pl' L' Q W'. eapply HU; eassumption.
Qed.
Lemma any_block_fun pos h pl h' pl' : any_block_at f pos h pl -> any_block_at f pos h' pl' -> h = h' /\ pl = pl'.
Proof. apply wf_unique. Qed.
Lemma type_of_block h pl : block_type_of (block_of h pl) = if h_seq_num h =? 0 then TMeta else TData.
Proof.
  unfold block_type_of, block_of. cbn [b_data]. destruct (N.ltb_spec (h_seq_num h) 1), (N.eqb_spec (h_seq_num h) 0); try reflexivity; lia.
Qed.

(* when the loop stops: either everything was scanned, or what was wanted is found *)
Lemma ref_loop_ok choice req : hi = lo + req -> forall fuel bytes m d, lo + bytes <= lenN f ->
  (lenN f < lo + bytes + 128 * N.of_nat fuel) -> Inv (lo + bytes) -> (bytes < req -> lands f lo hi (lo + bytes)) ->
  upto isM (lo + bytes) m -> upto isD (lo + bytes) d -> ref_found choice m d = false ->
  exists m' d' cur, ref_loop fuel f lo req choice bytes m d = ROk (m', d') /\ upto isM cur m' /\ upto isD cur d' /\
    (ref_found choice m' d' = true \/ forall pos h pl, lands f lo hi pos -> any_block_at f pos h pl -> pos < cur) /\
    (choice = Any -> m' = None \/ d' = None).
Proof.
  intro EH. induction fuel as [|fuel IH]; intros bytes m d HLf HF HI HL HM HD HR; cbn [ref_loop]; [lia|].
  assert (NONE : choice = Any -> m = None /\ d = None).
  { intros ->. cbn [ref_found] in HR. apply orb_false_iff in HR as [R1 R2]. destruct m, d; try discriminate; auto. }
  destruct (N.leb_spec req bytes) as [H|H].
  { exists m, d, (lo + bytes). split; [reflexivity|]. split; [exact HM|]. split; [exact HD|].  split.
    - right. intros pos h pl L _. apply lands_ge in L. lia.
    - intro E. left. apply NONE, E. }
  specialize (HL H). destruct (lazy_spec f (lo + bytes) HB) as (r & ER & SR). rewrite ER. cbn [rbind].
  destruct (lz_eof r).
  { destruct SR as (S1 & S2 & S3). exists m, d, (lo + bytes). split; [reflexivity|]. split; [exact HM|]. split; [exact HD|].  split.
    - right. intros pos h pl L W. pose proof (inv_end _ _ HI ltac:(lia) S1 L) as Q.
      destruct (N.eq_dec pos (lo + bytes)) as [->|NE]; [exfalso; exact (S2 _ _ W)|]. lia.
    - intro E. left. apply NONE, E. }
  destruct SR as (S1 & S2 & S3).
  assert (HI' : Inv (lo + (bytes + lz_len r))) by (rewrite N.add_assoc; apply inv_next; [exact HI|lia|exact S1]).
  assert (HL' : bytes + lz_len r < req -> lands f lo hi (lo + (bytes + lz_len r))).
  { intro Q. rewrite N.add_assoc. apply lands_next; [exact HL|exact S1|]. lia. }
  assert (HLf' : lo + (bytes + lz_len r) <= lenN f) by (destruct S1 as [S1 _]; lia).
  assert (HF' : lenN f < lo + (bytes + lz_len r) + 128 * N.of_nat fuel) by lia.
  assert (MB : lo + bytes < hi) by lia.
  destruct (lz_block r) as [b|].
  - destruct S3 as (h & pl & W & ->). rewrite type_of_block.
    assert (NB : forall P : header -> Prop, ~ P h -> forall h' pl', any_block_at f (lo + bytes) h' pl' -> ~ P h').
    { intros P NP h' pl' W'. destruct (any_block_fun _ _ _ _ _ W W') as [<- _]. exact NP. }
    destruct (N.eqb_spec (h_seq_num h) 0) as [Z|NZ]; cbv zeta iota.
    + assert (HM' : upto isM (lo + (bytes + lz_len r)) (first_some m (Some (bytes, block_of h pl)))).
      { rewrite N.add_assoc. apply upto_found; auto. }
      assert (HD' : upto isD (lo + (bytes + lz_len r)) d).
      { rewrite N.add_assoc. apply upto_next; auto; [lia|]. intros h' pl'. apply NB. unfold isD. lia. }
      destruct (ref_found choice (first_some m (Some (bytes, block_of h pl))) d) eqn:EF.
      * exists (first_some m (Some (bytes, block_of h pl))), d, (lo + (bytes + lz_len r)). split; [reflexivity|]. split; [exact HM'|]. split; [exact HD'|].
        split; [left; exact EF|]. intro E. right. apply NONE, E.
      * apply (IH _ _ _ HLf' HF' HI' HL' HM' HD' EF).
    + assert (HD' : upto isD (lo + (bytes + lz_len r)) (first_some d (Some (bytes, block_of h pl)))).
      { rewrite N.add_assoc. apply upto_found; auto. unfold isD. lia. }
      assert (HM' : upto isM (lo + (bytes + lz_len r)) m).
      { rewrite N.add_assoc. apply upto_next; auto; [lia|]. intros h' pl'. apply NB. unfold isM. lia. }
      destruct (ref_found choice m (first_some d (Some (bytes, block_of h pl)))) eqn:EF.
      * exists m, (first_some d (Some (bytes, block_of h pl))), (lo + (bytes + lz_len r)). split; [reflexivity|]. split; [exact HM'|]. split; [exact HD'|].
        split; [left; exact EF|]. intro E. left. apply NONE, E.
      * apply (IH _ _ _ HLf' HF' HI' HL' HM' HD' EF).
  - apply IH; auto; rewrite N.add_assoc; (apply upto_next; auto; [lia|]); intros h' pl' W'; exfalso; exact (S3 _ _ W').
Qed.
Lemma upto_found_all P cur r : upto P cur r -> (forall pos h pl, lands f lo hi pos -> any_block_at f pos h pl -> pos < cur) -> found f lo hi P r.
Proof.
  intros U A. destruct r as [[p b]|]; cbn [found].
  - destruct U as (h & pl & F & -> & _). exists h, pl. split; [exact F|]. unfold reads_as, block_of. cbn [b_header b_data]. split; [reflexivity|].
    destruct (N.ltb_spec (h_seq_num h) 1), (N.eqb_spec (h_seq_num h) 0); try reflexivity; lia.
  - intros pos h pl L W. apply (U pos h pl L); [eapply A; eassumption|exact W].
Qed.
Lemma upto_some P cur x : upto P cur (Some x) -> found f lo hi P (Some x).
Proof.
  destruct x as [p b]. intros (h & pl & F & -> & _). exists h, pl. split; [exact F|]. unfold reads_as, block_of. cbn [b_header b_data]. split; [reflexivity|].
  destruct (N.ltb_spec (h_seq_num h) 1), (N.eqb_spec (h_seq_num h) 0); try reflexivity; lia.
Qed.
(* the only block found is the first of all *)
Lemma first_any P Q cur x : (forall h, P h \/ Q h) -> upto P cur (Some x) -> upto Q cur None -> found f lo hi (fun _ => True) (Some x).
Proof.
  intros HPQ U V. destruct x as [p b]. destruct (upto_some _ _ _ U) as (h & pl & (F1 & F2 & F3 & F4) & R).
  destruct U as (h0 & pl0 & (G1 & G2 & _) & _ & LT).
  exists h, pl. split; [|exact R]. split; [exact F1|]. split; [exact F2|]. split; [exact Logic.I|].
  intros pos' h' pl' L' Q' W' _. destruct (HPQ h') as [H|H]; [exact (F4 _ _ _ L' Q' W' H)|].
  apply (V pos' h' pl' L'); [lia|exact W'|exact H].
Qed.
Lemma first_any' P Q cur x : (forall h, P h \/ Q h) -> upto P cur (Some x) -> no_block f lo hi Q -> found f lo hi (fun _ => True) (Some x).
Proof. intros HPQ U V. eapply (first_any P Q cur); [exact HPQ|exact U|]. intros pos h pl L _ W. exact (V pos h pl L W). Qed.
Lemma none_any P Q : (forall h, P h \/ Q h) -> no_block f lo hi P -> no_block f lo hi Q -> no_block f lo hi (fun _ => True).
Proof. intros HPQ A B pos h pl L W _. destruct (HPQ h) as [H|H]; [exact (A _ _ _ L W H)|exact (B _ _ _ L W H)]. Qed.
End Scan.

Theorem get_ref_block_ok f from to misalign choice : bytes_ok f = true ->
  let '(req, lo) := calc_required_len_and_seek_to_from_byte_range from to misalign 0 (Len (lenN f)) None in
  lo <= lenN f -> exists r, get_ref_block f from to misalign choice = ROk r /\ ref_spec f lo (lo + req) choice r.
Proof.
  intro HB. unfold get_ref_block. destruct (calc_required_len_and_seek_to_from_byte_range _ _ _ _ _ _) as [req lo] eqn:E. intro HL.
  destruct (ref_loop_ok f lo (lo + req) HB choice req eq_refl (S (length f)) 0 None None) as (m & d & cur & ER & UM & UD & FA & AN).
  - lia.
  - unfold lenN. lia.
  - rewrite N.add_0_r. apply inv_start.
  - intro H. rewrite N.add_0_r. constructor. lia.
  - intros pos h pl L Q. apply lands_ge in L. lia.
  - intros pos h pl L Q. apply lands_ge in L. lia.
  - destruct choice as [|[]|[]]; reflexivity.
  - rewrite ER. cbn [rbind]. eexists. split; [reflexivity|].
    assert (FM : (forall pos h pl, lands f lo (lo + req) pos -> any_block_at f pos h pl -> pos < cur) -> found f lo (lo + req) isM m) by (intro A; eapply upto_found_all; eassumption).
    assert (FD : (forall pos h pl, lands f lo (lo + req) pos -> any_block_at f pos h pl -> pos < cur) -> found f lo (lo + req) isD d) by (intro A; eapply upto_found_all; eassumption).
    destruct choice as [|[]|[]]; cbn [ref_spec ref_pick ref_found] in *.
    + destruct m as [m|], d as [d|]; cbn [first_some].
      * destruct (AN eq_refl); discriminate.
      * eapply (first_any _ _ _ isM isD); [exact any_type|exact UM|exact UD].
      * eapply (first_any _ _ _ isD isM); [exact swap_type|exact UD|exact UM].
      * destruct FA as [FA|FA]; [discriminate|]. apply (none_any _ _ _ isM isD any_type); [exact (FM FA)|exact (FD FA)].
    + destruct d as [d|]; cbn [first_some some] in *.
      * left. split; [discriminate|]. apply (upto_some _ _ _ _ _ _ UD).
      * destruct FA as [FA|FA]; [discriminate|]. right. split; [exact (FD FA)|]. destruct m as [m|].
        -- eapply (first_any' _ _ _ isM isD); [exact any_type|exact UM|exact (FD FA)].
        -- apply (none_any _ _ _ isM isD any_type); [exact (FM FA)|exact (FD FA)].
    + destruct m as [m|]; cbn [first_some some] in *.
      * left. split; [discriminate|]. apply (upto_some _ _ _ _ _ _ UM).
      * destruct FA as [FA|FA]; [discriminate|]. right. split; [exact (FM FA)|]. destruct d as [d|].
        -- eapply (first_any' _ _ _ isD isM); [exact swap_type|exact UD|exact (FM FA)].
        -- apply (none_any _ _ _ isM isD any_type); [exact (FM FA)|exact (FD FA)].
    + destruct d as [d|]; cbn [some] in *; [apply (upto_some _ _ _ _ _ _ UD)|]. destruct FA as [FA|FA]; [discriminate|]. exact (FD FA).
    + destruct m as [m|]; cbn [some] in *; [apply (upto_some _ _ _ _ _ _ UM)|]. destruct FA as [FA|FA]; [discriminate|]. exact (FM FA).
Qed.
