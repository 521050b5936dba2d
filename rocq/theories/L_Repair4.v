(* Repairing, part 4: what the file becomes. *)
From Verif Require Import M_Base M_Specs M_Crc M_Header M_Multihash M_Metadata M_Block M_Index M_FileUtils M_Buffer M_Ranges M_Encode M_Scan M_Loop M_Decode M_Repair
  S_Crc S_Meta S_Block S_Index S_Container S_Scan S_Decode S_Encode S_Repair
  L_Base L_Crc L_File L_Header L_Meta L_Block L_Block2 L_Index L_Index2 L_Buffer L_Encode L_Loop L_Scan L_Container L_Decode L_Decode2 L_Ref L_Lot L_Sort2 L_Intact L_Repair L_Repair2 L_Repair3.
Ltac Zify.zify_post_hook ::= idtac.

Lemma countN_ext {A} (g h : A -> bool) l : (forall x, In x l -> g x = h x) -> countN g l = countN h l.
Proof.
  intro H. unfold countN. f_equal. induction l as [|a l IH]; [reflexivity|]. cbn [filter]. rewrite (H a (or_introl eq_refl)), IH by (intros; apply H; right; assumption). reflexivity.
Qed.
Lemma bool_iff (a b : bool) : (a = true <-> b = true) -> a = b.
Proof. destruct a, b; intros [H1 H2]; try reflexivity; [symmetry; apply H1|apply H2]; reflexivity. Qed.

Section Repair.
Variables (rs : codec) (f : file) (ref : block) (ms : list metadata) (d p B : N).
Let v := b_version ref.
Let uid := b_uid ref.
Let bs := ver_to_block_size v.
Let o := Some (d, p, B).
Let widx seq := calc_data_block_write_index seq (Some true) o.
Hypothesis HO : dpb_ok o.
Hypothesis HH : header_ok (b_header ref) = true.
Hypothesis HS : b_seq_num ref = 0.
Hypothesis HF : Forall field_ok ms.
Hypothesis HZ : fields_size ms <= bs - 16.
Hypothesis HB : bytes_ok f = true.
Notation mark := (mark ref d p B).
Notation held := (held ref d p B).
Notation mmark := (mmark ref).
Notation meta_bytes := (meta_bytes ref ms).
Notation SetStep := (SetStep rs ref d p B).
Notation codeword := (codeword rs ref d p).
Notation seqs := (seqs_of_set d p).
Notation block_in w a seq pl := (block_at v uid w (a * bs) seq pl).

Lemma BS1 : 1 <= bs. Proof. pose proof (BSR ref). fold v bs in H. lia. Qed.
Lemma write_same w i b j : lenN b = bs -> j <> i -> same_block v w (file_write w (i * bs) b) j.
Proof. intros L N x E. rewrite (nth_write_block bs BS1) by exact L. fold bs in E. rewrite E. destruct (N.eqb_spec j i); [contradiction|reflexivity]. Qed.
Lemma some_same g w i : same_block v g w i -> lenN g <= lenN w -> some_block v uid g i -> some_block v uid w i.
Proof. intros H L (s & pl & X). exists s, pl. fold bs in X. fold bs. apply (block_at_same v uid g w i s pl H L X). Qed.

(* ---- metadata ---- *)
Definition MetaDone (D : list N) (w : file) : Prop :=
  lenN f <= lenN w /\ bytes_ok w = true /\ (forall i, ~ In i D -> same_block v f w i) /\
  (forall i, some_block v uid f i -> same_block v f w i) /\
  (forall i, In i D -> some_block v uid w i) /\
  (forall i, same_block v f w i \/ sliceN (i * bs) bs w = meta_bytes).
Lemma meta_done_start : MetaDone [] f.
Proof.
  repeat split; try apply same_block_refl; try exact HB; try lia; try (intros ? []).
  left. apply same_block_refl.
Qed.
Lemma mrun_done l : forall D w t, MetaDone D w -> MetaDone (D ++ l) (fst (mrun ref ms false l (w, t))).
Proof.
  induction l as [|i l IH]; intros D w t M; [rewrite app_nil_r; exact M|].
  change (mrun ref ms false (i :: l) (w, t)) with (mrun ref ms false l (mput ref ms false w i, add_meta (mmark w i) t)).
  replace (D ++ i :: l) with ((D ++ [i]) ++ l) by (rewrite <- app_assoc; reflexivity). apply IH. clear IH.
  destruct M as (M1 & M2 & M3 & M4 & M5 & M6). unfold mput. destruct (mmark w i) eqn:MI.
  - apply (mmark_iff ref) in MI; [|exact M2]. split; [exact M1|]. split; [exact M2|]. split; [|split; [exact M4|split; [|exact M6]]].
    + intros j Hj. apply M3. intro. apply Hj. apply in_app_iff. left. assumption.
    + intros j Hj. apply in_app_iff in Hj as [Hj|[<-|[]]]; [apply M5, Hj|exact MI].
  - destruct (meta_bytes_ok ref ms d p B HH HS HF HZ) as [L1 L2]. fold v bs in L1. fold v bs.
    assert (NS : ~ some_block v uid w i) by (intro X; apply (mmark_iff ref) in X; [congruence|exact M2]).
    pose proof (BS1) as BZ.
    assert (LW : lenN w <= lenN (file_write w (i * bs) meta_bytes)) by (rewrite lenN_file_write, L1; destruct (_ =? _); lia).
    assert (SL : sliceN (i * bs) bs (file_write w (i * bs) meta_bytes) = meta_bytes).
    { apply list_ext_N.
      - rewrite lenN_slice, lenN_file_write, L1. destruct (N.eqb_spec bs 0); lia.
      - intros x Hx. rewrite lenN_slice in Hx. rewrite nthN_slice. destruct (N.ltb_spec x bs); [|lia].
        rewrite nthN_file_write, L1. destruct (N.leb_spec (i * bs) (i * bs + x)); [|lia]. destruct (N.ltb_spec (i * bs + x) (i * bs + bs)); [|lia]. cbn [andb].
        f_equal. lia. }
    split; [lia|]. split; [apply write_bytes_ok; assumption|]. split; [|split; [|split]].
    + intros j Hj. rewrite in_app_iff in Hj. cbn [In] in Hj. eapply same_block_trans; [apply M3; tauto|]. apply write_same; [exact L1|]. intros ->. tauto.
    + intros j Hj. destruct (N.eq_dec j i) as [->|NE].
      * exfalso. apply NS. apply (some_same f w i (M4 i Hj) M1 Hj).
      * eapply same_block_trans; [apply M4, Hj|]. apply write_same; assumption.
    + intros j Hj. destruct (N.eq_dec j i) as [->|NE].
      * exists 0, (meta_payload ref ms). fold bs. apply (meta_bytes_block ref ms d p B HH HS HF HZ). fold v bs. exact SL.
      * apply in_app_iff in Hj as [Hj|[<-|[]]]; [|contradiction]. apply (some_same w); [apply write_same; assumption|exact LW|apply M5, Hj].
    + intro j. destruct (N.eq_dec j i) as [->|NE]; [right; exact SL|]. pose proof (write_same w i meta_bytes j L1 NE) as SB. destruct (M6 j) as [H|H].
      * left. eapply same_block_trans; eassumption.
      * right. transitivity (sliceN (j * bs) bs w); [|exact H]. apply list_ext_N.
        { assert (LJ : (j + 1) * bs <= lenN w). { pose proof (lenN_slice (j * bs) bs w) as X. rewrite H, L1 in X. lia. }
          rewrite !lenN_slice. lia. }
        intros x Hx. rewrite lenN_slice in Hx. rewrite !nthN_slice. destruct (N.ltb_spec x bs); [|lia]. apply SB. fold bs. symmetry. apply (N.div_unique _ _ _ x); lia.
Qed.

(* ---- sets ---- *)
Lemma seqs_in k s : In s (seqs k) <-> 1 <= s /\ set_of d p s = k.
Proof.
  pose proof HO as (D1 & D2 & D3). split.
  - intro H. assert (1 <= s). { unfold seqs_of_set in H. apply in_map_iff in H as (j & <- & _). lia. } split; [assumption|]. apply set_members; assumption.
  - intros [H1 H2]. apply set_members; assumption.
Qed.
Lemma mark_same g w s : bytes_ok g = true -> bytes_ok w = true -> lenN g <= lenN w -> same_block v g w (widx s) ->
  mark w s = mark (g ++ repN (lenN w - lenN g) 0) s.
Proof.
  intros BG BW L H. apply bool_iff. rewrite !(mark_iff ref d p B) by (try assumption; rewrite bytes_ok_app, BG, bytes_ok_rep by lia; reflexivity).
  unfold in_place. fold v uid o. split; intros (pl & X); exists pl; apply (block_at_ext v uid g w (widx s) s pl H L); exact X.
Qed.
(* what set k looks like in the end, g being the file as it was *)
Definition SetDone (k : N) (w : file) : Prop :=
  exists z, let g := f ++ repN z 0 in
  if d <=? held g k then
    (forall s, In s (seqs k) -> in_place v uid d p B w s) /\
    (forall s, In s (seqs k) -> mark g s = true -> same_block v f w (widx s)) /\
    (forall cw, codeword cw k -> (forall s pl, In s (seqs k) -> block_in g (widx s) s pl -> pl = cw s) ->
       forall s, In s (seqs k) -> block_in w (widx s) s (cw s))
  else forall s, In s (seqs k) -> same_block v f w (widx s).
Lemma set_done_later k w w' : SetDone k w -> lenN w <= lenN w' -> (forall s, In s (seqs k) -> same_block v w w' (widx s)) -> SetDone k w'.
Proof.
  intros (z & H) L E. exists z. cbv zeta in *. destruct (d <=? _).
  - destruct H as (H1 & H2 & H3). split; [|split].
    + intros s Hs. destruct (H1 s Hs) as (pl & X). exists pl. apply (block_at_same v uid w w' (widx s) s pl (E s Hs) L X).
    + intros s Hs M. eapply same_block_trans; [apply H2; assumption|apply E, Hs].
    + intros cw C A s Hs. apply (block_at_same v uid w w' (widx s) s _ (E s Hs) L). apply (H3 cw C A s Hs).
  - intros s Hs. eapply same_block_trans; [apply H, Hs|apply E, Hs].
Qed.
Definition SetsDone (w1 : file) (k : N) (w : file) : Prop :=
  lenN w1 <= lenN w /\ bytes_ok w = true /\
  (forall i, meta_index (Some true) o i -> same_block v w1 w i) /\
  (forall s, 1 <= s -> k <= set_of d p s -> same_block v f w (widx s)) /\
  (forall k', k' < k -> SetDone k' w).
Lemma put_same ws w a : sized bs ws -> (forall b, ~ In (a, b) ws) -> same_block v w (put_blocks bs ws w) a.
Proof. intros SZ H i E. apply (put_other bs BS1); [exact SZ|]. intros b Hb. fold bs in E. rewrite E in Hb. apply (H b Hb). Qed.
Lemma is_block_at w a seq pl b : is_block v uid seq pl b -> lenN b = bs -> lenN pl = bs - 16 -> seq < 4294967296 -> lenN w >= (a + 1) * bs -> (forall i, i / bs = a -> nthN w i = nthN b (i mod bs)) ->
  block_in w a seq pl.
Proof.
  intros IB L LP S4 LW H. unfold block_at. fold bs. replace (sliceN (a * bs) bs w) with b.
  - destruct (UIDOK ref d p B HH) as [U1 U2]. apply (is_block_wf v uid seq pl b U1 U2 S4 LP IB).
  - pose proof BS1 as BZ. apply list_ext_N; [rewrite lenN_slice; lia|]. intros x Hx. rewrite nthN_slice. destruct (N.ltb_spec x bs); [|lia].
    rewrite H by (symmetry; apply (N.div_unique _ _ _ x); lia). f_equal. apply (N.mod_unique _ _ a); lia.
Qed.
Lemma sets_done w1 t1 : lenN f <= lenN w1 -> bytes_ok w1 = true -> (forall s, 1 <= s -> same_block v f w1 (widx s)) ->
  forall k w t, Sets rs ref d p B false w1 t1 k w t -> k * (d + p) < 4294967296 -> SetsDone w1 k w.
Proof.
  intros L1 B1 E1 k w t HSs. pose proof HO as (D1 & D2 & D3). pose proof BS1 as BZ.
  induction HSs as [|k w t ws HSs IH ST]; intro HK; [|destruct (IH ltac:(nia)) as (I1 & I2 & I3 & I4 & I5); clear IH; match goal with |- SetsDone _ _ ?x => change x with (put_blocks bs ws w) end].
  { split; [lia|]. split; [exact B1|]. split; [intros; apply same_block_refl|]. split; [intros; apply E1; assumption|]. intros; lia. }
  pose proof (SetStep_sized rs ref d p B w k ws ST) as [SZ SB]. fold v bs in SZ.
  destruct (put_len bs BS1 ws w SZ) as (PL1 & PL2 & _).
  assert (WS : forall a b, In (a, b) ws -> exists s, In s (seqs k) /\ mark w s = false /\ a = widx s).
  { intros a b Hab. unfold L_Repair2.SetStep in ST. destruct (d <=? _); [|subst ws; destruct Hab].
    destruct ST as (_ & _ & ST). destruct (ST a b Hab) as (s & pl & S1 & S2 & S3 & _). exists s. auto. }
  assert (OTH : forall s, 1 <= s -> set_of d p s <> k -> same_block v w (put_blocks bs ws w) (widx s)).
  { intros s S1 SK. apply put_same; [exact SZ|]. intros b Hb. destruct (WS _ _ Hb) as (s' & S2 & _ & S3). apply seqs_in in S2 as [S2 S4].
    apply write_index_inj in S3; [|exact HO|exact S1|exact S2]. subst s'. contradiction. }
  split; [lia|]. split; [apply put_bytes; assumption|]. split; [|split].
  - intros i MI. eapply same_block_trans; [apply I3, MI|]. apply put_same; [exact SZ|]. intros b Hb. destruct (WS _ _ Hb) as (s' & S2 & _ & S3). apply seqs_in in S2 as [S2 S4].
    subst i. revert MI. apply write_index_not_meta; assumption.
  - intros s S1 SK. eapply same_block_trans; [apply I4; lia|]. apply OTH; lia.
  - intros k' HK'. destruct (N.eq_dec k' k) as [->|NE].
    2: { apply (set_done_later k' w); [apply I5; lia|exact PL1|]. intros s Hs. apply seqs_in in Hs as [S1 S2]. apply OTH; lia. }
    exists (lenN w - lenN f). cbv zeta. set (g := f ++ repN (lenN w - lenN f) 0).
    assert (LW : lenN f <= lenN w) by lia.
    assert (SW : forall s, In s (seqs k) -> same_block v f w (widx s)). { intros s Hs. apply seqs_in in Hs as [S1 S2]. apply I4; lia. }
    assert (MG : forall s, In s (seqs k) -> mark w s = mark g s). { intros s Hs. apply mark_same; [exact HB|exact I2|exact LW|apply SW, Hs]. }
    assert (HG : held w k = held g k) by (apply countN_ext; exact MG).
    unfold L_Repair2.SetStep in ST. rewrite <- HG. destruct (d <=? held w k).
    2: { subst ws. intros s Hs. apply SW, Hs. }
    destruct ST as (T1 & T2 & T3). fold v uid bs o in T1, T2, T3.
    assert (KEEP : forall s, In s (seqs k) -> mark w s = true -> same_block v w (put_blocks bs ws w) (widx s)).
    { intros s Hs M. apply put_same; [exact SZ|]. intros b Hb. destruct (WS _ _ Hb) as (s' & S2 & S3 & S4). apply seqs_in in S2 as [S2 S5]. apply seqs_in in Hs as [Hs _].
      apply write_index_inj in S4; [|exact HO|exact Hs|exact S2]. subst s'. congruence. }
    assert (NEW : forall s, In s (seqs k) -> mark w s = false -> exists b, In (widx s, b) ws /\ forall i, i / bs = widx s -> nthN (put_blocks bs ws w) i = nthN b (i mod bs)).
    { intros s Hs M. destruct (T1 s Hs M) as (b & Hb). exists b. split; [exact Hb|]. intros i Ei. apply (put_value bs BS1 ws w (widx s)); [exact SZ|exact Hb| |exact Ei].
      intros b' Hb'. apply (T2 (widx s) b' b Hb' Hb). }
    assert (GET : forall s, In s (seqs k) -> mark w s = false -> exists pl, block_in (put_blocks bs ws w) (widx s) s pl /\
       forall cw, codeword cw k -> (forall s pl', In s (seqs k) -> block_in w (widx s) s pl' -> pl' = cw s) -> pl = cw s).
    { intros s Hs M. destruct (NEW s Hs M) as (b & Hb & NB). destruct (T3 _ _ Hb) as (s' & pl & S1 & S2 & S3 & S4 & S5 & S6 & S7 & S8).
      apply seqs_in in S1 as [S1 _]. pose proof Hs as Hs'. apply seqs_in in Hs' as [Hs' _]. apply write_index_inj in S3; [|exact HO|exact Hs'|exact S1]. subst s'.
      exists pl. split; [|exact S8]. apply (is_block_at _ (widx s) s pl b S4 S5 S7); [|specialize (PL2 _ _ Hb); lia|exact NB].
      unfold seqs_of_set in Hs. apply in_map_iff in Hs as (j & <- & Hj). apply In_rangeN in Hj. lia. }
    split; [|split].
    + intros s Hs. destruct (mark w s) eqn:M.
      * pose proof M as M0. apply (mark_iff ref d p B) in M0 as (pl & X); [|exact I2]. exists pl. apply (block_at_same v uid w _ (widx s) s pl (KEEP s Hs M) PL1 X).
      * destruct (GET s Hs M) as (pl & X & _). exists pl. exact X.
    + intros s Hs M. rewrite <- MG in M by exact Hs. eapply same_block_trans; [apply SW, Hs|apply KEEP; assumption].
    + intros cw C A s Hs.
      assert (A' : forall s pl, In s (seqs k) -> block_in w (widx s) s pl -> pl = cw s).
      { intros s' pl' Hs' X. apply A; [exact Hs'|]. apply (block_at_ext v uid f w (widx s') s' pl' (SW s' Hs') LW). exact X. }
      destruct (mark w s) eqn:M.
      * pose proof (mark_block ref d p B w s I2) as MB. rewrite M in MB. fold v uid bs o in MB. pose proof (A' s _ Hs MB) as E. 
        apply (block_at_same v uid w _ (widx s) s _ (KEEP s Hs M) PL1). rewrite <- E. exact MB.
      * destruct (GET s Hs M) as (pl & X & Y). rewrite <- (Y cw C A'). exact X.
Qed.
End Repair.
