(* Proofs about the CRC. *)
From Verif Require Import M_Base L_Base L_File M_Specs M_Crc S_Crc.

(* ---- bit-serial step ---- *)
Definition bstep (s : N) (b : bool) : N :=
  N.lxor (u16 (N.shiftl s 1)) (if xorb (N.testbit s 15) b then 4129 else 0).
Definition byte_bits (c : N) : list bool :=
  [N.testbit c 7; N.testbit c 6; N.testbit c 5; N.testbit c 4;
   N.testbit c 3; N.testbit c 2; N.testbit c 1; N.testbit c 0].
Definition bits8 (s c : N) : N := fold_left bstep (byte_bits c) s.

Lemma u16_mod x : u16 x = x mod 65536.
Proof. unfold u16. change 65535 with (N.ones 16). rewrite N.land_ones. reflexivity. Qed.
Lemma u16_bits x i : N.testbit (u16 x) i = (i <? 16) && N.testbit x i.
Proof.
  rewrite u16_mod. change 65536 with (2 ^ 16). destruct (N.ltb_spec i 16).
  - rewrite N.mod_pow2_bits_low by assumption. reflexivity.
  - rewrite N.mod_pow2_bits_high by assumption. reflexivity.
Qed.
Lemma u16_lxor a b : u16 (N.lxor a b) = N.lxor (u16 a) (u16 b).
Proof.
  apply N.bits_inj; intro i. rewrite N.lxor_spec, !u16_bits, N.lxor_spec.
  destruct (i <? 16); cbn [andb]; [reflexivity|reflexivity].
Qed.
Lemma u16_lt x : u16 x < 65536.
Proof. rewrite u16_mod. apply N.mod_lt. lia. Qed.
Lemma u16_small x : x < 65536 -> u16 x = x.
Proof. intro H. rewrite u16_mod. apply N.mod_small. exact H. Qed.
Lemma lt16_bits x : x < 65536 <-> (forall i, 16 <= i -> N.testbit x i = false).
Proof.
  split.
  - intros H i Hi. rewrite <- (u16_small x H), u16_bits. destruct (N.ltb_spec i 16); [lia|reflexivity].
  - intro H. assert (E : x = u16 x).
    { apply N.bits_inj; intro i. rewrite u16_bits. destruct (N.ltb_spec i 16); [reflexivity|]. apply H; lia. }
    rewrite E. apply u16_lt.
Qed.
Lemma lxor_lt16 a b : a < 65536 -> b < 65536 -> N.lxor a b < 65536.
Proof.
  rewrite !lt16_bits. intros Ha Hb i Hi. rewrite N.lxor_spec, Ha, Hb by assumption. reflexivity.
Qed.
Lemma bstep_lt s b : bstep s b < 65536.
Proof. unfold bstep. apply lxor_lt16; [apply u16_lt|]. destruct (xorb _ _); lia. Qed.
Lemma shiftl_lxor a b n : N.shiftl (N.lxor a b) n = N.lxor (N.shiftl a n) (N.shiftl b n).
Proof.
  apply N.bits_inj; intro i. rewrite N.lxor_spec. destruct (N.lt_ge_cases i n) as [H|H].
  - rewrite !N.shiftl_spec_low by assumption. reflexivity.
  - rewrite !N.shiftl_spec_high' by assumption. apply N.lxor_spec.
Qed.
Lemma bstep_lin s1 s2 b1 b2 :
  bstep (N.lxor s1 s2) (xorb b1 b2) = N.lxor (bstep s1 b1) (bstep s2 b2).
Proof.
  unfold bstep. rewrite N.lxor_spec, shiftl_lxor, u16_lxor.
  set (A := u16 (N.shiftl s1 1)). set (B := u16 (N.shiftl s2 1)).
  destruct (N.testbit s1 15), (N.testbit s2 15), b1, b2; cbn [xorb];
    apply N.bits_inj; intro i; rewrite ?N.lxor_spec, ?N.bits_0; 
    destruct (N.testbit A i), (N.testbit B i), (N.testbit 4129 i); reflexivity.
Qed.

Fixpoint xorbits (a b : list bool) : list bool :=
  match a, b with
  | x :: a', y :: b' => xorb x y :: xorbits a' b'
  | _, _ => []
  end.
Lemma fold_bstep_lin l1 l2 s1 s2 : length l1 = length l2 ->
  fold_left bstep (xorbits l1 l2) (N.lxor s1 s2)
  = N.lxor (fold_left bstep l1 s1) (fold_left bstep l2 s2).
Proof.
  revert l2 s1 s2. induction l1 as [|x l1 IH]; intros [|y l2] s1 s2 H; cbn [length] in H; try discriminate.
  - reflexivity.
  - cbn [xorbits fold_left]. rewrite bstep_lin. apply IH. lia.
Qed.
Lemma byte_bits_lxor a b : byte_bits (N.lxor a b) = xorbits (byte_bits a) (byte_bits b).
Proof. unfold byte_bits, xorbits. rewrite !N.lxor_spec. reflexivity. Qed.
Lemma bits8_lin s1 s2 c1 c2 :
  bits8 (N.lxor s1 s2) (N.lxor c1 c2) = N.lxor (bits8 s1 c1) (bits8 s2 c2).
Proof. unfold bits8. rewrite byte_bits_lxor. apply fold_bstep_lin. reflexivity. Qed.

(* ---- table = bit-serial ---- *)
Lemma tab_sweep :
  forallb (fun x => (nthN CRCCCITT_TABLE x =? bits8 0 x)
                    && (bits8 (N.shiftl x 8) x =? 0)
                    && (bits8 x 0 =? N.shiftl x 8)) (rangeN 0 256) = true.
Proof. vm_compute. reflexivity. Qed.
Lemma tab_facts x : x < 256 ->
  nthN CRCCCITT_TABLE x = bits8 0 x /\ bits8 (N.shiftl x 8) x = 0 /\ bits8 x 0 = N.shiftl x 8.
Proof.
  intro H. pose proof (forall_range _ _ _ tab_sweep x) as G. cbn beta in G.
  assert (Hx : 0 <= x < 256) by lia. specialize (G Hx).
  rewrite !andb_true_iff, !N.eqb_eq in G. tauto.
Qed.
Lemma lxor_lt256 a b : a < 256 -> b < 256 -> N.lxor a b < 256.
Proof.
  intros Ha Hb. rewrite <- (N.mod_small a 256), <- (N.mod_small b 256) by assumption.
  change 256 with (2 ^ 8). assert (E : N.lxor (a mod 2 ^ 8) (b mod 2 ^ 8) = (N.lxor a b) mod 2 ^ 8).
  { apply N.bits_inj; intro i. rewrite N.lxor_spec. destruct (N.lt_ge_cases i 8) as [H|H].
    - rewrite !N.mod_pow2_bits_low by assumption. symmetry; apply N.lxor_spec.
    - rewrite !N.mod_pow2_bits_high by assumption. reflexivity. }
  rewrite E. apply N.mod_lt. lia.
Qed.
Lemma split16 s : s < 65536 ->
  s = N.lxor (N.shiftl (N.shiftr s 8) 8) (s mod 256) /\ N.shiftr s 8 < 256 /\ s mod 256 < 256.
Proof.
  intro H. split; [|split].
  - apply N.bits_inj; intro i. rewrite N.lxor_spec. change 256 with (2 ^ 8).
    destruct (N.lt_ge_cases i 8) as [Hi|Hi].
    + rewrite N.shiftl_spec_low, N.mod_pow2_bits_low by assumption. rewrite xorb_false_l. reflexivity.
    + rewrite N.shiftl_spec_high', N.mod_pow2_bits_high, N.shiftr_spec' by assumption.
      rewrite xorb_false_r. f_equal. lia.
  - rewrite N.shiftr_div_pow2. change (2 ^ 8) with 256. lia.
  - apply N.mod_lt; lia.
Qed.
Lemma land255 x : N.land x 255 = x mod 256.
Proof. change 255 with (N.ones 8). rewrite N.land_ones. reflexivity. Qed.
Lemma bits8_0 : bits8 0 0 = 0. Proof. reflexivity. Qed.
Lemma crc_byte_bits8 s c : s < 65536 -> c < 256 -> crc_byte s c = bits8 s c.
Proof.
  intros Hs Hc. destruct (split16 s Hs) as [E [Hh Hl]].
  set (h := N.shiftr s 8) in *. set (l := s mod 256) in *.
  unfold crc_byte. fold h. rewrite land255, N.mod_small by (apply lxor_lt256; assumption).
  pose proof (lxor_lt256 h c Hh Hc) as Hx.
  destruct (tab_facts _ Hx) as [T1 _]. rewrite T1. clear T1.
  (* right side *)
  assert (E2 : bits8 s c = N.lxor (bits8 l 0) (bits8 (N.shiftl h 8) c)).
  { rewrite E at 1. rewrite <- bits8_lin, N.lxor_0_l, (N.lxor_comm l). reflexivity. }
  rewrite E2.
  destruct (tab_facts l Hl) as [_ [_ T2]]. rewrite T2.
  assert (E3 : bits8 (N.shiftl h 8) c = bits8 0 (N.lxor h c)).
  { destruct (tab_facts h Hh) as [_ [T3 _]].
    replace (bits8 (N.shiftl h 8) c) with (N.lxor (bits8 (N.shiftl h 8) c) (bits8 (N.shiftl h 8) h))
      by (rewrite T3; apply N.lxor_0_r).
    rewrite <- bits8_lin, N.lxor_nilpotent, (N.lxor_comm c h). reflexivity. }
  rewrite E3. f_equal.
  (* u16 (s << 8) = l << 8 *)
  apply N.bits_inj; intro i. rewrite u16_bits. subst l. change 256 with (2 ^ 8).
  destruct (N.ltb_spec i 16); cbn [andb].
  - destruct (N.lt_ge_cases i 8).
    + rewrite !N.shiftl_spec_low by assumption. reflexivity.
    + rewrite !N.shiftl_spec_high' by assumption. rewrite N.mod_pow2_bits_low by lia. reflexivity.
  - rewrite N.shiftl_spec_high', N.mod_pow2_bits_high by lia. reflexivity.
Qed.

Definition msg_bits (l : list N) : list bool := flat_map byte_bits l.
Lemma bits8_lt s c : bits8 s c < 65536.
Proof. unfold bits8, byte_bits. cbn [fold_left]. apply bstep_lt. Qed.
Lemma crc_fold_bits m s : s < 65536 -> bytes_ok m = true ->
  crc_ccitt_generic s m = fold_left bstep (msg_bits m) s.
Proof.
  unfold crc_ccitt_generic. revert s. induction m as [|c m IH]; intros s Hs Hm; [reflexivity|].
  unfold bytes_ok in Hm; cbn [forallb] in Hm. apply andb_true_iff in Hm as [Hc Hm].
  apply byte_ok_lt in Hc. cbn [fold_left]. rewrite crc_byte_bits8 by assumption.
  rewrite IH by (try apply bits8_lt; assumption).
  unfold msg_bits; cbn [flat_map]. rewrite fold_left_app. reflexivity.
Qed.
Lemma fold_bstep_lt l s : s < 65536 -> fold_left bstep l s < 65536.
Proof. revert s; induction l as [|b l IH]; intros s H; cbn [fold_left]; [exact H|]. apply IH, bstep_lt. Qed.
Lemma crc_lt s m : s < 65536 -> bytes_ok m = true -> crc_ccitt_generic s m < 65536.
Proof. intros Hs Hm. rewrite crc_fold_bits by assumption. apply fold_bstep_lt, Hs. Qed.
Lemma crc_app s a b : crc_ccitt_generic s (a ++ b) = crc_ccitt_generic (crc_ccitt_generic s a) b.
Proof. unfold crc_ccitt_generic. apply fold_left_app. Qed.

(* ---- remainder characterisation ---- *)
Definition bval (l : list bool) (a : N) : N := fold_left (fun a b => 2 * a + N.b2n b) l a.
Lemma double_lxor a b : 2 * N.lxor a b = N.lxor (2 * a) (2 * b).
Proof.
  rewrite <- !N.double_spec. destruct a as [|a], b as [|b]; reflexivity.
Qed.
Lemma clmul_double q g : clmul (2 * q) g = 2 * clmul q g.
Proof. destruct q as [|p]; [reflexivity|]. cbn [N.mul clmul clmul_pos]. reflexivity. Qed.
Lemma clmul_succ_double q g : clmul (2 * q + 1) g = N.lxor (2 * clmul q g) g.
Proof.
  destruct q as [|p].
  - change (2 * 0 + 1) with 1. cbn [clmul clmul_pos]. rewrite N.mul_0_r, N.lxor_0_l. reflexivity.
  - replace (2 * N.pos p + 1) with (N.pos (xI p)) by lia. reflexivity.
Qed.
Lemma shl1 a : N.shiftl a 1 = 2 * a.
Proof. rewrite N.shiftl_mul_pow2. change (2 ^ 1) with 2. lia. Qed.
Lemma add_b2n_lxor a b : 2 * a + N.b2n b = N.lxor (2 * a) (N.b2n b).
Proof. destruct a as [|a], b; cbn; try reflexivity. Qed.
Lemma u16_shl s : s < 65536 ->
  2 * s = N.lxor (u16 (2 * s)) (if N.testbit s 15 then 65536 else 0).
Proof.
  intro H. apply N.bits_inj; intro i. rewrite N.lxor_spec, u16_bits.
  rewrite lt16_bits in H.
  destruct (N.ltb_spec i 16); cbn [andb].
  - replace (N.testbit (if N.testbit s 15 then 65536 else 0) i) with false.
    + rewrite xorb_false_r. reflexivity.
    + destruct (N.testbit s 15); [|symmetry; apply N.bits_0].
      change 65536 with (2 ^ 16). symmetry. apply N.pow2_bits_false. lia.
  - rewrite xorb_false_l. rewrite <- shl1, N.shiftl_spec_high' by lia.
    destruct (N.eqb_spec i 16) as [->|Hne].
    + change (16 - 1) with 15. destruct (N.testbit s 15); [|symmetry; apply N.bits_0]. reflexivity.
    + rewrite H by lia. destruct (N.testbit s 15); [|symmetry; apply N.bits_0].
      change 65536 with (2 ^ 16). symmetry. apply N.pow2_bits_false. lia.
Qed.
Lemma bstep_rem start V k s q b :
  s < 65536 ->
  N.lxor (N.lxor (N.shiftl start k) (N.shiftl V 16)) s = clmul q G_CCITT ->
  exists q',
  N.lxor (N.lxor (N.shiftl start (k + 1)) (N.shiftl (2 * V + N.b2n b) 16)) (bstep s b) = clmul q' G_CCITT.
Proof.
  intros Hs E. exists (2 * q + N.b2n (xorb (N.testbit s 15) b)).
  assert (E2 : N.lxor (N.lxor (N.shiftl start (k + 1)) (N.shiftl (2 * V) 16)) (2 * s)
               = 2 * clmul q G_CCITT).
  { rewrite <- E, !double_lxor. rewrite <- N.shiftl_shiftl, !shl1.
    f_equal; f_equal. rewrite !N.shiftl_mul_pow2. lia. }
  rewrite (u16_shl s Hs) in E2.
  rewrite add_b2n_lxor, shiftl_lxor. unfold bstep. rewrite shl1.
  set (A := N.shiftl start (k + 1)) in *. set (B := N.shiftl (2 * V) 16) in *.
  set (C := u16 (2 * s)) in *. clear E.
  destruct (N.testbit s 15), b; cbn [xorb N.b2n] in *;
    rewrite ?clmul_succ_double, ?N.add_0_r, ?clmul_double, <- E2;
    unfold G_CCITT; change (N.shiftl 1 16) with 65536; change (N.shiftl 0 16) with 0;
    change 69665 with (N.lxor 65536 4129);
    apply N.bits_inj; intro i; rewrite ?N.lxor_spec, ?N.bits_0;
    destruct (N.testbit A i), (N.testbit B i), (N.testbit C i), (N.testbit 65536 i), (N.testbit 4129 i); reflexivity.
Qed.
Lemma bits_rem l : forall start V k s q,
  s < 65536 ->
  N.lxor (N.lxor (N.shiftl start k) (N.shiftl V 16)) s = clmul q G_CCITT ->
  exists q', N.lxor (N.lxor (N.shiftl start (k + lenN l)) (N.shiftl (bval l V) 16)) (fold_left bstep l s)
             = clmul q' G_CCITT.
Proof.
  induction l as [|b l IH]; intros start V k s q Hs E.
  - exists q. rewrite lenN_nil, N.add_0_r. exact E.
  - destruct (bstep_rem start V k s q b Hs E) as [q1 E1].
    destruct (IH start (2 * V + N.b2n b) (k + 1) (bstep s b) q1 (bstep_lt _ _) E1) as [q2 E3].
    exists q2. rewrite lenN_cons. replace (k + (1 + lenN l)) with (k + 1 + lenN l) by lia. exact E3.
Qed.
Lemma byte_bits_val_sweep : forallb (fun c => bval (byte_bits c) 0 =? c) (rangeN 0 256) = true.
Proof. vm_compute. reflexivity. Qed.
Lemma bval_acc l a : bval l a = a * 2 ^ lenN l + bval l 0.
Proof.
  unfold bval. revert a. induction l as [|b l IH]; intro a; cbn [fold_left].
  - rewrite lenN_nil. change (2 ^ 0) with 1. lia.
  - rewrite (IH (2 * a + N.b2n b)), (IH (2 * 0 + N.b2n b)), lenN_cons, N.pow_add_r, N.pow_1_r. lia.
Qed.
Lemma bval_app a b x : bval (a ++ b) x = bval b (bval a x).
Proof. unfold bval. apply fold_left_app. Qed.
Lemma bval_byte c a : c < 256 -> bval (byte_bits c) a = a * 256 + c.
Proof.
  intro H. rewrite bval_acc. change (2 ^ lenN (byte_bits c)) with 256.
  assert (Hc : 0 <= c < 256) by lia.
  pose proof (forall_range _ _ _ byte_bits_val_sweep c Hc) as G. cbn beta in G.
  apply N.eqb_eq in G. rewrite G. reflexivity.
Qed.
Lemma bval_msg m a : bytes_ok m = true -> bval (msg_bits m) a = fold_left (fun a b => a * 256 + b) m a.
Proof.
  revert a. induction m as [|c m IH]; intros a Hm; [reflexivity|].
  unfold bytes_ok in Hm; cbn [forallb] in Hm. apply andb_true_iff in Hm as [Hc Hm].
  apply byte_ok_lt in Hc.
  unfold msg_bits; cbn [flat_map]. rewrite bval_app, bval_byte by exact Hc. cbn [fold_left]. apply IH, Hm.
Qed.
Lemma lenN_msg_bits m : lenN (msg_bits m) = 8 * lenN m.
Proof.
  induction m as [|c m IH]; [reflexivity|].
  unfold msg_bits; cbn [flat_map]. rewrite lenN_app. fold (msg_bits m). rewrite IH, lenN_cons.
  change (lenN (byte_bits c)) with 8. lia.
Qed.
Theorem crc_is_remainder start m : start < 65536 -> bytes_ok m = true ->
  is_crc start m (crc_ccitt_generic start m).
Proof.
  intros Hs Hm. split; [apply crc_lt; assumption|].
  rewrite crc_fold_bits by assumption.
  assert (E0 : N.lxor (N.lxor (N.shiftl start 0) (N.shiftl 0 16)) start = clmul 0 G_CCITT).
  { rewrite N.shiftl_0_r, N.shiftl_0_l, N.lxor_0_r, N.lxor_nilpotent. reflexivity. }
  destruct (bits_rem (msg_bits m) start 0 0 start 0 Hs E0) as [q E].
  exists q. rewrite lenN_msg_bits, N.add_0_l, bval_msg in E by exact Hm. exact E.
Qed.

(* uniqueness: a polynomial multiple of the generator below degree 16 is 0 *)
Lemma size_double a : a <> 0 -> N.size (2 * a) = N.size a + 1.
Proof. destruct a as [|p]; [congruence|]. intros _. change (2 * N.pos p) with (N.pos (xO p)). cbn [N.size Pos.size]. lia. Qed.
Lemma clmul_pos_size p g : g <> 0 -> N.size (clmul_pos p g) = N.pos (Pos.size p) + N.size g - 1.
Proof.
  intro Hg. assert (Hs : 1 <= N.size g).
  { destruct g; [congruence|]. cbn [N.size]. lia. }
  induction p as [p IH|p IH|]; cbn [clmul_pos Pos.size].
  - assert (G : N.size (2 * clmul_pos p g) = N.size (clmul_pos p g) + 1).
    { apply size_double. intro E. rewrite E in IH. cbn [N.size] in IH. lia. }
    assert (Hlt : N.size g < N.size (2 * clmul_pos p g)) by lia.
    assert (Hbig : forall a b, N.size b < N.size a -> N.size (N.lxor a b) = N.size a).
    { clear. intros a b H. destruct (N.eq_dec a 0) as [->|Ha]; [cbn in H; lia|].
      assert (HA : N.testbit a (N.size a - 1) = true).
      { rewrite N.size_log2 by exact Ha. replace (N.succ (N.log2 a) - 1) with (N.log2 a) by lia.
        apply N.bit_log2; exact Ha. }
      assert (HB : forall i, N.size a - 1 <= i -> N.testbit b i = false).
      { intros i Hi. destruct (N.eq_dec b 0) as [->|Hb]; [apply N.bits_0|].
        apply N.bits_above_log2. rewrite N.size_log2 in H by exact Hb.
        rewrite N.size_log2 in H, Hi by exact Ha. lia. }
      assert (HX : N.testbit (N.lxor a b) (N.size a - 1) = true).
      { rewrite N.lxor_spec, HA, HB by lia. reflexivity. }
      assert (Hne : N.lxor a b <> 0) by (intro E; rewrite E, N.bits_0 in HX; discriminate).
      assert (L1 : N.log2 (N.lxor a b) <= N.log2 a).
      { rewrite N.log2_lxor. apply N.max_lub; [lia|].
        destruct (N.eq_dec b 0) as [->|Hb]; [cbn; lia|].
        rewrite !N.size_log2 in H by assumption. lia. }
      assert (L2 : N.log2 a <= N.log2 (N.lxor a b)).
      { destruct (N.le_gt_cases (N.log2 a) (N.log2 (N.lxor a b))) as [|Hgt]; [assumption|].
        rewrite N.size_log2 in HX by exact Ha.
        replace (N.succ (N.log2 a) - 1) with (N.log2 a) in HX by lia.
        rewrite N.bits_above_log2 in HX by exact Hgt. discriminate. }
      rewrite !N.size_log2 by assumption. lia. }
    rewrite (Hbig _ _ Hlt). lia.
  - rewrite size_double; [lia|]. intro E. rewrite E in IH. cbn [N.size] in IH. lia.
  - lia.
Qed.
Theorem is_crc_unique start m r1 r2 : is_crc start m r1 -> is_crc start m r2 -> r1 = r2.
Proof.
  intros [H1 [q1 E1]] [H2 [q2 E2]].
  set (M := N.lxor (N.shiftl start (8 * lenN m)) (N.shiftl (be_val m) 16)) in *.
  assert (E2' : N.lxor M r2 = clmul q2 G_CCITT) by exact E2. clear E2.
  (* xor of two multiples is a multiple *)
  assert (LIN : forall p q, N.lxor (clmul p G_CCITT) (clmul q G_CCITT) = clmul (N.lxor p q) G_CCITT).
  { intro p. induction p as [|p IH|p IH] using N.binary_ind; intro q.
    - reflexivity.
    - pose proof (N.div2_odd q) as Eq. rewrite Eq.
      rewrite N.double_spec. destruct (N.odd q); cbn [N.b2n].
      + rewrite clmul_succ_double, clmul_double.
        rewrite <- N.lxor_assoc, <- double_lxor, IH.
        replace (N.lxor (2 * p) (2 * N.div2 q + 1)) with (2 * N.lxor p (N.div2 q) + 1).
        * rewrite clmul_succ_double. reflexivity.
        * pose proof (add_b2n_lxor (N.lxor p (N.div2 q)) true) as A. cbn [N.b2n] in A. rewrite A.
          pose proof (add_b2n_lxor (N.div2 q) true) as B. cbn [N.b2n] in B. rewrite B.
          rewrite double_lxor. apply N.lxor_assoc.
      + rewrite N.add_0_r, !clmul_double, <- double_lxor, IH, <- clmul_double, double_lxor. reflexivity.
    - pose proof (N.div2_odd q) as Eq. rewrite Eq.
      rewrite N.succ_double_spec. destruct (N.odd q); cbn [N.b2n].
      + rewrite !clmul_succ_double.
        replace (N.lxor (2 * p + 1) (2 * N.div2 q + 1)) with (2 * N.lxor p (N.div2 q)).
        * rewrite clmul_double, <- IH, double_lxor.
          apply N.bits_inj; intro i. rewrite !N.lxor_spec.
          destruct (N.testbit (2 * clmul p G_CCITT) i), (N.testbit (2 * clmul (N.div2 q) G_CCITT) i), (N.testbit G_CCITT i); reflexivity.
        * pose proof (add_b2n_lxor p true) as A. cbn [N.b2n] in A. rewrite A.
          pose proof (add_b2n_lxor (N.div2 q) true) as B. cbn [N.b2n] in B. rewrite B.
          rewrite double_lxor. apply N.bits_inj; intro i. rewrite !N.lxor_spec.
          destruct (N.testbit (2 * p) i), (N.testbit (2 * N.div2 q) i), (N.testbit 1 i); reflexivity.
      + rewrite N.add_0_r, clmul_succ_double, clmul_double.
        replace (N.lxor (2 * p + 1) (2 * N.div2 q)) with (2 * N.lxor p (N.div2 q) + 1).
        * rewrite clmul_succ_double, <- IH, double_lxor.
          apply N.bits_inj; intro i. rewrite !N.lxor_spec.
          destruct (N.testbit (2 * clmul p G_CCITT) i), (N.testbit (2 * clmul (N.div2 q) G_CCITT) i), (N.testbit G_CCITT i); reflexivity.
        * pose proof (add_b2n_lxor (N.lxor p (N.div2 q)) true) as A. cbn [N.b2n] in A. rewrite A.
          pose proof (add_b2n_lxor p true) as B. cbn [N.b2n] in B. rewrite B.
          rewrite double_lxor. apply N.bits_inj; intro i. rewrite !N.lxor_spec.
          destruct (N.testbit (2 * p) i), (N.testbit (2 * N.div2 q) i), (N.testbit 1 i); reflexivity. }
  assert (E : N.lxor r1 r2 = clmul (N.lxor q1 q2) G_CCITT).
  { rewrite <- LIN, <- E1, <- E2'. apply N.bits_inj; intro i. rewrite !N.lxor_spec.
    destruct (N.testbit M i), (N.testbit r1 i), (N.testbit r2 i); reflexivity. }
  pose proof (lxor_lt16 r1 r2 H1 H2) as HX. rewrite E in HX.
  destruct (N.lxor q1 q2) as [|p] eqn:Eq.
  - cbn [clmul] in E. apply N.lxor_eq. exact E.
  - exfalso. cbn [clmul] in HX. pose proof (clmul_pos_size p G_CCITT ltac:(unfold G_CCITT; lia)) as S.
    change (N.size G_CCITT) with 17 in S.
    assert (Hnz : clmul_pos p G_CCITT <> 0).
    { intro Z. rewrite Z in S. cbn [N.size] in S. lia. }
    rewrite N.size_log2 in S by exact Hnz.
    assert (L : 16 <= N.log2 (clmul_pos p G_CCITT)) by lia.
    assert (2 ^ 16 <= clmul_pos p G_CCITT).
    { apply N.log2_le_pow2; [|exact L]. lia. }
    change (2 ^ 16) with 65536 in *. lia.
Qed.

(* ---- error detection ---- *)
(* burst: 16 bits suffice *)
Definition lowzero (k d : N) : Prop := forall i, i < k -> N.testbit d i = false.
Lemma bstep_bit0 d b : N.testbit (bstep d b) 0 = xorb (N.testbit d 15) b.
Proof.
  unfold bstep. rewrite N.lxor_spec, u16_bits, N.shiftl_spec_low by lia. cbn [andb].
  rewrite andb_false_r, xorb_false_l. destruct (xorb _ _); reflexivity.
Qed.
Lemma bstep_back k d b : k <= 15 -> lowzero (k + 1) (bstep d b) -> lowzero k d.
Proof.
  intros Hk H i Hi. pose proof (H 0 ltac:(lia)) as H0. rewrite bstep_bit0 in H0.
  specialize (H (i + 1) ltac:(lia)). unfold bstep in H. rewrite H0 in H.
  rewrite N.lxor_0_r, u16_bits, N.shiftl_spec_high' in H by lia.
  replace (i + 1 - 1) with i in H by lia.
  destruct (N.ltb_spec (i + 1) 16); [exact H|lia].
Qed.
Lemma fold_back l : forall d, lenN l <= 15 -> fold_left bstep l d = 0 -> lowzero (16 - lenN l) d.
Proof.
  induction l as [|b l IH]; intros d HL E.
  - cbn [fold_left] in E. subst. intros i _. apply N.bits_0.
  - rewrite lenN_cons in *. cbn [fold_left] in E. specialize (IH (bstep d b) ltac:(lia) E).
    apply bstep_back with (b := b); [lia|].
    replace (16 - (1 + lenN l) + 1) with (16 - lenN l) by lia. exact IH.
Qed.
Lemma burst_nonzero l : lenN l <= 15 -> fold_left bstep (true :: l) 0 <> 0.
Proof.
  intros HL E. cbn [fold_left] in E. apply fold_back in E; [|exact HL].
  specialize (E 0 ltac:(lia)). vm_compute in E. discriminate.
Qed.
Lemma bstep_zero s : s < 65536 -> bstep s false = 0 -> s = 0.
Proof.
  intros Hs E. assert (H0 : N.testbit (bstep s false) 0 = false) by (rewrite E; reflexivity).
  rewrite bstep_bit0, xorb_false_r in H0. unfold bstep in E. rewrite H0 in E. cbn [xorb] in E.
  rewrite N.lxor_0_r, shl1 in E.
  pose proof (u16_shl s Hs) as F. rewrite E, H0, N.lxor_0_r in F. lia.
Qed.
Lemma zeros_nonzero n s : s < 65536 -> s <> 0 -> fold_left bstep (repeat false n) s <> 0.
Proof.
  revert s. induction n as [|n IH]; intros s Hs Hne; cbn [repeat fold_left]; [exact Hne|].
  apply IH; [apply bstep_lt|]. intro E. apply Hne, bstep_zero; assumption.
Qed.
Lemma zeros_zero n : fold_left bstep (repeat false n) 0 = 0.
Proof. induction n as [|n IH]; cbn [repeat fold_left]; [reflexivity|exact IH]. Qed.

(* a non-empty bit list is zeros, then true, then the rest; *)
Lemma first_true l : existsb (fun b => b) l = true ->
  exists n r, l = repeat false n ++ true :: r.
Proof.
  induction l as [|b l IH]; cbn [existsb]; [discriminate|]. destruct b.
  - intros _. exists O, l. reflexivity.
  - cbn [orb]. intro H. destruct (IH H) as [n [r E]]. exists (S n), r. rewrite E. reflexivity.
Qed.
Lemma none_true l : existsb (fun b => b) l = false -> l = repeat false (length l).
Proof.
  induction l as [|b l IH]; cbn [existsb length repeat]; [reflexivity|]. destruct b; cbn [orb]; [discriminate|].
  intro H. f_equal. apply IH, H.
Qed.
Lemma window_nonzero l k :
  (forall i, nth_optN l i = Some true -> k <= i < k + 16) ->
  existsb (fun b => b) l = true ->
  fold_left bstep l 0 <> 0.
Proof.
  intros HW HE. destruct (first_true l HE) as [n [r E]].
  assert (Hn : k <= N.of_nat n < k + 16).
  { apply HW. rewrite E, nth_optN_app2; unfold lenN; rewrite repeat_length; [|lia].
    replace (N.of_nat n - N.of_nat n) with 0 by lia. reflexivity. }
  rewrite E, fold_left_app, zeros_zero.
  (* split r at 15 *)
  rewrite <- (take_drop 15 r).
  assert (Hz : dropN 15 r = repeat false (length (dropN 15 r))).
  { apply none_true. destruct (existsb (fun b => b) (dropN 15 r)) eqn:EX; [|reflexivity]. exfalso.
    destruct (first_true _ EX) as [m [r' E']].
    assert (nth_optN l (N.of_nat n + 1 + 15 + N.of_nat m) = Some true).
    { rewrite E, nth_optN_app2; unfold lenN; rewrite repeat_length; [|lia].
      change (true :: r) with ([true] ++ r). rewrite nth_optN_app2; unfold lenN; cbn [length]; [|lia].
      replace (N.of_nat n + 1 + 15 + N.of_nat m - N.of_nat n - N.of_nat 1) with (15 + N.of_nat m) by lia.
      rewrite <- nth_optN_drop, E', nth_optN_app2; unfold lenN; rewrite repeat_length; [|lia].
      replace (N.of_nat m - N.of_nat m) with 0 by lia. reflexivity. }
    apply HW in H. lia. }
  rewrite Hz.
  change (true :: takeN 15 r ++ repeat false (length (dropN 15 r)))
    with ((true :: takeN 15 r) ++ repeat false (length (dropN 15 r))).
  rewrite fold_left_app. apply zeros_nonzero; [apply fold_bstep_lt; lia|].
  apply burst_nonzero. rewrite lenN_take. lia.
Qed.

(* bits of a message by index *)
Lemma nth_byte_bits c i : i < 8 -> nth_optN (byte_bits c) i = Some (N.testbit c (7 - i)).
Proof.
  intro H. unfold byte_bits, nth_optN.
  assert (i = 0 \/ i = 1 \/ i = 2 \/ i = 3 \/ i = 4 \/ i = 5 \/ i = 6 \/ i = 7) as D by lia.
  repeat (destruct D as [->|D]; [reflexivity|]). subst; reflexivity.
Qed.
Lemma nth_msg_bits m i : i < 8 * lenN m -> nth_optN (msg_bits m) i = Some (bitN m i).
Proof.
  revert i. induction m as [|c m IH]; intros i Hi; [change (lenN (@nil N)) with 0 in Hi; lia|].
  unfold msg_bits; cbn [flat_map]. fold (msg_bits m). rewrite lenN_cons in Hi.
  destruct (N.lt_ge_cases i 8) as [H|H].
  - rewrite nth_optN_app1 by exact H. rewrite nth_byte_bits by exact H. unfold bitN.
    rewrite N.div_small, N.mod_small by exact H. reflexivity.
  - rewrite nth_optN_app2 by exact H. change (lenN (byte_bits c)) with 8.
    rewrite IH by lia. unfold bitN. f_equal.
    replace (i / 8) with (1 + (i - 8) / 8) by lia.
    replace (i mod 8) with ((i - 8) mod 8) by lia.
    f_equal. change (c :: m) with ([c] ++ m). rewrite nthN_app. change (lenN [c]) with 1.
    destruct (N.ltb_spec (1 + (i - 8) / 8) 1); [lia|]. f_equal. lia.
Qed.
Lemma xorbits_len a b : length a = length b -> length (xorbits a b) = length a.
Proof. revert b; induction a as [|x a IH]; intros [|y b] H; cbn [xorbits length] in *; try lia. rewrite IH; lia. Qed.
Lemma nth_xorbits a b i x y : nth_optN a i = Some x -> nth_optN b i = Some y ->
  nth_optN (xorbits a b) i = Some (xorb x y).
Proof.
  unfold nth_optN. generalize (N.to_nat i). intro k. revert a b.
  induction k as [|k IH]; intros [|u a] [|w b] Ha Hb; cbn [xorbits nth_error] in *; try discriminate.
  - congruence.
  - apply IH; assumption.
Qed.
Lemma crc_diff s m m' : s < 65536 -> bytes_ok m = true -> bytes_ok m' = true -> lenN m = lenN m' ->
  N.lxor (crc_ccitt_generic s m) (crc_ccitt_generic s m')
  = fold_left bstep (xorbits (msg_bits m) (msg_bits m')) 0.
Proof.
  intros Hs Hm Hm' HL. rewrite !crc_fold_bits by assumption.
  rewrite <- (N.lxor_nilpotent s). symmetry. apply fold_bstep_lin.
  pose proof (lenN_msg_bits m). pose proof (lenN_msg_bits m'). unfold lenN in *. lia.
Qed.
Lemma nth_diff_bits m m' i : lenN m = lenN m' -> i < 8 * lenN m ->
  nth_optN (xorbits (msg_bits m) (msg_bits m')) i = Some (xorb (bitN m i) (bitN m' i)).
Proof.
  intros HL Hi. apply nth_xorbits; apply nth_msg_bits; lia.
Qed.
Lemma lenN_diff_bits m m' : lenN m = lenN m' -> lenN (xorbits (msg_bits m) (msg_bits m')) = 8 * lenN m.
Proof.
  intro HL. unfold lenN at 1. rewrite xorbits_len.
  - fold (lenN (msg_bits m)). apply lenN_msg_bits.
  - pose proof (lenN_msg_bits m). pose proof (lenN_msg_bits m'). unfold lenN in *. lia.
Qed.
Lemma bytes_differ_bit a b : a < 256 -> b < 256 -> a <> b -> exists i, i < 8 /\ N.testbit a i <> N.testbit b i.
Proof.
  intros Ha Hb Hne.
  destruct (existsb (fun i => negb (Bool.eqb (N.testbit a i) (N.testbit b i))) (rangeN 0 8)) eqn:E.
  - apply existsb_exists in E as [i [Hi E]]. apply In_rangeN in Hi. exists i. split; [lia|].
    intro F. rewrite F, eqb_reflx in E. discriminate.
  - exfalso. apply Hne. apply N.bits_inj; intro i. destruct (N.lt_ge_cases i 8) as [Hi|Hi].
    + destruct (Bool.eqb (N.testbit a i) (N.testbit b i)) eqn:F; [apply eqb_prop; exact F|].
      assert (existsb (fun i => negb (Bool.eqb (N.testbit a i) (N.testbit b i))) (rangeN 0 8) = true).
      { apply existsb_exists. exists i. split; [apply In_rangeN; lia|]. rewrite F. reflexivity. }
      congruence.
    + rewrite <- (N.mod_small a 256), <- (N.mod_small b 256) by assumption. change 256 with (2 ^ 8).
      rewrite !N.mod_pow2_bits_high by exact Hi. reflexivity.
Qed.
Lemma nthN_byte l i : bytes_ok l = true -> nthN l i < 256.
Proof.
  intro H. apply bytes_ok_Forall in H. rewrite nthN_opt. destruct (nth_optN l i) eqn:E; [|lia].
  unfold nth_optN in E. apply nth_error_In in E. rewrite Forall_forall in H. apply H, E.
Qed.
Lemma lists_differ_bit m m' : bytes_ok m = true -> bytes_ok m' = true -> lenN m = lenN m' -> m <> m' ->
  exists i, i < 8 * lenN m /\ bitN m i <> bitN m' i.
Proof.
  intros Hm Hm' HL Hne.
  destruct (existsb (fun j => negb (nthN m j =? nthN m' j)) (rangeN 0 (lenN m))) eqn:E.
  - apply existsb_exists in E as [j [Hj E]]. apply In_rangeN in Hj.
    destruct (bytes_differ_bit (nthN m j) (nthN m' j)) as [b [Hb Hd]].
    + apply nthN_byte, Hm.
    + apply nthN_byte, Hm'.
    + intro F. rewrite F, N.eqb_refl in E. discriminate.
    + exists (8 * j + (7 - b)). split; [lia|]. unfold bitN.
      replace ((8 * j + (7 - b)) / 8) with j by lia.
      replace (7 - (8 * j + (7 - b)) mod 8) with b by lia. exact Hd.
  - exfalso. apply Hne, list_ext_N; [exact HL|]. intros j Hj.
    destruct (N.eqb_spec (nthN m j) (nthN m' j)) as [F|F]; [exact F|].
    assert (existsb (fun j => negb (nthN m j =? nthN m' j)) (rangeN 0 (lenN m)) = true).
    { apply existsb_exists. exists j. split; [apply In_rangeN; lia|].
      destruct (N.eqb_spec (nthN m j) (nthN m' j)); [contradiction|reflexivity]. }
    congruence.
Qed.
Theorem crc_detects_burst s m m' k :
  s < 65536 -> bytes_ok m = true -> bytes_ok m' = true -> lenN m = lenN m' -> m <> m' ->
  (forall i, i < 8 * lenN m -> bitN m i <> bitN m' i -> k <= i < k + 16) ->
  crc_ccitt_generic s m <> crc_ccitt_generic s m'.
Proof.
  intros Hs Hm Hm' HL Hne HW E.
  pose proof (crc_diff s m m' Hs Hm Hm' HL) as D. rewrite E, N.lxor_nilpotent in D. symmetry in D.
  revert D. apply window_nonzero with (k := k).
  - intros i Hi. assert (Hlt : i < 8 * lenN m).
    { rewrite <- (lenN_diff_bits m m' HL). destruct (N.lt_ge_cases i (lenN (xorbits (msg_bits m) (msg_bits m')))) as [|G]; [assumption|].
      apply nth_optN_None in G. congruence. }
    rewrite nth_diff_bits in Hi by assumption. apply HW; [exact Hlt|].
    intro F. rewrite F, xorb_nilpotent in Hi. discriminate.
  - destruct (lists_differ_bit m m' Hm Hm' HL Hne) as [i [Hi Hd]].
    apply existsb_exists. exists (xorb (bitN m i) (bitN m' i)). split.
    + pose proof (nth_diff_bits m m' i HL Hi) as G. unfold nth_optN in G. apply nth_error_In in G. exact G.
    + destruct (bitN m i), (bitN m' i); try reflexivity; exfalso; apply Hd; reflexivity.
Qed.

(* odd number of flips *)
Definition par (l : list bool) : bool := fold_right xorb false l.
Definition par16 (s : N) : bool := par (map (N.testbit s) (rangeN 0 16)).
Lemma par_xor {A} (f g : A -> bool) l :
  par (map (fun i => xorb (f i) (g i)) l) = xorb (par (map f l)) (par (map g l)).
Proof.
  induction l as [|x l IH]; [reflexivity|]. cbn [map par fold_right].
  fold (par (map (fun i => xorb (f i) (g i)) l)). fold (par (map f l)). fold (par (map g l)). rewrite IH.
  destruct (f x), (g x), (par (map f l)), (par (map g l)); reflexivity.
Qed.
Lemma par_snoc l b : par (l ++ [b]) = xorb (par l) b.
Proof.
  induction l as [|x l IH]; cbn [app par fold_right]; [destruct b; reflexivity|].
  fold (par (l ++ [b])). fold (par l). rewrite IH. symmetry. apply xorb_assoc.
Qed.
Definition shbit (s i : N) : bool := match i with 0 => false | _ => N.testbit s (i - 1) end.
Lemma bstep_bits s b i : i < 16 ->
  N.testbit (bstep s b) i = xorb (shbit s i) (if xorb (N.testbit s 15) b then N.testbit 4129 i else false).
Proof.
  intros Hi. unfold bstep. rewrite N.lxor_spec, u16_bits.
  destruct (N.ltb_spec i 16); [|lia]. cbn [andb].
  replace (N.testbit (if xorb (N.testbit s 15) b then 4129 else 0) i)
    with (if xorb (N.testbit s 15) b then N.testbit 4129 i else false)
    by (destruct (xorb _ _); [reflexivity|rewrite N.bits_0; reflexivity]).
  f_equal. unfold shbit. destruct i as [|i]; [apply N.shiftl_spec_low; lia|].
  apply N.shiftl_spec_high'. lia.
Qed.
Lemma par_bstep s b : par16 (bstep s b) = xorb (par16 s) b.
Proof.
  unfold par16 at 1.
  rewrite (map_ext_in _ (fun i => xorb (shbit s i) (if xorb (N.testbit s 15) b then N.testbit 4129 i else false))).
  2:{ intros i Hi. apply In_rangeN in Hi. apply bstep_bits. lia. }
  rewrite par_xor.
  set (L := [N.testbit s 0; N.testbit s 1; N.testbit s 2; N.testbit s 3; N.testbit s 4; N.testbit s 5;
    N.testbit s 6; N.testbit s 7; N.testbit s 8; N.testbit s 9; N.testbit s 10; N.testbit s 11;
    N.testbit s 12; N.testbit s 13; N.testbit s 14]).
  assert (E1 : map (shbit s) (rangeN 0 16) = false :: L) by reflexivity.
  assert (E2 : par16 s = par (L ++ [N.testbit s 15])) by reflexivity.
  rewrite E1, E2, par_snoc. cbn [par fold_right]. fold (par L). rewrite xorb_false_l.
  destruct (N.testbit s 15), b; cbn [xorb];
  match goal with |- xorb _ ?x = _ => let v := eval vm_compute in x in change x with v end;
  destruct (par L); reflexivity.
Qed.
Lemma par_fold l s : par16 (fold_left bstep l s) = xorb (par16 s) (par l).
Proof.
  revert s. induction l as [|b l IH]; intro s; cbn [fold_left par fold_right].
  - rewrite xorb_false_r. reflexivity.
  - rewrite IH, par_bstep. fold (par l). rewrite xorb_assoc. reflexivity.
Qed.
Lemma par_count l : par l = N.odd (lenN (filter (fun b => b) l)).
Proof.
  induction l as [|b l IH]; [reflexivity|]. cbn [par fold_right filter]. fold (par l). rewrite IH.
  destruct b; cbn [xorb].
  - rewrite lenN_cons, N.add_1_l, N.odd_succ, <- N.negb_odd. reflexivity.
  - destruct (N.odd _); reflexivity.
Qed.
Lemma filter_map_count {A B} (f : A -> B) (P : B -> bool) l :
  lenN (filter P (map f l)) = lenN (filter (fun x => P (f x)) l).
Proof.
  induction l as [|x l IH]; [reflexivity|]. cbn [map filter]. destruct (P (f x)); rewrite ?lenN_cons, IH; reflexivity.
Qed.
Lemma diff_bits_map m m' : lenN m = lenN m' ->
  xorbits (msg_bits m) (msg_bits m') = map (fun i => xorb (bitN m i) (bitN m' i)) (rangeN 0 (8 * lenN m)).
Proof.
  intro HL. apply list_ext. intro i. destruct (N.lt_ge_cases i (8 * lenN m)) as [Hi|Hi].
  - rewrite nth_diff_bits by assumption. rewrite nth_optN_map, nth_optN_range by lia. reflexivity.
  - transitivity (@None bool); [|symmetry].
    + apply nth_optN_None. rewrite lenN_diff_bits by assumption. exact Hi.
    + apply nth_optN_None. rewrite lenN_map, lenN_range. lia.
Qed.
Lemma bit_distance_par m m' : lenN m = lenN m' ->
  N.odd (bit_distance m m') = par (xorbits (msg_bits m) (msg_bits m')).
Proof.
  intro HL. rewrite par_count, diff_bits_map, filter_map_count by exact HL. reflexivity.
Qed.
Theorem crc_parity s m m' :
  s < 65536 -> bytes_ok m = true -> bytes_ok m' = true -> lenN m = lenN m' ->
  par16 (N.lxor (crc_ccitt_generic s m) (crc_ccitt_generic s m')) = N.odd (bit_distance m m').
Proof.
  intros Hs Hm Hm' HL. rewrite crc_diff, par_fold, bit_distance_par by assumption. apply xorb_false_l.
Qed.
