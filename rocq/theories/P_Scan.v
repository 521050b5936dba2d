(* C19, C28 and the part of C27 about looking for a reference block. *)
From Verif Require Import M_Base M_Specs M_Header M_Metadata M_Block M_Index M_Buffer M_Ranges M_Scan
  S_Crc S_Meta S_Block S_Scan L_Base L_Crc L_Block L_Scan L_Ref L_Ranges.

(* C19, and C27 for this scan: whatever the file holds, the scan ends without panic, and the block it returns
   is the first of the wanted type (or any, when that is allowed) among the blocks it finds; it reports none only
   if there is none. [lands] says which positions are looked at. The range is described by C31. *)
Theorem c19_reference_block f from to misalign choice :
  bytes_ok f = true -> lenN f < 18446744073709551616 ->
  exists req lo r, calc_required_len_and_seek_to_from_byte_range from to misalign 0 (Len (lenN f)) None = (req, lo) /\
    get_ref_block f from to misalign choice = ROk r /\ ref_spec f lo (lo + req) choice r.
Proof.
  intros HB HL. pose proof (get_ref_block_ok f from to misalign choice HB) as G.
  pose proof (fun req lo => range_in_file from to misalign (lenN f) None req lo ltac:(discriminate) HL) as R.
  destruct (calc_required_len_and_seek_to_from_byte_range _ _ _ _ _ _) as [req lo].
  destruct G as (r & A & B); [apply (R req lo eq_refl)|]. exists req, lo, r. auto.
Qed.

(* C28. A block whose distance from the start of the scan is a multiple of 128 is looked at, provided no header at an earlier
   such position announces a block reaching beyond its start.
   Missing for the full property: that proviso (see the next theorem). *)
Theorem c28_scan_finds_partial f lo hi pos h pl :
  bytes_ok f = true -> any_block_at f pos h pl -> lo <= pos < hi -> (pos - lo) mod 128 = 0 ->
  (forall q g, lo <= q < pos -> (q - lo) mod 128 = 0 -> header_at f q g -> q + ver_to_block_size (h_version g) <= pos) ->
  lands f lo hi pos.
Proof.
  intros HB W HP HA HH. pose proof (wf_header _ _ _ _ W) as [_ HL]. pose proof (block_size_pos (h_version h)) as BP.
  assert (M : forall g, exists m, ver_to_block_size (h_version g) = m * 128).
  { intro g. destruct (h_version g); [exists 4|exists 1|exists 32|exists 4|exists 1|exists 32]; reflexivity. }
  apply N.mod_divide in HA as [k K]; [|discriminate].
  assert (G : forall n j, j <= k -> k - j = N.of_nat n -> lands f lo hi (lo + j * 128) -> lands f lo hi pos).
  { induction n as [n IH] using lt_wf_ind. intros j HJ HN HLd. destruct (N.eq_dec j k) as [->|NE].
    - replace pos with (lo + k * 128) by lia. exact HLd.
    - set (q := lo + j * 128) in *. assert (QP : lo <= q < pos) by lia.
      assert (QM : (q - lo) mod 128 = 0) by (replace (q - lo) with (j * 128) by lia; apply N.mod_mul; discriminate).
      destruct (header_from_bytes (sliceN q 16 f)) as [g|e|] eqn:E.
      + apply (header_at_parse f q g HB) in E. pose proof (HH q g QP QM E) as Q. destruct (M g) as [m Hm].
        pose proof (block_size_pos (h_version g)).
        apply (IH (N.to_nat (k - (j + m))) ltac:(lia) (j + m) ltac:(lia) ltac:(lia)).
        replace (lo + (j + m) * 128) with (q + ver_to_block_size (h_version g)) by lia.
        apply lands_next; [exact HLd| |lia]. split; [lia|]. split; [lia|]. left. eauto.
      + apply (IH (N.to_nat (k - (j + 1))) ltac:(lia) (j + 1) ltac:(lia) ltac:(lia)).
        replace (lo + (j + 1) * 128) with (q + 128) by lia. apply lands_next; [exact HLd| |lia]. split; [lia|]. split; [lia|]. right. split; [|reflexivity].
        intros g X. apply (header_at_parse f q g HB) in X. congruence.
      + apply (IH (N.to_nat (k - (j + 1))) ltac:(lia) (j + 1) ltac:(lia) ltac:(lia)).
        replace (lo + (j + 1) * 128) with (q + 128) by lia. apply lands_next; [exact HLd| |lia]. split; [lia|]. split; [lia|]. right. split; [|reflexivity].
        intros g X. apply (header_at_parse f q g HB) in X. congruence. }
  apply (G (N.to_nat k) 0 ltac:(lia) ltac:(lia)). replace (lo + 0 * 128) with lo by lia. constructor. lia.
Qed.

(* C28, exactly: a block is looked at if and only if its distance from the start of the scan is a multiple of 128 and no header
   that the scan looks at before announces a block reaching beyond its start. *)
Inductive lands_at (f : file) (lo hi : N) : nat -> N -> Prop :=
| lands_at_0 : lo < hi -> lands_at f lo hi 0 lo
| lands_at_S k p n : lands_at f lo hi k p -> skip f p n -> p + n < hi -> lands_at f lo hi (S k) (p + n).
Lemma lands_at_some f lo hi p : lands f lo hi p -> exists k, lands_at f lo hi k p.
Proof. induction 1 as [|p n _ [k IH] SK LT]; [exists 0%nat|exists (S k)]; econstructor; eassumption. Qed.
Lemma lands_at_lands f lo hi k p : lands_at f lo hi k p -> lands f lo hi p.
Proof. induction 1; econstructor; eassumption. Qed.
Lemma skip_unique f q n n' : bytes_ok f = true -> skip f q n -> skip f q n' -> n = n'.
Proof.
  intros HB (_ & _ & [(g & A & ->)|[A ->]]) (_ & _ & [(g' & A' & ->)|[A' ->]]); try reflexivity.
  - apply (header_at_parse _ _ _ HB) in A. apply (header_at_parse _ _ _ HB) in A'. rewrite A in A'. apply ROk_inj in A'. now subst g'.
  - exfalso. exact (A' _ A).
  - exfalso. exact (A _ A').
Qed.
Lemma lands_at_unique f lo hi k p q : bytes_ok f = true -> lands_at f lo hi k p -> lands_at f lo hi k q -> p = q.
Proof.
  intros HB A. revert q. induction A as [|k p n A IH S LT]; intros q B; inversion B as [|k' p' n' A' S' LT']; [reflexivity|]; subst.
  pose proof (IH _ A') as ->. now rewrite (skip_unique _ _ _ _ HB S S').
Qed.
Lemma lands_at_before f lo hi j p : lands_at f lo hi j p -> forall i, (i < j)%nat -> exists q n, lands_at f lo hi i q /\ skip f q n /\ q + n <= p.
Proof.
  induction 1 as [|j p n A IH S LT]; intros i L; [lia|]. destruct (Nat.eq_dec i j) as [->|NE].
  - exists p, n. split; [exact A|]. split; [exact S|]. lia.
  - destruct (IH i ltac:(lia)) as (q & m & A1 & A2 & A3). exists q, m. split; [exact A1|]. split; [exact A2|]. lia.
Qed.
Lemma lands_skip f lo hi p q : bytes_ok f = true -> lands f lo hi p -> lands f lo hi q -> q < p -> exists n, skip f q n /\ q + n <= p.
Proof.
  intros HB P Q L. destruct (lands_at_some _ _ _ _ P) as [j A]. destruct (lands_at_some _ _ _ _ Q) as [i B].
  destruct (Nat.lt_trichotomy i j) as [C|[->|C]].
  - destruct (lands_at_before _ _ _ _ _ A i C) as (q' & n & A1 & A2 & A3). rewrite (lands_at_unique _ _ _ _ _ _ HB B A1). eauto.
  - pose proof (lands_at_unique _ _ _ _ _ _ HB A B). lia.
  - destruct (lands_at_before _ _ _ _ _ B j C) as (p' & n & A1 & A2 & A3). rewrite (lands_at_unique _ _ _ _ _ _ HB A A1) in L. lia.
Qed.
Lemma skip_128 f q n : skip f q n -> 1 <= n /\ exists m, n = m * 128.
Proof.
  intros (_ & _ & [(g & _ & ->)|[_ ->]]); [|split; [lia|exists 1; reflexivity]].
  split; [pose proof (block_size_pos (h_version g)); lia|]. destruct (h_version g); [exists 4|exists 1|exists 32|exists 4|exists 1|exists 32]; reflexivity.
Qed.
Lemma lands_128 f lo hi p : lands f lo hi p -> lo <= p /\ exists k, p - lo = k * 128.
Proof.
  induction 1 as [|p n HLd [IH1 [k IH]] S LT]; [split; [lia|exists 0; lia]|].
  destruct (skip_128 _ _ _ S) as [_ [m ->]]. split; [lia|]. exists (k + m). lia.
Qed.
Theorem c28_scan_finds_iff f lo hi pos h pl :
  bytes_ok f = true -> any_block_at f pos h pl -> lo <= pos < hi ->
  (lands f lo hi pos <-> (pos - lo) mod 128 = 0 /\
     forall q g, lands f lo hi q -> q < pos -> header_at f q g -> q + ver_to_block_size (h_version g) <= pos).
Proof.
  intros HB W HP. pose proof (wf_header _ _ _ _ W) as [_ HL]. pose proof (block_size_pos (h_version h)) as BP. split.
  - intro L. split.
    + destruct (lands_128 _ _ _ _ L) as [_ [k ->]]. apply N.mod_mul. discriminate.
    + intros q g Q LT G. destruct (lands_skip f lo hi pos q HB L Q LT) as (n & S & LE).
      destruct S as (_ & _ & [(g' & A & ->)|[A _]]); [|exfalso; exact (A _ G)].
      apply (header_at_parse _ _ _ HB) in A. apply (header_at_parse _ _ _ HB) in G. rewrite A in G. apply ROk_inj in G. now subst g'.
  - intros [HA HH]. apply N.mod_divide in HA as [k K]; [|discriminate].
    assert (G : forall n q, pos - q = N.of_nat n -> q <= pos -> lands f lo hi q -> lands f lo hi pos).
    { induction n as [n IH] using lt_wf_ind. intros q HN LE HLd. destruct (N.eq_dec q pos) as [->|NE]; [exact HLd|].
      destruct (lands_128 _ _ _ _ HLd) as [LQ [j J]].
      assert (SK : exists m, skip f q m /\ q + m <= pos).
      { destruct (header_from_bytes (sliceN q 16 f)) as [g|e|] eqn:E.
        - apply (header_at_parse f q g HB) in E. pose proof (HH q g HLd ltac:(lia) E) as Q. exists (ver_to_block_size (h_version g)).
          split; [|exact Q]. split; [lia|]. split; [|left; eauto]. assert (128 <= pos - q); [|lia]. assert (j < k) by lia. nia.
        - exists 128. assert (j < k) by lia. split; [|nia]. split; [nia|]. split; [nia|]. right. split; [|reflexivity].
          intros g X. apply (header_at_parse f q g HB) in X. congruence.
        - exists 128. assert (j < k) by lia. split; [|nia]. split; [nia|]. split; [nia|]. right. split; [|reflexivity].
          intros g X. apply (header_at_parse f q g HB) in X. congruence. }
      destruct SK as (m & S & Q). destruct (skip_128 _ _ _ S) as [M1 _].
      apply (IH (N.to_nat (pos - (q + m))) ltac:(lia) (q + m) ltac:(lia) Q). apply lands_next; [exact HLd|exact S|lia]. }
    apply (G (N.to_nat (pos - lo)) lo ltac:(lia) ltac:(lia)). constructor. lia.
Qed.

(* a version 2 data block (128 bytes) with sequence number 1 *)
Definition c28_block : list N :=
  match sync_to_buffer (mkBlock (mkHeader V2 0 [1;2;3;4;5;6] 1) DData) None (repN 128 7) with
  | ROk (_, buf) => buf | _ => [] end.
(* the header of a version 1 block (512 bytes), whose content was overwritten by other data, which
   includes a complete version 2 block *)
Definition c28_file : file :=
  header_to_bytes (mkHeader V1 0 [9;9;9;9;9;9] 1) ++ repN 112 0 ++ c28_block ++ repN 256 0.

(* The full statement is false: a complete block at a multiple of 128 is not found. *)
Theorem c28_hidden_block_refuted :
  bytes_ok c28_file = true /\
  (exists h pl, any_block_at c28_file 128 h pl) /\
  ~ (exists hi, 128 < hi /\ lands c28_file 0 hi 128) /\
  get_ref_block c28_file None None false Any = ROk None.
Proof.
  assert (HB : bytes_ok c28_file = true) by (vm_compute; reflexivity).
  split; [exact HB|]. split; [|split; [|vm_compute; reflexivity]].
  - assert (HB' : bytes_ok (dropN 128 c28_file) = true) by (vm_compute; reflexivity).
    destruct (parse (dropN 128 c28_file)) as [b|e|] eqn:E; [|vm_compute in E; discriminate|vm_compute in E; discriminate].
    apply (parse_ok_iff _ _ HB') in E as (h & pl & W & _). exists h, pl. exact W.
  - intros (hi & H & L).
    assert (K : forall p, lands c28_file 0 hi p -> p = 0 \/ 512 <= p).
    { induction 1 as [|p n HL IH S LT]; [auto|]. right. destruct IH as [->|IH]; [|lia].
      destruct S as (_ & _ & [(h & A & ->)|[A _]]).
      - apply (header_at_parse _ _ _ HB) in A. vm_compute in A. apply ROk_inj in A. subst h. vm_compute. discriminate.
      - exfalso. apply (A (mkHeader V1 0 [9;9;9;9;9;9] 1)). apply (header_at_parse _ _ _ HB). vm_compute. reflexivity. }
    apply K in L. lia.
Qed.

(* the hypotheses are met: junk, then a block *)
Example c28_ex : let f := repN 256 3 ++ c28_block in
  bytes_ok f = true /\ (forall g, ~ header_at f 0 g) /\ (forall g, ~ header_at f 128 g) /\
  get_ref_block f None None false Any = ROk (match parse c28_block with ROk b => Some (256, b) | _ => None end) /\
  (exists b, parse c28_block = ROk b /\ b_seq_num b = 1).
Proof.
  intro f. assert (HB : bytes_ok f = true) by (vm_compute; reflexivity). split; [exact HB|].
  split; [|split; [|split]].
  - intros g A. apply (header_at_parse _ _ _ HB) in A. vm_compute in A. discriminate.
  - intros g A. apply (header_at_parse _ _ _ HB) in A. vm_compute in A. discriminate.
  - vm_compute. reflexivity.
  - eexists. split; vm_compute; reflexivity.
Qed.

Print Assumptions c19_reference_block.
Print Assumptions c28_scan_finds_partial.
Print Assumptions c28_scan_finds_iff.
Print Assumptions c28_hidden_block_refuted.
