(* Reading an undamaged container. *)
From Verif Require Import M_Base M_Specs M_Crc M_Header M_Multihash M_Metadata M_Block M_Index M_FileUtils M_Buffer M_Ranges M_Encode M_Scan
  S_Crc S_Meta S_Block S_Index S_Container S_Encode S_Scan S_Decode
  L_Base L_Crc L_File L_Header L_Index L_Index2 L_Block L_Scan L_Container.

Lemma bytes_ok_nth l : (forall i, i < lenN l -> nthN l i < 256) -> bytes_ok l = true.
Proof.
  intro H. apply bytes_ok_Forall. rewrite Forall_forall. intros x Hx. apply (In_nth _ _ 0) in Hx as (n & Hn & <-).
  specialize (H (N.of_nat n)). unfold nthN, lenN in H. rewrite Nnat.Nat2N.id in H. apply H. lia.
Qed.
Lemma lenN_chunk ds data j : lenN (chunk ds data j) = ds.
Proof. unfold chunk. rewrite lenN_app, lenN_rep, lenN_slice. lia. Qed.
Lemma bytes_ok_chunk ds data j : bytes_ok data = true -> bytes_ok (chunk ds data j) = true.
Proof. intro H. unfold chunk. rewrite bytes_ok_app, bytes_ok_slice by exact H. apply bytes_ok_rep. lia. Qed.
Lemma nth_chunk ds data j r : r < ds -> j * ds + r < lenN data -> nthN (chunk ds data j) r = nthN data (j * ds + r).
Proof.
  intros H1 H2. unfold chunk. rewrite nthN_app, lenN_slice. destruct (N.ltb_spec r (N.min ds (lenN data - j * ds))); [|lia].
  rewrite nthN_slice. destruct (N.ltb_spec r ds); [reflexivity|lia].
Qed.
Lemma payload_good v o rs data seq : dpb_ok o -> codec_ok rs o -> bytes_ok data = true ->
  lenN (payload_of v o rs data seq) = ver_to_block_size v - 16 /\ bytes_ok (payload_of v o rs data seq) = true.
Proof.
  intros HO HC HD. unfold payload_of. cbv zeta. set (ds := ver_to_block_size v - 16). destruct o as [[[d p] B]|].
  - destruct (N.ltb_spec ((seq - 1) mod (d + p)) d) as [H|H]; [split; [apply lenN_chunk|apply bytes_ok_chunk, HD]|].
    destruct HO as (D1 & P1 & _). set (set := (seq - 1) / (d + p)).
    destruct (HC ds (map (chunk ds data) (rangeN (set * d) (set * d + d)))) as [A Z].
    + rewrite lenN_map, lenN_range. lia.
    + intros x Hx. apply in_map_iff in Hx as (j & <- & _). split; [apply lenN_chunk|apply bytes_ok_chunk, HD].
    + apply Z. apply nth_In. pose proof (N.mod_lt (seq - 1) (d + p) ltac:(lia)) as ML. unfold lenN in A. lia.
  - split; [apply lenN_chunk|apply bytes_ok_chunk, HD].
Qed.
(* the payload of a data block is its chunk *)
Lemma payload_chunk v o rs data seq j : is_chunk o seq j -> payload_of v o rs data seq = chunk (ver_to_block_size v - 16) data j.
Proof.
  unfold is_chunk, payload_of. destruct o as [[[d p] B]|]; [|intros [_ ->]; reflexivity].
  intros (set & k & H & -> & ->). replace (1 + set * (d + p) + k - 1) with (set * (d + p) + k) by lia.
  destruct (dm_eq (set * (d + p) + k) (d + p) set k ltac:(lia) ltac:(lia)) as [-> ->].
  destruct (N.ltb_spec k d); [reflexivity|lia].
Qed.
Lemma is_block_wf v uid seq pl bytes : lenN uid = 6 -> bytes_ok uid = true -> seq < 4294967296 ->
  lenN pl = ver_to_block_size v - 16 -> is_block v uid seq pl bytes ->
  exists h, well_formed_block bytes h pl /\ h_version h = v /\ h_uid h = uid /\ h_seq_num h = seq.
Proof.
  intros U1 U2 HS HL (crc & HC & E). pose proof (block_size_pos v) as BP.
  exists (mkHeader v crc uid seq). split; [|auto]. unfold well_formed_block. cbn [h_version h_crc h_uid h_seq_num].
  split; [apply header_ok_spec; cbn [h_version h_crc h_uid h_seq_num]; destruct HC; auto|]. split; [exact HL|]. split; [|exact HC].
  assert (E' : bytes = header_to_bytes (mkHeader v crc uid seq) ++ pl).
  { rewrite E. unfold header_to_bytes. cbn [h_version h_crc h_uid h_seq_num]. rewrite <- !app_assoc. destruct v; reflexivity. }
  rewrite E'. apply take_all. rewrite lenN_app, lenN_header_to_bytes, HL by exact U1. lia.
Qed.

Lemma block_count_fun v o size n m : dpb_ok o -> block_count v o size n -> block_count v o size m -> n = m.
Proof. intros HO A B. apply (block_count_iff _ _ _ _ HO) in A, B. congruence. Qed.

Section Intact.
Variables (v : version) (uid : list N) (me : bool) (o : dpb) (rs : codec) (ms : list metadata) (data f : list N) (n : N).
Hypothesis IT : intact v uid me o rs ms data f n.
Set Default Proof Using "All".
Let bs := ver_to_block_size v.
Let widx seq := calc_data_block_write_index seq (Some me) o.
Lemma UID : lenN uid = 6 /\ bytes_ok uid = true. Proof. destruct IT as (A & B & _). auto. Qed.
Lemma HO : dpb_ok o. Proof. apply IT. Qed.
Lemma HC : codec_ok rs o. Proof. apply IT. Qed.
Lemma HD : bytes_ok data = true. Proof. apply IT. Qed.
Lemma MEON : o <> None -> me = true. Proof. apply IT. Qed.
Lemma HN : n <= U32_MAX. Proof. apply IT. Qed.
Lemma BC : block_count v o (lenN data) n. Proof. apply IT. Qed.
Lemma parts : exists meta, (me = true -> meta_block v uid ms meta) /\
  (forall seq, 1 <= seq <= n -> is_block v uid seq (payload_of v o rs data seq) (sliceN (widx seq * bs) bs f)) /\
  (forall i, meta_index (Some me) o i -> sliceN (i * bs) bs f = meta) /\
  (forall i, ~ used_index me o n (i / bs) -> nthN f i = 0) /\
  (forall i, used_index me o n i -> (i + 1) * bs <= lenN f) /\
  (lenN f = 0 \/ exists i, used_index me o n i /\ lenN f = (i + 1) * bs).
Proof.
  pose proof BC as B. pose proof HO as O. destruct IT as (_ & _ & _ & _ & _ & _ & _ & _ & _ & meta & (m & B' & R) & M).
  pose proof (block_count_fun _ _ _ _ _ O B B') as <-. exists meta. auto.
Qed.
Lemma I1 : forall seq, 1 <= seq <= n -> is_block v uid seq (payload_of v o rs data seq) (sliceN (widx seq * bs) bs f).
Proof. destruct parts as (meta & P). apply P. Qed.
Lemma I3 : forall i, ~ used_index me o n (i / bs) -> nthN f i = 0.
Proof. destruct parts as (meta & P). apply P. Qed.
Lemma I4 : forall i, used_index me o n i -> (i + 1) * bs <= lenN f.
Proof. destruct parts as (meta & P). apply P. Qed.
Lemma I5 : lenN f = 0 \/ exists i, used_index me o n i /\ lenN f = (i + 1) * bs.
Proof. destruct parts as (meta & P). apply P. Qed.

Lemma meta_index_on i : meta_index (Some me) o i -> me = true.
Proof.
  pose proof MEON as MO. unfold meta_index. destruct o as [[[d p] B]|]; [intros _; apply MO; discriminate|]. intros [H _]. destruct me; congruence.
Qed.
Lemma bs_ge : 128 <= bs <= 4096. Proof. apply block_size_pos. Qed.
Lemma index_cases i : meta_index (Some me) o i \/ (exists seq, 1 <= seq <= n /\ widx seq = i) \/ ~ used_index me o n i.
Proof.
  destruct (index_covered (Some me) o i HO) as [H|(seq & H & E)]; [auto|]. destruct (N.le_gt_cases seq n) as [L|L]; [right; left; exists seq; auto|].
  right. right. intros [M|(s & Hs & E')].
  - rewrite <- E in M. exact (write_index_not_meta _ _ _ HO H M).
  - assert (s = seq) by (apply (write_index_inj (Some me) o); [exact HO|lia|lia|congruence]). lia.
Qed.
Lemma data_block seq : 1 <= seq <= n -> block_at v uid f (widx seq * bs) seq (payload_of v o rs data seq) /\ bytes_ok (sliceN (widx seq * bs) bs f) = true.
Proof.
  intro Hs. pose proof (I1 seq Hs) as I1'. pose proof HN as HN'. destruct (payload_good v o rs data seq HO HC HD) as [L B]. destruct UID as [U1 U2]. unfold U32_MAX in HN'.
  destruct (is_block_wf v uid seq _ _ U1 U2 ltac:(lia) L I1') as (h & W & V & U & S). split; [exists h; auto|].
  destruct I1' as (crc & HCR & E). fold bs in E. rewrite E. rewrite !bytes_ok_app, !bytes_ok_be, U2, B. destruct v; reflexivity.
Qed.
Lemma meta_blk i : meta_index (Some me) o i -> bytes_ok (sliceN (i * bs) bs f) = true /\
  exists h pl, well_formed_block (sliceN (i * bs) bs f) h pl /\ h_version h = v /\ h_uid h = uid /\ h_seq_num h = 0 /\ metas_from_bytes pl = ms.
Proof.
  intro HM. destruct parts as (meta & M & _ & I2 & _). pose proof (M (meta_index_on i HM)) as (L & B & b & P & EV & EU & ES & ED). rewrite (I2 i HM). split; [exact B|].
  specialize (P block_dummy). fold (parse meta) in P. apply (parse_ok_iff _ _ B) in P as (h & pl & W & ->). exists h, pl. split; [exact W|].
  unfold block_of in *. cbn [b_data] in ED. unfold b_version, b_uid, b_seq_num in *. cbn [b_header] in *. split; [exact EV|]. split; [exact EU|]. split; [exact ES|].
  rewrite ES in ED. cbn in ED. congruence.
Qed.
Lemma meta_block_at i : meta_index (Some me) o i -> exists pl, block_at v uid f (i * bs) 0 pl.
Proof. intro HM. destruct (meta_blk i HM) as (_ & h & pl & W & V & U & S & _). exists pl, h. auto. Qed.
Lemma container_bytes : bytes_ok f = true.
Proof.
  pose proof bs_ge as BG. apply bytes_ok_nth. intros i Hi. pose proof (N.div_mod' i bs) as DM. pose proof (N.mod_lt i bs ltac:(lia)) as ML.
  assert (G : bytes_ok (sliceN (i / bs * bs) bs f) = true -> nthN f i < 256).
  { intro B. apply (nthN_byte _ (i mod bs)) in B. rewrite nthN_slice in B. destruct (N.ltb_spec (i mod bs) bs); [|lia].
    replace i with (i / bs * bs + i mod bs) by lia. exact B. }
  destruct (index_cases (i / bs)) as [M|[(seq & Hs & E)|U]].
  - apply G, meta_blk, M.
  - apply G. rewrite <- E. apply data_block, Hs.
  - rewrite (I3 i U). lia.
Qed.
Lemma whole_blocks : exists K, lenN f = K * bs /\ forall i, used_index me o n i -> i < K.
Proof.
  pose proof bs_ge as BG. destruct I5 as [E|(i & U & E)].
  - exists 0. split; [lia|]. intros i U. apply I4 in U. nia.
  - exists (i + 1). split; [exact E|]. intros i' U'. apply I4 in U'. nia.
Qed.
Lemma blank_no_header k r h : ~ used_index me o n k -> r + 16 <= bs -> ~ header_at f (k * bs + r) h.
Proof.
  pose proof bs_ge as BG. intros U HR [HOK E]. apply (f_equal (fun l => nthN l 0)) in E. rewrite nthN_slice in E. cbn [N.ltb N.compare] in E.
  rewrite I3 in E.
  - unfold header_to_bytes in E. vm_compute in E. discriminate.
  - replace ((k * bs + r + 0) / bs) with k; [exact U|]. apply N.div_unique with (r := r); lia.
Qed.
Lemma wf_header_at pos h pl : well_formed_block (sliceN pos bs f) h pl -> header_at f pos h.
Proof.
  intro W. pose proof (wf_len _ _ _ W) as L. destruct W as (HOK & HL & HT & _). pose proof (proj1 (header_ok_spec h) HOK) as (_ & U & _).
  split; [exact HOK|]. pose proof bs_ge as BG. pose proof (block_size_pos (h_version h)) as BP.
  rewrite lenN_slice in L.
  assert (E : sliceN pos 16 f = takeN 16 (takeN (ver_to_block_size (h_version h)) (sliceN pos bs f))).
  { unfold sliceN. rewrite !take_take. f_equal. lia. }
  rewrite E, HT. apply take_app_exact. rewrite lenN_header_to_bytes by exact U. reflexivity.
Qed.
(* every block of the file at a multiple of the block size *)
Lemma block_inv k seq pl : block_at v uid f (k * bs) seq pl ->
  (seq = 0 /\ meta_index (Some me) o k) \/ (1 <= seq <= n /\ k = widx seq /\ pl = payload_of v o rs data seq).
Proof.
  intro B. destruct (index_cases k) as [M|[(s & Hs & <-)|U]].
  - left. split; [|exact M]. destruct (meta_block_at k M) as (pl' & B'). destruct (block_at_unique _ _ _ _ _ _ _ _ B B') as [-> _]. reflexivity.
  - right. destruct (data_block s Hs) as [B' _]. destruct (block_at_unique _ _ _ _ _ _ _ _ B B') as [-> ->]. auto.
  - exfalso. destruct B as (h & W & _). apply wf_header_at in W. apply (blank_no_header k 0 h U); [pose proof bs_ge; lia|]. rewrite N.add_0_r. exact W.
Qed.
Lemma block_num k seq pl : block_at v uid f (k * bs) seq pl -> seq_at k (Some me) o = seq.
Proof.
  intro B. destruct (block_inv _ _ _ B) as [[-> M]|(Hs & -> & _)]; [apply seq_at_meta; [exact HO|exact M]|]. apply seq_at_write; [exact HO|lia].
Qed.
End Intact.
