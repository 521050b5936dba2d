(* C29, C30: guessing the burst level and the index of the first block. *)
From Verif Require Import M_Base M_Specs M_Crc M_Header M_Multihash M_Metadata M_Block M_Index M_FileUtils M_Buffer M_Ranges M_Encode M_Scan M_Loop M_Decode
  S_Crc S_Meta S_Block S_Index S_Container S_Encode S_Scan S_Decode S_Guess
  L_Base L_Crc L_File L_Header L_Index L_Index2 L_Block L_Scan L_Container L_Ref L_Ranges L_Decode L_Decode2 L_Guess L_Guess2 L_Intact L_Intact2 L_Roundtrip P_Encode P_Roundtrip.

Lemma block_at_seq v uid f pos seq pl : block_at v uid f pos seq pl -> seq < 4294967296.
Proof. intros (h & (HO & _) & _ & _ & <-). apply header_ok_spec in HO. apply HO. Qed.

Lemma guess_start bs g mis pos : 0 < bs -> guess_starts_at bs g mis pos -> pos = guess_from_pos g mis bs.
Proof.
  intros HB. unfold guess_starts_at, guess_from_pos, round_down_to_multiple. destruct g as [[x|x]|]; [| |auto].
  - intros (A & k & E). destruct mis; [rewrite E, N.mod_add by lia; symmetry; apply N.mod_small; exact A|lia].
  - destruct mis; [auto|]. intros (A & k & ->). assert (E : x / bs = k) by (symmetry; apply (N.div_unique x bs k (x - k * bs)); lia). rewrite E. lia.
Qed.
(* C29, for every file: up to 1 + p + 1001 blocks are looked at from the start position on. The level guessed has
   the smallest number of readable blocks that are not where that level puts them, and is the smallest such
   level; there is no guess exactly if all levels 0..1000 have the same number. *)
Theorem c29_guess_minimises f g mis ref d p pos :
  bytes_ok f = true -> ver_uses_rs (b_version ref) = true -> get_RSD ref = ROk d -> get_RSP ref = ROk p ->
  1 <= d -> 1 <= p -> d + p <= 256 ->
  let bs := ver_to_block_size (b_version ref) in
  guess_starts_at bs g mis pos ->
  exists r miss, guess_burst f g mis ref = ROk r /\
    (forall l, l <= 1000 -> count_of (misplaced (b_version ref) (b_uid ref) f pos d p l) (N.min (p + 1002) ((lenN f - pos) / bs)) (miss l)) /\
    match r with
    | Some g => g <= 1000 /\ (forall l, l <= 1000 -> miss g <= miss l) /\ (forall l, l < g -> miss g < miss l)
    | None => forall l l', l <= 1000 -> l' <= 1000 -> miss l = miss l'
    end.
Proof.
  intros HB RS RD RP D1 P1 DP bs GS. unfold guess_burst. rewrite RS, RD, RP. cbn [negb rbind]. fold bs. rewrite <- (guess_start bs g mis pos) by (try exact GS; unfold bs; destruct (b_version ref); reflexivity || lia).
  rewrite (sample_ok ref f HB). cbn [rbind]. fold bs. rewrite Nnat.N2Nat.id. replace (1 + p + SBX_MAX_BURST_ERR_RESISTANCE + 1) with (p + 1002) by (unfold SBX_MAX_BURST_ERR_RESISTANCE; lia).
  set (K := nsample bs f pos (p + 1002)). set (samples := map (option_map b_seq_num) _).
  eexists _, (mismatches d p samples). split; [reflexivity|]. split.
  - intros l Hl. rewrite mismatches_def, (countN_indexed _ None). unfold samples at 2. rewrite !lenN_map, lenN_range, N.sub_0_r.
    apply (count_filter _ _ K). intros k HK. unfold samples. rewrite !nth_optN_map, nth_optN_range by lia. cbn [option_map]. rewrite N.add_0_l.
    pose proof (accept_block_at ref f (pos + k * bs) HB) as A. fold bs in A. assert (K < 1000000 \/ K >= 1000000) as _ by lia.
    assert (KB : k < 1000000) by (unfold K, nsample in HK; lia).
    destruct (accept ref _) as [b|]; cbn [option_map snd fst].
    + destruct A as (A & _). pose proof (block_at_seq _ _ _ _ _ _ A) as SB. rewrite negb_true_iff, N.eqb_neq. split.
      * intro NE. exists (b_seq_num b), (slice_data_buf (b_version ref) (sliceN (pos + k * bs) bs f)). fold bs. split; [exact A|]. rewrite placed_iff by assumption. congruence.
      * intros (seq & pl & BA & NP) E. fold bs in BA. destruct (block_at_unique _ _ _ _ _ _ _ _ A BA) as [ES _]. apply NP. rewrite <- ES. apply placed_iff; try assumption. symmetry. exact E.
    + split; [discriminate|]. intros (seq & pl & BA & _). exfalso. exact (A _ _ BA).
  - pose proof (pick_spec d p samples) as PS. assert (LV : LEVELS = 1001) by reflexivity. destruct (pick_level d p samples) as [b|].
    + destruct PS as (A & B & C). split; [lia|]. split; [intros l Hl; apply B; lia|exact C].
    + intros l l' H H'. apply PS; lia.
Qed.

(* C29 for undamaged containers of level B <= 1000: there is a guess; it is at most B and puts every block
   looked at where it is; it is B itself unless the container holds no data at all. *)
Theorem c29_guess_intact H rs cpus p content out n d par B mis ref :
  enc_ok H rs cpus p -> bytes_ok content = true -> encoded H rs p content out ->
  block_count (e_ver p) (e_dpb p) (lenN content) n -> n <= U32_MAX ->
  e_dpb p = Some (d, par, B) -> B <= 1000 ->
  (exists pos, get_ref_block (eo_file out) None None mis (Prefer TMeta) = ROk (Some (pos, ref))) ->
  exists g, guess_burst (eo_file out) None mis ref = ROk (Some g) /\ g <= B /\
    (forall k seq pl, k < par + 1002 -> block_at (e_ver p) (e_uid p) (eo_file out) (k * ver_to_block_size (e_ver p)) seq pl ->
       placed_at (Some (d, par, g)) k seq) /\
    (1 <= n -> g = B).
Proof.
  intros OK HB EN HBC HN EO BB (pos & GR). destruct (encoded_intact H rs cpus p content out n OK HB EN HBC HN) as [IT FL].
  assert (ME : meta_on p = true) by (apply (MEON _ _ _ _ _ _ _ _ _ IT); congruence).
  destruct (ref_meta _ _ _ _ _ _ _ _ _ IT (Prefer TMeta) mis FL ME ltac:(auto)) as (ref' & GR' & RV & RU & RD).
  rewrite GR in GR'. apply ROk_inj, Some_inj, pair_inj in GR' as [_ <-].
  assert (R1 : get_RSD ref = ROk d) by (unfold get_RSD; rewrite RD; unfold recorded; rewrite EO; destruct (e_in_name p), (e_fdt p); reflexivity).
  assert (R2 : get_RSP ref = ROk par) by (unfold get_RSP; rewrite RD; unfold recorded; rewrite EO; destruct (e_in_name p), (e_fdt p); reflexivity).
  assert (LV : LEVELS = 1001) by reflexivity.
  destruct (guess_intact _ _ _ _ _ _ _ _ _ IT d par B ref mis EO RV RU R1 R2 ltac:(lia)) as (g & G1 & G2 & G3 & G4).
  exists g. split; [exact G1|]. split; [exact G2|]. split; [|exact G4]. intros k seq pl HK BA.
  destruct OK as (_ & _ & O1 & _). rewrite EO in O1. destruct O1 as (D1 & P1 & DP). apply placed_iff; try assumption; [lia|eapply block_at_seq; exact BA|].
  apply (G3 k seq pl); [lia|exact BA].
Qed.

Lemma write_index_me o seq : calc_data_block_write_index seq (Some true) o = calc_data_block_write_index seq None o.
Proof. destruct o as [[[d p] B]|]; reflexivity. Qed.
Lemma In_somes {A} (l : list (option A)) x : In x (somes l) <-> In (Some x) l.
Proof.
  unfold somes. rewrite in_flat_map. split.
  - intros ([y|] & I & J); [|destruct J]. destruct J as [->|[]]. exact I.
  - intro I. exists (Some x). split; [exact I|left; reflexivity].
Qed.
Lemma countN_somes (l : list (option N)) x : countN (fun y => y =? x) (somes l) = countN (fun y => match y with Some z => z =? x | None => false end) l.
Proof.
  unfold countN. induction l as [|[y|] l IH]; [reflexivity| |exact IH]. cbn [somes flat_map app filter]. fold (somes l). destruct (y =? x); rewrite ?lenN_cons; rewrite IH; reflexivity.
Qed.
Lemma countN_map {A B} (h : A -> B) g l : countN g (map h l) = countN (fun a => g (h a)) l.
Proof. unfold countN. induction l as [|a l IH]; [reflexivity|]. cbn [map filter]. destruct (g (h a)); rewrite ?lenN_cons; rewrite IH; reflexivity. Qed.
Lemma countN_pos {A} (g : A -> bool) l x : In x l -> g x = true -> 1 <= countN g l.
Proof.
  intros I G. unfold countN. assert (J : In x (filter g l)) by (apply filter_In; auto). destruct (filter g l); [destruct J|]. rewrite lenN_cons. lia.
Qed.
Lemma pick_best cand keys : (forall x, In x cand -> In x keys) ->
  (forall x, occurrences cand x <= occurrences cand (pick_index cand keys)) /\ (cand = [] -> keys = [] -> pick_index cand keys = 0).
Proof.
  intro HK. split; [|intros -> ->; reflexivity].
  assert (G : forall ks best, let r := fold_left (fun best k => Some (match best with None => k | Some x => if occurrences cand x <? occurrences cand k then k else x end)) ks best in
    (forall x, In x ks \/ best = Some x -> exists y, r = Some y /\ occurrences cand x <= occurrences cand y)).
  { induction ks as [|k ks IH]; intros best r x Hx; cbn in r.
    - destruct Hx as [[]| ->]. exists x. split; [reflexivity|lia].
    - destruct (IH (Some match best with None => k | Some x0 => if occurrences cand x0 <? occurrences cand k then k else x0 end)
                 (match best with None => k | Some x0 => if occurrences cand x0 <? occurrences cand k then k else x0 end) (or_intror eq_refl)) as (y & Ey & Ly).
      destruct Hx as [[->|Hx]|Hx].
      + exists y. split; [exact Ey|]. destruct best as [b|]; [|exact Ly]. destruct (N.ltb_spec (occurrences cand b) (occurrences cand x)); lia.
      + destruct (IH (Some match best with None => k | Some x0 => if occurrences cand x0 <? occurrences cand k then k else x0 end) x (or_introl Hx)) as (y' & Ey' & Ly').
        exists y'. split; [exact Ey'|exact Ly'].
      + exists y. split; [exact Ey|]. subst best. destruct (N.ltb_spec (occurrences cand x) (occurrences cand k)); lia. }
  intro x. destruct (in_dec N.eq_dec x cand) as [I|NI].
  - destruct (G keys None x (or_introl (HK x I))) as (y & Ey & Ly). unfold pick_index. rewrite Ey. exact Ly.
  - replace (occurrences cand x) with 0; [apply N.le_0_l|]. symmetry. unfold occurrences. apply countN_zero. intros y Hy. apply N.eqb_neq. congruence.
Qed.

(* C30: up to 1024 blocks are looked at; the index guessed is one suggested by the largest number of data or
   parity blocks; 0 if there is none. [order] is the order a hash map is traversed in, which is arbitrary. *)
Theorem c30_most_suggested (order : list N -> list N) (f : file) (from : option N) (mis : bool) ref o :
  bytes_ok f = true -> (forall l x, In x (order l) <-> In x l) ->
  let bs := ver_to_block_size (b_version ref) in
  let pos := match from with None => 0 | Some x => if mis then x else round_down_to_multiple x bs end in
  let K := N.min 1024 ((lenN f - pos) / bs) in
  exists r votes, guess_starting_block_index order f from mis ref o = ROk r /\
    (forall x, count_of (suggests (b_version ref) (b_uid ref) o f pos x) K (votes x)) /\
    (forall x, votes x <= votes r) /\ ((forall x, votes x = 0) -> r = 0).
Proof.
  intros HB OR bs pos K. unfold guess_starting_block_index. fold bs. fold pos. rewrite (sample_ok ref f HB). cbn [rbind]. fold bs. rewrite Nnat.N2Nat.id.
  fold (nsample bs f pos BLOCKS_TO_SAMPLE) in K. change (N.min 1024 ((lenN f - pos) / bs)) with (nsample bs f pos BLOCKS_TO_SAMPLE) in K. fold K.
  set (blocks := map (fun k : N => accept ref (sliceN (pos + k * bs) bs f)) (rangeN 0 K)). set (cand := somes (map (start_index_of o) (indexed blocks))).
  assert (VO : forall x, count_of (suggests (b_version ref) (b_uid ref) o f pos x) K (occurrences cand x)).
  { intro x. unfold occurrences, cand. rewrite countN_somes, countN_map, (countN_indexed _ None). unfold blocks at 2. rewrite lenN_map, lenN_range, N.sub_0_r.
    apply count_filter. intros k HK. unfold blocks. rewrite nth_optN_map, nth_optN_range by lia. cbn [option_map]. rewrite N.add_0_l.
    pose proof (accept_block_at ref f (pos + k * bs) HB) as A. fold bs in A. unfold start_index_of. cbn [fst snd]. unfold suggests. fold bs.
    destruct (accept ref _) as [b|].
    - destruct A as (A & _ & _ & M). rewrite M, write_index_me. destruct (N.eqb_spec (b_seq_num b) 0) as [Z|NZ].
      + split; [discriminate|]. intros (seq & pl & BA & S1 & _). destruct (block_at_unique _ _ _ _ _ _ _ _ A BA) as [ES _]. lia.
      + destruct (N.ltb_spec (calc_data_block_write_index (b_seq_num b) None o) k) as [L|L].
        * split; [discriminate|]. intros (seq & pl & BA & S1 & W). destruct (block_at_unique _ _ _ _ _ _ _ _ A BA) as [ES _]. rewrite ES, W in L. lia.
        * rewrite N.eqb_eq. split.
          -- intro E. eexists _, _. split; [exact A|]. split; lia.
          -- intros (seq & pl & BA & S1 & W). destruct (block_at_unique _ _ _ _ _ _ _ _ A BA) as [ES _]. rewrite ES, W. lia.
    - split; [discriminate|]. intros (seq & pl & BA & _). exfalso. exact (A _ _ BA). }
  destruct (pick_best cand (order (nodup N.eq_dec cand))) as [PB PZ]; [intros x Hx; apply OR, nodup_In, Hx|].
  eexists _, (occurrences cand). split; [reflexivity|]. split; [exact VO|]. split; [exact PB|]. intro Z.
  assert (CE : cand = []).
  { destruct cand as [|c cand'] eqn:EC; [reflexivity|]. exfalso. specialize (Z c). unfold occurrences in Z. pose proof (countN_pos (fun y => y =? c) (c :: cand') c (or_introl eq_refl) (N.eqb_refl c)). lia. }
  apply PZ; [exact CE|]. rewrite CE. cbn [nodup]. destruct (order []) as [|y l] eqn:EO; [reflexivity|]. exfalso. apply (proj1 (OR [] y)). rewrite EO. left. reflexivity.
Qed.

(* C30 for excerpts of a container: if at least one data or parity block is among the blocks looked at, and they
   are all where they belong when the first has index i0, then i0 is the guess. *)
Theorem c30_excerpt (order : list N -> list N) (f : file) (from : option N) (mis : bool) ref o i0 :
  bytes_ok f = true -> (forall l x, In x (order l) <-> In x l) ->
  let v := b_version ref in let uid := b_uid ref in let bs := ver_to_block_size v in
  let pos := match from with None => 0 | Some x => if mis then x else round_down_to_multiple x bs end in
  let seen k seq := k < 1024 /\ 1 <= seq /\ exists pl, block_at v uid f (pos + k * bs) seq pl in
  (exists k seq, seen k seq) ->
  (forall k seq, seen k seq -> calc_data_block_write_index seq None o = i0 + k) ->
  guess_starting_block_index order f from mis ref o = ROk i0.
Proof.
  intros HB OR v uid bs pos seen (k0 & s0 & S0) ALL.
  destruct (c30_most_suggested order f from mis ref o HB OR) as (r & votes & E & VO & MX & _). fold v uid bs in VO. fold pos in VO. rewrite E. f_equal.
  pose proof (block_size_pos v) as BP. fold bs in BP.
  assert (INF : forall k seq pl, block_at v uid f (pos + k * bs) seq pl -> k < (lenN f - pos) / bs).
  { intros k seq pl (h & W & V & _). pose proof (wf_len _ _ _ W) as L. rewrite V, lenN_slice in L. fold bs in L.
    assert ((k + 1) <= (lenN f - pos) / bs) by (apply N.div_le_lower_bound; lia). lia. }
  assert (V0 : 1 <= votes i0).
  { destruct (VO i0) as (ks & _ & IK & <-). destruct S0 as (A & B & pl & C). assert (I : In k0 ks).
    { apply IK. pose proof (INF _ _ _ C). split; [lia|]. exists s0, pl. split; [exact C|]. split; [exact B|]. apply ALL. split; [exact A|]. split; [exact B|]. exists pl. exact C. }
    destruct ks; [destruct I|]. rewrite lenN_cons. lia. }
  specialize (MX i0). destruct (VO r) as (ks & _ & IK & EK). destruct ks as [|k ks]; [change (lenN (@nil N)) with 0 in EK; lia|].
  destruct (proj1 (IK k) (or_introl eq_refl)) as (A & seq & pl & BA & S1 & W). fold v uid bs in BA. rewrite (ALL k seq) in W; [lia|]. split; [lia|]. split; [exact S1|]. exists pl. exact BA.
Qed.

(* the container of P_Roundtrip has level 4 and one set: the level guessed is at most 4 *)
Definition toy_ref : block := match get_ref_block toy_file None None false (Prefer TMeta) with ROk (Some (_, b)) => b | _ => block_dummy end.
Example c29_run : get_RSD toy_ref = ROk 3 /\ get_RSP toy_ref = ROk 2 /\ guess_burst toy_file None false toy_ref = ROk (Some 4).
Proof. vm_compute. auto. Qed.
(* from block 3 on *)
Example c30_run : guess_starting_block_index (fun l => l) toy_file (Some 1536) false toy_ref toy_o = ROk 3.
Proof. vm_compute. reflexivity. Qed.

Print Assumptions c29_guess_minimises.
Print Assumptions c29_guess_intact.
Print Assumptions c30_most_suggested.
Print Assumptions c30_excerpt.
