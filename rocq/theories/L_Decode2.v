(* Decoding to a file: the whole command. *)
From Verif Require Import M_Base M_Specs M_Header M_Metadata M_Block M_Index M_FileUtils M_Buffer M_Ranges M_Encode M_Scan M_Loop M_Decode
  S_Crc S_Meta S_Block S_Index S_Scan S_Decode L_Base L_Crc L_File L_Header L_Meta L_Meta2 L_Index L_Index2 L_Block L_Scan L_Ref L_Ranges L_Decode.

(* what the reference block says is sensible *)
Lemma found_block f lo hi P p b : bytes_ok f = true -> found f lo hi P (Some (p, b)) ->
  exists h pl, any_block_at f (lo + p) h pl /\ reads_as h pl b /\ bytes_ok pl = true.
Proof.
  intros HB (h & pl & (_ & W & _) & R). exists h, pl. split; [exact W|]. split; [exact R|].
  destruct W as (_ & _ & HT & _). apply (f_equal bytes_ok) in HT.
  rewrite bytes_ok_take in HT by (apply bytes_ok_drop, HB). rewrite bytes_ok_app in HT. symmetry in HT. apply andb_true_iff in HT. apply HT.
Qed.
Lemma ref_block_reads f lo hi choice p b : bytes_ok f = true -> ref_spec f lo hi choice (Some (p, b)) ->
  exists h pl, any_block_at f (lo + p) h pl /\ reads_as h pl b /\ bytes_ok pl = true.
Proof.
  intros HB R. destruct choice as [|t|t]; cbn [ref_spec] in R.
  - eapply found_block; eassumption.
  - destruct R as [[_ R]|[_ R]]; eapply found_block; eassumption.
  - eapply found_block; eassumption.
Qed.
Lemma get_meta_In ms i m : get_meta_by_id ms i = Some m -> In m ms.
Proof.
  induction ms as [|x ms IH]; cbn [get_meta_by_id]; [discriminate|]. destruct (metadata_id_eqb _ _); intro E; [apply Some_inj in E; left; exact E|right; auto].
Qed.
Lemma field_RSD ms d : Forall field_ok ms -> get_meta_by_id ms IRSD = Some (RSD d) -> 1 <= d.
Proof. intros F E. apply get_meta_In in E. rewrite Forall_forall in F. specialize (F _ E). cbn in F. lia. Qed.
Lemma field_RSP ms d : Forall field_ok ms -> get_meta_by_id ms IRSP = Some (RSP d) -> 1 <= d.
Proof. intros F E. apply get_meta_In in E. rewrite Forall_forall in F. specialize (F _ E). cbn in F. lia. Qed.
Lemma ref_dpb f burst g mis h pl b o : bytes_ok pl = true -> reads_as h pl b ->
  get_data_par_burst f burst g mis b = ROk o ->
  dpb_ok o /\ match o with
              | Some (d, p, _) => ver_uses_rs (b_version b) = true /\ get_RSD b = ROk d /\ get_RSP b = ROk p
              | None => ver_uses_rs (b_version b) = false end.
Proof.
  intros HB [_ ED] E. unfold get_data_par_burst in E. destruct (ver_uses_rs (b_version b)) eqn:RS.
  - destruct (get_RSD b) as [d|e|] eqn:E1; try discriminate. destruct (get_RSP b) as [p|e|] eqn:E2; try discriminate. cbn [rbind] in E.
    destruct (get_burst_or_guess _ _ _ _ _) as [B|e|] eqn:E3; try discriminate. cbn [rbind] in E. apply ROk_inj in E. subst o.
    split; [|auto]. unfold get_RSD, get_RSP in E1, E2. rewrite ED in E1, E2. destruct (h_seq_num h =? 0); [|discriminate].
    pose proof (from_bytes_fields_ok pl HB) as F. pose proof (shards_ok_from pl) as S.
    destruct (get_meta_by_id (metas_from_bytes pl) IRSD) as [[]|] eqn:G1; try discriminate. apply ROk_inj in E1. subst.
    destruct (get_meta_by_id (metas_from_bytes pl) IRSP) as [[]|] eqn:G2; try discriminate. apply ROk_inj in E2. subst.
    split; [eapply field_RSD; eassumption|]. split; [eapply field_RSP; eassumption|]. apply S; assumption.
  - apply ROk_inj in E. subst o. split; [exact I|reflexivity].
Qed.

(* one run *)
Definition raw_out cpus p f ref o old len lo : file :=
  out_n cpus f ref o (is_skip_good (dc_multi p)) lo old (nvisit (ver_to_block_size (b_version ref)) f lo len).
Lemma to_file_ok cpus p f ref o old len lo : 1 <= cpus -> scan_range p f ref = (len, lo) ->
  decode_to_file cpus p f ref o old
  = ROk (fold_left (cnt f ref o) (poss f ref lo len) no_dstats,
         match get_FSZ ref with Some n => file_set_len (raw_out cpus p f ref o old len lo) n | None => raw_out cpus p f ref o old len lo end).
Proof.
  intros CP E. unfold decode_to_file. fold (scan_range p f ref). rewrite E.
  destruct (dec_loop cpus f ref o (is_skip_good (dc_multi p)) lo len CP old (S (S (length f))) ltac:(lia)) as (st & R & S).
  rewrite R. cbn [rbind]. rewrite S, fold_somes. reflexivity.
Qed.

(* ---- the command ---- *)
Lemma setup_ok p f ref o len lo : bytes_ok f = true -> lenN f < 18446744073709551616 -> setup p f ref o len lo ->
  dpb_ok o /\ (match o with Some _ => ver_uses_rs (b_version ref) = true | None => True end) /\
  (exists h pl, reads_as h pl ref /\ bytes_ok pl = true /\ header_ok h = true) /\ lo <= lenN f.
Proof.
  intros HB HL ((pos & G) & D & R).
  pose proof (get_ref_block_ok f (ref_from_pos (dc_ref_from p) (dc_from p)) (dc_ref_to p) (dc_misalign p) (dc_choice p) HB) as K.
  pose proof (fun req lo => range_in_file (ref_from_pos (dc_ref_from p) (dc_from p)) (dc_ref_to p) (dc_misalign p) (lenN f) None req lo ltac:(discriminate) HL) as RG.
  destruct (calc_required_len_and_seek_to_from_byte_range _ _ _ _ _ None) as [req l0].
  destruct K as (r & K1 & K2); [apply (RG req l0 eq_refl)|]. rewrite G in K1. apply ROk_inj in K1. subst r.
  apply ref_block_reads in K2 as (h & pl & W & RA & BP); [|exact HB].
  destruct (ref_dpb _ _ _ _ _ _ _ _ BP RA D) as [O1 O2]. split; [exact O1|]. split; [destruct o as [[[]]|]; [apply O2|exact I]|]. split.
  - exists h, pl. split; [exact RA|]. split; [exact BP|]. apply W.
  - unfold scan_range in R. apply range_in_file in R; [lia| |exact HL]. cbn [mult_of]. pose proof (block_size_pos (b_version ref)). lia.
Qed.

Lemma decode_file_char H order cpus limit p f old out : 1 <= cpus -> bytes_ok f = true -> lenN f < 18446744073709551616 ->
  decode_file H order cpus limit p f (ToFile old) = ROk out ->
  exists ref o len lo, setup p f ref o len lo /\
    let raw := raw_out cpus p f ref o (start_file p old) len lo in
    let res := match get_FSZ ref with Some n => file_set_len raw n | None => raw end in
    out = mkDoutcome (fold_left (cnt f ref o) (poss f ref lo len) no_dstats) res (get_HSH ref) (hash_output H ref res) (lenN res).
Proof.
  intros CP HB HL E. unfold decode_file in E.
  destruct (get_ref_block _ _ _ _ _) as [[[pos ref]|]|e|] eqn:G; try discriminate. cbn [rbind] in E.
  destruct (negb (dc_force_write p) && _ && _); [discriminate|]. unfold decode in E.
  destruct (get_data_par_burst _ _ _ _ _) as [o|e|] eqn:D; try discriminate. cbn [rbind] in E.
  destruct (ver_uses_rs (b_version ref) && is_data ref); [discriminate|].
  destruct (scan_range p f ref) as [len lo] eqn:R.
  rewrite (to_file_ok cpus p f ref o _ len lo CP R) in E. cbn [rbind] in E. apply ROk_inj in E.
  exists ref, o, len, lo. split; [split; [exists pos; exact G|]; split; assumption|].
  cbv zeta. rewrite <- E. unfold start_file. destruct (dc_multi p), old; reflexivity.
Qed.

Lemma decode_file_total H order cpus limit p f old ref o len lo : 1 <= cpus ->
  setup p f ref o len lo -> ver_uses_rs (b_version ref) && is_data ref = false ->
  (dc_force_write p = true \/ dc_multi p <> None \/ old = None) ->
  exists out, decode_file H order cpus limit p f (ToFile old) = ROk out.
Proof.
  intros CP ((pos & G) & D & R) ND FW. unfold decode_file. rewrite G. cbn [rbind].
  replace (negb (dc_force_write p) && match dc_multi p with None => true | _ => false end && match old with Some _ => true | None => false end) with false
    by (destruct FW as [->|[X| ->]]; [reflexivity|destruct (dc_force_write p), (dc_multi p); try reflexivity; congruence|symmetry; apply andb_false_r]).
  unfold decode. rewrite D. cbn [rbind]. rewrite ND. rewrite (to_file_ok cpus p f ref o _ len lo CP R). cbn [rbind]. eauto.
Qed.

Lemma nthN_fsz (raw : file) fsz i : i < lenN (match fsz with Some n => file_set_len raw n | None => raw end) ->
  nthN (match fsz with Some n => file_set_len raw n | None => raw end) i = nthN raw i.
Proof. destruct fsz as [n|]; [|reflexivity]. rewrite lenN_set_len, nthN_set_len. intro H. destruct (N.ltb_spec i n); [reflexivity|lia]. Qed.

Lemma restored_ok cpus p f ref o old len lo i : 1 <= cpus -> bytes_ok f = true -> dpb_ok o -> is_skip_good (dc_multi p) = false ->
  restored (b_version ref) (b_uid ref) o f lo len old i (nthN (raw_out cpus p f ref o old len lo) i).
Proof.
  intros CP HB HO SG. unfold restored. unfold raw_out. set (bs := ver_to_block_size (b_version ref)).
  pose proof (data_size_pos (b_version ref)) as [DP DE]. fold bs in DE. cbv zeta. rewrite <- DE.
  assert (BP : 1 <= bs) by (pose proof (block_size_pos (b_version ref)); unfold bs; lia).
  destruct (out_bytes cpus f ref o (is_skip_good (dc_multi p)) lo CP HB HO old (nvisit bs f lo len) i SG) as [(k & pl & K1 & (seq & K2 & K3) & K4 & K5)|[K1 K2]].
  - left. exists k, seq, pl. split; [apply visited_iff; assumption|]. split; [exact K2|]. split; [exact K3|]. split; [exact K4|].
    intros k' seq' pl' LT V B C. apply visited_iff in V; [|exact BP]. apply (K5 k' pl'); [lia|]. exists seq'. auto.
  - right. split; [|exact K2]. intros k seq pl V B C. apply visited_iff in V; [|exact BP]. apply (K1 k pl V). exists seq. auto.
Qed.
Lemma extent_ok cpus p f ref o old len lo : 1 <= cpus -> bytes_ok f = true -> dpb_ok o -> is_skip_good (dc_multi p) = false ->
  extent (b_version ref) (b_uid ref) o f lo len old (lenN (raw_out cpus p f ref o old len lo)).
Proof.
  intros CP HB HO SG. unfold extent, raw_out. set (bs := ver_to_block_size (b_version ref)).
  pose proof (data_size_pos (b_version ref)) as [DP DE]. fold bs in DE. cbv zeta. rewrite <- DE.
  assert (BP : 1 <= bs) by (pose proof (block_size_pos (b_version ref)); unfold bs; lia).
  destruct (out_len cpus f ref o (is_skip_good (dc_multi p)) lo CP HB HO old (nvisit bs f lo len) SG) as (A & B & C).
  split; [exact A|]. split.
  - intros k seq pl j V BA IC. apply visited_iff in V; [|exact BP]. apply (B k j pl V). exists seq. auto.
  - destruct C as [C|(k & j & pl & K1 & (seq & K2 & K3) & K4)]; [left; exact C|]. right. exists k, seq, pl, j. split; [apply visited_iff; assumption|]. auto.
Qed.
