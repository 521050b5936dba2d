(* Proofs about multihash and metadata. *)
From Verif Require Import M_Base L_Base L_File M_Multihash M_Metadata S_Meta.

Lemma tag_p_app t r : tag_p t (t ++ r) = Some r.
Proof. induction t as [|x t IH]; cbn [app tag_p]; [reflexivity|]. rewrite N.eqb_refl. exact IH. Qed.
Lemma tag_p_inv t bs r : tag_p t bs = Some r -> bs = t ++ r.
Proof.
  revert bs. induction t as [|x t IH]; intros bs H; cbn [tag_p] in H; [injection H as ->; reflexivity|].
  destruct bs as [|y bs]; [discriminate|]. destruct (N.eqb_spec x y) as [->|]; [|discriminate].
  cbn [app]. f_equal. apply IH, H.
Qed.
Lemma take_p_app d r : take_p (lenN d) (d ++ r) = Some (d, r).
Proof.
  unfold take_p. rewrite lenN_app. destruct (N.ltb_spec (lenN d + lenN r) (lenN d)); [lia|].
  rewrite take_app_exact, drop_app_exact by reflexivity. reflexivity.
Qed.
Lemma take_p_inv n bs d r : take_p n bs = Some (d, r) -> bs = d ++ r /\ lenN d = n.
Proof.
  unfold take_p. destruct (N.ltb_spec (lenN bs) n); [discriminate|]. intro E; injection E as <- <-.
  split; [symmetry; apply take_drop|]. rewrite lenN_take. lia.
Qed.

(* ---- multihash ---- *)
Lemma param_code t : hash_func_type (param_new t) = hash_code t.
Proof. destruct t; reflexivity. Qed.
Lemma param_len t : digest_length (param_new t) = hash_len t.
Proof. destruct t; reflexivity. Qed.
Lemma hash_enc t d : lenN d = hash_len t ->
  hash_bytes_to_bytes (t, d) = ROk (hash_code t ++ [hash_len t] ++ d).
Proof.
  intro H. unfold hash_bytes_to_bytes. cbn [fst snd]. rewrite param_code, param_len, H, N.ltb_irrefl.
  rewrite take_all by lia. reflexivity.
Qed.
Lemma hash_p_ok t p d r : digest_length p = lenN d -> u8 (total_length p) = total_length p ->
  hash_p_w_len t p ([total_length p] ++ hash_func_type p ++ [digest_length p] ++ d ++ r) = Some ((t, d), r).
Proof.
  intros HD HT. unfold hash_p_w_len. rewrite HT.
  replace ([total_length p] ++ hash_func_type p ++ [digest_length p] ++ d ++ r)
    with (([total_length p] ++ hash_func_type p ++ [digest_length p]) ++ d ++ r)
    by (rewrite <- !app_assoc; reflexivity).
  rewrite tag_p_app, HD, take_p_app. reflexivity.
Qed.
Lemma multihash_parse t d r : lenN d = hash_len t ->
  multihash_w_len_p ([lenN (hash_code t) + 1 + hash_len t] ++ hash_code t ++ [hash_len t] ++ d ++ r)
  = Some ((canon_hash t, d), r).
Proof.
  intro H. unfold multihash_w_len_p, alt_p, hash_p_w_len.
  destruct t; cbn [hash_code hash_len canon_hash] in *;
  match goal with |- context [lenN ?x + 1 + ?y] => let v := eval vm_compute in (lenN x + 1 + y) in change (lenN x + 1 + y) with v end;
  repeat match goal with |- context [u8 (total_length ?p)] => let v := eval vm_compute in (u8 (total_length p)) in change (u8 (total_length p)) with v end;
  cbn [app tag_p hash_func_type digest_length N.eqb Pos.eqb SHA1_PARAM SHA256_PARAM SHA2_512_256_PARAM SHA512_PARAM
   BLAKE2B_256_PARAM BLAKE2B_512_PARAM BLAKE2S_128_PARAM BLAKE2S_256_PARAM];
  rewrite <- H, take_p_app; reflexivity.
Qed.
Lemma hash_p_inv t bs h r : hash_p_w_len t (param_new t) bs = Some (h, r) ->
  fst h = t /\ lenN (snd h) = hash_len t /\
  bs = [lenN (hash_code t) + 1 + hash_len t] ++ hash_code t ++ [hash_len t] ++ snd h ++ r.
Proof.
  unfold hash_p_w_len. destruct (tag_p _ bs) as [r1|] eqn:E1; [|discriminate].
  destruct (take_p _ r1) as [[d r2]|] eqn:E2; [|discriminate]. intro E; injection E as <- <-.
  apply tag_p_inv in E1. apply take_p_inv in E2 as [-> E2]. cbn [fst snd].
  rewrite param_len in E2. split; [reflexivity|]. split; [exact E2|]. rewrite E1, param_len, param_code.
  rewrite <- !app_assoc. f_equal. f_equal. destruct t; reflexivity.
Qed.
Lemma multihash_sound bs h r : multihash_w_len_p bs = Some (h, r) ->
  canon_hash (fst h) = fst h /\ lenN (snd h) = hash_len (fst h) /\
  bs = [lenN (hash_code (fst h)) + 1 + hash_len (fst h)] ++ hash_code (fst h) ++ [hash_len (fst h)] ++ snd h ++ r.
Proof.
  unfold multihash_w_len_p, alt_p.
  change SHA1_PARAM with (param_new SHA1). change SHA256_PARAM with (param_new SHA256).
  change SHA2_512_256_PARAM with (param_new SHA2_512_256). change SHA512_PARAM with (param_new SHA512).
  change BLAKE2B_256_PARAM with (param_new BLAKE2B_256). change BLAKE2B_512_PARAM with (param_new BLAKE2B_512).
  change BLAKE2S_128_PARAM with (param_new BLAKE2S_128). change BLAKE2S_256_PARAM with (param_new BLAKE2S_256).
  repeat match goal with |- context [hash_p_w_len ?t (param_new ?u) bs] =>
    let E := fresh "E" in destruct (hash_p_w_len t (param_new u) bs) eqn:E;
    [intro H; injection H as ->; apply hash_p_inv in E as (-> & E2 & ->); split; [reflexivity|]; split; [exact E2|reflexivity]|clear E] end.
  discriminate.
Qed.

(* ---- metadata fields ---- *)
Lemma bits_i64_inv x : (- 2 ^ 63 <= x < 2 ^ 63)%Z -> bits_i64 (i64_bits x) = x.
Proof.
  change (2 ^ 63)%Z with 9223372036854775808%Z. intro H. unfold bits_i64, i64_bits.
  destruct (N.ltb_spec (Z.to_N (x mod 18446744073709551616)) 9223372036854775808); lia.
Qed.
Lemma i64_bits_lt x : i64_bits x < 256 ^ N.of_nat 8.
Proof. change (256 ^ N.of_nat 8) with 18446744073709551616. unfold i64_bits. lia. Qed.

Lemma str_p_ok id mk s r : 1 <= lenN s ->
  str_p id mk (id_to_bytes id ++ [lenN s] ++ s ++ r) = Some (mk s, r).
Proof.
  intro H. unfold str_p. rewrite tag_p_app. cbn [app].
  destruct (N.leb_spec 1 (lenN s)); [|lia]. rewrite take_p_app. reflexivity.
Qed.
Lemma num_p_ok id w mk d r : 1 <= w -> lenN d = w ->
  num_p id w mk (id_to_bytes id ++ [w] ++ d ++ r) = Some (mk (be_val d), r).
Proof.
  intros H HL. unfold num_p. rewrite tag_p_app. cbn [app].
  destruct (N.leb_spec 1 w); [|lia]. rewrite N.eqb_refl. cbn [andb]. rewrite <- HL, take_p_app. reflexivity.
Qed.
Lemma str_p_other id mk bs : tag_p (id_to_bytes id) bs = None -> str_p id mk bs = None.
Proof. intro H. unfold str_p. rewrite H. reflexivity. Qed.
Lemma num_p_other id w mk bs : tag_p (id_to_bytes id) bs = None -> num_p id w mk bs = None.
Proof. intro H. unfold num_p. rewrite H. reflexivity. Qed.
Lemma hsh_p_other bs : tag_p (id_to_bytes IHSH) bs = None -> hsh_p bs = None.
Proof. intro H. unfold hsh_p. rewrite H. reflexivity. Qed.
Lemma tag_other i j r : i <> j -> tag_p (id_to_bytes i) (id_to_bytes j ++ r) = None.
Proof. destruct i, j; intro H; try congruence; reflexivity. Qed.

(* bytes of a field, and their parse *)
Definition field_bytes (m : metadata) : list N :=
  match info_bytes m with ROk i => id_to_bytes (meta_to_id m) ++ [u8 (single_info_size m)] ++ i | _ => [] end.
Lemma single_meta_size_eq m : field_ok m -> single_meta_size m = field_size m.
Proof.
  destruct m as [s|s|x|x|x|[t d]|x|x]; cbn; try reflexivity.
  intros _. unfold single_meta_size, PREAMBLE_LEN, single_info_size, total_length. cbn [fst].
  rewrite param_code, param_len. reflexivity.
Qed.
Lemma field_bytes_ok m : field_ok m -> info_bytes m = ROk (match info_bytes m with ROk i => i | _ => [] end)
  /\ lenN (field_bytes m) = field_size m /\ bytes_ok (field_bytes m) = true.
Proof.
  unfold field_bytes. destruct m as [s|s|x|x|x|[t d]|x|x]; cbn [field_ok]; intro H.
  - destruct H as (H & _ & Hb). cbn [info_bytes]. split; [reflexivity|]. split.
    + rewrite !lenN_app. cbn [meta_to_id id_to_bytes single_info_size]. unfold field_size. rewrite !lenN_cons, !lenN_nil. lia.
    + rewrite !bytes_ok_app, Hb. cbn [single_info_size]. cbn [bytes_ok forallb]. rewrite !andb_true_r.
      cbn. apply byte_ok_lt. unfold u8. lia.
  - destruct H as (H & _ & Hb). cbn [info_bytes]. split; [reflexivity|]. split.
    + rewrite !lenN_app. cbn [meta_to_id id_to_bytes single_info_size]. unfold field_size. rewrite !lenN_cons, !lenN_nil. lia.
    + rewrite !bytes_ok_app, Hb. cbn [single_info_size]. cbn [bytes_ok forallb]. rewrite !andb_true_r.
      cbn. apply byte_ok_lt. unfold u8. lia.
  - cbn [info_bytes]. split; [reflexivity|]. split; [reflexivity|].
    rewrite !bytes_ok_app, bytes_ok_be. reflexivity.
  - cbn [info_bytes]. split; [reflexivity|]. split; [reflexivity|].
    rewrite !bytes_ok_app, bytes_ok_be. reflexivity.
  - cbn [info_bytes]. split; [reflexivity|]. split; [reflexivity|].
    rewrite !bytes_ok_app, bytes_ok_be. reflexivity.
  - destruct H as (H & Hb). cbn [info_bytes]. rewrite hash_enc by exact H. split; [reflexivity|]. split.
    + rewrite !lenN_app, H. cbn [field_size]. destruct t; reflexivity.
    + rewrite !bytes_ok_app, Hb. destruct t; reflexivity.
  - cbn [info_bytes]. split; [reflexivity|]. split; [reflexivity|].
    rewrite !bytes_ok_app. cbn [bytes_ok forallb]. rewrite (proj2 (byte_ok_lt x)) by lia. reflexivity.
  - cbn [info_bytes]. split; [reflexivity|]. split; [reflexivity|].
    rewrite !bytes_ok_app. cbn [bytes_ok forallb]. rewrite (proj2 (byte_ok_lt x)) by lia. reflexivity.
Qed.
Lemma single_to_bytes_eq m cap : field_ok m ->
  single_to_bytes m cap = if cap <? field_size m then RErr TooMuchMetadata else ROk (field_bytes m).
Proof.
  intro H. unfold single_to_bytes. rewrite single_meta_size_eq by exact H.
  destruct (cap <? field_size m); [reflexivity|].
  unfold field_bytes. destruct (field_bytes_ok m H) as [E _]. rewrite E. reflexivity.
Qed.
Ltac skip_p := rewrite ?str_p_other, ?num_p_other, ?hsh_p_other by (apply tag_other; discriminate).
Lemma single_meta_parse m r : field_ok m ->
  single_meta_p (field_bytes m ++ r) = Some (canon_field m, r).
Proof.
  unfold field_bytes. destruct m as [s|s|x|x|x|[t d]|x|x]; cbn [field_ok info_bytes meta_to_id single_info_size canon_field]; intro H.
  - destruct H as (H & _ & Hb). rewrite <- !app_assoc. unfold u8. rewrite N.mod_small by lia.
    unfold single_meta_p, alt_p. skip_p. rewrite str_p_ok by lia. reflexivity.
  - destruct H as (H & _ & Hb). rewrite <- !app_assoc. unfold u8. rewrite N.mod_small by lia.
    unfold single_meta_p, alt_p. skip_p. rewrite str_p_ok by lia. reflexivity.
  - rewrite <- !app_assoc. unfold single_meta_p, alt_p. skip_p. change (u8 8) with 8.
    rewrite num_p_ok by (try reflexivity; vm_compute; discriminate).
    rewrite be_val_be_small by exact H. reflexivity.
  - rewrite <- !app_assoc. unfold single_meta_p, alt_p. skip_p. change (u8 8) with 8.
    rewrite num_p_ok by (try reflexivity; vm_compute; discriminate).
    rewrite be_val_be_small by apply i64_bits_lt. rewrite bits_i64_inv by exact H. reflexivity.
  - rewrite <- !app_assoc. unfold single_meta_p, alt_p. skip_p. change (u8 8) with 8.
    rewrite num_p_ok by (try reflexivity; vm_compute; discriminate).
    rewrite be_val_be_small by apply i64_bits_lt. rewrite bits_i64_inv by exact H. reflexivity.
  - destruct H as (H & Hb). rewrite hash_enc by exact H. rewrite <- !app_assoc.
    unfold single_meta_p, alt_p. skip_p. unfold hsh_p. rewrite tag_p_app.
    replace (u8 (total_length (param_new (fst (t, d))))) with (lenN (hash_code t) + 1 + hash_len t) by (destruct t; reflexivity).
    rewrite multihash_parse by exact H. reflexivity.
  - rewrite <- !app_assoc. unfold single_meta_p, alt_p. skip_p. change (u8 1) with 1.
    rewrite num_p_ok by (try reflexivity; vm_compute; discriminate). cbn. reflexivity.
  - rewrite <- !app_assoc. unfold single_meta_p, alt_p. skip_p. change (u8 1) with 1.
    rewrite num_p_ok by (try reflexivity; vm_compute; discriminate). cbn. reflexivity.
Qed.
Definition tag_start (b : N) : bool := (b =? 70) || (b =? 83) || (b =? 72) || (b =? 82).
Lemma tag_p_first i b r : tag_start b = false -> tag_p (id_to_bytes i) (b :: r) = None.
Proof.
  unfold tag_start. rewrite !orb_false_iff, !N.eqb_neq. intros [[[A B] C] D].
  destruct i; cbn [id_to_bytes tag_p];
  match goal with |- context [?x =? b] => destruct (N.eqb_spec x b); [congruence|reflexivity] end.
Qed.
Lemma single_meta_pad n : single_meta_p (repN n 26) = None.
Proof.
  unfold repN. destruct (N.to_nat n) as [|k]; [reflexivity|]. cbn [repeat].
  unfold single_meta_p, alt_p.
  rewrite ?str_p_other, ?num_p_other, ?hsh_p_other by (apply tag_p_first; reflexivity). reflexivity.
Qed.
Definition fields_bytes (ms : list metadata) : list N := flat_map field_bytes ms.
Lemma fields_bytes_len ms : Forall field_ok ms -> lenN (fields_bytes ms) = fields_size ms.
Proof.
  induction 1 as [|m ms Hm H IH]; [reflexivity|]. unfold fields_bytes; cbn [flat_map fields_size fold_right].
  rewrite lenN_app. fold (fields_bytes ms). fold (fields_size ms). rewrite IH.
  destruct (field_bytes_ok m Hm) as [_ [-> _]]. reflexivity.
Qed.
Lemma fields_bytes_ok ms : Forall field_ok ms -> bytes_ok (fields_bytes ms) = true.
Proof.
  induction 1 as [|m ms Hm H IH]; [reflexivity|]. unfold fields_bytes; cbn [flat_map].
  rewrite bytes_ok_app. fold (fields_bytes ms). rewrite IH.
  destruct (field_bytes_ok m Hm) as [_ [_ ->]]. reflexivity.
Qed.
Lemma metas_to_bytes_eq ms cap : Forall field_ok ms ->
  metas_to_bytes ms cap = if cap <? fields_size ms then RErr TooMuchMetadata
                          else ROk (fields_bytes ms ++ repN (cap - fields_size ms) 26).
Proof.
  intro H. revert cap. induction H as [|m ms Hm H IH]; intro cap.
  - cbn [metas_to_bytes fields_size fold_right fields_bytes flat_map app].
    destruct (N.ltb_spec cap 0); [lia|]. rewrite N.sub_0_r. reflexivity.
  - cbn [metas_to_bytes fields_size fold_right]. fold (fields_size ms).
    unfold fields_bytes; cbn [flat_map]; fold (fields_bytes ms).
    rewrite single_to_bytes_eq by exact Hm. destruct (field_bytes_ok m Hm) as [_ [HL _]].
    destruct (N.ltb_spec cap (field_size m)).
    + destruct (N.ltb_spec cap (field_size m + fields_size ms)); [reflexivity|lia].
    + rewrite IH, HL. destruct (N.ltb_spec (cap - field_size m) (fields_size ms)).
      * destruct (N.ltb_spec cap (field_size m + fields_size ms)); [reflexivity|lia].
      * destruct (N.ltb_spec cap (field_size m + fields_size ms)); [lia|].
        rewrite app_assoc. do 3 f_equal. lia.
Qed.
Lemma field_bytes_nonempty m : field_ok m -> (1 <= length (field_bytes m))%nat.
Proof.
  intro H. destruct (field_bytes_ok m H) as [_ [HL _]]. unfold lenN in HL.
  assert (4 <= field_size m) by (unfold field_size; destruct m as [| | | | |[? ?]| |]; lia). lia.
Qed.
Lemma many0_fields ms fuel n : Forall field_ok ms -> (length ms <= fuel)%nat ->
  many0_meta fuel (fields_bytes ms ++ repN n 26) = map canon_field ms.
Proof.
  intro H. revert fuel. induction H as [|m ms Hm H IH]; intros fuel HF.
  - cbn [fields_bytes flat_map app map]. destruct fuel; [reflexivity|]. cbn [many0_meta].
    rewrite single_meta_pad. reflexivity.
  - destruct fuel as [|fuel]; [cbn in HF; lia|]. cbn [many0_meta map].
    unfold fields_bytes; cbn [flat_map]; fold (fields_bytes ms). rewrite <- app_assoc.
    rewrite single_meta_parse by exact Hm. rewrite IH by (cbn in HF; lia). reflexivity.
Qed.
Lemma fields_count ms : Forall field_ok ms -> (length ms <= length (fields_bytes ms))%nat.
Proof.
  induction 1 as [|m ms Hm H IH]; [cbn; lia|]. unfold fields_bytes; cbn [flat_map length].
  rewrite app_length. fold (fields_bytes ms). pose proof (field_bytes_nonempty m Hm). lia.
Qed.
Lemma meta_p_fields ms n : Forall field_ok ms ->
  meta_p (fields_bytes ms ++ repN n 26) = map canon_field ms.
Proof.
  intro H. unfold meta_p. apply many0_fields; [exact H|]. rewrite app_length.
  pose proof (fields_count ms H). lia.
Qed.

(* ---- filter ---- *)
Lemma keep_canon m : field_ok m -> keep_meta (canon_field m) = true.
Proof.
  destruct m as [s|s|x|x|x|[t d]|x|x]; cbn; try reflexivity; try tauto; intro H; apply N.leb_le; lia.
Qed.
Lemma filter_keep_id ms : Forall (fun m => keep_meta m = true) ms -> filter keep_meta ms = ms.
Proof. induction 1 as [|m ms Hm H IH]; cbn [filter]; [reflexivity|]. rewrite Hm, IH. reflexivity. Qed.
Lemma first_rsd_get ms : first_rsd ms = match get_meta_by_id (filter keep_meta ms) IRSD with Some (RSD d) => Some d | _ => None end.
Proof.
  induction ms as [|m ms IH]; [reflexivity|]. destruct m as [s|s|x|x|x|h|x|x]; cbn [first_rsd filter keep_meta];
  try (destruct (utf8_valid s)); cbn [get_meta_by_id meta_to_id metadata_id_eqb]; try exact IH.
  - destruct (1 <=? x) eqn:E; [reflexivity|exact IH].
  - destruct (1 <=? x) eqn:E; exact IH.
Qed.
Lemma first_rsp_get ms : first_rsp ms = match get_meta_by_id (filter keep_meta ms) IRSP with Some (RSP d) => Some d | _ => None end.
Proof.
  induction ms as [|m ms IH]; [reflexivity|]. destruct m as [s|s|x|x|x|h|x|x]; cbn [first_rsp filter keep_meta];
  try (destruct (utf8_valid s)); cbn [get_meta_by_id meta_to_id metadata_id_eqb]; try exact IH.
  - destruct (1 <=? x) eqn:E; exact IH.
  - destruct (1 <=? x) eqn:E; [reflexivity|exact IH].
Qed.
Lemma get_canon_rsd ms : get_meta_by_id (map canon_field ms) IRSD = get_meta_by_id ms IRSD.
Proof.
  induction ms as [|m ms IH]; [reflexivity|]. destruct m as [s|s|x|x|x|[t d]|x|x];
  cbn [map canon_field get_meta_by_id meta_to_id metadata_id_eqb]; try exact IH; reflexivity.
Qed.
Lemma get_canon_rsp ms : get_meta_by_id (map canon_field ms) IRSP = get_meta_by_id ms IRSP.
Proof.
  induction ms as [|m ms IH]; [reflexivity|]. destruct m as [s|s|x|x|x|[t d]|x|x];
  cbn [map canon_field get_meta_by_id meta_to_id metadata_id_eqb]; try exact IH; reflexivity.
Qed.
Lemma filter_valid ms : Forall field_ok ms -> shards_ok ms ->
  filter_invalid_metadata (map canon_field ms) = map canon_field ms.
Proof.
  intros H HS. unfold filter_invalid_metadata.
  assert (K : filter keep_meta (map canon_field ms) = map canon_field ms).
  { apply filter_keep_id. apply Forall_map. revert H. apply Forall_impl. apply keep_canon. }
  rewrite first_rsd_get, first_rsp_get, K, get_canon_rsd, get_canon_rsp.
  unfold shards_ok in HS.
  destruct (get_meta_by_id ms IRSD) as [[]|] eqn:E1; try reflexivity.
  destruct (get_meta_by_id ms IRSP) as [[]|] eqn:E2; try reflexivity.
  specialize (HS _ _ eq_refl eq_refl). destruct (N.ltb_spec 256 (x + x0)); [lia|reflexivity].
Qed.
Theorem metadata_roundtrip ms cap : Forall field_ok ms -> shards_ok ms ->
  (fields_size ms <= cap ->
   exists bs, metas_to_bytes ms cap = ROk bs /\ lenN bs = cap /\ bytes_ok bs = true
     /\ (forall i, fields_size ms <= i -> i < cap -> nthN bs i = 26)
     /\ metas_from_bytes bs = map canon_field ms)
  /\ (cap < fields_size ms -> metas_to_bytes ms cap = RErr TooMuchMetadata).
Proof.
  intros H HS. rewrite metas_to_bytes_eq by exact H. split; intro HC.
  - destruct (N.ltb_spec cap (fields_size ms)); [lia|]. eexists. split; [reflexivity|].
    split; [rewrite lenN_app, fields_bytes_len, lenN_rep by exact H; lia|].
    split; [rewrite bytes_ok_app, fields_bytes_ok by exact H; apply bytes_ok_rep; lia|].
    split.
    + intros i Hi Hc. rewrite nthN_app, fields_bytes_len by exact H.
      destruct (N.ltb_spec i (fields_size ms)); [lia|]. rewrite nthN_rep.
      destruct (N.ltb_spec (i - fields_size ms) (cap - fields_size ms)); [reflexivity|lia].
    + unfold metas_from_bytes. rewrite meta_p_fields by exact H. apply filter_valid; assumption.
  - destruct (N.ltb_spec cap (fields_size ms)); [reflexivity|lia].
Qed.

(* ---- sanitisation ---- *)
Lemma get_first_with ms i m : get_meta_by_id ms i = Some m <-> first_with ms i m.
Proof.
  assert (EQ : forall a b, metadata_id_eqb a b = true <-> a = b) by (intros [] []; cbn; split; congruence).
  split.
  - revert m. induction ms as [|x ms IH]; intros m H; cbn [get_meta_by_id] in H; [discriminate|].
    destruct (metadata_id_eqb (meta_to_id x) i) eqn:E.
    + injection H as <-. exists [], ms. split; [reflexivity|]. split; [apply EQ, E|]. intros y [].
    + destruct (IH m H) as (pre & post & -> & HI & HP). exists (x :: pre), post. split; [reflexivity|].
      split; [exact HI|]. intros y [<-|Hy]; [|apply HP, Hy]. intro F. apply EQ in F. congruence.
  - intros (pre & post & -> & HI & HP). induction pre as [|y pre IH]; cbn [app get_meta_by_id].
    + apply EQ in HI. rewrite HI. reflexivity.
    + destruct (metadata_id_eqb (meta_to_id y) i) eqn:E.
      * apply EQ in E. exfalso. apply (HP y); [left; reflexivity|exact E].
      * apply IH. intros z Hz. apply HP. right; exact Hz.
Qed.
Lemma get_id ms i m : get_meta_by_id ms i = Some m -> meta_to_id m = i.
Proof. intro H. apply get_first_with in H as (? & ? & _ & H & _). exact H. Qed.
Lemma filter_keep_all bs : Forall (fun m => keep_meta m = true) (metas_from_bytes bs).
Proof.
  unfold metas_from_bytes, filter_invalid_metadata. set (ms := meta_p bs).
  assert (F : Forall (fun m => keep_meta m = true) (filter keep_meta ms)).
  { apply Forall_forall. intros x Hx. apply filter_In in Hx. apply Hx. }
  destruct (first_rsd ms), (first_rsp ms); try exact F. destruct (256 <? _); [|exact F].
  apply Forall_forall. intros x Hx. apply filter_In in Hx. rewrite Forall_forall in F. apply F, Hx.
Qed.
Lemma shards_ok_from bs : shards_ok (metas_from_bytes bs).
Proof.
  unfold shards_ok, metas_from_bytes, filter_invalid_metadata. set (ms := meta_p bs). intros d p.
  rewrite first_rsd_get, first_rsp_get.
  destruct (get_meta_by_id (filter keep_meta ms) IRSD) as [m1|] eqn:E1.
  2:{ cbn [option_map]. congruence. }
  destruct (get_meta_by_id (filter keep_meta ms) IRSP) as [m2|] eqn:E2.
  2:{ destruct m1; congruence. }
  pose proof (get_id _ _ _ E1) as I1. pose proof (get_id _ _ _ E2) as I2.
  destruct m1; try discriminate. destruct m2; try discriminate.
  destruct (N.ltb_spec 256 (x + x0)).
  - intros H1 _. exfalso. apply get_first_with in H1 as (pre & post & H1 & _).
    assert (In (RSD d) (filter (fun m => negb (is_rs_meta m)) (filter keep_meta ms))).
    { rewrite H1. apply in_or_app. right. left. reflexivity. }
    apply filter_In in H0. destruct H0 as [_ H0]. discriminate.
  - rewrite E1, E2. intros A B. injection A as <-. injection B as <-. lia.
Qed.

(* ---- parser soundness on arbitrary bytes: every parsed field is in range ---- *)
Lemma str_p_inv id mk bs m r : str_p id mk bs = Some (m, r) ->
  exists s, m = mk s /\ bs = id_to_bytes id ++ [lenN s] ++ s ++ r /\ 1 <= lenN s.
Proof.
  unfold str_p. destruct (tag_p _ bs) as [[|n r1]|] eqn:E1; try discriminate.
  destruct (N.leb_spec 1 n); [|discriminate].
  destruct (take_p n r1) as [[d r2]|] eqn:E2; [|discriminate]. intro E; injection E as <- <-.
  apply tag_p_inv in E1. apply take_p_inv in E2 as [-> E2]. exists d. subst n. auto.
Qed.
Lemma num_p_inv id w mk bs m r : num_p id w mk bs = Some (m, r) ->
  exists d, m = mk (be_val d) /\ bs = id_to_bytes id ++ [w] ++ d ++ r /\ lenN d = w.
Proof.
  unfold num_p. destruct (tag_p _ bs) as [[|n r1]|] eqn:E1; try discriminate.
  destruct (N.leb_spec 1 n); [|discriminate]. destruct (N.eqb_spec n w) as [->|]; [|discriminate]. cbn [andb].
  destruct (take_p w r1) as [[d r2]|] eqn:E2; [|discriminate]. intro E; injection E as <- <-.
  apply tag_p_inv in E1. apply take_p_inv in E2 as [-> E2]. exists d. auto.
Qed.
(* type invariants only (no UTF-8, no shard restriction) *)
Definition field_typed (m : metadata) : Prop :=
  match m with
  | FNM s | SNM s => 1 <= lenN s <= 255 /\ bytes_ok s = true
  | FSZ x => x < 2 ^ 64
  | FDT x | SDT x => (- 2 ^ 63 <= x < 2 ^ 63)%Z
  | HSH (t, d) => lenN d = hash_len t /\ bytes_ok d = true
  | RSD x | RSP x => x <= 255
  end.
Lemma bits_i64_range n : n < 18446744073709551616 -> (- 2 ^ 63 <= bits_i64 n < 2 ^ 63)%Z.
Proof.
  intro H. change (2 ^ 63)%Z with 9223372036854775808%Z. unfold bits_i64.
  destruct (N.ltb_spec n 9223372036854775808); lia.
Qed.
Lemma single_meta_sound bs m r : bytes_ok bs = true -> single_meta_p bs = Some (m, r) ->
  field_typed m /\ bytes_ok r = true /\ (length r < length bs)%nat.
Proof.
  intro Hb. unfold single_meta_p, alt_p.
  assert (STR : forall id mk, str_p id mk bs = Some (m, r) -> exists s, m = mk s /\ 1 <= lenN s <= 255 /\ bytes_ok s = true
     /\ bytes_ok r = true /\ (length r < length bs)%nat).
  { intros id mk H. apply str_p_inv in H as (s & -> & -> & H). exists s. split; [reflexivity|].
    rewrite !bytes_ok_app, !andb_true_iff in Hb. destruct Hb as (_ & Hl & Hs & Hr).
    cbn in Hl. rewrite andb_true_r in Hl. apply byte_ok_lt in Hl. repeat split; try assumption; try lia.
    rewrite !app_length. cbn [length]. lia. }
  assert (NUM : forall id w mk, num_p id w mk bs = Some (m, r) -> exists x, m = mk x /\ x < 256 ^ w
     /\ bytes_ok r = true /\ (length r < length bs)%nat).
  { intros id w mk H. apply num_p_inv in H as (s & -> & -> & H). exists (be_val s). split; [reflexivity|].
    rewrite !bytes_ok_app, !andb_true_iff in Hb. destruct Hb as (_ & Hl & Hs & Hr).
    pose proof (be_val_lt s Hs) as HV. rewrite H in HV. repeat split; try assumption.
    rewrite !app_length. cbn [length]. lia. }
  destruct (str_p IFNM FNM bs) as [q|] eqn:E1.
  { intro H; injection H as ->. apply STR in E1 as (s & -> & ? & ? & ? & ?). cbn; tauto. }
  destruct (str_p ISNM SNM bs) as [q|] eqn:E2.
  { intro H; injection H as ->. apply STR in E2 as (s & -> & ? & ? & ? & ?). cbn; tauto. }
  destruct (num_p IFSZ 8 FSZ bs) as [q|] eqn:E3.
  { intro H; injection H as ->. apply NUM in E3 as (s & -> & ? & ? & ?). cbn; tauto. }
  destruct (num_p IFDT 8 _ bs) as [q|] eqn:E4.
  { intro H; injection H as ->. apply NUM in E4 as (s & -> & ? & ? & ?). split; [|tauto]. apply bits_i64_range. exact H. }
  destruct (num_p ISDT 8 _ bs) as [q|] eqn:E5.
  { intro H; injection H as ->. apply NUM in E5 as (s & -> & ? & ? & ?). split; [|tauto]. apply bits_i64_range. exact H. }
  destruct (hsh_p bs) as [q|] eqn:E6.
  { intro H; injection H as ->. unfold hsh_p in E6. destruct (tag_p _ bs) as [r1|] eqn:T; [|discriminate].
    destruct (multihash_w_len_p r1) as [[h r2]|] eqn:M; [|discriminate]. injection E6 as <- <-.
    apply tag_p_inv in T. subst bs. apply multihash_sound in M as (_ & HL & ->). destruct h as [t d]. cbn [fst snd] in *.
    rewrite !bytes_ok_app, !andb_true_iff in Hb. destruct Hb as (_ & _ & _ & _ & Hd & Hr).
    split; [split; assumption|]. split; [exact Hr|]. rewrite !app_length. cbn [length]. lia. }
  destruct (num_p IRSD 1 RSD bs) as [q|] eqn:E7.
  { intro H; injection H as ->. apply NUM in E7 as (s & -> & ? & ? & ?). cbn. change (256 ^ 1) with 256 in H. split; [lia|tauto]. }
  intro E8. apply NUM in E8 as (s & -> & ? & ? & ?). cbn. change (256 ^ 1) with 256 in H. split; [lia|tauto].
Qed.
Lemma many0_typed fuel bs : bytes_ok bs = true -> Forall field_typed (many0_meta fuel bs).
Proof.
  revert bs. induction fuel as [|f IH]; intros bs Hb; cbn [many0_meta]; [constructor|].
  destruct (single_meta_p bs) as [[m r]|] eqn:E; [|constructor].
  apply single_meta_sound in E as (Hm & Hr & _); [|exact Hb]. constructor; [exact Hm|]. apply IH, Hr.
Qed.
Lemma from_bytes_fields_ok bs : bytes_ok bs = true -> Forall field_ok (metas_from_bytes bs).
Proof.
  intro Hb. pose proof (filter_keep_all bs) as K.
  assert (T : Forall field_typed (metas_from_bytes bs)).
  { apply Forall_forall. intros x Hx. pose proof (many0_typed (length bs) bs Hb) as T.
    rewrite Forall_forall in T. apply T. unfold metas_from_bytes, filter_invalid_metadata in Hx. unfold meta_p in Hx.
    destruct (first_rsd _); [destruct (first_rsp _); [destruct (256 <? _)|]|];
    repeat match goal with H : In _ (filter _ _) |- _ => apply filter_In in H as [H _] end; exact Hx. }
  rewrite Forall_forall in *. intros x Hx. specialize (K x Hx). specialize (T x Hx).
  destruct x as [s|s|x|x|x|[t d]|x|x]; cbn in *; try tauto; apply N.leb_le in K; lia.
Qed.
(* fuel in many0_meta is enough: the parser stops because nothing more parses *)
Lemma many0_fuel bs : bytes_ok bs = true -> forall f1 f2, (length bs <= f1)%nat -> (length bs <= f2)%nat ->
  many0_meta f1 bs = many0_meta f2 bs.
Proof.
  remember (length bs) as n eqn:En. revert bs En. induction n as [n IH] using lt_wf_ind. intros bs En Hb f1 f2 H1 H2.
  destruct f1 as [|f1], f2 as [|f2]; cbn [many0_meta].
  - reflexivity.
  - destruct bs; [reflexivity|cbn in En; lia].
  - destruct bs; [reflexivity|cbn in En; lia].
  - destruct (single_meta_p bs) as [[m r]|] eqn:E; [|reflexivity].
    apply single_meta_sound in E as (_ & Hr & HL); [|exact Hb]. f_equal.
    apply (IH (length r)); try lia; try reflexivity; exact Hr.
Qed.

(* ---- loss of metadata with bad names ---- *)
Lemma bad_name_parse (s : list N) (r : list N) : lenN s mod 256 = 0 ->
  single_meta_p (id_to_bytes IFNM ++ [u8 (lenN s)] ++ s ++ r) = None.
Proof.
  intro H. unfold u8. rewrite H. unfold single_meta_p, alt_p. skip_p.
  unfold str_p. rewrite tag_p_app. cbn [app]. reflexivity.
Qed.
Theorem bad_name_loses_all s ms cap bs : lenN s mod 256 = 0 ->
  metas_to_bytes (FNM s :: ms) cap = ROk bs -> metas_from_bytes bs = [].
Proof.
  intros H. cbn [metas_to_bytes]. unfold single_to_bytes. destruct (cap <? _); [discriminate|].
  cbn [info_bytes]. destruct (metas_to_bytes ms _) as [r| |]; try discriminate. intro E; injection E as <-.
  unfold metas_from_bytes, meta_p.
  destruct (length _) as [|f]; [reflexivity|]. cbn [many0_meta].
  match goal with |- context [single_meta_p ?x] =>
    change x with (id_to_bytes IFNM ++ [u8 (lenN s)] ++ s ++ r) end.
  rewrite bad_name_parse by exact H. reflexivity.
Qed.
