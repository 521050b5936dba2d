(* C05-C08: stored hashes and metadata. *)
From Verif Require Import M_Base M_Multihash M_Metadata S_Meta L_Base L_Meta L_Meta2 L_Utf8.

(* C05: a stored hash, with its length byte, parses back, whatever follows it. *)
Theorem c05_multihash_roundtrip : forall t d rest, lenN d = hash_len t ->
  exists enc, hash_bytes_to_bytes (t, d) = ROk enc /\
    enc = hash_code t ++ [hash_len t] ++ d /\
    multihash_w_len_p ([lenN enc] ++ enc ++ rest) = Some ((canon_hash t, d), rest).
Proof. exact multihash_roundtrip. Qed.
Print Assumptions c05_multihash_roundtrip.

(* C05: the parser accepts nothing but published identifiers with the right digest length. *)
Theorem c05_multihash_sound : forall bs t d rest,
  multihash_w_len_p bs = Some ((t, d), rest) ->
  lenN d = hash_len t /\ canon_hash t = t /\
  exists enc, enc = hash_code t ++ [hash_len t] ++ d /\ bs = [lenN enc] ++ enc ++ rest.
Proof. exact multihash_sound2. Qed.
Print Assumptions c05_multihash_sound.

Example c05_example :
  exists enc, hash_bytes_to_bytes (BLAKE2S_128, repN 16 9) = ROk enc /\
    multihash_w_len_p ([lenN enc] ++ enc ++ [1; 2]) = Some ((BLAKE2S_128, repN 16 9), [1; 2]) /\
    multihash_w_len_p ([19; 178; 81; 16] ++ repN 16 9) = None.
Proof. eexists. split; [vm_compute; reflexivity|]. split; vm_compute; reflexivity. Qed.

(* C06 *)
Theorem c06_metadata_roundtrip : forall ms cap, Forall field_ok ms -> shards_ok ms ->
  (fields_size ms <= cap ->
   exists bs, metas_to_bytes ms cap = ROk bs /\ lenN bs = cap /\ bytes_ok bs = true
     /\ (forall i, fields_size ms <= i -> i < cap -> nthN bs i = 26)
     /\ metas_from_bytes bs = map canon_field ms)
  /\ (cap < fields_size ms -> metas_to_bytes ms cap = RErr TooMuchMetadata).
Proof. exact metadata_roundtrip. Qed.
Print Assumptions c06_metadata_roundtrip.

Definition c06_fields : list metadata :=
  [FNM [97; 98; 195; 169]; SNM [120]; FSZ 123456789; FDT (-5)%Z; SDT 1600000000%Z;
   HSH (SHA256, repN 32 170); RSD 10; RSP 2].
Example c06_example :
  Forall field_ok c06_fields /\ shards_ok c06_fields /\ fields_size c06_fields = 97 /\
  (exists bs, metas_to_bytes c06_fields 496 = ROk bs /\ metas_from_bytes bs = c06_fields) /\
  metas_to_bytes c06_fields 96 = RErr TooMuchMetadata.
Proof.
  split; [|split; [|split; [|split]]].
  - unfold c06_fields. repeat apply Forall_cons; try apply Forall_nil; vm_compute; repeat split; congruence.
  - intros d p E1 E2. vm_compute in E1, E2. injection E1 as <-. injection E2 as <-. vm_compute. discriminate.
  - vm_compute. reflexivity.
  - eexists. split; [vm_compute; reflexivity|vm_compute; reflexivity].
  - vm_compute. reflexivity.
Qed.

(* C07, full statement: whatever the serialiser accepts reads back. It is false: *)
Theorem c07_accepted_metadata_reads_back_refuted : exists ms bs,
  Forall (fun m => match m with FNM s | SNM s => utf8_valid s = true | _ => field_ok m end) ms /\
  metas_to_bytes ms 496 = ROk bs /\ metas_from_bytes bs <> ms /\
  get_meta_by_id ms IFSZ = Some (FSZ 5) /\ get_meta_by_id (metas_from_bytes bs) IFSZ = None.
Proof. exact accepted_not_read_back. Qed.
Print Assumptions c07_accepted_metadata_reads_back_refuted.

(* C07: extent of the loss: a name whose length is a multiple of 256 (0 included), stored first,
   loses every field of the block. *)
Theorem c07_name_length_multiple_of_256_loses_all : forall s ms cap bs,
  lenN s mod 256 = 0 -> metas_to_bytes (FNM s :: ms) cap = ROk bs -> metas_from_bytes bs = [].
Proof. exact bad_name_loses_all. Qed.
Print Assumptions c07_name_length_multiple_of_256_loses_all.

(* C07: true part: with names of 1..255 bytes everything accepted reads back. *)
Theorem c07_accepted_metadata_reads_back_partial : forall ms cap bs,
  Forall field_ok ms -> shards_ok ms -> metas_to_bytes ms cap = ROk bs ->
  metas_from_bytes bs = map canon_field ms.
Proof. exact accepted_reads_back. Qed.
Print Assumptions c07_accepted_metadata_reads_back_partial.

(* C07: exactly when: what the serialiser accepts reads back if and only if every name has 1..255 bytes and the shard counts
   make sense (fields with other values than value_ok do not exist in the program). *)
Lemma value_bytes m cap b : value_ok m -> single_to_bytes m cap = ROk b -> bytes_ok b = true.
Proof.
  intros V E. unfold single_to_bytes in E. destruct (cap <? single_meta_size m); [discriminate E|].
  assert (U : forall n, u8 n < 256) by (intro n; unfold u8; apply N.mod_lt; discriminate).
  assert (I : forall i, bytes_ok (id_to_bytes i) = true) by (intros []; reflexivity).
  destruct m as [s|s|x|x|x|[t d]|x|x]; cbn [info_bytes] in E.
  1,2: apply ROk_inj in E; subst b; rewrite !bytes_ok_app; apply andb_true_iff; split; [apply I|]; apply andb_true_iff; split; [|apply V]; cbn [bytes_ok forallb]; rewrite andb_true_r; apply N.ltb_lt, U.
  1,2,3: apply ROk_inj in E; subst b; rewrite !bytes_ok_app; apply andb_true_iff; split; [apply I|]; apply andb_true_iff; split; [reflexivity|]; apply bytes_ok_be.
  - destruct V as [V1 V2]. rewrite (hash_enc t d V1) in E. apply ROk_inj in E; subst b. rewrite !bytes_ok_app, V2, andb_true_r.
    destruct t; reflexivity.
  - cbn in V. apply ROk_inj in E; subst b. cbn [id_to_bytes meta_to_id single_info_size app bytes_ok forallb]. rewrite andb_true_r. apply andb_true_iff. split; [reflexivity|]. apply N.ltb_lt. lia.
  - cbn in V. apply ROk_inj in E; subst b. cbn [id_to_bytes meta_to_id single_info_size app bytes_ok forallb]. rewrite andb_true_r. apply andb_true_iff. split; [reflexivity|]. apply N.ltb_lt. lia.
Qed.
Lemma values_bytes ms : Forall value_ok ms -> forall cap bs, metas_to_bytes ms cap = ROk bs -> bytes_ok bs = true.
Proof.
  induction 1 as [|m ms V F IH]; intros cap bs E; cbn [metas_to_bytes] in E.
  - injection E as <-. apply bytes_ok_rep. reflexivity.
  - destruct (single_to_bytes m cap) as [b|e|] eqn:B; try discriminate E. destruct (metas_to_bytes ms _) as [r|e|] eqn:R; try discriminate E.
    injection E as <-. rewrite bytes_ok_app, (value_bytes _ _ _ V B), (IH _ _ R). reflexivity.
Qed.
Theorem c07_reads_back_iff : forall ms cap bs, Forall value_ok ms -> metas_to_bytes ms cap = ROk bs ->
  (metas_from_bytes bs = map canon_field ms <-> Forall field_ok ms /\ shards_ok ms).
Proof.
  intros ms cap bs V E. split; [|intros [A B]; exact (accepted_reads_back ms cap bs A B E)].
  intro R. destruct (parser_sanitises bs (values_bytes ms V cap bs E)) as [A B]. rewrite R in A, B. split.
  - rewrite Forall_forall in *. intros m I. specialize (V m I). specialize (A _ (in_map canon_field _ _ I)).
    destruct m as [s|s|x|x|x|[t d]|x|x]; cbn in *; tauto.
  - intros d p D P. apply (B d p); [rewrite get_canon_rsd|rewrite get_canon_rsp]; assumption.
Qed.
Print Assumptions c07_reads_back_iff.
Example c07_example_iff : Forall value_ok [FNM (repN 300 97); FSZ 5] /\ ~ Forall field_ok [FNM (repN 300 97); FSZ 5] /\
  exists bs, metas_to_bytes [FNM (repN 300 97); FSZ 5] 496 = ROk bs.
Proof.
  split; [|split].
  - constructor; [split; vm_compute; reflexivity|]. constructor; [vm_compute; reflexivity|constructor].
  - intro F. apply Forall_inv in F. destruct F as [[_ F] _]. vm_compute in F. apply F. reflexivity.
  - eexists. vm_compute. reflexivity.
Qed.

Example c07_example_256 :
  exists bs, metas_to_bytes [FNM (repN 256 97); FSZ 5] 496 = ROk bs /\ metas_from_bytes bs = [].
Proof. eexists. split; [vm_compute; reflexivity|vm_compute; reflexivity]. Qed.
Example c07_example_300 :
  exists bs, metas_to_bytes [FNM (repN 300 97); FSZ 5] 496 = ROk bs /\ metas_from_bytes bs = [FNM (repN 44 97)].
Proof. eexists. split; [vm_compute; reflexivity|vm_compute; reflexivity]. Qed.

(* C08: whatever bytes are parsed, only sane fields come out. *)
Theorem c08_parser_sanitises : forall bs, bytes_ok bs = true ->
  Forall field_ok (metas_from_bytes bs) /\ shards_ok (metas_from_bytes bs).
Proof. exact parser_sanitises. Qed.
Print Assumptions c08_parser_sanitises.
Theorem c08_lookup_is_first : forall ms i m, get_meta_by_id ms i = Some m <-> first_with ms i m.
Proof. exact get_first_with. Qed.
Print Assumptions c08_lookup_is_first.

(* hostile payload: shard counts 0, then 200 + 100; invalid UTF-8 name *)
Example c08_example :
  metas_from_bytes ([82;83;68;1;0] ++ [82;83;68;1;200] ++ [82;83;80;1;100] ++ [70;78;77;2;255;254] ++ [83;78;77;1;65])
  = [SNM [65]].
Proof. reflexivity. Qed.
(* C08: the names that are kept, whatever bytes are parsed, are UTF-8 texts: sequences of encoded Unicode
   scalar values; and the test used keeps every such text. *)
Theorem c08_names_are_utf8 : forall bs m s, bytes_ok bs = true -> In m (metas_from_bytes bs) -> m = FNM s \/ m = SNM s -> is_utf8 s.
Proof.
  intros bs m s HB HI HM. destruct (parser_sanitises bs HB) as [F _]. rewrite Forall_forall in F. specialize (F m HI).
  apply utf8_valid_iff. destruct HM as [-> | ->]; apply F.
Qed.
Print Assumptions c08_names_are_utf8.
Theorem c08_utf8_test_exact : forall s, utf8_valid s = true <-> is_utf8 s.
Proof. exact utf8_valid_iff. Qed.
Print Assumptions c08_utf8_test_exact.
Example c08_utf8_examples : is_utf8 (utf8_enc 0x41 ++ utf8_enc 0xE9 ++ utf8_enc 0x20AC ++ utf8_enc 0x1F600) /\ ~ is_utf8 [0xED; 0xA0; 0x80] /\ ~ is_utf8 [0xC0; 0x80].
Proof. split; [|split]; rewrite <- utf8_valid_iff; vm_compute; congruence. Qed.
