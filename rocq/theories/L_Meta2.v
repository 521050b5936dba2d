(* Metadata facts in the form of the property statements. *)
From Verif Require Import M_Base L_Base L_File M_Multihash M_Metadata S_Meta L_Meta.

Lemma multihash_roundtrip t d rest : lenN d = hash_len t ->
  exists enc, hash_bytes_to_bytes (t, d) = ROk enc /\
    enc = hash_code t ++ [hash_len t] ++ d /\
    multihash_w_len_p ([lenN enc] ++ enc ++ rest) = Some ((canon_hash t, d), rest).
Proof.
  intro H. eexists. split; [apply hash_enc, H|]. split; [reflexivity|].
  rewrite <- (multihash_parse t d rest H). f_equal. rewrite !lenN_app, H, <- !app_assoc. do 2 f_equal.
  change (lenN [hash_len t]) with 1. lia.
Qed.
Lemma multihash_sound2 bs t d rest :
  multihash_w_len_p bs = Some ((t, d), rest) ->
  lenN d = hash_len t /\ canon_hash t = t /\
  exists enc, enc = hash_code t ++ [hash_len t] ++ d /\ bs = [lenN enc] ++ enc ++ rest.
Proof.
  intro H. apply multihash_sound in H as (A & B & C). cbn [fst snd] in *. split; [exact B|]. split; [exact A|].
  eexists. split; [reflexivity|]. rewrite C, !lenN_app, B, <- !app_assoc. do 2 f_equal.
  change (lenN [hash_len t]) with 1. lia.
Qed.
Lemma accepted_not_read_back : exists ms bs,
  Forall (fun m => match m with FNM s | SNM s => utf8_valid s = true | _ => field_ok m end) ms /\
  metas_to_bytes ms 496 = ROk bs /\ metas_from_bytes bs <> ms /\
  get_meta_by_id ms IFSZ = Some (FSZ 5) /\ get_meta_by_id (metas_from_bytes bs) IFSZ = None.
Proof.
  exists [FNM (repN 300 97); FSZ 5]. eexists. split.
  - constructor; [vm_compute; reflexivity|]. constructor; [vm_compute; reflexivity|constructor].
  - split; [vm_compute; reflexivity|]. split; [vm_compute; discriminate|]. split; vm_compute; reflexivity.
Qed.
Lemma accepted_reads_back ms cap bs :
  Forall field_ok ms -> shards_ok ms -> metas_to_bytes ms cap = ROk bs ->
  metas_from_bytes bs = map canon_field ms.
Proof.
  intros H HS E. destruct (metadata_roundtrip ms cap H HS) as [A B].
  destruct (N.le_gt_cases (fields_size ms) cap) as [HC|HC].
  - destruct (A HC) as (bs' & E' & _ & _ & _ & R). congruence.
  - rewrite (B HC) in E. discriminate.
Qed.
Lemma parser_sanitises bs : bytes_ok bs = true ->
  Forall field_ok (metas_from_bytes bs) /\ shards_ok (metas_from_bytes bs).
Proof. intro H. split; [apply from_bytes_fields_ok, H|apply shards_ok_from]. Qed.
