(* Properties of encoding: C14, C35, C36, C38 and the container layout C15 relies on. *)
From Verif Require Import M_Base M_Specs M_Crc M_Header M_Multihash M_Metadata M_Block M_Index M_FileUtils M_Buffer M_Ranges M_Encode
  S_Crc S_Meta S_Block S_Index S_Container S_Encode L_Base L_Encode4.

(* A concrete digest function and codec, and parameters, to show the hypotheses can be met *)
Definition toy_hash : hash_fn := fun t data => repN (hash_len t) (lenN data mod 256).
Definition toy_rs : codec := fun d p data => repN p (nth 0 data []).
Definition toy_p (v : version) (o : dpb) : eparam :=
  mkEparam v [1;2;3;4;5;6] o true SHA256 None None (Some [97]) [98;46;115;98;120] (Some 5%Z) 7%Z.
Definition toy_ranged (f : N) (t : range_end) : eparam :=
  mkEparam V1 [1;2;3;4;5;6] None true SHA256 (Some f) (Some t) (Some [97]) [98] None 7%Z.

(* C38, whole files: the container holds exactly the file; its metadata blocks record the length and
   the digest of the file. Together with the definition of is_container this gives where every byte of
   the output comes from. *)
Theorem c38_encoded_container_is_the_file H rs p cpus content mx n :
  enc_ok H rs cpus p -> meta_fits H p -> input_ok (SrcFile content) ->
  e_from p = None -> e_to p = None ->
  ver_to_max_data_file_size (e_ver p) (e_dpb p) = ROk mx -> lenN content <= mx ->
  block_count (e_ver p) (e_dpb p) (lenN content) n -> n < U32_MAX ->
  exists out, encode_file H rs cpus p (SrcFile content) = ROk out /\ encoded H rs p content out.
Proof. exact (fun OK F => encode_whole H rs p cpus OK F content mx n). Qed.

(* C38, standard input: what is encoded is a prefix of the input, recorded with its own length and
   digest, or an error is reported because the input is too large. *)
Theorem c38_encoded_stdin H rs p cpus script mx :
  enc_ok H rs cpus p -> meta_fits H p -> input_ok (SrcStdin script) ->
  ver_to_max_data_file_size (e_ver p) (e_dpb p) = ROk mx ->
  exists data rest, concat script = data ++ rest /\ lenN data <= mx /\
   (well_paced (ver_to_data_size (e_ver p)) script -> data = takeN mx (concat script)) /\
   ((exists out, encode_file H rs cpus p (SrcStdin script) = ROk out /\ eo_err out = true /\ lenN data = mx /\ rest <> []) \/
    ((well_paced (ver_to_data_size (e_ver p)) script -> rest = []) /\
     forall n, block_count (e_ver p) (e_dpb p) (lenN data) n -> n < U32_MAX ->
       exists out, encode_file H rs cpus p (SrcStdin script) = ROk out /\ encoded H rs p data out)).
Proof. exact (fun OK F => encode_stdin H rs p cpus OK F script mx). Qed.

(* A file over the limit, or metadata that does not fit, is refused and nothing is written. *)
Theorem c38_too_large_refused H rs p cpus content mx :
  ver_to_max_data_file_size (e_ver p) (e_dpb p) = ROk mx -> mx < fst (asked p content) ->
  exists out, encode_file H rs cpus p (SrcFile content) = ROk out /\ eo_err out = true /\ eo_file out = [].
Proof. exact (encode_too_large H rs p cpus content mx). Qed.
Theorem c38_metadata_too_big_refused H rs cpus p content mx :
  enc_ok H rs cpus p -> meta_on p = true ->
  ver_to_block_size (e_ver p) - 16 < fields_size (recorded H p []) ->
  range_ok p content \/ (e_from p = None /\ e_to p = None) -> input_ok (SrcFile content) ->
  ver_to_max_data_file_size (e_ver p) (e_dpb p) = ROk mx ->
  exists out, encode_file H rs cpus p (SrcFile content) = ROk out /\ eo_err out = true /\ eo_file out = [].
Proof. exact (encode_meta_too_big H rs cpus p content mx). Qed.

(* C14: the outcome (file, statistics, hash, size, error) is the same for any number of CPUs, which
   determines the number of lots of a buffer. *)
Theorem c14_independent_of_cpus H rs p c1 c2 input :
  enc_ok H rs c1 p -> 1 <= c2 <= 37000 -> input_ok input ->
  match input with SrcFile content => range_ok p content \/ (e_from p = None /\ e_to p = None) | SrcStdin _ => True end ->
  meta_fits H p -> encode_file H rs c1 p input = encode_file H rs c2 p input.
Proof. exact (encode_cpus H rs p c1 c2 input). Qed.

(* C35: standard input that arrives in pieces of at least a quarter of a payload is encoded completely. *)
Theorem c35_stdin_complete_partial H rs p cpus script mx n :
  enc_ok H rs cpus p -> meta_fits H p -> input_ok (SrcStdin script) ->
  well_paced (ver_to_data_size (e_ver p)) script ->
  ver_to_max_data_file_size (e_ver p) (e_dpb p) = ROk mx -> lenN (concat script) <= mx ->
  block_count (e_ver p) (e_dpb p) (lenN (concat script)) n -> n < U32_MAX ->
  exists out, encode_file H rs cpus p (SrcStdin script) = ROk out /\ encoded H rs p (concat script) out.
Proof.
  intros OK F IO WP HMX HL HBC HN. destruct (encode_stdin H rs p cpus OK F script mx IO HMX) as (data & rest & E1 & E2 & E3 & E4).
  specialize (E3 WP). rewrite take_all in E3 by exact HL. subst data.
  destruct E4 as [(out & _ & _ & _ & X)|[_ X]]; [|apply (X n HBC HN)].
  exfalso. apply X. apply (app_inv_head (concat script)). rewrite app_nil_r. symmetry. exact E1.
Qed.
(* The full statement is false: six one byte pieces lose the sixth byte, without an error. *)
Theorem c35_stdin_complete_refuted : ~ forall H rs p cpus script mx n,
  enc_ok H rs cpus p -> meta_fits H p -> input_ok (SrcStdin script) ->
  ver_to_max_data_file_size (e_ver p) (e_dpb p) = ROk mx -> lenN (concat script) <= mx ->
  block_count (e_ver p) (e_dpb p) (lenN (concat script)) n -> n < U32_MAX ->
  exists out, encode_file H rs cpus p (SrcStdin script) = ROk out /\ encoded H rs p (concat script) out.
Proof.
  intro A. destruct (A toy_hash toy_rs (toy_p V1 None) 1 [[1];[2];[3];[4];[5];[6]] 2130303778320 1) as (out & E1 & E2).
  - unfold enc_ok, hash_fn_ok, name_ok, time_ok, codec_ok, toy_p, toy_hash; cbn [e_uid e_dpb e_ver e_hash e_in_name e_out_name e_fdt e_sdt].
    repeat split; try (vm_compute; congruence); try (destruct t; reflexivity); try lia. apply bytes_ok_rep. apply N.mod_lt. lia.
  - intros _. vm_compute. discriminate.
  - split; vm_compute; reflexivity.
  - vm_compute. reflexivity.
  - vm_compute. discriminate.
  - exists 1. split; [|reflexivity]. split; [vm_compute; discriminate|]. intros m Hm. destruct m; [exfalso; vm_compute in Hm; congruence|lia].
  - vm_compute. reflexivity.
  - destruct E2 as (_ & _ & E2 & _). 
    assert (X : match encode_file toy_hash toy_rs 1 (toy_p V1 None) (SrcStdin [[1];[2];[3];[4];[5];[6]]) with ROk out => match eo_hash out with Some (_, x :: _) => x =? 5 | _ => false end | _ => false end = true) by (vm_compute; reflexivity).
    rewrite E1, E2 in X. vm_compute in X. discriminate X.
Qed.

(* C36: with a range, the stored data are the bytes of the range followed by those bytes after it that fill the last payload, as
   far as there are any: none if the range is a whole number of payloads or reaches the end of the file. *)
Theorem c36_range_partial H rs p cpus content mx n :
  enc_ok H rs cpus p -> meta_fits H p -> input_ok (SrcFile content) -> range_ok p content ->
  ver_to_max_data_file_size (e_ver p) (e_dpb p) = ROk mx -> lenN (wanted p content) <= mx ->
  block_count (e_ver p) (e_dpb p) (lenN (wanted p content)) n -> n < U32_MAX ->
  let ds := ver_to_data_size (e_ver p) in
  exists out extra, encode_file H rs cpus p (SrcFile content) = ROk out /\
    encoded H rs p (wanted p content ++ extra) out /\
    extra = takeN ((ds - lenN (wanted p content) mod ds) mod ds) (dropN (range_hi p content) content).
Proof. exact (fun OK F => encode_range H rs p cpus OK F content mx n). Qed.
(* so exactly the range is stored if and only if it is a whole number of payloads or reaches the end of the file *)
Theorem c36_range_exact_iff H rs p cpus content mx n :
  enc_ok H rs cpus p -> meta_fits H p -> input_ok (SrcFile content) -> range_ok p content ->
  ver_to_max_data_file_size (e_ver p) (e_dpb p) = ROk mx -> lenN (wanted p content) <= mx ->
  block_count (e_ver p) (e_dpb p) (lenN (wanted p content)) n -> n < U32_MAX ->
  exists out, encode_file H rs cpus p (SrcFile content) = ROk out /\ exists data, encoded H rs p data out /\
    (data = wanted p content <-> lenN (wanted p content) mod ver_to_data_size (e_ver p) = 0 \/ lenN content <= range_hi p content).
Proof.
  intros OK F IO RO HMX HL HBC HN. destruct (encode_range H rs p cpus OK F content mx n IO RO HMX HL HBC HN) as (out & extra & E1 & E2 & E3).
  exists out. split; [exact E1|]. exists (wanted p content ++ extra). split; [exact E2|].
  destruct (L_Index2.data_size_pos (e_ver p)) as [DS _]. set (ds := ver_to_data_size (e_ver p)) in *.
  pose proof (N.mod_lt (lenN (wanted p content)) ds ltac:(lia)) as ML. split.
  - intro A. assert (extra = []) as -> by (apply (app_inv_head (wanted p content)); rewrite app_nil_r; exact A).
    apply (f_equal (@lenN _)) in E3. rewrite lenN_take, lenN_drop in E3. change (lenN (@nil N)) with 0 in E3.
    destruct (N.eq_dec (lenN (wanted p content) mod ds) 0) as [Z|Z]; [left; exact Z|right]. rewrite N.mod_small in E3 by lia. lia.
  - intros [Z|Z].
    + rewrite Z, N.sub_0_r, N.mod_same, take_0 in E3 by lia. rewrite E3. apply app_nil_r.
    + rewrite (drop_all _ content), take_nil in E3 by exact Z. rewrite E3. apply app_nil_r.
Qed.
Print Assumptions c36_range_exact_iff.
(* The full statement is false: asking for the first 2 of 6 bytes stores all 6. *)
Theorem c36_range_refuted : ~ forall H rs p cpus content mx n,
  enc_ok H rs cpus p -> meta_fits H p -> input_ok (SrcFile content) -> range_ok p content ->
  ver_to_max_data_file_size (e_ver p) (e_dpb p) = ROk mx -> lenN (wanted p content) <= mx ->
  block_count (e_ver p) (e_dpb p) (lenN (wanted p content)) n -> n < U32_MAX ->
  exists out, encode_file H rs cpus p (SrcFile content) = ROk out /\ encoded H rs p (wanted p content) out.
Proof.
  intro A. destruct (A toy_hash toy_rs (toy_ranged 0 (Exc 2)) 1 [1;2;3;4;5;6] 2130303778320 1) as (out & E1 & E2).
  - unfold enc_ok, hash_fn_ok, name_ok, time_ok, codec_ok, toy_ranged, toy_hash; cbn [e_uid e_dpb e_ver e_hash e_in_name e_out_name e_fdt e_sdt].
    repeat split; try (vm_compute; congruence); try (destruct t; reflexivity); try lia. apply bytes_ok_rep. apply N.mod_lt. lia.
  - intros _. vm_compute. discriminate.
  - split; vm_compute; reflexivity.
  - repeat split; vm_compute; reflexivity.
  - vm_compute. reflexivity.
  - vm_compute. discriminate.
  - exists 1. split; [|reflexivity]. split; [vm_compute; discriminate|]. intros m Hm. destruct m; [exfalso; vm_compute in Hm; congruence|lia].
  - vm_compute. reflexivity.
  - destruct E2 as (_ & _ & E2 & _).
    assert (X : match encode_file toy_hash toy_rs 1 (toy_ranged 0 (Exc 2)) (SrcFile [1;2;3;4;5;6]) with ROk out => match eo_hash out with Some (_, x :: _) => x =? 6 | _ => false end | _ => false end = true) by (vm_compute; reflexivity).
    rewrite E1, E2 in X. vm_compute in X. discriminate X.
Qed.

(* The parameters and a concrete codec and digest meet enc_ok and meta_fits, with and without
   Reed-Solomon; a 1200 byte input meets the other hypotheses. *)
Lemma toy_hash_ok : hash_fn_ok toy_hash.
Proof. intros t data. split; [destruct t; reflexivity|]. apply bytes_ok_rep. apply N.mod_lt. lia. Qed.
Lemma toy_rs_ok o : match o with Some (d, p, _) => 1 <= d | None => True end -> codec_ok toy_rs o.
Proof.
  destruct o as [[[d p] B]|]; [|exact (fun _ => I)]. intros D n data L HX. unfold toy_rs. split; [apply lenN_rep|].
  intros y Hy. apply repeat_spec in Hy. subst y. apply HX. destruct data as [|x data]; [cbn in L; unfold lenN in L; cbn in L; lia|left; reflexivity].
Qed.
Lemma toy_ok v o : dpb_ok o -> ver_uses_rs v = match o with Some _ => true | None => false end ->
  match o with Some (d, par, B) => (d + par) * B < 4294967296 | None => True end -> enc_ok toy_hash toy_rs 4 (toy_p v o).
Proof.
  intros D V B. unfold enc_ok, name_ok, time_ok; cbn [toy_p e_uid e_dpb e_ver e_hash e_in_name e_out_name e_fdt e_sdt].
  repeat (first [assumption | apply toy_hash_ok | lia | split]); try (vm_compute; congruence).
  apply toy_rs_ok. unfold dpb_ok in D. destruct o as [[[d q] b]|]; [lia|exact I].
Qed.
Definition toy_o : dpb := Some (3, 2, 4).
Example c38_hypotheses : enc_ok toy_hash toy_rs 4 (toy_p V17 toy_o) /\ meta_fits toy_hash (toy_p V17 toy_o) /\
  enc_ok toy_hash toy_rs 4 (toy_p V2 None) /\ meta_fits toy_hash (toy_p V2 None) /\
  input_ok (SrcFile (repN 1200 65)) /\ (exists mx, ver_to_max_data_file_size V17 toy_o = ROk mx /\ 1200 <= mx) /\
  calc_data_block_count_exc_burst_gaps V17 toy_o 1200 = 5 /\
  input_ok (SrcStdin [repN 300 1; repN 200 2; repN 1 3]) /\ well_paced 496 [repN 300 1; repN 200 2; repN 1 3] /\
  range_ok (toy_ranged 3 (Inc 900)) (repN 1200 65).
Proof.
  split; [apply toy_ok; vm_compute; repeat split; congruence|]. split; [intros _; vm_compute; discriminate|].
  split; [apply toy_ok; vm_compute; repeat split; congruence|]. split; [intros _; vm_compute; discriminate|].
  split; [split; vm_compute; reflexivity|]. split; [eexists; split; [vm_compute; reflexivity|vm_compute; discriminate]|].
  split; [vm_compute; reflexivity|]. split; [split; vm_compute; reflexivity|]. split.
  - intros pre x post E HP. destruct pre as [|a [|b [|c pre]]]; cbn [app] in E; injection E as; subst; try (vm_compute; discriminate); [congruence|]. destruct pre; discriminate.
  - repeat split; vm_compute; reflexivity.
Qed.
(* running the encoder on it *)
Example c38_run : match encode_file toy_hash toy_rs 4 (toy_p V17 toy_o) (SrcFile (repN 1200 65)) with
  | ROk out => negb (eo_err out) && (st_data (eo_stats out) =? 3) && (st_parity (eo_stats out) =? 2) && (eo_size out =? lenN (eo_file out))
  | _ => false end = true.
Proof. vm_compute. reflexivity. Qed.

Print Assumptions c38_encoded_container_is_the_file.
Print Assumptions c38_encoded_stdin.
Print Assumptions c38_too_large_refused.
Print Assumptions c38_metadata_too_big_refused.
Print Assumptions c14_independent_of_cpus.
Print Assumptions c35_stdin_complete_partial.
Print Assumptions c35_stdin_complete_refuted.
Print Assumptions c36_range_partial.
Print Assumptions c36_range_refuted.
