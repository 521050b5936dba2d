(* C39: the hash of the data stored in a container, as computed by the commands "check" and "update". *)
From Verif Require Import M_Base M_Specs M_Crc M_Header M_Multihash M_Metadata M_Block M_Index M_FileUtils M_Buffer M_Ranges M_Encode M_Scan M_Loop M_Decode M_Content
  S_Crc S_Meta S_Block S_Index S_Container S_Encode S_Scan S_Decode S_Content
  L_Base L_File L_Header L_Block L_Index L_Container L_Scan L_Index2 L_Chunks L_Content L_Intact L_Intact2 L_Roundtrip P_Encode P_Decode P_Roundtrip.
Ltac Zify.zify_post_hook ::= idtac.

Lemma numbered_chunks v o size : dpb_ok o -> 1 <= size -> numbered v o size ->
  exists K, 1 <= K /\ (K - 1) * ver_to_data_size v < size /\ size <= K * ver_to_data_size v /\ dseq o (K - 1) <= U32_MAX.
Proof.
  intros HO S1 (n & (K & [C1 C2] & C3) & HN). assert (DSE : ver_to_block_size v - 16 = ver_to_data_size v) by (rewrite (proj2 (data_size_pos v)); reflexivity).
  rewrite DSE in *. set (ds := ver_to_data_size v) in *. assert (K1 : 1 <= K) by (destruct (N.eq_dec K 0) as [E|]; [rewrite E in C1; lia|lia]).
  exists K. split; [exact K1|]. split; [apply N.nle_gt; intro L; apply C2 in L; lia|]. split; [exact C1|]. unfold dseq.
  destruct o as [[[d p] B]|]; [|subst n; lia]. destruct C3 as (sets & [S1' S2] & ->). destruct HO as (Hd & Hp & _).
  pose proof (N.div_mod' (K - 1) d) as DM. pose proof (N.mod_lt (K - 1) d ltac:(lia)) as ML. set (x := (K - 1) / d) in *. set (y := (K - 1) mod d) in *.
  assert (XS : x < sets). { apply (N.mul_lt_mono_pos_r d); lia. }
  assert (X : (x + 1) * (d + p) <= sets * (d + p)) by (apply N.mul_le_mono_r; lia).
  rewrite N.mul_add_distr_r in X. generalize dependent (x * (d + p)). generalize dependent (sets * (d + p)). intros. lia.
Qed.

(* C39. For a file of any content and a reference block, shard counts and a positive size: the hash computed is h exactly
   when there is a string of that size all of whose chunks are at their places in the file, in blocks that are valid and
   of the same version and UID, and h is its hash. *)
Theorem c39_container_hash H cpus f o size ref t h :
  1 <= cpus -> bytes_ok f = true -> dpb_ok o -> 1 <= size -> numbered (b_version ref) o size ->
  (content_hash H cpus f o size ref t = ROk h <->
   exists data, lenN data = size /\ data_in_place (b_version ref) (b_uid ref) o f data /\ h = finish_hash H t data).
Proof.
  intros CP HB HO S1 NU. destruct (numbered_chunks _ _ _ HO S1 NU) as (K & K1 & KL & KU & SQ).
  pose proof (content_bytes_iff cpus f ref o size K CP HB HO K1 KL KU SQ) as E. unfold content_hash. split.
  - destruct (content_bytes cpus f o size ref) as [w| |] eqn:EW; cbn [rbind]; [|discriminate|discriminate]. intro X; apply ROk_inj in X; subst h.
    exists w. destruct (proj1 (E w) eq_refl) as [A B]. auto.
  - intros (data & L & D & ->). rewrite (proj2 (E data) (conj L D)). reflexivity.
Qed.
(* There is at most one such string. *)
Theorem c39_data_unique v uid o f d1 d2 : dpb_ok o -> lenN d1 = lenN d2 -> data_in_place v uid o f d1 -> data_in_place v uid o f d2 -> d1 = d2.
Proof.
  intros HO L D1 D2. unfold data_in_place in *. cbv zeta in *. set (ds := ver_to_block_size v - 16) in *. assert (P : 1 <= ds) by (pose proof (block_size_pos v); unfold ds; lia).
  apply list_ext_N; [exact L|]. intros i Hi. pose proof (N.div_mod' i ds) as DM. pose proof (N.mod_lt i ds ltac:(lia)) as ML. set (j := i / ds) in *. set (r := i mod ds) in *.
  destruct (D1 j ltac:(lia)) as (p1 & C1 & E1). destruct (D2 j ltac:(lia)) as (p2 & C2 & E2). rewrite (chunk_unique _ _ _ _ _ _ _ HO C2 C1) in E2.
  rewrite <- L, <- E1 in E2. apply (f_equal (fun l => nthN l r)) in E2. rewrite !nthN_slice in E2. destruct (N.ltb_spec r ds); [|lia]. replace i with (j * ds + r) by lia. symmetry; exact E2.
Qed.
(* If any chunk is missing, the command reports an error: no hash of anything else, no panic. *)
Theorem c39_missing_data H cpus f o size ref t :
  1 <= cpus -> bytes_ok f = true -> dpb_ok o -> 1 <= size -> numbered (b_version ref) o size ->
  (forall data, lenN data = size -> ~ data_in_place (b_version ref) (b_uid ref) o f data) ->
  content_hash H cpus f o size ref t = RErr OtherError.
Proof.
  intros CP HB HO S1 NU NO. destruct (numbered_chunks _ _ _ HO S1 NU) as (K & K1 & KL & KU & SQ).
  unfold content_hash. rewrite (content_bytes_err cpus f ref o size K CP HB HO K1 KL KU SQ NO). reflexivity.
Qed.
(* For an undamaged container of a file that is not empty, it is the hash of that file. *)
Theorem c39_intact_container v uid o rs ms data f n H cpus ref t :
  intact v uid true o rs ms data f n -> 1 <= lenN data -> 1 <= cpus -> b_version ref = v -> b_uid ref = uid ->
  content_hash H cpus f o (lenN data) ref t = ROk (finish_hash H t data).
Proof.
  intros IT L1 CP <- <-. set (v := b_version ref) in *. assert (HO' := HO _ _ _ _ _ _ _ _ _ IT).
  apply c39_container_hash; [exact CP|apply (file_bytes _ _ _ _ _ _ _ _ _ IT)|exact HO'|exact L1|exists n; split; [exact (BC _ _ _ _ _ _ _ _ _ IT)|exact (HN _ _ _ _ _ _ _ _ _ IT)]|].
  exists data. split; [reflexivity|]. split; [|reflexivity]. intros j Hj. fold v.
  destruct (chunk_seq _ _ _ _ _ _ _ _ _ IT j Hj) as (seq & Hs & C). exists (payload_of v o rs data seq). split.
  - exists seq. split; [exact C|]. apply (data_block _ _ _ _ _ _ _ _ _ IT seq Hs).
  - rewrite (payload_chunk _ _ _ _ _ _ C). unfold chunk. rewrite lenN_slice. set (ds := ver_to_block_size v - 16) in *.
    destruct (N.le_gt_cases ds (lenN data - j * ds)).
    + replace (ds - N.min ds (lenN data - j * ds)) with 0 by lia. change (repN 0 26) with (@nil N). rewrite app_nil_r. symmetry. apply take_all. rewrite lenN_slice. lia.
    + assert (E : lenN data - j * ds = lenN (sliceN (j * ds) ds data)) by (rewrite lenN_slice; lia). rewrite E. symmetry. rewrite take_app, N.sub_diag, take_0, app_nil_r, take_all; [reflexivity|lia].
Qed.
(* Not so for the container of an empty file: computing its hash fails (finding F11). *)
Theorem c39_empty_file_refuted : exists v uid o rs ms f ref, intact v uid true o rs ms [] f 0 /\ b_version ref = v /\ b_uid ref = uid /\
  forall t, content_hash toy_hash 1 f o 0 ref t = RErr OtherError.
Proof.
  destruct (c38_encoded_container_is_the_file toy_hash toy_rs (toy_p V1 None) 4 [] 2130303778320 0) as (out & E & EN).
  - apply toy_ok; vm_compute; repeat split; congruence.
  - intros _. vm_compute. discriminate.
  - split; reflexivity.
  - reflexivity.
  - reflexivity.
  - reflexivity.
  - vm_compute; discriminate.
  - exists 0. split; [split; [vm_compute; discriminate|intros; lia]|reflexivity].
  - reflexivity.
  - destruct (encoded_intact toy_hash toy_rs 4 (toy_p V1 None) [] out 0) as [IT _]; [apply toy_ok; vm_compute; repeat split; congruence|reflexivity|exact EN|exists 0; split; [split; [vm_compute; discriminate|intros; lia]|reflexivity]|vm_compute; discriminate|].
    exists V1, [1;2;3;4;5;6], None, toy_rs, (recorded toy_hash (toy_p V1 None) []), (eo_file out), (mkBlock (header_new V1 [1;2;3;4;5;6] 0) DData).
    split; [exact IT|]. split; [reflexivity|]. split; [reflexivity|]. intro t. unfold content_hash.
    assert (X : match encode_file toy_hash toy_rs 4 (toy_p V1 None) (SrcFile []) with
      | ROk out => match content_bytes 1 (eo_file out) None 0 (mkBlock (header_new V1 [1;2;3;4;5;6] 0) DData) with RErr OtherError => true | _ => false end | _ => false end = true) by (vm_compute; reflexivity).
    rewrite E in X. destruct (content_bytes _ _ _ _ _) as [|[]|]; try discriminate X; reflexivity.
Qed.

Definition toy_ref : block := mkBlock (header_new V17 [1;2;3;4;5;6] 0) DData.
Example c39_hypotheses : bytes_ok toy_file = true /\ dpb_ok toy_o /\ numbered V17 toy_o 1200 /\
  content_hash toy_hash 2 toy_file toy_o 1200 toy_ref SHA256 = ROk (finish_hash toy_hash SHA256 toy_content) /\
  content_bytes 2 toy_file toy_o 1200 toy_ref = ROk toy_content /\
  content_bytes 2 (takeN 1024 toy_file ++ repN 512 255 ++ dropN 1536 toy_file) toy_o 1200 toy_ref = ROk toy_content /\
  content_bytes 2 (takeN 512 toy_file ++ repN 512 255 ++ dropN 1024 toy_file) toy_o 1200 toy_ref = RErr OtherError /\
  content_bytes 2 toy_file toy_o 1500 toy_ref = RErr OtherError.
Proof.
  split; [vm_compute; reflexivity|]. split; [vm_compute; repeat split; congruence|]. split; [exists 5; split; [|vm_compute; discriminate]|].
  { exists 3. split; [split; [vm_compute; discriminate|cbn; intros; lia]|]. exists 1. split; [split; [vm_compute; discriminate|intros; lia]|reflexivity]. }
  repeat split; vm_compute; reflexivity.
Qed.
Print Assumptions c39_container_hash.
Print Assumptions c39_data_unique.
Print Assumptions c39_missing_data.
Print Assumptions c39_intact_container.
Print Assumptions c39_empty_file_refuted.
