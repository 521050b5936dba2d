(* Header facts in the form of the property statements. *)
From Verif Require Import M_Base L_Base L_File M_Specs M_Header L_Header.

Lemma header_layout h : header_ok h = true ->
  let bs := header_to_bytes h in
  lenN bs = 16 /\
  nthN bs 0 = 83 /\ nthN bs 1 = 66 /\ nthN bs 2 = 120 /\
  nthN bs 3 = ver_to_usize (h_version h) /\
  nthN bs 4 * 256 + nthN bs 5 = h_crc h /\
  sliceN 6 6 bs = h_uid h /\
  ((nthN bs 12 * 256 + nthN bs 13) * 256 + nthN bs 14) * 256 + nthN bs 15 = h_seq_num h /\
  header_from_bytes bs = ROk h.
Proof.
  intros H bs. pose proof (proj1 (header_ok_spec h) H) as (Hc & Hu & Hub & Hs).
  destruct (header_fields h Hu) as (F1 & F2 & F3 & F4 & F5). fold bs in F1, F2, F3, F4, F5.
  assert (V : forall p n x i, sliceN p n bs = x -> i < n -> nthN bs (p + i) = nthN x i).
  { intros p n x i <- Hi. rewrite nthN_slice. destruct (N.ltb_spec i n); [reflexivity|lia]. }
  split; [apply lenN_header_to_bytes, Hu|].
  split; [reflexivity|]. split; [reflexivity|]. split; [reflexivity|].
  split; [rewrite F2; destruct (h_version h); reflexivity|].
  split.
  { change 5 with (4 + 1). change 4 with (4 + 0) at 1. rewrite !(V 4 2 _ _ F3) by lia.
    rewrite <- (be_val_be_small 2 (h_crc h) Hc) at 3. reflexivity. }
  split; [exact F4|].
  split; [|apply header_roundtrip, H].
  change 15 with (12 + 3). change 14 with (12 + 2). change 13 with (12 + 1). change 12 with (12 + 0) at 1.
  rewrite !(V 12 4 _ _ F5) by lia.
  rewrite <- (be_val_be_small 4 (h_seq_num h) Hs) at 5. reflexivity.
Qed.
Lemma header_parser_exact buf : bytes_ok buf = true ->
  ((exists h, header_from_bytes buf = ROk h) <->
     lenN buf = 16 /\ takeN 3 buf = [83; 66; 120] /\ In (nthN buf 3) [1; 2; 3; 17; 18; 19]) /\
  (forall h, header_from_bytes buf = ROk h -> header_ok h = true /\ header_to_bytes h = buf) /\
  header_from_bytes buf <> RPanic.
Proof.
  intro Hb. split; [apply header_from_bytes_ok_iff|]. split; [|apply header_from_bytes_no_panic].
  intros h E. apply header_from_bytes_inv in E as (_ & A & B); auto.
Qed.
Lemma header_parser_injective buf1 buf2 h :
  bytes_ok buf1 = true -> bytes_ok buf2 = true ->
  header_from_bytes buf1 = ROk h -> header_from_bytes buf2 = ROk h -> buf1 = buf2.
Proof.
  intros H1 H2 E1 E2. apply header_from_bytes_inv in E1 as (_ & <- & _); [|exact H1].
  apply header_from_bytes_inv in E2 as (_ & <- & _); [|exact H2]. reflexivity.
Qed.
