(* The log text of a rescue: writing and reading back, whole or cut short. *)
From Coq Require Import Permutation.
From Verif Require Import M_Base M_Specs M_Ranges M_Rescue L_Base L_Ranges.
Ltac Zify.zify_post_hook ::= idtac.

Lemma take_app_le n (a b : list N) : n <= lenN a -> takeN n (a ++ b) = takeN n a.
Proof. intro H. rewrite take_app. replace (n - lenN a) with 0 by lia. rewrite take_0, app_nil_r. reflexivity. Qed.
Lemma Forall_take (P : N -> Prop) n l : Forall P l -> Forall P (takeN n l).
Proof. intro H. rewrite <- (take_drop n l) in H. apply Forall_app in H. apply H. Qed.
Definition digits (d : list N) : Prop := Forall (fun c => is_digit c = true) d.
Lemma dec_digits_ok fuel : forall n, (n < 2 ^ N.of_nat fuel) -> (0 < fuel)%nat ->
  digits (dec_digits fuel n) /\ dec_value (dec_digits fuel n) = n /\ dec_digits fuel n <> [].
Proof.
  induction fuel as [|k IH]; intros n HN HF; [lia|]. cbn [dec_digits].
  pose proof (N.mod_upper_bound n 10 ltac:(lia)) as M. pose proof (N.div_mod n 10 ltac:(lia)) as D.
  assert (DG : is_digit (48 + n mod 10) = true).
  { unfold is_digit. apply andb_true_intro. split; apply N.leb_le; lia. }
  destruct (N.ltb_spec n 10) as [H|H].
  - cbn [app]. split; [repeat constructor; exact DG|]. split; [|discriminate].
    cbn [dec_value fold_left]. rewrite N.mod_small by lia. unfold dec_value. cbn [fold_left]. lia.
  - rewrite Nat2N.inj_succ, N.pow_succ_r' in HN. set (q := n / 10) in *. set (x := 2 ^ N.of_nat k) in *.
    assert (HK : (0 < k)%nat). { destruct k; [|lia]. subst x. cbn in HN. lia. }
    destruct (IH q ltac:(lia) HK) as (A & B & C).
    split; [apply Forall_app; split; [exact A|repeat constructor; exact DG]|]. split; [|destruct (dec_digits k q); discriminate].
    unfold dec_value in *. rewrite fold_left_app. cbn [fold_left]. rewrite B. lia.
Qed.
Lemma dec_ok n : digits (dec n) /\ dec_value (dec n) = n /\ dec n <> [].
Proof.
  apply dec_digits_ok; [|lia]. rewrite Nat2N.inj_succ, N2Nat.id. destruct (N.eq_dec n 0) as [->|H]; [reflexivity|].
  apply N.log2_spec. lia.
Qed.
Lemma dec_len_fuel fuel : forall n m, n < 10 ^ m -> 1 <= m -> lenN (dec_digits fuel n) <= m.
Proof.
  induction fuel as [|k IH]; intros n m HN HM; cbn [dec_digits]; [rewrite lenN_nil; lia|].
  rewrite lenN_app, lenN_cons, lenN_nil. destruct (N.ltb_spec n 10) as [H|H]; [rewrite lenN_nil; lia|].
  destruct (N.eq_dec m 1) as [->|H1]; [change (10 ^ 1) with 10 in HN; lia|].
  specialize (IH (n / 10) (m - 1)). enough (lenN (dec_digits k (n / 10)) <= m - 1) by lia. apply IH; [|lia].
  apply N.div_lt_upper_bound; [lia|]. rewrite <- N.pow_succ_r'. replace (N.succ (m - 1)) with m by lia. exact HN.
Qed.
Lemma dec_len n : n < 18446744073709551616 -> lenN (dec n) <= 20.
Proof. intro H. apply dec_len_fuel; [|lia]. eapply N.lt_trans; [exact H|]. reflexivity. Qed.

Lemma p_tag_app t s : p_tag t (t ++ s) = Some s.
Proof. induction t as [|a t IH]; [reflexivity|]. cbn [app p_tag]. rewrite N.eqb_refl. exact IH. Qed.
Lemma p_digits_app d s : digits d -> match s with c :: _ => is_digit c = false | [] => True end -> p_digits (d ++ s) = (d, s).
Proof.
  induction 1 as [|c d HC HD IH]; intro HS; cbn [app].
  - destruct s as [|c s]; [reflexivity|]. cbn [p_digits]. rewrite HS. reflexivity.
  - cbn [p_digits]. rewrite HC, (IH HS). reflexivity.
Qed.
Lemma p_line_app t d r : digits d -> d <> [] -> p_line t (t ++ d ++ 10 :: r) = Some (d, r).
Proof.
  intros HD HN. unfold p_line. rewrite p_tag_app. cbn [obind]. unfold p_digit1. rewrite p_digits_app by (exact HD || reflexivity).
  destruct d as [|c d]; [contradiction|]. cbn [obind p_tag N.eqb]. rewrite Pos.eqb_refl. reflexivity.
Qed.
Lemma p_tag_short t : Forall (fun c => c <> 0) t -> forall k n, k < lenN t -> p_tag t (takeN k t ++ repN n 0) = None.
Proof.
  induction 1 as [|a t HA HT IH]; intros k n HK; [rewrite lenN_nil in HK; lia|].
  destruct (N.eq_dec k 0) as [->|H0].
  - rewrite take_0. cbn [app]. destruct (N.eq_dec n 0) as [->|Hn]; [reflexivity|].
    replace n with (N.succ (n - 1)) by lia. unfold repN. rewrite N2Nat.inj_succ. cbn [repeat p_tag].
    destruct (N.eqb_spec a 0); [contradiction|reflexivity].
  - rewrite lenN_cons in HK. replace k with (N.succ (k - 1)) by lia. unfold takeN. rewrite N2Nat.inj_succ. cbn [firstn app p_tag].
    rewrite N.eqb_refl. apply (IH (k - 1) n). lia.
Qed.
Lemma no_newline n : p_tag [10] (repN n 0) = None.
Proof.
  destruct (N.eq_dec n 0) as [->|Hn]; [reflexivity|]. replace n with (N.succ (n - 1)) by lia. unfold repN. rewrite N2Nat.inj_succ. reflexivity.
Qed.
Lemma no_digit_zeros n : match repN n 0 with c :: _ => is_digit c = false | [] => True end.
Proof.
  destruct (N.eq_dec n 0) as [->|Hn]; [exact I|]. replace n with (N.succ (n - 1)) by lia. unfold repN. rewrite N2Nat.inj_succ. reflexivity.
Qed.
(* one line of a text that may be cut short and is followed by zero bytes *)
Lemma p_line_cut t d r k n d' s' : Forall (fun c => c <> 0) t -> digits d -> d <> [] ->
  p_line t (takeN k (t ++ d ++ 10 :: r) ++ repN n 0) = Some (d', s') ->
  d' = d /\ lenN t + lenN d + 1 <= k /\ s' = takeN (k - (lenN t + lenN d + 1)) r ++ repN n 0.
Proof.
  intros HT HD HN E. destruct (N.lt_ge_cases k (lenN t)) as [H|H].
  { rewrite take_app_le in E by lia. unfold p_line in E. rewrite p_tag_short in E by assumption. discriminate. }
  rewrite take_app in E. rewrite (take_all k t) in E by lia. rewrite <- app_assoc in E.
  destruct (N.le_gt_cases (k - lenN t) (lenN d)) as [H1|H1].
  { exfalso. rewrite take_app_le in E by lia. unfold p_line in E. rewrite p_tag_app in E. cbn [obind] in E. unfold p_digit1 in E.
    rewrite p_digits_app in E; [|apply Forall_take, HD|apply no_digit_zeros].
    destruct (takeN (k - lenN t) d); [discriminate|]. cbn [obind] in E. rewrite no_newline in E. discriminate. }
  rewrite take_app in E. rewrite (take_all (k - lenN t) d) in E by lia. rewrite <- app_assoc in E.
  replace (k - lenN t - lenN d) with (N.succ (k - (lenN t + lenN d + 1))) in E by lia.
  unfold takeN in E at 1. rewrite N2Nat.inj_succ in E. cbn [firstn app] in E.
  rewrite p_line_app in E by assumption. inversion E; subst. split; [reflexivity|]. split; [lia|]. reflexivity.
Qed.

Definition restart (total : N) (s : rstats) : rstats :=
  mkRstats (round_down_to_multiple (ensure_at_most total (rs_bytes s)) SBX_SCAN_BLOCK_SIZE) (rs_meta s) (rs_data s).
Lemma tags_nonzero : Forall (fun c => c <> 0) S_BYTES /\ Forall (fun c => c <> 0) S_BLOCKS /\ Forall (fun c => c <> 0) S_META /\ Forall (fun c => c <> 0) S_DATA.
Proof. repeat split; repeat constructor; discriminate. Qed.
Lemma parse_dec n : parse_u64 (dec n) = if n <? 18446744073709551616 then Some n else None.
Proof. unfold parse_u64. rewrite (proj1 (proj2 (dec_ok n))). reflexivity. Qed.
Lemma deserialize_whole total s r : rs_bytes s < 18446744073709551616 -> rs_meta s + rs_data s < 18446744073709551616 ->
  deserialize total (serialize s ++ r) = Some (restart total s).
Proof.
  intros H1 H2. unfold serialize. repeat (rewrite <- app_assoc). cbn [app]. unfold deserialize.
  repeat (rewrite <- app_assoc; cbn [app]).
  do 4 (rewrite p_line_app by apply dec_ok; cbn [obind]). rewrite !parse_dec.
  rewrite (proj2 (N.ltb_lt _ _) H1). cbn [obind]. rewrite (proj2 (N.ltb_lt _ _) H2). cbn [obind].
  destruct (N.ltb_spec (rs_meta s) 18446744073709551616) as [H3|H3]; [|lia]. cbn [obind].
  destruct (N.ltb_spec (rs_data s) 18446744073709551616) as [H4|H4]; [|lia]. cbn [obind]. reflexivity.
Qed.
Lemma deserialize_cut total s k n s' : deserialize total (takeN k (serialize s) ++ repN n 0) = Some s' ->
  s' = restart total s /\ lenN (serialize s) <= k.
Proof.
  intro E. destruct tags_nonzero as (T1 & T2 & T3 & T4).
  unfold deserialize in E.
  set (r4 := @nil N). set (r3 := S_DATA ++ dec (rs_data s) ++ 10 :: r4). set (r2 := S_META ++ dec (rs_meta s) ++ 10 :: r3).
  set (r1 := S_BLOCKS ++ dec (rs_meta s + rs_data s) ++ 10 :: r2).
  change (serialize s) with (S_BYTES ++ dec (rs_bytes s) ++ 10 :: r1) in *.
  destruct (p_line S_BYTES _) as [[d1 s1]|] eqn:E1; [|discriminate]. cbn [obind] in E.
  apply p_line_cut in E1 as (-> & K1 & ->); [|exact T1|apply dec_ok|apply dec_ok]. unfold r1 in E at 1.
  destruct (p_line S_BLOCKS _) as [[d2 s2]|] eqn:E2; [|discriminate]. cbn [obind] in E.
  apply p_line_cut in E2 as (-> & K2 & ->); [|exact T2|apply dec_ok|apply dec_ok]. unfold r2 in E at 1.
  destruct (p_line S_META _) as [[d3 s3]|] eqn:E3; [|discriminate]. cbn [obind] in E.
  apply p_line_cut in E3 as (-> & K3 & ->); [|exact T3|apply dec_ok|apply dec_ok]. unfold r3 in E at 1.
  destruct (p_line S_DATA _) as [[d4 s4]|] eqn:E4; [|discriminate]. cbn [obind] in E.
  apply p_line_cut in E4 as (-> & K4 & ->); [|exact T4|apply dec_ok|apply dec_ok].
  rewrite !parse_dec in E. do 4 (destruct (_ <? 18446744073709551616); [|discriminate]; cbn [obind] in E). inversion E. split; [reflexivity|].
  unfold r1, r2, r3, r4. repeat (rewrite lenN_app || rewrite lenN_cons || rewrite lenN_nil). lia.
Qed.
Lemma lenN_serialize s : rs_bytes s < 18446744073709551616 -> rs_meta s + rs_data s < 18446744073709551616 -> lenN (serialize s) <= 1024.
Proof.
  intros H1 H2. unfold serialize. repeat (rewrite lenN_app || rewrite lenN_cons || rewrite lenN_nil).
  pose proof (dec_len (rs_bytes s) H1). pose proof (dec_len (rs_meta s + rs_data s) H2).
  pose proof (dec_len (rs_meta s) ltac:(lia)). pose proof (dec_len (rs_data s) ltac:(lia)).
  change (lenN S_BYTES) with 16. change (lenN S_BLOCKS) with 17. change (lenN S_META) with 22. change (lenN S_DATA) with 22. lia.
Qed.
Lemma read_log_whole total s : rs_bytes s < 18446744073709551616 -> rs_meta s + rs_data s < 18446744073709551616 ->
  read_log total (Some (serialize s)) = ROk (restart total s).
Proof.
  intros H1 H2. unfold read_log, LOG_MAX_SIZE. rewrite take_all by (apply lenN_serialize; assumption).
  rewrite deserialize_whole by assumption. reflexivity.
Qed.
Lemma read_log_cut total s k s' : read_log total (Some (takeN k (serialize s))) = ROk s' -> s' = restart total s /\ lenN (serialize s) <= k.
Proof.
  unfold read_log, LOG_MAX_SIZE. rewrite take_take. destruct (deserialize _ _) as [x|] eqn:E; [|discriminate]. intro H. apply ROk_inj in H. subst x.
  apply deserialize_cut in E as [-> E]. split; [reflexivity|lia].
Qed.
