(* Byte ranges and hexadecimal text. *)
From Verif Require Import M_Base M_Specs M_Buffer M_Ranges M_Hex L_Base.
Ltac Zify.zify_post_hook ::= idtac.

Lemma u64_small x : x < 18446744073709551616 -> u64 x = x.
Proof. apply N.mod_small. Qed.
Lemma sub64_small a b : b <= a -> a < 18446744073709551616 -> sub64 a b = a - b.
Proof.
  intros H1 H2. unfold sub64, u64. replace (a + 18446744073709551616 - b) with (a - b + 1 * 18446744073709551616) by lia.
  rewrite N.mod_add by discriminate. apply N.mod_small. lia.
Qed.
Lemma round_down_spec x m : 1 <= m -> round_down_to_multiple x m <= x /\ x < round_down_to_multiple x m + m /\ round_down_to_multiple x m mod m = 0.
Proof.
  intro H. unfold round_down_to_multiple. pose proof (N.div_mod' x m). pose proof (N.mod_lt x m ltac:(lia)).
  split; [lia|]. split; [lia|]. apply N.mod_mul. lia.
Qed.
Lemma round_down_multiple x m : 1 <= m -> x mod m = 0 -> round_down_to_multiple x m = x.
Proof. intros H E. unfold round_down_to_multiple. pose proof (N.div_mod' x m). lia. Qed.

Definition last_pos (pl : pos_or_len) : N := match pl with Pos x => x | Len x => x - 1 end.
Definition mult_of (m : option N) : N := match m with Some x => x | None => 128 end.
(* the start of the range, before adding what was done already *)
Definition start_of (from : option N) (mis : bool) (last m : N) : N :=
  match from with
  | None => 0
  | Some n => if mis then N.min n last else round_down_to_multiple (N.min n last) m
  end.
Lemma range_eq from to mis so_far pl mo : 1 <= mult_of mo -> last_pos pl < 18446744073709551615 ->
  let last := last_pos pl in let m := mult_of mo in
  let start := start_of from mis last m in
  start <= last /\
  calc_required_len_and_seek_to_from_byte_range from to mis so_far pl mo =
  (match to with
   | None => last
   | Some (Inc n) => N.min (N.max n start) last
   | Some (Exc n) => N.min (N.max (sub64 n 1) start) last
   end - start + 1,
   N.min (if mis then u64 (start + so_far) else round_down_to_multiple (u64 (start + so_far)) m) last).
Proof.
  intros HM HL last m start.
  assert (SL : start <= last).
  { unfold start, start_of. destruct from as [n|]; [|lia]. destruct mis; [lia|]. pose proof (round_down_spec (N.min n last) m HM). lia. }
  split; [exact SL|]. unfold calc_required_len_and_seek_to_from_byte_range.
  assert (EL : (match pl with Pos x => x | Len x => if x =? 0 then 0 else x - 1 end) = last).
  { unfold last, last_pos. destruct pl as [x|x]; [reflexivity|]. destruct (N.eqb_spec x 0); lia. }
  rewrite EL. change (match mo with Some x => x | None => SBX_SCAN_BLOCK_SIZE end) with m. cbv zeta. unfold ensure_at_most, ensure_at_least.
  assert (ES : (match from with Some n => if mis then N.min n last else round_down_to_multiple (N.min n last) m | None => 0 end) = start) by reflexivity.
  rewrite ES.
  assert (HL' : last < 18446744073709551615) by exact HL.
  clearbody start last. f_equal.
  destruct to as [[n|n]|]; rewrite u64_small; rewrite sub64_small; lia.
Qed.
(* in particular for a whole file *)
Lemma range_in_file from to mis len mo req lo : 1 <= mult_of mo -> len < 18446744073709551616 ->
  calc_required_len_and_seek_to_from_byte_range from to mis 0 (Len len) mo = (req, lo) ->
  lo <= len /\ 1 <= req /\ (0 < len -> lo + req <= len) /\ (len = 0 -> lo = 0 /\ req = 1).
Proof.
  intros HM HL E. assert (HL' : last_pos (Len len) < 18446744073709551615) by (unfold last_pos; lia).
  destruct (range_eq from to mis 0 (Len len) mo HM HL') as [S R].
  rewrite R in E. apply pair_inj in E as [E1 E2]. rewrite N.add_0_r in E2. unfold last_pos in *.
  set (start := start_of from mis (len - 1) (mult_of mo)) in *.
  assert (US : u64 start = start) by (apply u64_small; lia). rewrite US in E2.
  assert (E3 : lo = start).
  { rewrite <- E2. destruct mis; [lia|]. rewrite round_down_multiple; [lia|exact HM|].
    unfold start, start_of. destruct from; [|apply N.mod_0_l; lia]. apply round_down_spec, HM. }
  rewrite E3. clearbody start. destruct to as [[n|n]|]; lia.
Qed.
Lemma range_whole len mo mis : 1 <= mult_of mo -> len < 18446744073709551616 ->
  calc_required_len_and_seek_to_from_byte_range None None mis 0 (Len len) mo = (N.max 1 len, 0).
Proof.
  intros HM HL. assert (HL' : last_pos (Len len) < 18446744073709551615) by (unfold last_pos; lia).
  destruct (range_eq None None mis 0 (Len len) mo HM HL') as [S R]. rewrite R. unfold start_of, last_pos. f_equal; [lia|].
  rewrite N.add_0_r. change (u64 0) with 0. destruct mis; [lia|]. rewrite round_down_multiple; [lia|exact HM|apply N.mod_0_l; lia].
Qed.

(* ---- hexadecimal ---- *)
Lemma hex_digit_value up x : x < 16 -> hex_char_to_value (hex_digit up x) = ROk x /\ is_valid_hex_char (hex_digit up x) = true.
Proof.
  intro H. assert (E : In x (rangeN 0 16)) by (apply In_rangeN; lia). revert E. clear H. revert x. apply Forall_forall.
  destruct up; repeat (constructor; [vm_compute; auto|]); constructor.
Qed.
Lemma pairs_fmt up bs : bytes_ok bs = true -> hex_pairs (concat (map (fmt_byte up) bs)) = ROk bs /\
  forallb is_valid_hex_char (concat (map (fmt_byte up) bs)) = true /\ lenN (concat (map (fmt_byte up) bs)) = 2 * lenN bs.
Proof.
  induction bs as [|b bs IH]; intro H; [repeat split|]. cbn [bytes_ok forallb] in H. apply andb_true_iff in H as [H1 H2].
  destruct (IH H2) as (I1 & I2 & I3). apply byte_ok_lt in H1.
  assert (D : b / 16 < 16) by (apply N.div_lt_upper_bound; lia). assert (M : b mod 16 < 16) by (apply N.mod_lt; discriminate).
  destruct (hex_digit_value up _ D) as [D1 D2], (hex_digit_value up _ M) as [M1 M2].
  cbn [map concat fmt_byte app hex_pairs]. rewrite D1, M1. cbn [rbind]. rewrite I1. cbn [rbind]. split; [|split].
  - do 2 f_equal. unfold u8. rewrite (N.mod_small (b / 16 * 16)) by lia. pose proof (N.div_mod' b 16). rewrite N.mod_small; lia.
  - cbn [forallb]. rewrite D2, M2. exact I2.
  - rewrite !lenN_cons, I3. lia.
Qed.
Lemma hex_roundtrip up bs : bytes_ok bs = true -> hex_string_to_bytes (concat (map (fmt_byte up) bs)) = ROk (HexOk bs).
Proof.
  intro H. destruct (pairs_fmt up bs H) as (P1 & P2 & P3). unfold hex_string_to_bytes. rewrite P1, P2, P3.
  replace (2 * lenN bs) with (lenN bs * 2) by lia. rewrite N.mod_mul by discriminate. reflexivity.
Qed.
Lemma valid_value c : is_valid_hex_char c = true <-> exists x up, x < 16 /\ c = hex_digit up x.
Proof.
  split.
  - unfold is_valid_hex_char. intro H. rewrite !orb_true_iff, !andb_true_iff, !N.leb_le in H. destruct H as [[H|H]|H].
    + exists (c - 48), true. split; [lia|]. unfold hex_digit. destruct (N.ltb_spec (c - 48) 10); lia.
    + exists (c - 65 + 10), true. split; [lia|]. unfold hex_digit. destruct (N.ltb_spec (c - 65 + 10) 10); lia.
    + exists (c - 97 + 10), false. split; [lia|]. unfold hex_digit. destruct (N.ltb_spec (c - 97 + 10) 10); lia.
  - intros (x & up & H & ->). apply hex_digit_value, H.
Qed.
Lemma list_pair_ind {A} (P : list A -> Prop) : P [] -> (forall a, P [a]) -> (forall a b l, P l -> P (a :: b :: l)) -> forall l, P l.
Proof.
  intros H0 H1 H2. fix F 1. intros [|a [|b l]]; [exact H0|apply H1|apply H2, F].
Qed.
Definition pair_of (l r b : N) : Prop := exists x y u w, x < 16 /\ y < 16 /\ l = hex_digit u x /\ r = hex_digit w y /\ b = 16 * x + y.
Fixpoint text_of (s : list N) (bs : list N) : Prop :=
  match s, bs with
  | [], [] => True
  | l :: r :: s', b :: bs' => pair_of l r b /\ text_of s' bs'
  | _, _ => False
  end.
Lemma pairs_spec s : forallb is_valid_hex_char s = true -> lenN s mod 2 = 0 -> exists bs, hex_pairs s = ROk bs /\ text_of s bs.
Proof.
  induction s as [|a|l r s IH] using list_pair_ind; intros H E.
  - exists []. split; [reflexivity|exact Logic.I].
  - discriminate E.
  - cbn [forallb] in H. apply andb_true_iff in H as [Hl H]. apply andb_true_iff in H as [Hr H].
    rewrite !lenN_cons in E. destruct (IH H) as (bs & E1 & T).
    { rewrite N.add_assoc in E. rewrite N.add_comm in E. rewrite <- E. symmetry. change (1 + 1) with (1 * 2). apply N.mod_add. discriminate. }
    apply valid_value in Hl as (x & u & Hx & ->), Hr as (y & w & Hy & ->).
    cbn [hex_pairs]. rewrite (proj1 (hex_digit_value u x Hx)), (proj1 (hex_digit_value w y Hy)). cbn [rbind]. rewrite E1. cbn [rbind].
    eexists. split; [reflexivity|]. cbn [text_of]. split; [|exact T]. exists x, y, u, w. repeat split; auto.
    unfold u8. rewrite (N.mod_small (x * 16)) by lia. rewrite N.mod_small; lia.
Qed.
Lemma hex_reject s : hex_string_to_bytes s <> RPanic /\
  (hex_string_to_bytes s = ROk InvalidLen <-> lenN s mod 2 = 1) /\
  (hex_string_to_bytes s = ROk InvalidHexString <-> lenN s mod 2 = 0 /\ exists c, In c s /\ is_valid_hex_char c = false) /\
  (forall bs, hex_string_to_bytes s = ROk (HexOk bs) -> text_of s bs).
Proof.
  unfold hex_string_to_bytes. assert (M : lenN s mod 2 < 2) by (apply N.mod_lt; discriminate).
  destruct (N.eqb_spec (lenN s mod 2) 0) as [E|E].
  - destruct (forallb is_valid_hex_char s) eqn:F.
    + destruct (pairs_spec s F E) as (bs & P & T). rewrite P. cbn [rbind]. split; [discriminate|]. split; [split; [discriminate|lia]|]. split.
      * split; [discriminate|]. intros (_ & c & I & V). rewrite forallb_forall in F. rewrite (F _ I) in V. discriminate.
      * intros bs' X. apply ROk_inj in X. injection X as <-. exact T.
    + split; [discriminate|]. split; [split; [discriminate|lia]|]. split; [|discriminate]. split; [|reflexivity]. intros _. split; [exact E|].
      clear - F. induction s as [|a s IH]; [discriminate|]. cbn [forallb] in F. destruct (is_valid_hex_char a) eqn:V.
      * destruct (IH F) as (c & I & V'). exists c. split; [right; exact I|exact V'].
      * exists a. split; [left; reflexivity|exact V].
  - split; [discriminate|]. split; [split; [lia|reflexivity]|]. split; [|discriminate]. split; [discriminate|]. intros [X _]. contradiction.
Qed.
