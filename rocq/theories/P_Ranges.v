(* C31, C32: byte ranges given on the command line; hexadecimal text. *)
From Verif Require Import M_Base M_Specs M_Buffer M_Ranges M_Hex L_Base L_Ranges.

(* first byte asked for; last byte asked for (inclusive) *)
Definition asked_from (from : option N) : N := match from with Some n => n | None => 0 end.
Definition asked_last (to : option range_end) (last : N) : N :=
  match to with Some (Inc n) => n | Some (Exc n) => n - 1 | None => last end.

(* C31. The range scanned is [lo, lo + req). It starts at the requested byte rounded down to the alignment
   (exactly there when misalignment is forced), never after it, and inside the file; it ends at the requested
   last byte, or at the end of the file if that comes first; and is never empty. When [so_far] bytes were
   done in an earlier run, the reader starts that much later (rounded down), the length being unchanged.
   Missing for the full property: an exclusive end of 0 (see the next theorem). *)
Theorem c31_byte_range_partial from to mis so_far len mo :
  1 <= mult_of mo -> len < 18446744073709551616 -> to <> Some (Exc 0) ->
  match to with Some (Inc n) | Some (Exc n) => n < 18446744073709551616 | None => True end ->
  exists req lo seek,
  calc_required_len_and_seek_to_from_byte_range from to mis 0 (Len len) mo = (req, lo) /\
  calc_required_len_and_seek_to_from_byte_range from to mis so_far (Len len) mo = (req, seek) /\
  let last := len - 1 in
  lo <= asked_from from /\ lo <= last /\
  (if mis then lo = N.min (asked_from from) last
   else lo mod mult_of mo = 0 /\ N.min (asked_from from) last < lo + mult_of mo) /\
  1 <= req /\ lo + req - 1 = N.max lo (N.min (asked_last to last) last) /\
  (lo + so_far <= last ->
     (if mis then seek = lo + so_far
      else seek mod mult_of mo = 0 /\ seek <= lo + so_far < seek + mult_of mo)).
Proof.
  intros HM HL HE HT. assert (HL' : last_pos (Len len) < 18446744073709551615) by (unfold last_pos; lia).
  destruct (range_eq from to mis 0 (Len len) mo HM HL') as [S R0].
  destruct (range_eq from to mis so_far (Len len) mo HM HL') as [_ R1].
  set (start := start_of from mis (last_pos (Len len)) (mult_of mo)) in *. unfold last_pos in *.
  assert (US : u64 start = start) by (apply u64_small; lia).
  assert (MS : mis = false -> start mod mult_of mo = 0).
  { intro E. unfold start, start_of. rewrite E. destruct from; [apply round_down_spec, HM|apply N.mod_0_l; lia]. }
  assert (LO : N.min (if mis then u64 (start + 0) else round_down_to_multiple (u64 (start + 0)) (mult_of mo)) (len - 1) = start).
  { rewrite N.add_0_r, US. destruct mis; [lia|]. rewrite round_down_multiple; [lia|exact HM|apply MS; reflexivity]. }
  rewrite LO in R0. do 3 eexists. split; [exact R0|]. split; [exact R1|]. cbv zeta.
  assert (FR : start <= asked_from from /\ (if mis then start = N.min (asked_from from) (len - 1) else N.min (asked_from from) (len - 1) < start + mult_of mo)).
  { unfold start, start_of, asked_from. destruct from as [n|]; [|destruct mis; lia]. destruct mis; [lia|].
    pose proof (round_down_spec (N.min n (len - 1)) (mult_of mo) HM). lia. }
  split; [apply FR|]. split; [exact S|]. split; [destruct mis; [apply FR|split; [apply MS; reflexivity|apply FR]]|].
  split; [lia|]. split.
  - unfold asked_last. destruct to as [[n|n]|]; [lia| |lia]. destruct (N.eq_dec n 0) as [->|NZ]; [congruence|]. rewrite sub64_small by lia. lia.
  - intro H. assert (US' : u64 (start + so_far) = start + so_far) by (apply u64_small; lia). rewrite US'. destruct mis; [lia|].
    pose proof (round_down_spec (start + so_far) (mult_of mo) HM) as (A & B & C). rewrite N.min_l by lia. split; [exact C|]. lia.
Qed.
Example c31_ex : calc_required_len_and_seek_to_from_byte_range (Some 300) (Some (Exc 1000)) false 0 (Len 5000) (Some 128) = (744, 256).
Proof. vm_compute. reflexivity. Qed.

(* The full statement is false: with an exclusive end of 0 (--to-exc 0) the whole file is scanned instead of
   nothing beyond the start. *)
Theorem c31_exclusive_zero_refuted : exists len lo req,
  calc_required_len_and_seek_to_from_byte_range None (Some (Exc 0)) false 0 (Len len) None = (req, lo) /\
  lo + req = len /\ len = 4096.
Proof. exists 4096, 0, 4096. vm_compute. auto. Qed.

(* C32. Upper and lower case text of a byte string parses back to it; so different UIDs give different
   texts. Any text is either parsed digit by digit or rejected: of odd length, or with a character that is
   not a digit. *)
Theorem c32_hex_roundtrip bs : bytes_ok bs = true ->
  hex_string_to_bytes (bytes_to_upper_hex_string bs) = ROk (HexOk bs) /\
  hex_string_to_bytes (bytes_to_lower_hex_string bs) = ROk (HexOk bs).
Proof. intro H. split; apply hex_roundtrip, H. Qed.
Theorem c32_hex_distinct a b : bytes_ok a = true -> bytes_ok b = true ->
  bytes_to_upper_hex_string a = bytes_to_upper_hex_string b -> a = b.
Proof.
  intros HA HB E. pose proof (hex_roundtrip true a HA) as X. pose proof (hex_roundtrip true b HB) as Y.
  unfold bytes_to_upper_hex_string in E. rewrite E, Y in X. apply ROk_inj in X. congruence.
Qed.
(* the value of a hexadecimal digit character *)
Definition digit_value (c x : N) : Prop :=
  (48 <= c <= 57 /\ x = c - 48) \/ (65 <= c <= 70 /\ x = c - 55) \/ (97 <= c <= 102 /\ x = c - 87).
Theorem c32_hex_parse s :
  (hex_string_to_bytes s = ROk InvalidLen /\ lenN s mod 2 = 1) \/
  (hex_string_to_bytes s = ROk InvalidHexString /\ lenN s mod 2 = 0 /\ exists c, In c s /\ forall x, ~ digit_value c x) \/
  (exists bs, hex_string_to_bytes s = ROk (HexOk bs) /\ lenN s = 2 * lenN bs /\
   forall i, i < lenN bs -> exists x y, digit_value (nthN s (2 * i)) x /\ digit_value (nthN s (2 * i + 1)) y /\
     nthN bs i = 16 * x + y).
Proof.
  assert (DV : forall c u x, x < 16 -> c = hex_digit u x -> digit_value c x).
  { intros c u x H ->. unfold hex_digit, digit_value. destruct (N.ltb_spec x 10); [left; lia|]. destruct u; [right; left|right; right]; lia. }
  assert (DI : forall c x, digit_value c x -> is_valid_hex_char c = true).
  { intros c x H. unfold digit_value, is_valid_hex_char in *. lia. }
  destruct (hex_reject s) as (NP & R1 & R2 & R3). assert (M : lenN s mod 2 < 2) by (apply N.mod_lt; discriminate).
  destruct (hex_string_to_bytes s) as [[bs| |]|e|] eqn:E.
  - right. right. exists bs. split; [reflexivity|]. specialize (R3 bs eq_refl). clear - R3 DV. revert bs R3.
    induction s as [|a|l r s IH] using list_pair_ind; intros [|b bs] T; try contradiction.
    + split; [reflexivity|]. intros i H. change (lenN []) with 0 in H. lia.
    + cbn [text_of] in T. destruct T as [(x & y & u & w & Hx & Hy & -> & -> & ->) T]. destruct (IH bs T) as [L I]. rewrite !lenN_cons, L. split; [lia|].
      intros i Hi. destruct (N.eq_dec i 0) as [->|NZ].
      * exists x, y. split; [eapply DV; [exact Hx|reflexivity]|]. split; [eapply DV; [exact Hy|reflexivity]|]. reflexivity.
      * destruct (I (i - 1) ltac:(lia)) as (x' & y' & A & B & C). exists x', y'. unfold nthN in *.
        replace (N.to_nat (2 * i)) with (S (S (N.to_nat (2 * (i - 1))))) by lia.
        replace (N.to_nat (2 * i + 1)) with (S (S (N.to_nat (2 * (i - 1) + 1)))) by lia.
        replace (N.to_nat i) with (S (N.to_nat (i - 1))) by lia. auto.
  - right. left. split; [reflexivity|]. destruct (proj1 R2 eq_refl) as (A & c & I & V). split; [exact A|]. exists c. split; [exact I|].
    intros x D. rewrite (DI _ _ D) in V. discriminate.
  - left. split; [reflexivity|]. apply R1. reflexivity.
  - exfalso. revert E. unfold hex_string_to_bytes. destruct (_ =? 0) eqn:EZ; [|discriminate]. destruct (forallb _ _) eqn:F; [|discriminate].
    destruct (pairs_spec s F ltac:(lia)) as (bs & -> & _). discriminate.
  - congruence.
Qed.
Example c32_ex : hex_string_to_bytes (bytes_to_upper_hex_string [0; 171; 255; 16; 9; 160]) = ROk (HexOk [0; 171; 255; 16; 9; 160]) /\
  hex_string_to_bytes [65; 98; 49] = ROk InvalidLen /\ hex_string_to_bytes [65; 71] = ROk InvalidHexString.
Proof. vm_compute. auto. Qed.

Print Assumptions c31_byte_range_partial.
Print Assumptions c31_exclusive_zero_refuted.
Print Assumptions c32_hex_roundtrip.
Print Assumptions c32_hex_distinct.
Print Assumptions c32_hex_parse.
