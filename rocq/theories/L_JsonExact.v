(* Lemmas for C41: for exactly which values what is printed stands for the value. *)
From Coq Require Import String Lia.
From Verif Require Import M_Base M_Metadata M_Buffer M_Rescue M_Json S_Json L_Base L_File L_Log L_Json L_Json2.

(* ---- strings that read back ---- *)
Definition count (c : N) (l : list N) : N := lenN (filter (N.eqb c) l).
Lemma count_cons c x l : count c (x :: l) = (if c =? x then 1 else 0) + count c l.
Proof. unfold count. cbn [filter]. destruct (c =? x); [rewrite lenN_cons; lia|lia]. Qed.
Lemma hex_not c x : hex_value c = Some x -> c <> 34 /\ c <> 92 /\ 32 <= c.
Proof.
  unfold hex_value. destruct (N.leb_spec 48 c), (N.leb_spec c 57), (N.leb_spec 65 c), (N.leb_spec c 70), (N.leb_spec 97 c), (N.leb_spec c 102); cbn [andb]; intro H'; try discriminate H'; lia.
Qed.
Lemma hex4_not a b c d u : hex4 a b c d = Some u -> Forall (fun x => x <> 34 /\ x <> 92 /\ 32 <= x) [a; b; c; d].
Proof.
  unfold hex4. destruct (hex_value a) eqn:A, (hex_value b) eqn:B, (hex_value c) eqn:C, (hex_value d) eqn:D; intro H; try discriminate H.
  repeat (constructor; [eapply hex_not; eassumption|]). constructor.
Qed.
Lemma utf8_len u : lenN (utf8 u) <= 4.
Proof. unfold utf8. destruct (u <? 128), (u <? 2048), (u <? 65536); vm_compute; discriminate. Qed.
Lemma count_none4 x a b c d t : Forall (fun y => y <> 34 /\ y <> 92 /\ 32 <= y) [a; b; c; d] -> x = 34 \/ x = 92 -> count x (a :: b :: c :: d :: t) = count x t.
Proof.
  intros F X. inversion F as [|? ? (A1 & A2 & _) F1]; subst. inversion F1 as [|? ? (B1 & B2 & _) F2]; subst. inversion F2 as [|? ? (C1 & C2 & _) F3]; subst. inversion F3 as [|? ? (D1 & D2 & _) F4]; subst.
  rewrite !count_cons. repeat match goal with |- context [x =? ?y] => destruct (N.eqb_spec x y); [exfalso; lia|] end. lia.
Qed.
(* every escape makes the string shorter than its text *)
Lemma string_text_len t s : string_text t s -> count 92 t + count 34 t + 2 * lenN s <= 2 * lenN t /\ Forall (fun c => 32 <= c) t.
Proof.
  induction 1 as [|c t s H1 H2 H3 H [IH IF]|e c t s I H [IH IF]|a b c d u t s X U H [IH IF]|a b c d u a' b' c' d' u' t s X U X' U' H [IH IF]].
  - split; [vm_compute; discriminate|constructor].
  - split; [|constructor; assumption]. rewrite !count_cons, !lenN_cons. destruct (N.eqb_spec 92 c); [lia|]. destruct (N.eqb_spec 34 c); lia.
  - split.
    + rewrite !count_cons, !lenN_cons. change (92 =? 92) with true. change (34 =? 92) with false.
      destruct (N.eqb_spec 92 e), (N.eqb_spec 34 e); subst; try lia.
    + constructor; [lia|]. constructor; [|assumption]. cbn in I. repeat (destruct I as [I|I]; [injection I as <- <-; lia|]). contradiction.
  - pose proof (hex4_not _ _ _ _ _ X) as F. pose proof (utf8_len u) as L. split.
    + rewrite (count_cons 92 92), (count_cons 92 117), (count_cons 34 92), (count_cons 34 117). rewrite !(count_none4 _ a b c d) by auto.
      change (92 =? 92) with true. change (92 =? 117) with false. change (34 =? 92) with false. change (34 =? 117) with false. rewrite !lenN_cons, lenN_app. lia.
    + inversion F as [|? ? (_ & _ & A) F1]; subst. inversion F1 as [|? ? (_ & _ & B) F2]; subst. inversion F2 as [|? ? (_ & _ & C) F3]; subst. inversion F3 as [|? ? (_ & _ & D) F4]; subst.
      repeat (constructor; [lia|]). assumption.
  - pose proof (hex4_not _ _ _ _ _ X) as F. pose proof (hex4_not _ _ _ _ _ X') as F'. match goal with |- context [utf8 ?y ++ _] => pose proof (utf8_len y) as L; set (uu := utf8 y) in * end. split.
    + rewrite (count_cons 92 92), (count_cons 92 117), (count_cons 34 92), (count_cons 34 117). rewrite !(count_none4 _ a b c d) by auto.
      rewrite (count_cons 92 92), (count_cons 92 117), (count_cons 34 92), (count_cons 34 117). rewrite !(count_none4 _ a' b' c' d') by auto.
      change (92 =? 92) with true. change (92 =? 117) with false. change (34 =? 92) with false. change (34 =? 117) with false. rewrite !lenN_cons, lenN_app. lia.
    + inversion F as [|? ? (_ & _ & A) F1]; subst. inversion F1 as [|? ? (_ & _ & B) F2]; subst. inversion F2 as [|? ? (_ & _ & C) F3]; subst. inversion F3 as [|? ? (_ & _ & D) F4]; subst.
      inversion F' as [|? ? (_ & _ & A') F1']; subst. inversion F1' as [|? ? (_ & _ & B') F2']; subst. inversion F2' as [|? ? (_ & _ & C') F3']; subst. inversion F3' as [|? ? (_ & _ & D') F4']; subst.
      repeat (constructor; [lia|]). assumption.
Qed.
Lemma escape_counts w : count 34 (escape_quotes w) = count 34 w /\ count 92 (escape_quotes w) = count 92 w + count 34 w /\ lenN (escape_quotes w) = lenN w + count 34 w.
Proof.
  induction w as [|c w (I1 & I2 & I3)]; [repeat split|]. unfold escape_quotes in *. cbn [flat_map]. rewrite !(count_cons _ c w). destruct (N.eqb_spec c 34) as [->|NE]; cbn [app]; rewrite ?count_cons, ?lenN_cons, I1, I2, I3.
  - change (34 =? 92) with false. change (34 =? 34) with true. change (92 =? 92) with true. change (92 =? 34) with false. cbv iota. repeat split; lia.
  - destruct (N.eqb_spec 34 c); [congruence|]. destruct (92 =? c); repeat split; lia.
Qed.
Lemma count_zero c l : count c l = 0 -> ~ In c l.
Proof. induction l as [|x l IH]; [intros _ []|]. rewrite count_cons. destruct (N.eqb_spec c x); [lia|]. intros Z [E|I]; [congruence|]. apply IH; [lia|exact I]. Qed.
Lemma escape_ge w : Forall (fun c => 32 <= c) (escape_quotes w) -> Forall (fun c => 32 <= c) w.
Proof.
  intro F. rewrite Forall_forall in *. intros c I. apply F. unfold escape_quotes. apply in_flat_map. exists c. split; [exact I|]. destruct (c =? 34); cbn; auto.
Qed.
(* the text between the quotes stands for a string that is no longer than the one printed, and shorter if there is a backslash *)
Lemma escape_reads w s : string_text (escape_quotes w) s -> lenN s <= lenN w /\ Forall (fun c => 32 <= c) w /\ (lenN s = lenN w -> ~ In 92 w).
Proof.
  intro H. apply string_text_len in H. destruct H as [L F]. destruct (escape_counts w) as (E1 & E2 & E3). rewrite E1, E2, E3 in L.
  split; [lia|]. split; [apply escape_ge, F|]. intro Q. apply count_zero. lia.
Qed.
Lemma escape_text7 s : Forall (fun c => 32 <= c) s -> ~ In 92 s -> string_text (escape_quotes s) s.
Proof.
  induction 1 as [|c s H HS IH]; intro NI; [constructor|]. assert (c <> 92) by (intros ->; apply NI; left; reflexivity). assert (string_text (escape_quotes s) s) as IH' by (apply IH; intro; apply NI; right; assumption).
  unfold escape_quotes in *. cbn [flat_map]. destruct (N.eqb_spec c 34) as [->|NE]; cbn [app].
  - apply st_escape; [left; reflexivity|assumption].
  - apply st_plain; assumption.
Qed.

(* ---- stripping ---- *)
Definition blank (l : list N) : Prop := Forall (fun c => c = 32) l.
Lemma trim l : blank l \/ exists a c b, l = a ++ c ++ b /\ blank a /\ blank b /\ c <> [] /\ hd 0 c <> 32 /\ last c 0 <> 32.
Proof.
  destruct (drop_while_split (N.eqb 32) l) as (a & E & A). assert (A' : blank a) by (eapply Forall_impl; [|exact A]; intros x H; cbv beta in H; apply N.eqb_eq in H; auto).
  set (c1 := drop_while (N.eqb 32) l) in *. destruct (list_eq_dec N.eq_dec c1 []) as [N1|N1]; [left; rewrite E, N1, app_nil_r; exact A'|right].
  pose proof (drop_while_hd (N.eqb 32) l N1) as HD. fold c1 in HD. apply N.eqb_neq in HD. clearbody c1.
  destruct (drop_while_split (N.eqb 32) (rev c1)) as (b & E2 & B). set (c2 := drop_while (N.eqb 32) (rev c1)) in *.
  assert (E3 : c1 = rev c2 ++ rev b). { rewrite <- (rev_involutive c1), E2, rev_app_distr. reflexivity. }
  assert (N2 : c2 <> []).
  { intro Z. rewrite Z in E3. cbn [rev app] in E3. apply HD. rewrite E3. destruct (rev b) as [|x r] eqn:R; [congruence|]. cbn [hd].
    assert (I : In x b) by (apply in_rev; rewrite R; left; reflexivity). rewrite Forall_forall in B. specialize (B _ I). apply N.eqb_eq in B. exact B. }
  pose proof (drop_while_hd (N.eqb 32) (rev c1) N2) as HL. fold c2 in HL. apply N.eqb_neq in HL. clearbody c2.
  exists a, (rev c2), (rev b). split; [rewrite <- E3; exact E|]. split; [exact A'|]. split.
  { apply Forall_rev. eapply Forall_impl; [|exact B]. intros x H. cbv beta in H. apply N.eqb_eq in H. auto. }
  split; [intro Z; apply N2; destruct c2; [reflexivity|]; cbn in Z; destruct (rev c2); discriminate Z|].
  split; [|rewrite <- rev_hd_last, rev_involutive; auto].
  destruct (rev c2) as [|x r] eqn:R; [destruct c2; [congruence|cbn in R; destruct (rev c2); discriminate R]|]. rewrite E3 in HD. cbn [app hd] in HD |- *. auto.
Qed.
Lemma blank_in l : blank l -> Forall (fun c => In c (str " ")) l.
Proof. apply Forall_impl. intros c ->. left. reflexivity. Qed.
Lemma lenN_filter {A} (p : A -> bool) l : lenN (filter p l) <= lenN l /\ (lenN (filter p l) = lenN l -> filter p l = l).
Proof.
  induction l as [|x l [I1 I2]]; [split; [apply N.le_refl|reflexivity]|]. cbn [filter]. destruct (p x); rewrite ?lenN_cons; split; try lia; intro E; rewrite ?I2 by lia; try reflexivity; lia.
Qed.
Lemma chars_blank l : blank l -> chars l = l.
Proof. intro B. apply chars_ascii. eapply Forall_impl; [|exact B]. cbn. intros c ->. reflexivity. Qed.
Lemma chars_app a b : chars (a ++ b) = chars a ++ chars b.
Proof. apply filter_app. Qed.
Lemma blank_rep n : blank (repN n 32).
Proof. apply Forall_forall. intros x I. apply In_repN in I. exact I. Qed.
Lemma blank_all a b : blank (a ++ b) -> blank a /\ blank b.
Proof. apply Forall_app. Qed.
(* what is left of the value after stripping is no longer than the value; if it is as long, nothing was stripped but the spaces in front *)
Lemma strip_value m val w : 1 <= m -> strip_front_end_chars (repN m 32 ++ val) (str " ") = ROk w ->
  w = [32] \/ (lenN w <= lenN val /\ (lenN w = lenN val -> w = val /\ chars val = val /\ val <> [] /\ hd 0 val <> 32 /\ last val 0 <> 32)).
Proof.
  intros M. unfold strip_front_end_chars. rewrite chars_app, (chars_blank (repN m 32)) by apply blank_rep.
  assert (LR : lenN (repN m 32) = m) by apply lenN_rep. assert (LV : lenN (chars val) <= lenN val) by apply lenN_filter.
  destruct (trim (repN m 32 ++ chars val)) as [B|(a & c & b & E & BA & BB & NC & H1 & H2)].
  - rewrite strip_scan_in by (apply blank_in, B). destruct (N.ltb_spec 0 (lenN (repN m 32 ++ val))) as [_|X]; [|rewrite lenN_app in X; lia].
    unfold str_slice. match goal with |- (if ?x then _ else _) = _ -> _ => destruct x; [|intro H; discriminate H] end. intro H. injection H as <-. left.
    rewrite slice_app_l by lia. replace (repN m 32) with ([32] ++ repN (m - 1) 32); [reflexivity|]. replace m with (1 + (m - 1)) at 2 by lia. rewrite rep_app. reflexivity.
  - rewrite E, strip_scan_app, strip_scan_in by (apply blank_in, BA). rewrite strip_scan_app, strip_scan_core by (try assumption; change (str " ") with [32]; intros [X|[]]; congruence).
    rewrite strip_scan_in by (apply blank_in, BB).
    assert (0 < lenN c) by (destruct c; [congruence|rewrite lenN_cons; lia]).
    assert (EL : m + lenN (chars val) = lenN a + lenN c + lenN b) by (apply (f_equal lenN) in E; rewrite !lenN_app in E; lia).
    assert (MA : m <= lenN a).
    { destruct (N.le_gt_cases m (lenN a)) as [X|X]; [exact X|]. exfalso. apply H1. apply (f_equal (fun l => nthN l (lenN a))) in E.
      rewrite !nthN_app, nthN_rep, LR in E. destruct (N.ltb_spec (lenN a) m); [|lia]. destruct (N.ltb_spec (lenN a) (lenN a)); [lia|]. rewrite N.sub_diag in E. destruct (N.ltb_spec 0 (lenN c)); [|lia]. destruct c; [congruence|]. symmetry. exact E. }
    rewrite N.add_0_l. destruct (N.ltb_spec (lenN a + lenN c - 1) (lenN (repN m 32 ++ val))) as [_|X]; [|rewrite lenN_app in X; lia].
    unfold str_slice. match goal with |- (if ?x then _ else _) = _ -> _ => destruct x; [|intro Q; discriminate Q] end. intro Q. injection Q as <-. right.
    replace (lenN a + lenN c - 1 + 1 - lenN a) with (lenN c) by lia. rewrite lenN_slice. split; [rewrite lenN_app; lia|]. intro Q. rewrite lenN_app in Q.
    assert (EC : chars val = val) by (apply lenN_filter; unfold chars in *; lia). rewrite EC in *.
    assert (lenN a = m) by lia. assert (b = []) by (destruct b; [reflexivity|rewrite lenN_cons in *; lia]). subst b.
    assert (val = c) as ->. { rewrite app_nil_r in E. apply (f_equal (dropN m)) in E. rewrite (drop_app_exact m (repN m 32)), (drop_app_exact m a) in E by lia. exact E. }
    split; [|auto]. rewrite slice_app_r by lia. rewrite LR, H0, N.sub_diag. apply slice_all. lia.
Qed.

(* ---- the message ---- *)
Lemma split_any ws key n rest : spelled ws key ->
  split_key_val_pair (key ++ repN n 32 ++ str ":" ++ 32 :: rest) = (do! r <- strip_front_end_chars (32 :: rest) (str " "); ROk (key, r)).
Proof.
  intro S. destruct (spelled_chars ws key S) as (CK & NK & K1 & K2). set (s := key ++ _).
  assert (AK : ascii_only (key ++ repN n 32)).
  { apply Forall_app. split; [eapply Forall_impl; [|exact CK]; cbn; intros; lia|]. eapply Forall_impl; [|apply blank_rep]. cbn. intros c ->. reflexivity. }
  assert (ES : s = (key ++ repN n 32) ++ 58 :: 32 :: rest) by (unfold s; rewrite <- app_assoc; reflexivity). clearbody s.
  remember (lenN (key ++ repN n 32)) as p eqn:EP.
  unfold split_key_val_pair.
  assert (EF : find_char 58 (chars s) 0 = Some p).
  { rewrite ES, chars_app, (chars_ascii _ AK). change (chars (58 :: 32 :: rest)) with (58 :: chars (32 :: rest)). rewrite find_char_app; [rewrite EP; reflexivity|].
    apply Forall_app. split; [eapply Forall_impl; [|exact CK]; cbn; intros; lia|]. eapply Forall_impl; [|apply blank_rep]. cbn. intros c ->. discriminate. }
  rewrite EF.
  assert (LS : lenN s = p + 2 + lenN rest) by (rewrite ES, lenN_app, !lenN_cons; lia).
  assert (N1 : nthN s p = 58). { rewrite ES, nthN_app, <- EP. destruct (N.ltb_spec p p); [lia|]. rewrite N.sub_diag. reflexivity. }
  assert (N2 : nthN s (p + 1) = 32). { rewrite ES, nthN_app, <- EP. destruct (N.ltb_spec (p + 1) p); [lia|]. replace (p + 1 - p) with 1 by lia. reflexivity. }
  assert (B0 : is_char_boundary s 0 = true).
  { unfold is_char_boundary. destruct (N.eqb_spec 0 (lenN s)); [reflexivity|]. destruct (N.ltb_spec 0 (lenN s)); [|lia]. rewrite ES.
    destruct key as [|k key]; [congruence|]. inversion CK as [|? ? X Y]; subst. change (nthN (((k :: key) ++ repN n 32) ++ 58 :: 32 :: rest) 0) with k. unfold is_cont. destruct (N.leb_spec 128 k); [lia|reflexivity]. }
  assert (B1 : is_char_boundary s p = true) by (unfold is_char_boundary; rewrite N1; destruct (N.eqb_spec p (lenN s)); [reflexivity|]; destruct (N.ltb_spec p (lenN s)); [reflexivity|lia]).
  assert (B2 : is_char_boundary s (p + 1) = true) by (unfold is_char_boundary; rewrite N2; destruct (N.eqb_spec (p + 1) (lenN s)); [reflexivity|]; destruct (N.ltb_spec (p + 1) (lenN s)); [reflexivity|lia]).
  assert (B3 : is_char_boundary s (lenN s) = true) by (unfold is_char_boundary; rewrite N.eqb_refl; reflexivity).
  unfold str_slice. rewrite B0, B1, B2, B3. destruct (N.leb_spec 0 p); [|lia]. destruct (N.leb_spec (p + 1) (lenN s)); [|lia]. cbn [andb rbind]. rewrite N.sub_0_r.
  assert (E0 : sliceN 0 p s = [] ++ key ++ repN n 32). { rewrite ES, slice_app_l by lia. apply slice_all. rewrite EP. apply N.le_refl. }
  rewrite E0, strip_ok; [|exact AK|apply Forall_nil|apply blank_in, blank_rep|assumption|change (str " ") with [32]; intros [X|[]]; congruence|change (str " ") with [32]; intros [X|[]]; congruence].
  cbn [rbind]. replace (sliceN (p + 1) (lenN s - (p + 1)) s) with (32 :: rest); [reflexivity|].
  rewrite LS. replace (p + 2 + lenN rest - (p + 1)) with (1 + lenN rest) by lia. rewrite ES, slice_app_r by lia. rewrite <- EP. replace (p + 1 - p) with 1 by lia.
  change (58 :: 32 :: rest) with ([58] ++ 32 :: rest). rewrite slice_app_r by (vm_compute; discriminate). symmetry. apply slice_all. rewrite lenN_cons. lia.
Qed.
(* the text of a group with one field *)
Definition one_field (k v : list N) : list N := str "{" ++ [10] ++ [34] ++ k ++ [34] ++ str ": " ++ v ++ [10] ++ str "}" ++ [10].
Lemma one_field_text ws key n m force val : spelled ws key -> 1 <= m ->
  do_calls [Open None Curly; Field force (key ++ repN n 32 ++ str ":" ++ repN m 32 ++ val); Close] [] =
  (do! w <- strip_front_end_chars (repN m 32 ++ val) (str " ");
   ROk (one_field (camel ws) (if determine_if_skip_quotes force w then escape_quotes w else [34] ++ escape_quotes w ++ [34]), [])).
Proof.
  intros S M. replace (repN m 32 ++ val) with (32 :: (repN (m - 1) 32 ++ val)). 2:{ replace m with (1 + (m - 1)) at 2 by lia. rewrite rep_S. reflexivity. }
  cbn [do_calls do_call comma rbind]. rewrite (split_any ws key n _ S). destruct (strip_front_end_chars _ _) as [w| |]; [|reflexivity|reflexivity].
  cbn [rbind]. unfold json_field. rewrite (camel_ok ws key S). cbn [rbind first_item]. cbn [bracket_type close_str rbind]. unfold one_field. do 2 f_equal.
  destruct (determine_if_skip_quotes force w); repeat (cbn [app open_str]; rewrite <- ?app_assoc); rewrite ?app_nil_r; reflexivity.
Qed.
Lemma no_quote_tail x : forall e a b, x ++ 34 :: a = e ++ 34 :: b -> ~ In 34 a -> ~ In 34 b -> x = e.
Proof.
  induction x as [|c x IH]; intros [|d e] a b E NA NB; cbn [app] in E; try reflexivity.
  - injection E as <- E. exfalso. apply NA. rewrite E. apply in_or_app. right. left. reflexivity.
  - injection E as -> E. exfalso. apply NB. rewrite <- E. apply in_or_app. right. left. reflexivity.
  - injection E as <- E. f_equal. apply (IH e a b E NA NB).
Qed.
Lemma ws_no c w : ws w -> existsb (N.eqb c) [32; 9; 10; 13] = false -> ~ In c w.
Proof.
  intros W E I. unfold ws in W. rewrite Forall_forall in W. specialize (W c I). assert (X : existsb (N.eqb c) [32; 9; 10; 13] = true) by (apply existsb_exists; exists c; split; [exact W|apply N.eqb_refl]). congruence.
Qed.
(* such a text stands for a field with a string exactly if the value is the text of that string in quotes *)
Lemma one_field_json k v c v' s : string_text k k -> v = c :: v' -> is_ws c = false -> json_text (one_field k v) (JObj [(k, JStr s)]) ->
  c = 34 /\ forall e, v' = e ++ [34] -> string_text e s.
Proof.
  intros K V CW (w1 & u & w2 & E & W1 & W2 & VT). inversion VT as [| | | | | | | |t l M EU EL]; subst. inversion M as [a1 kt ks a2 a3 t' v0 a4 A1 KT A2 A3 VT' A4 ET EJ|]; subst; [|].
  - inversion VT' as [| | | |x s' SX EX ES| | | |]; subst.
    apply (f_equal skip_ws) in E. rewrite skip_ws_app in E by exact W1. unfold one_field in E. rewrite <- !app_assoc in E. cbn [app str map list_ascii_of_string] in E.
    assert (X1 : forall r, skip_ws (123 :: r) = 123 :: r) by reflexivity.
    change (str "{") with [123] in E. cbn [app] in E. rewrite !X1 in E. injection E as E.
    apply (f_equal skip_ws) in E. rewrite skip_ws_app in E by exact A1.
    assert (X2 : forall r, skip_ws (10 :: 34 :: r) = 34 :: r) by reflexivity. assert (X3 : forall r, skip_ws (34 :: r) = 34 :: r) by reflexivity.
    rewrite X2, X3 in E. injection E as E. apply (f_equal p_chars) in E. rewrite (p_chars_ok _ _ K), (p_chars_ok _ _ KT) in E. injection E as E.
    apply (f_equal skip_ws) in E. rewrite skip_ws_app in E by exact A2.
    assert (X4 : forall r, skip_ws (58 :: r) = 58 :: r) by reflexivity. change (str ": ") with [58; 32] in E. change (str ":") with [58] in E. cbn [app] in E. rewrite !X4 in E. injection E as E.
    apply (f_equal skip_ws) in E. rewrite skip_ws_app in E by exact A3.
    assert (X5 : forall r, skip_ws (32 :: r) = skip_ws r) by reflexivity. rewrite X5, X3, (skip_head c) in E by exact CW.
    injection E as -> E. split; [reflexivity|]. intros e ->. rewrite <- !app_assoc in E. cbn [app] in E.
    apply no_quote_tail in E; [subst e; exact SX| |].
    + change (str "}") with [125]. cbn. intuition discriminate.
    + intro I. apply in_app_or in I. destruct I as [I|I]; [revert I; apply ws_no; [exact A4|reflexivity]|]. change (str "}") with [125] in I. destruct I as [I|I]; [discriminate I|]. revert I. apply ws_no; [exact W2|reflexivity].
  - match goal with H : members_text _ [] |- _ => inversion H end.
Qed.
