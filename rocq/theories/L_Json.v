(* Lemmas on the printing of JSON. *)
From Coq Require Import String Lia.
From Verif Require Import M_Base M_Buffer M_Rescue M_Json S_Json L_Base L_Log.

Definition ascii_only (s : list N) : Prop := Forall (fun c => c < 128) s.
Lemma chars_ascii s : ascii_only s -> chars s = s.
Proof.
  induction 1 as [|c s H HS IH]; [reflexivity|]. unfold chars in *. cbn [filter]. unfold is_cont at 1.
  destruct (N.leb_spec 128 c); [lia|]. cbn [negb andb]. rewrite IH. reflexivity.
Qed.
Lemma boundary_ascii s i : ascii_only s -> i <= lenN s -> is_char_boundary s i = true.
Proof.
  intros H L. unfold is_char_boundary. destruct (N.eqb_spec i (lenN s)); [reflexivity|]. destruct (N.ltb_spec i (lenN s)) as [L'|]; [|lia].
  destruct (nth_optN_Some s i L') as (c & E). rewrite nthN_opt, E. unfold ascii_only in H. rewrite Forall_forall in H.
  assert (c < 128). { apply H. unfold nth_optN in E. eapply nth_error_In. exact E. }
  unfold is_cont. destruct (N.leb_spec 128 c); [lia|reflexivity].
Qed.
Lemma slice_ascii s a b : ascii_only s -> a <= b -> b <= lenN s -> str_slice s a b = ROk (sliceN a (b - a) s).
Proof.
  intros H L1 L2. unfold str_slice. rewrite !boundary_ascii by (assumption || lia). destruct (N.leb_spec a b); [reflexivity|lia].
Qed.

Lemma strip_scan_app set a : forall b i st e,
  strip_scan set (a ++ b) i st e = let '(st', e') := strip_scan set a i st e in strip_scan set b (i + lenN a) st' e'.
Proof.
  induction a as [|c a IH]; intros b i st e; cbn [strip_scan app].
  - rewrite lenN_nil, N.add_0_r. reflexivity.
  - rewrite lenN_cons, N.add_assoc. destruct (existsb (N.eqb c) set); apply IH.
Qed.
Lemma strip_scan_in set a : forall i st e, Forall (fun c => In c set) a -> strip_scan set a i st e = (st, e).
Proof.
  induction a as [|c a IH]; intros i st e H; [reflexivity|]. inversion H; subst. cbn [strip_scan].
  replace (existsb (N.eqb c) set) with true; [apply IH; assumption|]. symmetry. apply existsb_exists. exists c. split; [assumption|apply N.eqb_refl].
Qed.
Lemma strip_scan_started set a : forall i x e, fst (strip_scan set a i (Some x) e) = Some x.
Proof. induction a as [|c a IH]; intros i x e; cbn [strip_scan]; [reflexivity|]. destruct (existsb _ _); apply IH. Qed.
Lemma not_in_set set c : ~ In c set -> existsb (N.eqb c) set = false.
Proof.
  intro H. apply Bool.not_true_is_false. intro E. apply existsb_exists in E. destruct E as (x & I & E). apply N.eqb_eq in E. subst. auto.
Qed.
Lemma strip_scan_core set c : forall i, c <> [] -> ~ In (hd 0 c) set -> ~ In (last c 0) set ->
  strip_scan set c i None 0 = (Some i, i + lenN c - 1).
Proof.
  intros i NE H1 H2. destruct c as [|x c]; [congruence|]. cbn [hd] in H1. cbn [strip_scan]. rewrite not_in_set by assumption.
  destruct (exists_last (l := x :: c)) as (d & y & E); [discriminate|]. rewrite E in H2. rewrite last_last in H2.
  destruct d as [|z d].
  - cbn in E. injection E as -> ->. cbn [strip_scan]. rewrite lenN_cons, lenN_nil. f_equal. lia.
  - cbn [app] in E. injection E as <- ->. rewrite strip_scan_app. pose proof (strip_scan_started set d (i + 1) i i) as S.
    destruct (strip_scan set d (i + 1) (Some i) i) as [st e]. cbn [fst] in S. subst st. cbn [strip_scan]. rewrite not_in_set by assumption.
    rewrite lenN_cons, lenN_app, lenN_cons, lenN_nil. f_equal. lia.
Qed.
Lemma strip_ok set l c r : ascii_only (l ++ c ++ r) -> Forall (fun x => In x set) l -> Forall (fun x => In x set) r ->
  c <> [] -> ~ In (hd 0 c) set -> ~ In (last c 0) set -> strip_front_end_chars (l ++ c ++ r) set = ROk c.
Proof.
  intros A L R NE H1 H2. unfold strip_front_end_chars. rewrite chars_ascii by assumption.
  rewrite strip_scan_app, strip_scan_in by assumption. rewrite strip_scan_app, strip_scan_core by assumption. rewrite strip_scan_in by assumption.
  assert (0 < lenN c). { destruct c; [congruence|]. rewrite lenN_cons. lia. }
  rewrite N.add_0_l. destruct (N.ltb_spec (lenN l + lenN c - 1) (lenN (l ++ c ++ r))) as [_|X]; [|rewrite !lenN_app in X; lia].
  rewrite slice_ascii by (assumption || rewrite ?lenN_app; lia).
  replace (lenN l + lenN c - 1 + 1 - lenN l) with (lenN c) by lia. f_equal.
  rewrite slice_app_r by lia. rewrite N.sub_diag. rewrite slice_app_l by lia. apply slice_all. lia.
Qed.
Lemma strip_nil set : strip_front_end_chars [] set = ROk [].
Proof. reflexivity. Qed.

(* ---- keys ---- *)
Lemma drop_while_split p l : exists a, l = a ++ drop_while p l /\ Forall (fun c => p c = true) a.
Proof.
  induction l as [|c l (a & E & F)]; cbn [drop_while]; [exists []; auto|]. destruct (p c) eqn:P; [|exists []; auto].
  exists (c :: a). cbn [app]. rewrite <- E. auto.
Qed.
Lemma drop_while_hd p l : drop_while p l <> [] -> p (hd 0 (drop_while p l)) = false.
Proof. induction l as [|c l IH]; cbn [drop_while]; [congruence|]. destruct (p c) eqn:P; auto. Qed.
Lemma rev_hd_last (l : list N) : hd 0 (rev l) = last l 0.
Proof.
  destruct l as [|a l] using rev_ind; [reflexivity|]. rewrite rev_app_distr, last_last. reflexivity.
Qed.
Lemma paren_in c : paren c = true -> In c (str " ()").
Proof. unfold paren. cbn. intro H. apply Bool.orb_true_iff in H. destruct H as [H|H]; apply N.eqb_eq in H; subst; auto. Qed.
Lemma unparen_split w : exists l r, w = l ++ unparen w ++ r /\ Forall (fun c => In c (str " ()")) l /\ Forall (fun c => In c (str " ()")) r /\
  (unparen w <> [] -> paren (hd 0 (unparen w)) = false /\ paren (last (unparen w) 0) = false).
Proof.
  destruct (drop_while_split paren w) as (l & E & F). set (d := drop_while paren w) in *.
  destruct (drop_while_split paren (rev d)) as (r & E' & F'). exists l, (rev r).
  assert (ED : d = unparen w ++ rev r). { unfold unparen. fold d. apply (f_equal (@rev N)) in E'. rewrite rev_involutive, rev_app_distr in E'. exact E'. }
  split; [rewrite <- ED; exact E|]. split; [eapply Forall_impl; [|exact F]; apply paren_in|].
  split; [apply Forall_rev; eapply Forall_impl; [|exact F']; apply paren_in|].
  intro NE. split.
  - assert (ND : d <> []) by (intro Z; rewrite Z in ED; destruct (unparen w); [congruence|discriminate]).
    pose proof (drop_while_hd paren w) as HH. fold d in HH. specialize (HH ND). rewrite ED in HH. destruct (unparen w); [congruence|exact HH].
  - rewrite <- rev_hd_last. unfold unparen. fold d. rewrite rev_involutive. apply drop_while_hd. unfold unparen in NE. fold d in NE. intro Z. rewrite Z in NE. apply NE. reflexivity.
Qed.
Definition keych (c : N) : Prop := 33 <= c <= 126 /\ c <> 34 /\ c <> 58 /\ c <> 92.
Lemma word_strip w : word w -> strip_front_end_chars w (str " ()") = ROk (unparen w).
Proof.
  intros (C & NE). destruct (unparen_split w) as (l & r & E & L & R & H). destruct (H NE) as (H1 & H2).
  remember (unparen w) as u eqn:EU. clear EU H. rewrite E. apply strip_ok; try assumption.
  - rewrite <- E. eapply Forall_impl; [|exact C]. cbn. intros; lia.
  - assert (I : In (hd 0 u) w). { rewrite E. apply in_or_app. right. apply in_or_app. left. destruct u; [congruence|left; reflexivity]. }
    rewrite Forall_forall in C. apply C in I. intro X. cbn in X. destruct X as [X|[X|[X|[]]]]; rewrite <- X in *; try discriminate; lia.
  - assert (I : In (last u 0) w). { rewrite E. apply in_or_app. right. apply in_or_app. left. destruct (exists_last NE) as (d & y & ->). rewrite last_last. apply in_or_app. right. left. reflexivity. }
    rewrite Forall_forall in C. apply C in I. intro X. cbn in X. destruct X as [X|[X|[X|[]]]]; rewrite <- X in *; try discriminate; lia.
Qed.
Lemma split_spaces_word w t : Forall keych w -> split_spaces (w ++ 32 :: t) = w :: split_spaces t.
Proof.
  induction 1 as [|c w H HW IH]; [reflexivity|]. cbn [app split_spaces]. unfold keych in H. destruct (N.eqb_spec c 32); [lia|]. rewrite IH. reflexivity.
Qed.
Lemma split_spaces_end w : Forall keych w -> split_spaces w = [w].
Proof.
  induction 1 as [|c w H HW IH]; [reflexivity|]. cbn [split_spaces]. unfold keych in H. destruct (N.eqb_spec c 32); [lia|]. rewrite IH. reflexivity.
Qed.
Definition words_camel (ws : list (list N)) := rmap (fun w => do! w <- strip_front_end_chars w (str " ()"); ROk match w with [] => [] | c :: t => upper c :: t end) ws.
Lemma capital_upper w : match w with [] => [] | c :: t => upper c :: t end = capital w.
Proof. destruct w; reflexivity. Qed.
Lemma spelled_words ws k : spelled ws k -> exists ts, words_camel (split_spaces k) = ROk ts /\ concat ts = concat (map (fun w => capital (unparen w)) ws).
Proof.
  induction 1 as [w W|w ws n k W N1 S (ts & E & C)].
  - rewrite split_spaces_end by apply W. unfold words_camel. cbn [rmap]. rewrite word_strip by assumption. cbn [rbind]. eexists. split; [reflexivity|].
    cbn [concat map]. rewrite capital_upper. reflexivity.
  - assert (G : forall m, exists ts', words_camel (split_spaces (repN m 32 ++ k)) = ROk ts' /\ concat ts' = concat ts).
    { intro m. induction m as [|m IH] using N.peano_ind; [exists ts; auto|]. rewrite <- N.add_1_l, rep_S. cbn [app split_spaces].
      change (32 =? 32) with true. cbv iota. destruct IH as (ts' & E' & C'). unfold words_camel in *. cbn [rmap].
      rewrite strip_nil. cbn [rbind]. rewrite E'. eexists. split; [reflexivity|]. exact C'. }
    replace n with (1 + (n - 1)) by lia. rewrite rep_S. cbn [app]. rewrite split_spaces_word by apply W.
    destruct (G (n - 1)) as (ts' & E' & C'). unfold words_camel in *. cbn [rmap]. rewrite word_strip by assumption. cbn [rbind]. rewrite E'. cbn [rbind].
    eexists. split; [reflexivity|]. cbn [concat map]. rewrite C', C, capital_upper. reflexivity.
Qed.
Lemma lower_small w : map lower w = map small w.
Proof. reflexivity. Qed.
Lemma camel_ok ws k : spelled ws k -> to_camelcase k = ROk (camel ws).
Proof.
  intro S. destruct S as [w W|w ws n k W N1 S].
  - unfold to_camelcase. rewrite split_spaces_end by apply W. reflexivity.
  - unfold to_camelcase. replace n with (1 + (n - 1)) by lia. rewrite rep_S. cbn [app]. rewrite split_spaces_word by apply W.
    assert (G : forall m, exists ts', words_camel (split_spaces (repN m 32 ++ k)) = ROk ts' /\ concat ts' = concat (map (fun w => capital (unparen w)) ws)).
    { intro m. induction m as [|m IH] using N.peano_ind; [apply spelled_words; assumption|]. rewrite <- N.add_1_l, rep_S. cbn [app split_spaces].
      change (32 =? 32) with true. cbv iota. destruct IH as (ts' & E' & C'). unfold words_camel in *. cbn [rmap].
      rewrite strip_nil. cbn [rbind]. rewrite E'. eexists. split; [reflexivity|]. exact C'. }
    destruct (G (n - 1)) as (ts & E & C). unfold words_camel in E. rewrite E. cbn [rbind camel]. rewrite C. reflexivity.
Qed.
Lemma spelled_chars ws k : spelled ws k -> Forall (fun c => 32 <= c <= 126 /\ c <> 34 /\ c <> 58 /\ c <> 92) k /\ k <> [] /\ hd 0 k <> 32 /\ last k 0 <> 32.
Proof.
  assert (W0 : forall w, word w -> Forall keych w /\ w <> []). { intros w (C & NE). split; [exact C|]. intros ->. apply NE. reflexivity. }
  assert (WI : forall w, Forall keych w -> Forall (fun c => 32 <= c <= 126 /\ c <> 34 /\ c <> 58 /\ c <> 92) w) by (intros; eapply Forall_impl; [|eassumption]; unfold keych; cbn; intros; lia).
  induction 1 as [w W|w ws n k W N1 S (C & NE & H1 & H2)].
  - destruct (W0 w W) as (K & NW). split; [auto|]. split; [assumption|]. rewrite Forall_forall in K. split.
    + destruct w; [congruence|]. assert (keych n) by (apply K; left; reflexivity). unfold keych in *. cbn. lia.
    + destruct (exists_last NW) as (d & y & ->). rewrite last_last. assert (keych y) by (apply K, in_or_app; right; left; reflexivity). unfold keych in *. lia.
  - destruct (W0 w W) as (K & NW). split.
    { apply Forall_app. split; [auto|]. apply Forall_app. split; [|assumption]. apply Forall_forall. intros x I. apply repeat_spec in I. subst. lia. }
    split; [destruct w; [congruence|discriminate]|]. split.
    + rewrite Forall_forall in K. destruct w; [congruence|]. assert (keych n0) by (apply K; left; reflexivity). unfold keych in *. cbn. lia.
    + rewrite app_assoc. destruct (exists_last NE) as (d & y & E). rewrite E in *. rewrite last_last in H2. rewrite app_assoc, last_last. assumption.
Qed.
Lemma camel_chars ws k : spelled ws k -> Forall (fun c => 32 <= c /\ c <> 34 /\ c <> 92) (camel ws).
Proof.
  assert (CU : forall w, word w -> Forall (fun c => 32 <= c /\ c <> 34 /\ c <> 92) (capital (unparen w))).
  { intros w (C & _). destruct (unparen_split w) as (l & r & E & _). rewrite E in C. apply Forall_app in C. destruct C as [_ C]. apply Forall_app in C. destruct C as [C _].
    destruct (unparen w) as [|c t]; [constructor|]. inversion C; subst. cbn [capital]. constructor; [|eapply Forall_impl; [|eassumption]; cbn; intros; lia].
    destruct (N.leb_spec 97 c), (N.leb_spec c 122); cbn [andb]; lia. }
  assert (CS : forall w, word w -> Forall (fun c => 32 <= c /\ c <> 34 /\ c <> 92) (map small w)).
  { intros w (C & _). apply Forall_forall. intros x I. apply in_map_iff in I. destruct I as (c & <- & I). rewrite Forall_forall in C. apply C in I. unfold small.
    destruct (N.leb_spec 65 c), (N.leb_spec c 90); cbn [andb]; lia. }
  assert (CC : forall ws k, spelled ws k -> Forall (fun c => 32 <= c /\ c <> 34 /\ c <> 92) (concat (map (fun w => capital (unparen w)) ws))).
  { induction 1; cbn [map concat]; [rewrite app_nil_r; auto|apply Forall_app; auto]. }
  intro S. destruct S as [w W|w ws n k W N1 S]; cbn [camel]; apply Forall_app; split; auto; [constructor|eapply CC; eassumption].
Qed.
Lemma string_text_plain s : Forall (fun c => 32 <= c /\ c <> 34 /\ c <> 92) s -> string_text s s.
Proof. induction 1; constructor; intuition. Qed.

(* ---- messages ---- *)
Lemma find_char_app a c t : forall i, Forall (fun x => x <> c) a -> find_char c (a ++ c :: t) i = Some (i + lenN a).
Proof.
  induction a as [|x a IH]; intros i H; cbn [app find_char].
  - rewrite N.eqb_refl, lenN_nil, N.add_0_r. reflexivity.
  - inversion H; subst. destruct (N.eqb_spec x c); [congruence|]. rewrite IH by assumption. rewrite lenN_cons. f_equal. lia.
Qed.
Lemma In_repN n a (x : N) : In x (repN n a) -> x = a.
Proof. unfold repN. apply repeat_spec. Qed.
Lemma split_ok ws key n m val : spelled ws key -> plain val ->
  split_key_val_pair (key ++ repN n 32 ++ str ":" ++ repN m 32 ++ val) = ROk (key, val).
Proof.
  intros S (NV & CV & V1 & V2). destruct (spelled_chars ws key S) as (CK & NK & K1 & K2).
  set (s := key ++ _).
  assert (SP : forall n (P : N -> Prop), P 32 -> Forall P (repN n 32)) by (intros; apply Forall_forall; intros x I; apply In_repN in I; subst; assumption).
  assert (AK : ascii_only key) by (eapply Forall_impl; [|exact CK]; cbn; intros; lia).
  assert (AV : ascii_only val) by (eapply Forall_impl; [|exact CV]; cbn; intros; lia).
  assert (AS : ascii_only s). { unfold s, ascii_only. repeat (apply Forall_app; split); try assumption; try (apply SP; lia). repeat constructor. }
  assert (ES : s = (key ++ repN n 32) ++ 58 :: (repN m 32 ++ val)) by (unfold s; rewrite <- app_assoc; reflexivity).
  clearbody s. unfold split_key_val_pair. rewrite chars_ascii by assumption.
  assert (EF : find_char 58 s 0 = Some (0 + lenN (key ++ repN n 32))).
  { rewrite ES. apply find_char_app. apply Forall_app. split; [eapply Forall_impl; [|exact CK]; cbn; intros; lia|apply SP; lia]. }
  rewrite EF.
  rewrite N.add_0_l. remember (lenN (key ++ repN n 32)) as p eqn:EP.
  assert (LS : lenN s = p + 1 + lenN (repN m 32 ++ val)) by (rewrite ES, lenN_app, lenN_cons; lia).
  rewrite !slice_ascii by (assumption || lia). rewrite N.sub_0_r.
  assert (E0 : sliceN 0 p s = [] ++ key ++ repN n 32).
  { rewrite ES. rewrite slice_app_l by lia. apply slice_all. rewrite EP. apply N.le_refl. }
  rewrite E0.
  cbn [rbind]. rewrite strip_ok; [| cbn [app]; apply Forall_app; split; [assumption|apply SP; lia] | apply Forall_nil | apply SP; left; reflexivity | assumption | change (str " ") with [32]; intros [X|[]]; congruence | change (str " ") with [32]; intros [X|[]]; congruence].
  cbn [rbind].
  replace (sliceN (p + 1) (lenN s - (p + 1)) s) with (repN m 32 ++ val ++ []).
  2:{ rewrite app_nil_r. rewrite ES at 2. rewrite slice_app_r by lia. rewrite <- EP. replace (p + 1 - p) with 1 by lia.
      replace (58 :: repN m 32 ++ val) with ([58] ++ (repN m 32 ++ val)) by reflexivity. rewrite slice_app_r by (rewrite lenN_cons, lenN_nil; lia).
      replace (1 - lenN [58]) with 0 by reflexivity. symmetry. apply slice_all. rewrite LS. apply N.eq_le_incl. clear. lia. }
  rewrite strip_ok; [reflexivity| |apply SP; left; reflexivity|apply Forall_nil|assumption|change (str " ") with [32]; intros [X|[]]; congruence|change (str " ") with [32]; intros [X|[]]; congruence].
  rewrite app_nil_r. apply Forall_app; split; [apply SP; lia|assumption].
Qed.

(* ---- values ---- *)
Lemma escape_id s : Forall (fun c => c <> 34) s -> escape_quotes s = s.
Proof. induction 1 as [|c s H HS IH]; [reflexivity|]. unfold escape_quotes in *. cbn [flat_map]. rewrite IH. destruct (N.eqb_spec c 34); [congruence|reflexivity]. Qed.
Lemma escape_text s : Forall (fun c => 32 <= c <= 126 /\ c <> 92) s -> string_text (escape_quotes s) s.
Proof.
  induction 1 as [|c s H HS IH]; [constructor|]. unfold escape_quotes in *. cbn [flat_map]. destruct (N.eqb_spec c 34) as [->|NE]; cbn [app].
  - apply st_escape; [left; reflexivity|assumption].
  - apply st_plain; try assumption; lia.
Qed.
Lemma dec_head fuel : forall n, n < 2 ^ N.of_nat fuel -> (0 < fuel)%nat ->
  dec_digits fuel n = [48] \/ exists c r, dec_digits fuel n = c :: r /\ 49 <= c <= 57.
Proof.
  induction fuel as [|k IH]; intros n HN HF; [lia|]. cbn [dec_digits]. destruct (N.ltb_spec n 10) as [L|L].
  - rewrite N.mod_small by assumption. destruct (N.eq_dec n 0) as [->|NZ]; [left; reflexivity|]. right. exists (48 + n), []. split; [reflexivity|lia].
  - assert (H1 : 1 <= n / 10) by (apply N.div_le_lower_bound; lia).
    assert (H2 : n / 10 < 2 ^ N.of_nat k).
    { apply N.div_lt_upper_bound; [lia|]. rewrite Nat2N.inj_succ, N.pow_succ_r' in HN. lia. }
    destruct k as [|k]; [cbn in H2; lia|]. destruct (IH (n / 10) H2 ltac:(lia)) as [E|(c & r & E & C)].
    + exfalso. destruct (dec_digits_ok (S k) (n / 10) H2 ltac:(lia)) as (_ & V & _). rewrite E in V. cbn in V. lia.
    + right. rewrite E. exists c. eexists. split; [reflexivity|assumption].
Qed.
Lemma dec_number n : number_text (dec n).
Proof.
  destruct (dec_ok n) as (D & V & NE). exists [], (dec n), [], []. cbn [app]. rewrite app_nil_r. split; [reflexivity|]. split; [auto|]. split; [|auto].
  assert (DH : dec n = [48] \/ exists c r, dec n = c :: r /\ 49 <= c <= 57).
  { apply dec_head; [|lia]. rewrite Nat2N.inj_succ, N2Nat.id. destruct (N.eq_dec n 0) as [->|H]; [reflexivity|]. apply N.log2_spec. lia. }
  destruct DH as [E|(c & r & E & C)]; [left; exact E|right]. exists c, r. split; [assumption|]. split; [assumption|].
  rewrite E in D. unfold digits in D. cbn [forallb] in D. inversion D; subst. apply forallb_forall. rewrite Forall_forall in *. auto.
Qed.
Lemma dec_parses n : n < 18446744073709551616 -> parses_as_u64 (dec n) = true.
Proof.
  intro L. destruct (dec_ok n) as (D & V & NE). unfold parses_as_u64.
  assert (E : match dec n with 43 :: t => t | _ => dec n end = dec n).
  { unfold digits in D. destruct (dec n) as [|c t]; [reflexivity|]. inversion D; subst. destruct (N.eqb_spec c 43) as [->|H]; [discriminate|].
    destruct c as [|p]; [reflexivity|]. do 6 (destruct p as [p|p|]; try reflexivity). congruence. }
  rewrite E. destruct (dec n) eqn:E'; [congruence|]. rewrite <- E' in *. rewrite parse_dec. destruct (N.ltb_spec n 18446744073709551616); [|lia].
  rewrite Bool.andb_true_r. apply forallb_forall. unfold digits in D. rewrite Forall_forall in D. auto.
Qed.
Lemma numeral_of_parse v : parses_as_u64 v = true -> numeral v.
Proof.
  unfold parses_as_u64. intro H.
  assert (G : exists d, (v = d \/ v = 43 :: d) /\ match d with [] => false | _ :: _ => forallb is_digit d && match parse_u64 d with Some _ => true | None => false end end = true).
  { exists (match v with 43 :: t => t | _ => v end). split; [|exact H]. destruct v as [|c t]; [auto|].
    destruct c as [|p]; [auto|]. do 6 (destruct p as [p|p|]; auto). }
  destruct G as (d & E & G). exists d. split; [exact E|]. destruct d as [|x d]; [discriminate|]. split; [discriminate|].
  apply Bool.andb_true_iff in G. destruct G as (G1 & G2). split; [exact G1|]. unfold parse_u64 in G2. destruct (N.ltb_spec (dec_value (x :: d)) 18446744073709551616); [assumption|discriminate].
Qed.
Lemma value_ok' force v j : Forall (fun c => 32 <= c <= 126 /\ c <> 92) v -> shown force v j ->
  value_text (if determine_if_skip_quotes force v then escape_quotes v else [34] ++ escape_quotes v ++ [34]) j.
Proof.
  intros CV S. destruct S as [v| | | |n L|v N1 N2 N3 N4].
  - cbn [determine_if_skip_quotes negb andb]. constructor. apply escape_text, CV.
  - change (value_text (str "null") JNull). constructor.
  - change (value_text (str "true") (JBool true)). constructor.
  - change (value_text (str "false") (JBool false)). constructor.
  - unfold determine_if_skip_quotes. rewrite dec_parses by assumption. rewrite Bool.orb_true_r. cbn [negb andb].
    rewrite escape_id; [constructor; apply dec_number|]. destruct (dec_ok n) as (D & _). unfold digits in D. rewrite Forall_forall in *. intros c I. apply D in I.
    intros ->. discriminate.
  - unfold determine_if_skip_quotes, skip_quotes_for_term. rewrite (proj2 (eqbl_neq v (str "null"))), (proj2 (eqbl_neq v (str "true"))), (proj2 (eqbl_neq v (str "false"))) by assumption.
    destruct (parses_as_u64 v) eqn:P; [destruct N4; apply numeral_of_parse; exact P|]. cbn [orb negb andb]. constructor. apply escape_text, CV.
Qed.
Lemma value_ok force v j : plain v -> shown force v j ->
  value_text (if determine_if_skip_quotes force v then escape_quotes v else [34] ++ escape_quotes v ++ [34]) j.
Proof. intros (_ & CV & _). apply value_ok', CV. Qed.

(* ---- nesting ---- *)
Lemma do_calls_app a : forall b st, do_calls (a ++ b) st = do! (t, st) <- do_calls a st; do! (u, st) <- do_calls b st; ROk (t ++ u, st).
Proof.
  induction a as [|c a IH]; intros b st; cbn [app do_calls rbind].
  - destruct (do_calls b st) as [[u st']| |]; reflexivity.
  - destruct (do_call c st) as [[t st']| |]; cbn [rbind]; try reflexivity. rewrite IH. destruct (do_calls a st') as [[u st'']| |]; cbn [rbind]; try reflexivity.
    destruct (do_calls b st'') as [[w st3]| |]; cbn [rbind]; try reflexivity. rewrite app_assoc. reflexivity.
Qed.
Definition sep (first : bool) : list N := if first then [] else str ",".
(* one member, as printed *)
Definition member_text (t k : list N) (j : json) : Prop := exists v, t = [34] ++ k ++ [34] ++ str ":" ++ str " " ++ v ++ [10] /\ string_text k k /\ value_text v j.
Definition element_text (t : list N) (j : json) : Prop := exists v, t = v ++ [10] /\ value_text v j.

Scheme member_mut := Minimality for member Sort Prop
with members_mut := Minimality for members Sort Prop
with elements_mut := Minimality for elements Sort Prop
with contents_mut := Minimality for contents Sort Prop.
Combined Scheme json_items_ind from member_mut, members_mut, elements_mut, contents_mut.

Definition P_member i k j := forall c st, exists t, do_calls (calls i) (c :: st) = ROk (sep (first_item c) ++ t, mkContext false (bracket_type c) :: st) /\ member_text t k j.
Definition P_members l ms := forall c st, exists t c', do_calls (flat_map calls l) (c :: st) = ROk (t, c' :: st) /\ bracket_type c' = bracket_type c /\
  match ms with [] => t = [] | _ => exists u, t = sep (first_item c) ++ u /\ members_text u ms end.
Definition P_elements l js := forall c st, exists t c', do_calls (flat_map calls l) (c :: st) = ROk (t, c' :: st) /\ bracket_type c' = bracket_type c /\
  match js with [] => t = [] | _ => exists u, t = sep (first_item c) ++ u /\ elements_text u js end.
(* between the brackets, and with the closing one *)
Definition P_contents b l j := forall st, exists t, do_calls (flat_map calls l ++ [Close]) (mkContext true b :: st) = ROk (t ++ [10], st) /\
  value_text (open_str b ++ [10] ++ t) j.

Lemma ws_lf : ws [10]. Proof. apply Forall_cons; [cbn; auto|apply Forall_nil]. Qed.
Lemma ws_nil : ws []. Proof. constructor. Qed.
Lemma ws_sp : ws (str " "). Proof. apply Forall_cons; [cbn; auto|apply Forall_nil]. Qed.
Lemma members_text_one t k j : member_text t k j -> members_text t [(k, j)].
Proof. intros (v & -> & K & V). apply (mt_one [] k k [] (str " ") v j [10]); auto using ws_lf, ws_nil, ws_sp. Qed.
Lemma members_text_more t k j u ms : member_text t k j -> members_text u ms -> members_text (t ++ str "," ++ u) ((k, j) :: ms).
Proof.
  intros (v & -> & K & V) M. pose proof (mt_more [] k k [] (str " ") v j [10] u ms ws_nil K ws_nil ws_sp V ws_lf M) as X. cbn [app] in X. 
  replace (([34] ++ k ++ [34] ++ str ":" ++ str " " ++ v ++ [10]) ++ str "," ++ u) with (34 :: k ++ 34 :: str ":" ++ str " " ++ v ++ 10 :: str "," ++ u); [exact X|].
  cbn [app]. f_equal. rewrite <- !app_assoc. f_equal. cbn [app]. f_equal. rewrite <- !app_assoc. reflexivity.
Qed.
Lemma members_text_ws w t ms : ws w -> members_text t ms -> members_text (w ++ t) ms.
Proof.
  intros W M. destruct M as [w1 k s w2 w3 t v w4 H1 K H2 H3 V H4|w1 k s w2 w3 t v w4 r l H1 K H2 H3 V H4 R]; rewrite app_assoc; constructor; auto; apply Forall_app; auto.
Qed.
Lemma elements_text_ws w t js : ws w -> elements_text t js -> elements_text (w ++ t) js.
Proof.
  intros W M. destruct M as [w1 t v w2 H1 V H2|w1 t v w2 r l H1 V H2 R]; rewrite app_assoc; constructor; auto; apply Forall_app; auto.
Qed.
Lemma json_items :
  (forall i k j, member i k j -> P_member i k j) /\ (forall l ms, members l ms -> P_members l ms) /\
  (forall l js, elements l js -> P_elements l js) /\ (forall b l j, contents b l j -> P_contents b l j).
Proof.
  apply json_items_ind.
  - intros force words key n m val j S PV SH c st. cbn [calls do_calls do_call]. rewrite (split_ok words) by assumption. cbn [rbind].
    unfold json_field. rewrite (camel_ok words) by assumption. cbn [rbind]. rewrite app_nil_r.
    eexists. split; [reflexivity|]. exists (if determine_if_skip_quotes force val then escape_quotes val else [34] ++ escape_quotes val ++ [34]).
    split; [reflexivity|]. split; [eapply string_text_plain, camel_chars; eassumption|]. apply value_ok; assumption.
  - intros words name b items j S _ IH c st. cbn [calls do_calls do_call]. cbn [comma]. rewrite (camel_ok words) by assumption. cbn [rbind].
    destruct (IH (mkContext false (bracket_type c) :: st)) as (t & E & V). rewrite E. cbn [rbind].
    eexists. split.
    { f_equal. f_equal. rewrite <- !app_assoc. unfold sep. reflexivity. }
    exists (open_str b ++ [10] ++ t). split; [rewrite <- !app_assoc; reflexivity|]. split; [eapply string_text_plain, camel_chars; eassumption|exact V].
  - intros c st. exists [], c. auto.
  - intros i k j l ms _ IH _ IHs c st. cbn [flat_map]. rewrite do_calls_app. destruct (IH c st) as (t & E & M). rewrite E. cbn [rbind].
    destruct (IHs (mkContext false (bracket_type c)) st) as (u & c' & E' & B & MS). rewrite E'. cbn [rbind]. eexists _, c'. split; [reflexivity|]. split; [rewrite B; reflexivity|].
    destruct ms as [|m ms].
    + subst u. rewrite app_nil_r. exists t. split; [reflexivity|]. apply members_text_one. exact M.
    + destruct MS as (w & -> & MS). exists (t ++ str "," ++ w). split; [rewrite <- app_assoc; reflexivity|]. apply members_text_more; assumption.
  - intros c st. exists [], c. auto.
  - intros b items j l js _ IH _ IHs c st. cbn [flat_map calls]. cbn [app do_calls do_call comma rbind]. rewrite do_calls_app.
    destruct (IH (mkContext false (bracket_type c) :: st)) as (t & E & V). rewrite E. cbn [rbind].
    destruct (IHs (mkContext false (bracket_type c)) st) as (u & c' & E' & B & MS). rewrite E'. cbn [rbind]. eexists _, c'. split; [reflexivity|]. split; [rewrite B; reflexivity|].
    destruct js as [|x js].
    + subst u. rewrite app_nil_r. exists (open_str b ++ [10] ++ t ++ [10]). split; [unfold sep; rewrite <- !app_assoc; reflexivity|].
      pose proof (et_one [] (open_str b ++ [10] ++ t) j [10] ws_nil V ws_lf) as X. cbn [app] in X. rewrite <- !app_assoc in X. exact X.
    + destruct MS as (w & -> & MS). exists ((open_str b ++ [10] ++ t) ++ [10] ++ str "," ++ w). split; [unfold sep; cbn [first_item]; rewrite <- !app_assoc; reflexivity|].
      apply (et_more [] (open_str b ++ [10] ++ t) j [10] w); auto using ws_nil, ws_lf.
  - intros l ms _ IH st. rewrite do_calls_app. destruct (IH (mkContext true Curly) st) as (t & c' & E & B & M). rewrite E. cbn [rbind do_calls do_call].
    rewrite B. cbn [bracket_type close_str]. exists (t ++ str "}"). split; [rewrite app_nil_r, <- app_assoc; reflexivity|].
    cbn [open_str]. destruct ms as [|m ms].
    + subst t. apply (vt_obj0 [10] ws_lf).
    + destruct M as (u & -> & M). cbn [sep first_item app]. change (10 :: u ++ str "}") with (([10] ++ u) ++ str "}"). apply vt_obj. apply members_text_ws; [apply ws_lf|assumption].
  - intros l js _ IH st. rewrite do_calls_app. destruct (IH (mkContext true Square) st) as (t & c' & E & B & M). rewrite E. cbn [rbind do_calls do_call].
    rewrite B. cbn [bracket_type close_str]. exists (t ++ str "]"). split; [rewrite app_nil_r, <- app_assoc; reflexivity|].
    cbn [open_str]. destruct js as [|m js].
    + subst t. apply (vt_arr0 [10] ws_lf).
    + destruct M as (u & -> & M). cbn [sep first_item app]. change (10 :: u ++ str "]") with (([10] ++ u) ++ str "]"). apply vt_arr. apply elements_text_ws; [apply ws_lf|assumption].
Qed.
Lemma json_whole b l j : contents b l j -> exists t, do_calls (calls (GroupItem None b l)) [] = ROk (t, []) /\ json_text t j.
Proof.
  intro C. destruct (proj2 (proj2 (proj2 json_items)) b l j C []) as (t & E & V). cbn [calls do_calls do_call comma rbind app]. rewrite E. cbn [rbind].
  eexists. split; [reflexivity|]. exists [], (open_str b ++ [10] ++ t), [10]. split; [cbn [app]; rewrite <- !app_assoc; reflexivity|]. auto using ws_nil, ws_lf.
Qed.

(* an error printed at the end of an object *)
Lemma members_first l ms : members l ms -> forall c st t c' st', do_calls (flat_map calls l) (c :: st) = ROk (t, c' :: st') ->
  first_item c' = match ms with [] => first_item c | _ => false end.
Proof.
  induction 1 as [|i k j l ms M _ IH]; intros c st t c' st' E.
  - injection E as _ <- _. reflexivity.
  - cbn [flat_map] in E. rewrite do_calls_app in E. destruct (proj1 json_items i k j M c st) as (t0 & E0 & _). rewrite E0 in E. cbn [rbind] in E.
    destruct (do_calls (flat_map calls l) (mkContext false (bracket_type c) :: st)) as [[u [|c1 st1]]| |] eqn:E1; try discriminate E.
    cbn [rbind] in E. injection E as _ <- _. rewrite (IH _ _ _ _ _ E1). destruct ms; reflexivity.
Qed.
Lemma members_text_snoc u ms : members_text u ms -> forall t k j, member_text t k j -> members_text (u ++ str "," ++ t) (ms ++ [(k, j)]).
Proof.
  induction 1 as [w1 k s w2 w3 t v w4 H1 K H2 H3 V H4|w1 k s w2 w3 t v w4 r l H1 K H2 H3 V H4 R IH]; intros t' k' j' M.
  - rewrite <- !app_assoc. cbn [app]. apply (mt_more w1 k s w2 w3 t v w4); auto. apply members_text_one. exact M.
  - specialize (IH t' k' j' M). cbn [app]. rewrite <- !app_assoc.
    pose proof (mt_more w1 k s w2 w3 t v w4 _ _ H1 K H2 H3 V H4 IH) as X. cbn [app] in *. rewrite <- ?app_assoc in *. cbn [app] in *. rewrite <- ?app_assoc in *. exact X.
Qed.
