(* Lemmas on the reports: each printed field is a member of the JSON object. *)
From Coq Require Import String Ascii ZArith.
From Verif Require Import M_Base M_Specs M_Header M_Multihash M_Metadata M_Block M_Index M_FileUtils M_Buffer M_Ranges M_Encode M_Scan M_Loop M_Decode
  M_Content M_Check M_Repair M_Sort M_Hex M_Rescue M_Json M_Show M_Report S_Meta S_Encode S_Json S_Show S_Report L_Base L_Log L_Index L_Json L_Show P_Json.

(* ---- keys of literal messages ---- *)
Definition ne (w : list N) : bool := match w with [] => false | _ => true end.
Definition kwords (k : list N) : list (list N) := filter ne (split_spaces k).
Definition keychb (c : N) : bool := (33 <=? c) && (c <=? 126) && negb (c =? 34) && negb (c =? 58) && negb (c =? 92).
Definition key_good (k : list N) : bool :=
  match k with c :: _ => negb (c =? 32) | [] => false end && forallb (fun c => (c =? 32) || keychb c) k && forallb (fun w => ne (unparen w)) (kwords k).
Definition kcharb (c : N) : bool := (c =? 32) || keychb c.
Lemma spaces_split k : forallb kcharb k = true ->
  exists n k', k = repN n 32 ++ k' /\ match k' with [] => True | c :: _ => c <> 32 end /\ kwords k' = kwords k /\ forallb kcharb k' = true.
Proof.
  induction k as [|c k IH]; intro F; [exists 0, []; repeat split|]. cbn [forallb] in F. apply Bool.andb_true_iff in F as [F1 F2].
  destruct (N.eqb_spec c 32) as [->|NE].
  - destruct (IH F2) as (n & k' & -> & A & B & C). exists (n + 1), k'. split; [|split; [exact A|split; [exact B|exact C]]].
    unfold repN. replace (N.to_nat (n + 1)) with (S (N.to_nat n)) by lia. reflexivity.
  - exists 0, (c :: k). split; [reflexivity|]. split; [exact NE|]. split; [reflexivity|]. cbn [forallb]. rewrite F1, F2. reflexivity.
Qed.
Lemma word_split k : forallb kcharb k = true ->
  exists w r, k = w ++ r /\ Forall (fun c => 33 <= c <= 126 /\ c <> 34 /\ c <> 58 /\ c <> 92) w /\ forallb kcharb r = true /\
    match r with [] => kwords k = (if ne w then [w] else []) | c :: r' => c = 32 /\ kwords k = (if ne w then [w] else []) ++ kwords r' end.
Proof.
  induction k as [|c k IH]; intro F; [exists [], []; repeat split; constructor|]. cbn [forallb] in F. apply Bool.andb_true_iff in F as [F1 F2].
  destruct (N.eqb_spec c 32) as [->|NE].
  - exists [], (32 :: k). split; [reflexivity|]. split; [constructor|]. split; [cbn [forallb]; rewrite F2; reflexivity|]. split; [reflexivity|]. reflexivity.
  - destruct (IH F2) as (w & r & -> & A & B & C). exists (c :: w), r. split; [reflexivity|].
    split; [constructor; [|exact A]; unfold kcharb, keychb in F1; destruct (N.eqb_spec c 32); [contradiction|]; lia|]. split; [exact B|].
    assert (X : kwords (c :: w ++ r) = match split_spaces (w ++ r) with x :: xs => (c :: x) :: filter ne xs | [] => [[c]] end).
    { unfold kwords. cbn [split_spaces]. destruct (N.eqb_spec c 32); [contradiction|]. destruct (split_spaces (w ++ r)); reflexivity. }
    assert (KW : Forall (fun c => 33 <= c <= 126 /\ c <> 34 /\ c <> 58 /\ c <> 92) w) by exact A.
    change ((c :: w) ++ r) with (c :: (w ++ r)). rewrite X. destruct r as [|d r'].
    + rewrite app_nil_r in *. rewrite (split_spaces_end w KW). reflexivity.
    + destruct C as [-> _]. split; [reflexivity|]. rewrite (split_spaces_word w r' KW). reflexivity.
Qed.
Lemma key_spelled : forall n k, (length k <= n)%nat -> forallb kcharb k = true -> match k with c :: _ => c <> 32 | [] => False end ->
  forallb (fun w => ne (unparen w)) (kwords k) = true -> exists key m, k = key ++ repN m 32 /\ spelled (kwords k) key.
Proof.
  induction n as [|n IH]; intros k L F S0 W; [destruct k; [contradiction|cbn in L; lia]|].
  destruct (word_split k F) as (w & r & -> & A & B & C).
  assert (NW : ne w = true). { destruct w; [|reflexivity]. destruct r as [|c r']; [contradiction|]. destruct C as [-> _]. cbn in S0. congruence. }
  rewrite NW in C. destruct r as [|c r'].
  - exists w, 0. rewrite C in *. split; [reflexivity|]. apply sp_one. split; [exact A|]. cbn [forallb] in W. apply Bool.andb_true_iff in W as [W _]. destruct (unparen w); [discriminate|discriminate].
  - destruct C as [-> C]. rewrite C in *. cbn [app forallb] in W. apply Bool.andb_true_iff in W as [W1 W2].
    assert (WW : word w) by (split; [exact A|destruct (unparen w); [discriminate|discriminate]]).
    cbn [forallb] in B. apply Bool.andb_true_iff in B as [_ B]. destruct (spaces_split r' B) as (m & k' & -> & S' & KW & F').
    destruct k' as [|c k'].
    + exists w, (m + 1). rewrite app_nil_r in *. rewrite <- KW. split; [|apply sp_one, WW]. f_equal. unfold repN. replace (N.to_nat (m + 1)) with (S (N.to_nat m)) by lia. reflexivity.
    + rewrite <- KW in *. destruct (IH (c :: k')) as (key & e & E & SP); [|exact F'|exact S'|exact W2|].
      { rewrite app_length in L. cbn [length] in L. rewrite app_length in L. cbn [length] in *. destruct w; [discriminate|cbn [length] in L; lia]. }
      exists (w ++ repN (1 + m) 32 ++ key), e. rewrite E. split.
      * rewrite <- !app_assoc. f_equal. replace (repN (1 + m) 32) with (32 :: repN m 32); [reflexivity|]. unfold repN. replace (N.to_nat (1 + m)) with (S (N.to_nat m)) by lia. reflexivity.
      * rewrite E in SP. apply (sp_more w _ (1 + m)); [exact WW|lia|exact SP].
Qed.
(* a literal of the source: a key, spaces, a colon and a space; name is the key as printed *)
Definition lit_ok (lit name : list N) : bool :=
  let k := takeN (lenN lit - 2) lit in eqbl lit (k ++ str ": ") && key_good k && eqbl (camel (kwords k)) name.
Lemma field_lit force lit name v j : lit_ok lit name = true -> fine force v j -> member (FieldItem force (lit ++ v)) name j.
Proof.
  unfold lit_ok, key_good. set (k := takeN (lenN lit - 2) lit). intros E F. apply Bool.andb_true_iff in E as [E E3]. apply Bool.andb_true_iff in E as [E1 E2].
  apply eqbl_eq in E1. apply eqbl_eq in E3. apply Bool.andb_true_iff in E2 as [E2 W]. apply Bool.andb_true_iff in E2 as [S K]. clearbody k. subst lit name.
  destruct (key_spelled (length k) k (le_n _) K) as (key & m & E & SP); [destruct k; [discriminate|destruct (N.eqb_spec n 32); [discriminate|assumption]]|exact W|].
  pose proof (fine_field force _ key m 1 v j SP F) as M. replace ((k ++ str ": ") ++ v) with (key ++ repN m 32 ++ str ":" ++ repN 1 32 ++ v); [exact M|].
  rewrite E. rewrite <- !app_assoc. reflexivity.
Qed.
Lemma group_lit name key b items j : key_good name = true -> eqbl (camel (kwords name)) key = true ->
  (match rev name with c :: _ => negb (c =? 32) | [] => false end = true) -> contents b items j -> member (GroupItem (Some name) b items) key j.
Proof.
  unfold key_good. intros E2 E3 L C. apply eqbl_eq in E3. subst key. apply Bool.andb_true_iff in E2 as [E2 W]. apply Bool.andb_true_iff in E2 as [S K].
  destruct (key_spelled (length name) name (le_n _) K) as (k & m & E & SP); [destruct name; [discriminate|destruct (N.eqb_spec n 32); [discriminate|assumption]]|exact W|].
  apply m_group; [|exact C]. destruct (N.eq_dec m 0) as [->|NZ]; [rewrite app_nil_r in E; rewrite E at 2; exact SP|exfalso].
  assert (X : repN m 32 = repN (m - 1) 32 ++ [32]). { unfold repN. replace (N.to_nat m) with (N.to_nat (m - 1) + 1)%nat by lia. rewrite repeat_app. reflexivity. }
  rewrite X in E. rewrite E in L. rewrite app_assoc, rev_app_distr in L. cbn in L. discriminate.
Qed.

(* ---- values ---- *)
Lemma hms_ok t : (0 <= t)%Z -> fmt_hms t = clock (Z.to_N t).
Proof.
  intro H. unfold fmt_hms, seconds_to_hms, clock. rewrite Z.quot_div_nonneg by lia. set (n := Z.to_N t). assert (E : t = Z.of_N n) by (unfold n; lia). clearbody n. subst t.
  change (60 * 60)%Z with (Z.of_N 3600). change 60%Z with (Z.of_N 60). rewrite <- N2Z.inj_div, <- !N2Z.inj_mul.
  pose proof (N.div_mod n 3600) as D. pose proof (N.mod_lt n 3600) as M.
  assert (E1 : (Z.of_N n - Z.of_N (n / 3600 * 60 * 60) = Z.of_N (n mod 3600))%Z) by lia. rewrite E1. rewrite Z.quot_div_nonneg by lia. rewrite <- N2Z.inj_div, <- N2Z.inj_mul.
  pose proof (N.div_mod (n mod 3600) 60) as D2. pose proof (N.mod_lt (n mod 3600) 60) as M2.
  assert (E2 : (Z.of_N (n mod 3600) - Z.of_N (n mod 3600 / 60 * 60) = Z.of_N (n mod 3600 mod 60))%Z) by lia. rewrite E2.
  assert (F : forall a, fmt_02i (Z.of_N a) = two a). { intro a. unfold fmt_02i. destruct (Z.ltb_spec (Z.of_N a) 0); [lia|]. rewrite N2Z.id. apply two_ok. }
  rewrite !F.
  assert (A : n mod 3600 / 60 = n / 60 mod 60).
  { change 3600 with (60 * 60). rewrite N.mod_mul_r by lia. rewrite N.add_comm, N.mul_comm, N.div_add_l by lia. rewrite (N.div_small (n mod 60)) by (apply N.mod_lt; lia). lia. }
  assert (B : n mod 3600 mod 60 = n mod 60).
  { change 3600 with (60 * 60). rewrite N.mod_mul_r by lia. rewrite (N.mul_comm 60), N.mod_add by lia. apply N.mod_mod. lia. }
  rewrite A, B. reflexivity.
Qed.
Lemma fine_clock t : (0 <= t)%Z -> fine false (fmt_hms t) (clock_json t).
Proof.
  intro H. rewrite hms_ok by exact H. unfold clock_json. generalize (Z.to_N t). intro n. unfold clock.
  assert (T : forall a, exists c x, two a = c :: x /\ c <> 32). { intro a. unfold two. destruct (a <? 10); [exists 48, [48 + a]; split; [reflexivity|discriminate]|]. destruct (dec_cons a) as (c & x & E & D). exists c, x. split; [exact E|]. unfold is_digit in D. lia. }
  assert (L : forall a, two a <> [] /\ last (two a) 0 <> 32).
  { intro a. unfold two. destruct (N.ltb_spec a 10); [cbn; split; [discriminate|lia]|]. destruct (dec_plain a) as (X & _ & _ & Y). split; assumption. }
  assert (C : In 58 (two (n / 3600) ++ str ":" ++ two (n / 60 mod 60) ++ str ":" ++ two (n mod 60))) by (apply in_or_app; right; left; reflexivity).
  split.
  - split; [destruct (T (n / 3600)) as (c & x & E & _); rewrite E; discriminate|]. split; [|split].
    + repeat (apply Forall_app; split); try apply two_chars; chars.
    + destruct (T (n / 3600)) as (c & x & E & D); rewrite E. exact D.
    + rewrite !last_app_ne; try apply L; destruct (L (n mod 60)) as [X _]; destruct (two (n mod 60)); try contradiction; try discriminate.
      intro Z. apply app_eq_nil in Z as [_ Z]. discriminate Z.
  - apply sh_str; try (intro E; rewrite E in C; cbn in C; intuition discriminate). apply (not_numeral_in 58); [reflexivity|discriminate|exact C].
Qed.
Lemma fine_text e : plain e -> In 32 e -> fine false e (JStr e).
Proof. intros P I. split; [exact P|apply shown_space, I]. Qed.
Lemma fine_uid u : lenN u = 6 -> bytes_ok u = true -> fine true (bytes_to_upper_hex_string u) (JStr (bytes_to_upper_hex_string u)).
Proof. intros L B. split; [apply hex_plain; [exact B|intros ->; discriminate L]|apply sh_quoted]. Qed.

Lemma fine_level B : fine false (dec B) (level_json B).
Proof.
  unfold level_json. destruct (N.ltb_spec B 18446744073709551616) as [H|H]; [apply fine_dec, H|]. split; [apply dec_plain|].
  destruct (dec_cons B) as (c & x & E & D). assert (V : dec_value (dec B) = B) by apply (proj1 (proj2 (L_Log.dec_ok B))).
  apply sh_str; try (rewrite E; intro Z; injection Z as -> _; discriminate D).
  intros (d & [Z|Z] & _ & _ & L); [rewrite <- Z, V in L; lia|]. rewrite E in Z. injection Z as -> _. discriminate D.
Qed.

(* ---- calls and items ---- *)
Definition to_item (c : call) : item := match c with Field force m => FieldItem force m | _ => FieldItem false [] end.
Definition fields_of (cs : list call) : list item := map to_item (removelast (tl cs)).
Ltac fields := cbn [app map removelast tl to_item fields_of].
Ltac member_of tac := apply ms_cons; [apply field_lit; [vm_compute; reflexivity|tac]|].

Definition check_members (v : version) (x : coutcome) (t_check t_hash : Z) (etext : list N) : list (list N * json) :=
  match check_json v x t_check t_hash etext with JObj ms => ms | _ => [] end.
Definition small_cstats (s : cstats) : Prop := ck_meta s + ck_data s + ck_failed s + ck_blank s < 18446744073709551616.
Definition hash_fine (h : hash_bytes) : Prop := lenN (snd h) = hash_len (fst h) /\ bytes_ok (snd h) = true.
Lemma ver_small v : ver_to_usize v < 18446744073709551616 /\ ver_to_block_size v < 18446744073709551616 /\ ver_to_data_size v < 18446744073709551616.
Proof. destruct v; repeat split; reflexivity. Qed.
Lemma check_stats_items v x tc th e : check_stats_calls v x tc th e = flat_map calls [GroupItem (Some (str "stats")) Curly (fields_of (check_stats_calls v x tc th e))].
Proof. unfold check_stats_calls. destruct (ko_check x) as [[s ps]|], (ko_hash x) as [[h r]|]; reflexivity. Qed.
Lemma check_stats_members v x tc th e : (0 <= tc)%Z -> (0 <= th)%Z ->
  (forall s ps, ko_check x = Some (s, ps) -> small_cstats s) ->
  (forall h r, ko_hash x = Some (h, r) -> hash_fine h /\ match r with ROk h' => hash_fine h' | _ => fine false e (JStr e) end) ->
  member (GroupItem (Some (str "stats")) Curly (fields_of (check_stats_calls v x tc th e))) (str "stats") (check_json v x tc th e).
Proof.
  intros TC TH SM HF. destruct (ver_small v) as (V1 & V2 & V3).
  apply group_lit; try reflexivity. unfold check_json. apply c_object. unfold check_stats_calls.
  destruct (ko_check x) as [[s ps]|].
  - specialize (SM s ps eq_refl). unfold small_cstats in SM. destruct (ko_hash x) as [[h r]|].
    + destruct (HF h r eq_refl) as [HH HR]. fields.
      do 7 (member_of ltac:(first [apply fine_dec; lia|apply fine_clock; lia])).
      member_of ltac:(apply fine_hash, HH). member_of ltac:(destruct r; [apply fine_hash, HR|exact HR|exact HR]).
      member_of ltac:(apply fine_clock; destruct r; lia). member_of ltac:(apply fine_clock; destruct r; lia). apply ms_nil.
    + fields. do 8 (member_of ltac:(first [apply fine_dec; lia|apply fine_clock; lia])). apply ms_nil.
  - destruct (ko_hash x) as [[h r]|].
    + destruct (HF h r eq_refl) as [HH HR]. fields.
      member_of ltac:(apply fine_dec; lia).
      member_of ltac:(apply fine_hash, HH). member_of ltac:(destruct r; [apply fine_hash, HR|exact HR|exact HR]).
      member_of ltac:(apply fine_clock; destruct r; lia). member_of ltac:(apply fine_clock; destruct r; lia). apply ms_nil.
    + fields. do 2 (member_of ltac:(first [apply fine_dec; lia|apply fine_clock; lia])). apply ms_nil.
Qed.
Lemma failed_items ps :
  flat_map (fun pos => [Open None Curly; Field false (str "pos : " ++ dec pos); Close]) ps =
  flat_map calls (map (fun pos => GroupItem None Curly [FieldItem false (str "pos : " ++ dec pos)]) ps).
Proof. induction ps as [|a ps IH]; [reflexivity|]. cbn [flat_map map]. rewrite IH. reflexivity. Qed.
Lemma failed_member ps : Forall (fun q => q < 18446744073709551616) ps ->
  member (GroupItem (Some (str "blocks failed")) Square (map (fun pos => GroupItem None Curly [FieldItem false (str "pos : " ++ dec pos)]) ps)) (str "blocksFailed") (failed_json ps).
Proof.
  intro F. apply group_lit; try reflexivity. apply c_array. induction F as [|a ps A _ IH]; [apply es_nil|]. cbn [map]. apply es_cons; [|exact IH].
  apply c_object. member_of ltac:(apply fine_dec, A). apply ms_nil.
Qed.
Lemma info_items pos b : report_ref_block_info pos b = flat_map calls [GroupItem (Some (str "ref block info")) Curly (fields_of (report_ref_block_info pos b))].
Proof. reflexivity. Qed.
Lemma info_member pos b : pos < 18446744073709551616 ->
  member (GroupItem (Some (str "ref block info")) Curly (fields_of (report_ref_block_info pos b))) (fst (ref_info pos b)) (snd (ref_info pos b)).
Proof.
  intro P. destruct (ver_small (b_version b)) as (V1 & _). unfold ref_info. cbn [fst snd]. apply group_lit; try reflexivity. apply c_object. unfold report_ref_block_info. fields.
  member_of idtac. { destruct (is_meta b); (split; [is_plain|is_str]). }
  do 2 member_of ltac:(apply fine_dec; lia). apply ms_nil.
Qed.

Definition small_pstats (s : pstats) : Prop :=
  ps_meta s + ps_data s + ps_failed s < 18446744073709551616 /\ ps_meta_rep s < 18446744073709551616 /\ ps_data_rep s < 18446744073709551616 /\ ps_data_fail s < 18446744073709551616.
Lemma repair_stats_items v s t : repair_stats_calls v s t = flat_map calls [GroupItem (Some (str "stats")) Curly (fields_of (repair_stats_calls v s t))].
Proof. reflexivity. Qed.
Lemma repair_stats_members v s t : (0 <= t)%Z -> small_pstats s ->
  member (GroupItem (Some (str "stats")) Curly (fields_of (repair_stats_calls v s t))) (str "stats") (repair_json v s t).
Proof.
  intros T (S1 & S2 & S3 & S4). destruct (ver_small v) as (V1 & V2 & V3). apply group_lit; try reflexivity. unfold repair_json. apply c_object. unfold repair_stats_calls, ps_so_far. fields.
  do 10 (member_of ltac:(first [apply fine_dec; lia|apply fine_clock; lia])). apply ms_nil.
Qed.

Definition small_sort (s : sstats) (u : ostats) : Prop :=
  ss_meta s + ss_data s + ss_parity s + ss_failed s + ss_blank s < 18446744073709551616 /\
  ss_meta_same s + ss_meta_diff s < 18446744073709551616 /\ os_data_same u + os_data_diff u < 18446744073709551616 /\ os_parity_same u + os_parity_diff u < 18446744073709551616.
Lemma sort_stats_items v s u t : sort_stats_calls v s u t = flat_map calls [GroupItem (Some (str "stats")) Curly (fields_of (sort_stats_calls v s u t))].
Proof. unfold sort_stats_calls. destruct (ver_uses_rs v); reflexivity. Qed.
Lemma sort_stats_members v s u t : (0 <= t)%Z -> small_sort s u ->
  member (GroupItem (Some (str "stats")) Curly (fields_of (sort_stats_calls v s u t))) (str "stats") (sort_json v s u t).
Proof.
  intros T (S1 & S2 & S3 & S4). destruct (ver_small v) as (V1 & V2 & V3). apply group_lit; try reflexivity. unfold sort_json. apply c_object. unfold sort_stats_calls.
  destruct (ver_uses_rs v); fields; repeat (member_of ltac:(first [apply fine_dec; lia|apply fine_clock; lia])); apply ms_nil.
Qed.

Definition small_dstats (s : dstats) : Prop :=
  ds_meta s + ds_data s + ds_parity s + ds_failed s < 18446744073709551616 /\
  ds_meta s + ds_data s + ds_parity s + (ds_meta_failed s + ds_data_failed s + ds_parity_failed s) < 18446744073709551616.
Lemma decode_stats_items ref f x tf td th : decode_stats_calls ref f x tf td th = flat_map calls [GroupItem (Some (str "stats")) Curly (fields_of (decode_stats_calls ref f x tf td th))].
Proof. unfold decode_stats_calls. destruct (ver_uses_rs (b_version ref)), tf, (do_computed x); reflexivity. Qed.
Lemma decode_stats_members ref f x tf td th : (0 <= td)%Z -> (0 <= th)%Z -> lenN (b_uid ref) = 6 -> bytes_ok (b_uid ref) = true ->
  small_dstats (do_stats x) -> do_size x < 18446744073709551616 -> lenN f < 18446744073709551616 ->
  (forall h, do_recorded x = Some h -> hash_fine h) -> (forall h, do_computed x = Some h -> hash_fine h) ->
  member (GroupItem (Some (str "stats")) Curly (fields_of (decode_stats_calls ref f x tf td th))) (str "stats") (decode_json ref f x tf td th).
Proof.
  intros TD TH U1 U2 (S1 & S2) S3 S4 H1 H2. destruct (ver_small (b_version ref)) as (V1 & V2 & V3). apply group_lit; try reflexivity. unfold decode_json. apply c_object. unfold decode_stats_calls.
  assert (F1 : fine false (or_null fmt_hash (do_recorded x)) (opt hash_json (do_recorded x))) by (apply fine_opt; intros h E; apply fine_hash, (H1 h E)).
  assert (F2 : fine false (or_null fmt_hash (do_computed x)) (opt hash_json (do_computed x))) by (apply fine_opt; intros h E; apply fine_hash, (H2 h E)).
  revert F1 F2. generalize (or_null fmt_hash (do_recorded x)) (opt hash_json (do_recorded x)) (or_null fmt_hash (do_computed x)) (opt hash_json (do_computed x)). intros r1 j1 r2 j2 F1 F2.
  destruct (ver_uses_rs (b_version ref)), tf, (do_computed x) as [hc|]; cbn [andb]; fields;
    repeat (member_of ltac:(first [exact F1|exact F2|apply fine_uid; assumption|apply fine_dec; lia|apply fine_clock; lia])); apply ms_nil.
Qed.

Definition small_estats (v : version) (s : estats) : Prop :=
  st_meta s + st_data s + st_parity s < 18446744073709551616 /\ data_bytes_encoded v s < 18446744073709551616.
Lemma encode_stats_items p x t : encode_stats_calls p x t = flat_map calls [GroupItem (Some (str "stats")) Curly (fields_of (encode_stats_calls p x t))].
Proof. unfold encode_stats_calls. destruct (ver_uses_rs (e_ver p)); reflexivity. Qed.
Lemma encode_stats_members p n x t : (0 <= t)%Z -> lenN (e_uid p) = 6 -> bytes_ok (e_uid p) = true -> small_estats (e_ver p) (eo_stats x) -> data_bytes_encoded (e_ver p) (eo_stats x) = n -> eo_size x < 18446744073709551616 ->
  (forall h, eo_hash x = Some h -> hash_fine h) ->
  member (GroupItem (Some (str "stats")) Curly (fields_of (encode_stats_calls p x t))) (str "stats") (encode_json p n x t).
Proof.
  intros T U1 U2 (S1 & S2) <- S3 H1. destruct (ver_small (e_ver p)) as (V1 & V2 & V3). apply group_lit; try reflexivity. unfold encode_json. apply c_object. unfold encode_stats_calls.
  assert (F1 : fine false (or_null fmt_hash (eo_hash x)) (opt hash_json (eo_hash x))) by (apply fine_opt; intros h E; apply fine_hash, (H1 h E)).
  destruct (ver_uses_rs (e_ver p)); fields; repeat (member_of ltac:(first [exact F1|apply fine_uid; assumption|apply fine_dec; lia|apply fine_clock; lia])); apply ms_nil.
Qed.

Definition level_items (r : result dpb) : list item :=
  match r with ROk (Some (_, _, B)) => [FieldItem false (str "burst error resistance level : " ++ dec B)] | _ => [] end.
Lemma level_calls_items r : level_calls r = flat_map calls (level_items r).
Proof. destruct r as [[[[d p] B]|]|e|]; reflexivity. Qed.
Lemma level_members r : members (level_items r) (level_known r).
Proof.
  destruct r as [[[[d p] B]|]|e|]; try apply ms_nil. unfold level_items, level_known, level_used. member_of ltac:(apply fine_level). apply ms_nil.
Qed.

(* ---- whole reports ---- *)
Lemma report_ok items ms cs : members items ms -> cs = flat_map calls items -> stands_for (command_calls cs None) (success_json ms).
Proof.
  intros M ->. assert (M' : members (items ++ [FieldItem false (str "error : null")]) (ms ++ [(str "error", JNull)])).
  { assert (E : members [FieldItem false (str "error : null")] [(str "error", JNull)]).
    { apply ms_cons; [|apply ms_nil]. apply (field_lit false (str "error : ") (str "error") (str "null")); [vm_compute; reflexivity|]. split; [apply null_plain|apply sh_null]. }
    revert ms M. induction items as [|i items IH]; intros ms M; inversion M; subst; [exact E|]. cbn [app]. apply ms_cons; [assumption|apply IH; assumption]. }
  destruct (c42_nested_calls_print_json Curly _ _ (c_object _ _ M')) as (t & E & J & U). exists t. split; [|intro j'; split; [apply U|intros ->; exact J]].
  rewrite <- E. f_equal. unfold command_calls. cbn [calls app]. f_equal. rewrite flat_map_app. cbn [flat_map calls app]. rewrite <- app_assoc. reflexivity.
Qed.
Lemma report_error items ms cs e : members items ms -> cs = flat_map calls items -> error_text e -> stands_for (command_calls cs (Some e)) (error_json ms e).
Proof.
  intros M -> [(P1 & P2 & _) I]. destruct (c42_error_exit items ms e (JStr e) M P2 (shown_space e I)) as (t & E & J & U). exists t. split; [exact E|]. intro j'. split; [apply U|intros ->; exact J].
Qed.
