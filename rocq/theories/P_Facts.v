(* C70: what updates record is what show and check then tell. *)
From Coq Require Import String Ascii Sorted.
From Verif Require Import L_Update P_Update M_Base M_Specs M_Header M_Multihash M_Metadata M_Block M_Index M_FileUtils M_Buffer M_Ranges M_Encode
  M_Scan M_Loop M_Decode M_Content M_Check M_Sort M_Repair M_Rescue M_Hex M_Json M_Codec M_Path M_Cli M_Show M_Report M_Look
  S_Meta S_Block S_Index S_Container S_Encode S_Scan S_Decode S_Repair P_Update S_Check S_Cli S_Json S_Show S_Report S_Look
  L_Base L_Block L_File L_Scan L_Index2 L_Ranges L_Ref L_Intact L_Intact2 L_Path L_Cli L_Cli2 L_Cli3 L_Roundtrip L_Json2 L_Show L_Report L_Check P_Index P_Encode P_Decode P_Roundtrip P_Codec P_Cli P_Options P_Commands P_Json P_Check P_Show P_Report P_Look S_History S_Update M_Update L_LostCmd L_Renew L_History P_History S_Facts L_Facts.

Lemma encode_facts E m s inp li content v o n uid h name :
  machine_ok E -> text_ok m -> value_of m A_in_file = Some inp -> file_at E s inp li content ->
  bytes_ok content = true -> lenN content < 18446744073709551616 -> content <> [] ->
  whole_file m -> with_metadata m o -> spares_input E m s li -> version_options m v o -> uid_option E m uid -> hash_option m h -> file_name_of inp name ->
  match o with Some (d, p, B) => (d + p) * B < 4294967296 | None => True end -> v_rs E = rs_encode ->
  block_count v o (lenN content) n -> n < U32_MAX ->
  rn_exit (encode_cmd E m s) = Exit 0 ->
  exists dir called container ms, derived_place E m s (container_ext m) (dir ++ [called]) /\ rn_fs (encode_cmd E m s) (dir ++ [called]) = Some (NFile container) /\
    hash_fn_ok (v_H E) /\ 1 <= lenN content /\ 1 <= n /\ lenN uid = 6 /\ bytes_ok uid = true /\ kept_well v uid o rs_encode content n container container (Some name) ms /\
    facts_of ms (mkFacts (Some name) (Some called) (Some (h, v_H E h content)) (v_mtime E li) (Some (v_now E))) /\ In h (map snd hashes).
Proof.
  intros MO TX VI FA CB CL CN WF WM NF VO UO HO FNN OB CR BC HN X.
  assert (CO : codec_ok (v_rs E) o).
  { rewrite CR. destruct o as [[[d par] B]|]; [|exact Logic.I]. assert (PB : 1 <= d /\ d + par <= 256); [|destruct PB; apply c44_codec; assumption].
    unfold version_options in VO. destruct (value_of m A_sbx_version); [destruct VO as (_ & _ & _ & _ & P1 & P2 & P3 & _); lia|].
    destruct VO as (_ & _ & _ & _ & Z). injection Z as -> -> ->. lia. }
  destruct (encode_exit0_full E m s inp li content v o n MO TX VI FA CB CL WF WM NF VO OB CO BC HN X)
    as (p & out & lc & name' & (HP & EFD & ESD & (dir & ->)) & UI & FN & EV & EO & EI & EF & ET & ME & OK & MF & (mx & HMX & LM) & EN & EC & DP & SN & RC & SB).
  assert (name' = name) as -> by (apply part_iff in FN, FNN; congruence). assert (EU : e_uid p = uid) by (apply uid_iff in UI, UO; congruence).
  assert (EH : h = e_hash p) by (apply hash_opt_iff in HO, HP; congruence). destruct (canon_ctx _ (hash_listed _ _ HP)) as (CNH & CT & SU).
  exists dir, (e_out_name p), (eo_file out), (recorded (v_H E) p content). split; [exact DP|]. split; [exact RC|]. split; [apply MO|].
  assert (L1 : 1 <= lenN content) by (destruct content; [congruence|]; unfold lenN; cbn [length]; lia).
  split; [exact L1|]. split.
  { destruct BC as (chunks & C1 & C2). assert (1 <= chunks) by (unfold is_ceil_div in C1; destruct (N.eq_dec chunks 0) as [->|]; lia).
    assert (DK : dpb_ok o) by (rewrite <- EO; apply OK). destruct o as [[[d q] B]|]; [|lia]. destruct C2 as (sets & C2 & ->). destruct DK as (D1 & _). assert (1 <= sets) by (unfold is_ceil_div in C2; destruct (N.eq_dec sets 0) as [->|]; lia). nia. }
  split; [rewrite <- EU; apply OK|]. split; [rewrite <- EU; apply OK|].
  rewrite CR in OK, EN, EC. pose proof BC as BC'. rewrite <- EV, <- EO in BC'.
  destruct (encoded_intact (v_H E) rs_encode (v_cpus E) p content out n OK CB EC BC' ltac:(lia)) as [IT FL]. rewrite ME in IT.
  split; [|split; [|rewrite EH; exact (hash_listed _ _ HP)]].
  - rewrite EV, EU, EO in IT. split; [exact IT|exact FL| | | | |].
    + destruct EC as (_ & (meta & C & M) & _). specialize (M ME). rewrite ME, EO in C. destruct C as (n' & _ & _ & C & _). intros i MI. rewrite <- EV, <- EU, <- EO in *. rewrite (C i MI). apply M.
    + apply recorded_size.
    + rewrite <- EO. apply recorded_shards.
    + unfold recorded. rewrite EI. reflexivity.
    + split; [reflexivity|]. intros i _ k _. reflexivity.
  - subst h. unfold facts_of. cbn [fc_name fc_called fc_hash fc_mtime fc_time field option_map]. rewrite recorded_hash, CNH. unfold recorded. rewrite EI, EFD, ESD. destruct (v_mtime E li), (e_dpb p) as [[[? ?] ?]|]; repeat split; reflexivity.
Qed.

(* However often a container is updated, damaged within its tolerance and repaired, show prints what encode and the updates since have recorded, and nothing older. *)
Theorem c70_show E m s inp li content v o n uid h name :
  machine_ok E -> text_ok m -> value_of m A_in_file = Some inp -> file_at E s inp li content ->
  bytes_ok content = true -> lenN content < 18446744073709551616 -> content <> [] ->
  whole_file m -> with_metadata m o -> spares_input E m s li -> version_options m v o -> uid_option E m uid -> hash_option m h -> file_name_of inp name ->
  match o with Some (d, p, B) => (d + p) * B < 4294967296 | None => True end -> v_rs E = rs_encode ->
  block_count v o (lenN content) n -> n < U32_MAX ->
  rn_exit (encode_cmd E m s) = Exit 0 ->
  exists dir called container, derived_place E m s (container_ext m) (dir ++ [called]) /\ rn_fs (encode_cmd E m s) (dir ++ [called]) = Some (NFile container) /\
  forall g G, story (v_H E) content v uid o n container (mkFacts (Some name) (Some called) (Some (h, v_H E h content)) (v_mtime E li) (Some (v_now E))) g G ->
  forall E' K cal m' s' inp' l',
    clap_ok m' -> value_of m' A_in_file = Some inp' -> file_at E' s' inp' l' g -> (exists x, file_name_of inp' x) ->
    whole_check m' -> is_present m' A_show_all = false -> is_present m' A_guess_burst = false ->
    match value_of m' A_uid with Some x => hex_bytes x uid | None => True end ->
    plain_name (fc_name G) -> plain_name (fc_called G) ->
    exists cs, show_cmd E' K cal (fun _ => None) m' s' = mkSeen s' (Exit 0) (Some cs) /\
      stands_for cs (success_json [(str "blocks", JArr [now_json cal uid G v o (lenN content)])]).
Proof.
  intros MO TX VI FA CB CL CN WF WM NF VO UO HO FNN OB CR BC HN X.
  destruct (encode_facts E m s inp li content v o n uid h name MO TX VI FA CB CL CN WF WM NF VO UO HO FNN OB CR BC HN X) as (dir & called & f0 & ms0 & DP & RC & HF & L1 & N1 & U6 & UB & K0 & FO & HL).
  exists dir, called, f0. split; [exact DP|]. split; [exact RC|]. intros g G ST.
  destruct (story_kept (v_H E) v uid o content n f0 (mkFacts (Some name) (Some called) (Some (h, v_H E h content)) (v_mtime E li) (Some (v_now E))) ms0 g G HF L1 N1 K0 FO) with (2 := ST) as (ms & K & FG & _).
  { intros t x Q. injection Q as <- <-. auto. }
  destruct K as [IT FL MP FZ SR NM _]. apply (show_told _ _ _ _ _ _ _ _ _ IT FL SR FZ FG U6 UB).
Qed.
Print Assumptions c70_show.

(* And check finds such a container to be sound, by the hash recorded last. *)
Theorem c70_check E m s inp li content v o n uid h name :
  machine_ok E -> text_ok m -> value_of m A_in_file = Some inp -> file_at E s inp li content ->
  bytes_ok content = true -> lenN content < 18446744073709551616 -> content <> [] ->
  whole_file m -> with_metadata m o -> spares_input E m s li -> version_options m v o -> uid_option E m uid -> hash_option m h -> file_name_of inp name ->
  match o with Some (d, p, B) => (d + p) * B < 4294967296 | None => True end -> v_rs E = rs_encode ->
  block_count v o (lenN content) n -> n < U32_MAX ->
  rn_exit (encode_cmd E m s) = Exit 0 ->
  exists dir called container, derived_place E m s (container_ext m) (dir ++ [called]) /\ rn_fs (encode_cmd E m s) (dir ++ [called]) = Some (NFile container) /\
  forall g G t x, story (v_H E) content v uid o n container (mkFacts (Some name) (Some called) (Some (h, v_H E h content)) (v_mtime E li) (Some (v_now E))) g G ->
  fc_hash G = Some (t, x) -> x = v_H E t content /\
  forall E' K m' s' inp' l',
    v_H E' = v_H E -> 1 <= v_cpus E' -> (0 <= k_check K)%Z -> (0 <= k_hash K)%Z -> error_text (k_text K) ->
    clap_ok m' -> value_of m' A_in_file = Some inp' -> file_at E' s' inp' l' g -> (exists x, file_name_of inp' x) ->
    whole_check m' -> burst_known m' o -> is_present m' A_verbose = false ->
    exists cs, check_cmd E' K m' s' = mkSeen s' (Exit 0) (Some cs) /\
      stands_for cs (success_json (sound_level (hash_wanted m') o ++ [(str "stats", sound_json v o n (lenN g) (t, x) (is_present m' A_report_blank) (hash_wanted m') (k_check K) (k_hash K))])).
Proof.
  intros MO TX VI FA CB CL CN WF WM NF VO UO HO FNN OB CR BC HN X.
  destruct (encode_facts E m s inp li content v o n uid h name MO TX VI FA CB CL CN WF WM NF VO UO HO FNN OB CR BC HN X) as (dir & called & f0 & ms0 & DP & RC & HF & L1 & N1 & U6 & UB & K0 & FO & HL).
  exists dir, called, f0. split; [exact DP|]. split; [exact RC|]. intros g G t x ST GH.
  destruct (story_kept (v_H E) v uid o content n f0 (mkFacts (Some name) (Some called) (Some (h, v_H E h content)) (v_mtime E li) (Some (v_now E))) ms0 g G HF L1 N1 K0 FO) with (2 := ST) as (ms & K & FG & HS).
  { intros t' x' Q. injection Q as <- <-. auto. }
  destruct (HS t x GH) as (TL & ->). split; [reflexivity|].
  destruct K as [IT FL MP FZ SR NM _]. destruct FG as (_ & _ & F3 & _). rewrite GH in F3. apply (check_told _ _ _ _ _ _ _ _ _ _ IT FL SR FZ F3 TL L1 N1 HF).
Qed.
Print Assumptions c70_check.

(* ---- a concrete case: the history of C56 ---- *)
Definition fact_0 : facts := mkFacts (Some (str "a")) (Some (str "a.ecsbx")) (Some (SHA256, toy_hash SHA256 toy_data)) (Some 1500000000%Z) (Some 1600000000%Z).
Definition fact_1 : facts := mkFacts (Some (str "zz")) (Some (str "a.ecsbx")) (Some (SHA1, toy_hash SHA1 toy_data)) (Some 1500000000%Z) (Some 1600000000%Z).
Example c70_story : story toy_hash toy_data V17 [1;2;3;4;5;6] (Some (2, 1, 2)) 3 cont fact_0 his_c1 fact_1.
Proof.
  assert (L1 : story toy_hash toy_data V17 [1;2;3;4;5;6] (Some (2, 1, 2)) 3 cont fact_0 his_c1 fact_1).
  { apply (story_update _ _ _ _ _ _ _ _ mach his_m1 his_0 (str "o/x") (w_ ++ [str "o"; str "x"]) cont fact_0).
    - apply story_new.
    - reflexivity.
    - vm_compute. discriminate.
    - reflexivity.
    - split; [discriminate|]. split; [vm_compute; reflexivity|]. split; [apply upd_same|reflexivity].
    - split; [intros a x; destruct a; cbn; try discriminate; intro Q; injection Q as <-; split; reflexivity|].
      split; [intros x Q; cbn in Q; injection Q as <-; vm_compute; split; discriminate|]. split; [intros x Q; discriminate|]. repeat split; auto.
    - right. split; [reflexivity|]. discriminate.
    - left. reflexivity.
    - reflexivity.
    - vm_compute. reflexivity.
    - vm_compute. reflexivity.
    - split; [reflexivity|]. split; [reflexivity|]. split; [exists SHA1; split; [cbn; tauto|reflexivity]|]. split; reflexivity. }
  assert (L2 : story toy_hash toy_data V17 [1;2;3;4;5;6] (Some (2, 1, 2)) 3 cont fact_0 his_c1 fact_1).
  { apply (story_no_update _ _ _ _ _ _ _ _ mach his_m2 (rn_fs his_1) (str "o/x") (w_ ++ [str "o"; str "x"]) his_c1).
    - exact L1.
    - reflexivity.
    - reflexivity.
    - split; [discriminate|]. split; [vm_compute; reflexivity|]. split; [vm_compute; reflexivity|reflexivity].
    - right. left. reflexivity.
    - exact his_2_file. }
  apply (story_repair _ _ _ _ _ _ _ _ mach his_m3 his_s3 (str "y") (w_ ++ [str "y"]) his_c1 fact_1 his_c1 2 1 2 [1] his_h).
  - exact L2.
  - reflexivity.
  - exact his_damage.
  - reflexivity.
  - reflexivity.
  - split; [discriminate|]. split; [vm_compute; reflexivity|]. split; [apply upd_same|reflexivity].
  - exists (str "y"). split; [split; [discriminate|]; split; [cbn; intuition discriminate|split; discriminate]|]. exists []. split; [constructor|left; reflexivity].
  - exact Logic.I.
  - apply number_iff. vm_compute. reflexivity.
  - reflexivity.
  - right. left. reflexivity.
  - exact his_3_file.
Qed.
Definition look_m (flags : list arg) : matches := cmd [(A_in_file, str "y"); (A_burst, str "2")] flags.
Example c70_run :
  said (check_cmd mach a_timing (look_m [A_hash]) (rn_fs his_3))
    = Some (Exit 0, success_json [(str "burstErrorResistanceLevel", num 2); (str "stats", sound_json V17 (Some (2, 1, 2)) 3 3584 (SHA1, toy_hash SHA1 toy_data) false HashAfterCheck 3 1)]) /\
  said (show_cmd mach a_timing (fun _ _ => None) (fun _ => None) (look_m []) (rn_fs his_3))
    = Some (Exit 0, success_json [(str "blocks", JArr [now_json (fun _ _ => None) [1;2;3;4;5;6] fact_1 V17 (Some (2, 1, 2)) 300])]).
Proof. split; vm_compute; reflexivity. Qed.
