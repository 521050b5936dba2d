(* C43: show. *)
From Coq Require Import String Sorted.
From Verif Require Import M_Base M_Specs M_Header M_Multihash M_Metadata M_Block M_Index M_Buffer M_Ranges M_Scan M_Decode M_Hex M_Rescue M_Json M_Show M_Encode
  S_Meta S_Block S_Scan S_Json S_Show L_Base L_File L_Header L_Meta L_Block L_Ranges L_Ref L_Guess L_Log L_Json L_Json2 L_Show P_Json P_Encode P_Roundtrip.
Ltac Zify.zify_post_hook ::= idtac.

(* a UID is printed in upper case, a hash in lower case, with two digits for each byte *)
Theorem c43_hex_texts bytes : bytes_ok bytes = true ->
  bytes_to_upper_hex_string bytes = hex_text (str "0123456789ABCDEF") bytes /\ bytes_to_lower_hex_string bytes = hex_text (str "0123456789abcdef") bytes.
Proof.
  assert (D : forall x, x < 16 -> hex_digit true x = nthN (str "0123456789ABCDEF") x /\ hex_digit false x = nthN (str "0123456789abcdef") x).
  { intros x H. assert (I : In x (rangeN 0 16)) by (apply In_rangeN; lia). revert x H I.
    enough (F : Forall (fun x => hex_digit true x = nthN (str "0123456789ABCDEF") x /\ hex_digit false x = nthN (str "0123456789abcdef") x) (rangeN 0 16)) by (intros x _; apply (proj1 (Forall_forall _ _) F)).
    vm_compute. repeat constructor. }
  induction bytes as [|b l IH]; [split; reflexivity|]. intros B. apply andb_true_iff in B as [B1 B2]. apply N.ltb_lt in B1. destruct (IH B2) as [U L].
  assert (H1 : b / 16 < 16) by (apply N.div_lt_upper_bound; lia). assert (H2 : b mod 16 < 16) by (apply N.mod_lt; lia).
  destruct (D _ H1) as [A1 A2], (D _ H2) as [A3 A4].
  split; [transitivity (fmt_byte true b ++ bytes_to_upper_hex_string l)|transitivity (fmt_byte false b ++ bytes_to_lower_hex_string l)]; try reflexivity;
    [rewrite U|rewrite L]; unfold fmt_byte; rewrite ?A1, ?A2, ?A3, ?A4; reflexivity.
Qed.
Example c43_hex_run : bytes_to_upper_hex_string [0; 161; 255] = str "00A1FF" /\ bytes_to_lower_hex_string [0; 161; 255] = str "00a1ff".
Proof. vm_compute. split; reflexivity. Qed.

(* there is exactly one list of blocks to show *)
Theorem c43_blocks_exist p f lo hi : bytes_ok f = true -> lenN f < 18446744073709551616 -> show_range p f lo hi ->
  exists l, blocks_shown p f lo hi l /\ forall l', blocks_shown p f lo hi l' -> l' = l.
Proof. intros HB HL HR. destruct (show_list (fun _ _ => None) p f lo hi HB HL HR) as (l & A & B & _). eauto. Qed.

Lemma range_hi p f lo hi : lenN f < 18446744073709551616 -> show_range p f lo hi -> hi <= lenN f \/ lenN f = 0 /\ hi <= 1.
Proof.
  intros HL (req & E & ->). destruct (range_in_file _ _ _ _ None _ _ ltac:(unfold mult_of; lia) HL E) as (A & B & C & D).
  destruct (N.eq_dec (lenN f) 0) as [Z|Z]; [right; destruct (D Z); lia|left; apply C; lia].
Qed.
Lemma blocks_member cal p f lo hi l : bytes_ok f = true -> lenN f < 18446744073709551616 -> show_range p f lo hi ->
  blocks_shown p f lo hi l -> plain_names l -> member (GroupItem (Some (str "blocks")) Square (blocks_items cal 0 l)) (str "blocks") (JArr (blocks_json cal 0 l)).
Proof.
  intros HB HL HR BS PN. apply (m_group [str "blocks"]); [apply sp_one; is_word|]. eapply blocks_contents; try eassumption. eapply range_hi; eassumption.
Qed.
Lemma error_null : member (FieldItem false (str "error : null")) (str "error") JNull.
Proof. apply (m_field false [str "error"] (str "error") 1 1 (str "null")); [apply sp_one; is_word|apply null_plain|apply sh_null]. Qed.
Definition means (cs : list call) (j : json) : Prop :=
  exists t, do_calls cs [] = ROk (t, []) /\ forall j', json_text t j' <-> j' = j.
Lemma means_items l ms : members l ms -> means (Open None Curly :: flat_map calls l ++ [Close]) (JObj ms).
Proof.
  intro M. destruct (c42_nested_calls_print_json Curly l (JObj ms) (c_object _ _ M)) as (t & E & J & U). exists t. split; [exact E|]. intro j'. split; [apply U|intros ->; exact J].
Qed.

(* Without the burst level: the JSON printed stands for the list of the metadata blocks found, with their fields, and for nothing else. *)
Theorem c43_show_blocks cal etext p f lo hi l :
  bytes_ok f = true -> lenN f < 18446744073709551616 -> show_range p f lo hi ->
  blocks_shown p f lo hi l -> plain_names l -> sp_guess p = false ->
  exists cs t, show cal (fun _ => None) etext p f = ROk cs /\ do_calls cs [] = ROk (t, []) /\
    forall j, json_text t j <-> j = JObj [(str "blocks", JArr (blocks_json cal 0 l)); (str "error", JNull)].
Proof.
  intros HB HL HR BS PN SG. destruct (show_list cal p f lo hi HB HL HR) as (l' & BS' & U & E). rewrite <- (U l BS) in E.
  unfold show, show_file, show_guess. rewrite SG. cbn [negb rbind]. destruct (calc_required_len_and_seek_to_from_byte_range _ _ _ _ _ _) as [req lo'].
  rewrite E. cbn [rbind app].
  destruct (means_items [GroupItem (Some (str "blocks")) Square (blocks_items cal 0 l); FieldItem false (str "error : null")]
    [(str "blocks", JArr (blocks_json cal 0 l)); (str "error", JNull)]) as (t & T & J).
  { apply ms_cons; [eapply blocks_member; eassumption|apply ms_cons; [apply error_null|apply ms_nil]]. }
  eexists _, t. split; [reflexivity|]. split; [|exact J]. rewrite <- T. f_equal. rewrite block_calls_items. cbn [flat_map calls app]. rewrite <- !app_assoc. reflexivity.
Qed.

Lemma guess_le f g mis ref o : guess_burst f g mis ref = ROk (Some o) -> o <= 1000.
Proof.
  unfold guess_burst. destruct (negb (ver_uses_rs (b_version ref))); [discriminate|]. destruct (get_RSD ref) as [d| |]; try discriminate. destruct (get_RSP ref) as [q| |]; try discriminate. cbn [rbind].
  destruct (sample_blocks _ _ _ _) as [bs| |]; try discriminate. cbn [rbind]. intro E. injection E as E. pose proof (pick_spec d q (map (option_map b_seq_num) bs)) as P. rewrite E in P.
  destruct P as [P _]. assert (LEVELS = 1001) by reflexivity. lia.
Qed.
Definition ref_items (pos : N) (b : block) : list item :=
  [GroupItem (Some (str "ref block info")) Curly
     [FieldItem false (str "type : " ++ if is_meta b then str "metadata" else str "data"); FieldItem false (str "ver : " ++ dec (ver_to_usize (b_version b)));
      FieldItem false (str "pos : " ++ dec pos)]].
Lemma ref_members pos b : is_meta b = true -> pos < 18446744073709551616 -> members (ref_items pos b) [ref_json pos b].
Proof.
  intros IM HP. assert (VB : ver_to_usize (b_version b) < 18446744073709551616) by (destruct (b_version b); reflexivity).
  unfold ref_items. rewrite IM. apply ms_cons; [|apply ms_nil]. apply (m_group [str "ref"; str "block"; str "info"]); [apply (spell3 "ref" "block" "info"); is_word|]. apply c_object.
  apply ms_cons; [|apply ms_cons; [|apply ms_cons; [|apply ms_nil]]].
  - apply (m_field false [str "type"] (str "type") 1 1 (str "metadata")); [apply sp_one; is_word|is_plain|is_str].
  - apply (fine_field false [str "ver"] (str "ver") 1 1); [apply sp_one; is_word|apply fine_dec, VB].
  - apply (fine_field false [str "pos"] (str "pos") 1 1); [apply sp_one; is_word|apply fine_dec, HP].
Qed.
Lemma guess_member o : (forall g, o = Some g -> g <= 1000) ->
  member (FieldItem false (str "Best guess for burst error resistance level : " ++ or_null dec o)) (fst (guess_json o)) (snd (guess_json o)).
Proof.
  intro H. apply (fine_field false [str "Best"; str "guess"; str "for"; str "burst"; str "error"; str "resistance"; str "level"] (str "Best guess for burst error resistance level") 1 1).
  - apply (sp_more (str "Best") _ 1 (str "guess for burst error resistance level")); [is_word|discriminate|].
    apply (sp_more (str "guess") _ 1 (str "for burst error resistance level")); [is_word|discriminate|].
    apply (sp_more (str "for") _ 1 (str "burst error resistance level")); [is_word|discriminate|].
    apply (spell4 "burst" "error" "resistance" "level"); is_word.
  - apply fine_opt. intros g E. apply fine_dec. specialize (H g E). lia.
Qed.
(* the reference block found by show *)
Lemma ref_found p f lo hi pos h pl b : bytes_ok f = true -> lenN f < 18446744073709551616 -> show_range p f lo hi ->
  first_block f lo hi (of_type TMeta) (lo + pos) h pl -> reads_as h pl b ->
  get_ref_block f (sp_from p) (sp_to p) (sp_misalign p) (MustBe TMeta) = ROk (Some (pos, b)) /\ is_meta b = true /\ pos < 18446744073709551616.
Proof.
  intros HB HL HR (LD & A & T & FB) R. pose proof (range_hi p f lo hi HL HR) as HH. destruct HR as (req & E & ->).
  destruct (range_in_file _ _ _ _ None _ _ ltac:(unfold mult_of; lia) HL E) as (LO & _).
  pose proof (get_ref_block_ok f (sp_from p) (sp_to p) (sp_misalign p) (MustBe TMeta) HB) as G. rewrite E in G. destruct (G LO) as (r & -> & S). cbn [ref_spec] in S.
  apply reads_as_block in R. subst b. split; [|split; [rewrite is_meta_block; apply N.eqb_eq, T|apply lands_ge in LD; lia]].
  destruct r as [[q b]|]; [|exfalso; exact (S _ _ _ LD A T)]. destruct S as (h' & pl' & (LD' & A' & T' & FB') & R'). apply reads_as_block in R'. subst b.
  destruct (N.lt_trichotomy q pos) as [Q|[Q|Q]].
  - exfalso. refine (FB _ h' pl' LD' _ A' T'). lia.
  - subst q. destruct (any_block_fun f _ _ _ _ _ A A') as [<- <-]. reflexivity.
  - exfalso. refine (FB' _ h pl LD _ A T). lia.
Qed.
(* With the burst level: the first metadata block (its position counts from the start of the range, finding F24), the guess of C29, and the blocks. *)
Theorem c43_show_guess cal etext p f lo hi l pos h pl b o :
  bytes_ok f = true -> lenN f < 18446744073709551616 -> show_range p f lo hi ->
  blocks_shown p f lo hi l -> plain_names l -> sp_guess p = true ->
  first_block f lo hi (of_type TMeta) (lo + pos) h pl -> reads_as h pl b ->
  guess_burst f (guess_from_param (sp_guess_from p) (sp_from p)) (sp_misalign p) b = ROk o ->
  exists cs t, show cal (fun _ => None) etext p f = ROk cs /\ do_calls cs [] = ROk (t, []) /\
    forall j, json_text t j <-> j = JObj [ref_json pos b; guess_json o; (str "blocks", JArr (blocks_json cal 0 l)); (str "error", JNull)].
Proof.
  intros HB HL HR BS PN SG FB R GB. destruct (show_list cal p f lo hi HB HL HR) as (l' & BS' & U & E). rewrite <- (U l BS) in E.
  destruct (ref_found p f lo hi pos h pl b HB HL HR FB R) as (RF & IM & HP).
  assert (GG : show_guess etext p f = ROk (flat_map calls (ref_items pos b ++ [FieldItem false (str "Best guess for burst error resistance level : " ++ or_null dec o)]), None)).
  { unfold show_guess. rewrite SG, RF. cbn [negb rbind]. rewrite GB. unfold guess_burst in GB. destruct (ver_uses_rs (b_version b)); [reflexivity|]. cbn [negb] in GB. injection GB as <-. reflexivity. }
  unfold show, show_file. rewrite GG. cbn [rbind]. destruct (calc_required_len_and_seek_to_from_byte_range _ _ _ _ _ _) as [req lo']. rewrite E. cbn [rbind].
  destruct (means_items (ref_items pos b ++ [FieldItem false (str "Best guess for burst error resistance level : " ++ or_null dec o);
     GroupItem (Some (str "blocks")) Square (blocks_items cal 0 l); FieldItem false (str "error : null")])
    [ref_json pos b; guess_json o; (str "blocks", JArr (blocks_json cal 0 l)); (str "error", JNull)]) as (t & T & J).
  { pose proof (ref_members pos b IM HP) as RM. inversion RM as [|i k j ll ms M1 M2 E1 E2]. subst. unfold ref_items. cbn [app]. apply ms_cons; [exact M1|]. unfold guess_json.
    apply ms_cons; [apply (guess_member o); intros g ->; eapply guess_le, GB|]. apply ms_cons; [eapply blocks_member; eassumption|apply ms_cons; [apply error_null|apply ms_nil]]. }
  eexists _, t. split; [reflexivity|]. split; [|exact J]. rewrite <- T. f_equal. rewrite block_calls_items, !flat_map_app. cbn [flat_map calls app]. repeat (rewrite <- ?app_assoc; cbn [app]). reflexivity.
Qed.
(* no metadata block to guess from, or no way to guess: an error *)
Theorem c43_show_guess_fails cal etext p f lo hi :
  bytes_ok f = true -> lenN f < 18446744073709551616 -> show_range p f lo hi -> sp_guess p = true -> no_block f lo hi (of_type TMeta) ->
  exists cs t, show cal (fun _ => None) etext p f = ROk cs /\ do_calls cs [] = ROk (t, []) /\
    forall j, json_text t j <-> j = JObj [(str "error", JStr (str "Error : Failed to find reference block"))].
Proof.
  intros HB HL (req & E & ->) SG NB. destruct (range_in_file _ _ _ _ None _ _ ltac:(unfold mult_of; lia) HL E) as (LO & _).
  pose proof (get_ref_block_ok f (sp_from p) (sp_to p) (sp_misalign p) (MustBe TMeta) HB) as G. rewrite E in G. destruct (G LO) as (r & ER & S). cbn [ref_spec] in S.
  assert (r = None) as ->. { destruct r as [[q b]|]; [|reflexivity]. destruct S as (h' & pl' & (LD' & A' & T' & _) & _). destruct (NB _ _ _ LD' A' T'). }
  unfold show, show_file, show_guess. rewrite SG, ER. cbn [negb rbind app].
  destruct (c42_error_exit [] [] (str "Error : Failed to find reference block") (JStr (str "Error : Failed to find reference block"))) as (t & T & J & UN).
  { apply ms_nil. } { chars. } { apply shown_space. cbn. tauto. }
  eexists _, t. split; [reflexivity|]. split; [exact T|]. intro j. split; [apply UN|intros ->; exact J].
Qed.

Theorem c43_show_guess_error cal etext p f lo hi pos h pl b e :
  bytes_ok f = true -> lenN f < 18446744073709551616 -> show_range p f lo hi -> sp_guess p = true ->
  first_block f lo hi (of_type TMeta) (lo + pos) h pl -> reads_as h pl b ->
  guess_burst f (guess_from_param (sp_guess_from p) (sp_from p)) (sp_misalign p) b = RErr e ->
  Forall (fun c => 32 <= c <= 126 /\ c <> 92) etext ->
  exists cs t, show cal (fun _ => None) etext p f = ROk cs /\ do_calls cs [] = ROk (t, []) /\
    forall j, json_text t j <-> j = JObj [ref_json pos b; (str "error", JStr (str "Error : Error encountered when guessing : " ++ etext))].
Proof.
  intros HB HL HR SG FB R GB CE.
  destruct (ref_found p f lo hi pos h pl b HB HL HR FB R) as (RF & IM & HP).
  assert (GG : show_guess etext p f = ROk (flat_map calls (ref_items pos b), Some (str "Error : Error encountered when guessing : " ++ etext))).
  { unfold show_guess. rewrite SG, RF. cbn [negb rbind]. rewrite GB. unfold guess_burst in GB. destruct (ver_uses_rs (b_version b)); [reflexivity|discriminate]. }
  unfold show, show_file. rewrite GG. cbn [rbind].
  destruct (c42_error_exit (ref_items pos b) [ref_json pos b] (str "Error : Error encountered when guessing : " ++ etext) (JStr (str "Error : Error encountered when guessing : " ++ etext))) as (t & T & J & UN).
  { apply ref_members; assumption. } { apply Forall_app. split; [chars|exact CE]. } { apply shown_space. apply in_or_app. left. cbn. tauto. }
  eexists _, t. split; [reflexivity|]. split; [exact T|]. intro j. split; [apply UN|intros ->; exact J].
Qed.

(* non-vacuity: a container between other bytes; names a and b.sbx; two of its three metadata blocks after the first *)
Definition cal0 : calendar := fun _ x => if (x <? 0)%Z then None else Some (1970%Z, 1, 1, 0, 0, Z.to_N x).
Definition a_disk : file := repN 128 7 ++ toy_file ++ repN 60 1.
Definition show_all_of_it : sparam := mkSparam true true None true (Some 128) None None.
Strategy opaque [a_disk].
Definition its_blocks : list (N * block) := listing show_all_of_it a_disk 128 (lenN a_disk - 128) (S (length a_disk)) 0.
Strategy opaque [its_blocks].
Example c43_hypotheses :
  bytes_ok a_disk = true /\ lenN a_disk < 18446744073709551616 /\ show_range show_all_of_it a_disk 128 (lenN a_disk) /\
  blocks_shown show_all_of_it a_disk 128 (lenN a_disk) its_blocks /\ plain_names its_blocks /\ map fst its_blocks = [128; 2688; 5248].
Proof.
  assert (HB : bytes_ok a_disk = true) by (vm_compute; reflexivity). assert (HL : lenN a_disk < 18446744073709551616) by (vm_compute; reflexivity).
  assert (E : calc_required_len_and_seek_to_from_byte_range (Some 128) None true 0 (Len (lenN a_disk)) None = (lenN a_disk - 128, 128)) by (vm_compute; reflexivity).
  assert (H : lenN a_disk = 128 + (lenN a_disk - 128)) by (vm_compute; reflexivity).
  split; [exact HB|]. split; [exact HL|]. split; [exists (lenN a_disk - 128); split; [exact E|exact H]|]. split; [|split].
  - exists its_blocks. split; [|cbv beta iota delta [sp_all show_all_of_it]; reflexivity]. pose proof (listing_shown show_all_of_it a_disk 128 (lenN a_disk - 128) HB HL E) as T.
    rewrite <- H in T. exact T.
  - assert (P : plain_name (Some (str "a")) /\ plain_name (Some (str "b.sbx"))) by (split; (split; [is_plain|is_str])).
    unfold plain_names. apply Forall_forall. intros x X. assert (Y : get_FNM (snd x) = Some (str "a") /\ get_SNM (snd x) = Some (str "b.sbx")).
    { assert (C : forallb (fun x => match get_FNM (snd x), get_SNM (snd x) with Some a, Some b => eqbl a (str "a") && eqbl b (str "b.sbx") | _, _ => false end) its_blocks = true) by (vm_compute; reflexivity).
      rewrite forallb_forall in C. specialize (C x X). destruct (get_FNM (snd x)), (get_SNM (snd x)); try discriminate C. apply Bool.andb_true_iff in C as [C1 C2].
      apply eqbl_eq in C1, C2. rewrite C1, C2. split; reflexivity. }
    destruct Y as [-> ->]. exact P.
  - vm_compute. reflexivity.
Qed.
Definition printed (fails : N -> option (list N)) (p : sparam) (f : file) : option (list N) :=
  match show cal0 fails [] p f with ROk cs => match do_calls cs [] with ROk (t, _) => Some t | _ => None end | _ => None end.
Example c43_run : exists b o, get_ref_block a_disk (Some 128) None true (MustBe TMeta) = ROk (Some (0, b)) /\ guess_burst a_disk (Some (ShiftToStart 128)) true b = ROk o /\ o <> None /\
  match printed (fun _ => None) show_all_of_it a_disk with
  | Some t => parse_json t = Some (JObj [ref_json 0 b; guess_json o; (str "blocks", JArr (blocks_json cal0 0 its_blocks)); (str "error", JNull)])
  | None => False
  end.
Proof. eexists _, _. split; [vm_compute; reflexivity|]. split; [vm_compute; reflexivity|]. split; [discriminate|vm_compute; reflexivity]. Qed.
(* without its first metadata block and with the others damaged there is nothing to guess from *)
Example c43_run_fails : match printed (fun _ => None) show_all_of_it (repN 600 7) with
  | Some t => parse_json t = Some (JObj [(str "error", JStr (str "Error : Failed to find reference block"))]) | None => False end.
Proof. vm_compute. reflexivity. Qed.
(* When reading fails in the middle of the scan, the text printed is no JSON text (finding F23) *)
Theorem c43_read_error_refuted : exists fails p f t, printed fails p f = Some t /\ forall j, ~ json_text t j.
Proof.
  eexists (fun pos => if 600 <=? pos then Some (str "File read error") else None), (mkSparam true false None true (Some 128) None None), a_disk, _.
  split; [vm_compute; reflexivity|]. apply not_json. vm_compute. reflexivity.
Qed.
(* a container named null is shown as having no name, one with a name in Spanish stops the program (finding F22) *)
Definition named (s : list N) : file :=
  match encode_file toy_hash toy_rs 4 (mkEparam V1 [1;2;3;4;5;6] None true SHA256 None None (Some s) (str "b") None 7%Z) (SrcFile [1;2;3]) with ROk o => eo_file o | _ => [] end.
Strategy opaque [named].
Definition one : sparam := mkSparam false false None false None None None.
Definition first_name (t : list N) : option json :=
  match parse_json t with Some (JObj ((_, JArr (JObj (_ :: _ :: _ :: (k, v) :: _) :: _)) :: _)) => if eqbl k (str "fileName") then Some v else None | _ => None end.
Theorem c43_names_refuted :
  let f := named (str "null") in
  (exists b, to_show one f 0 (lenN f) 0 b /\ get_FNM b = Some (str "null")) /\
  match printed (fun _ => None) one f with Some t => first_name t = Some JNull | None => False end /\
  printed (fun _ => None) one (named [195; 177]) = None /\ printed (fun _ => None) one (named (str "nandu")) <> None.
Proof.
  split; [|split; [vm_compute; reflexivity|split; vm_compute; [reflexivity|discriminate]]].
  assert (HB : bytes_ok (named (str "null")) = true) by (vm_compute; reflexivity). assert (HL : lenN (named (str "null")) < 18446744073709551616) by (vm_compute; reflexivity).
  assert (E : calc_required_len_and_seek_to_from_byte_range None None false 0 (Len (lenN (named (str "null")))) None = (lenN (named (str "null")), 0)) by (vm_compute; reflexivity).
  destruct (listing_shown one _ 0 _ HB HL E) as [_ T]. rewrite N.add_0_l in T.
  assert (X : match listing one (named (str "null")) 0 (lenN (named (str "null"))) (S (length (named (str "null")))) 0 with
    (0, b) :: _ => match get_FNM b with Some s => eqbl s (str "null") = true | None => False end | _ => False end) by (vm_compute; reflexivity).
  destruct (listing one _ _ _ _ _) as [|[[|q] b] l]; try contradiction. exists b. split; [apply T; left; reflexivity|].
  destruct (get_FNM b) as [s|]; [|contradiction]. f_equal. apply eqbl_eq, X.
Qed.

Print Assumptions c43_hex_texts.
Print Assumptions c43_blocks_exist.
Print Assumptions c43_show_blocks.
Print Assumptions c43_show_guess.
Print Assumptions c43_show_guess_fails.
Print Assumptions c43_show_guess_error.
Print Assumptions c43_read_error_refuted.
Print Assumptions c43_names_refuted.
