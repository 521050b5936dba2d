(* C57: an update that does not come to its end. *)
From Coq Require Import String Ascii.
From Verif Require Import L_Update P_Update M_Base M_Specs M_Header M_Multihash M_Metadata M_Block M_Index M_FileUtils M_Buffer M_Ranges M_Encode
  M_Scan M_Loop M_Decode M_Sort M_Repair M_Update M_Rescue M_Hex M_Json M_Codec M_Path M_Cli S_Meta S_Block S_Index S_Container S_Encode S_Scan S_Decode S_Repair S_Update S_Cli S_History S_Halfway
  L_Base L_File L_Index2 L_Container L_Intact L_Intact2 L_Repair6 L_Path L_Cli L_Cli2 L_Cli3 L_Roundtrip L_LostCmd P_Index P_Encode P_Decode P_Roundtrip P_Repair P_Codec P_Cli P_Options P_Commands L_Renew L_History L_Halfway L_Halfway2 P_History.

Lemma update_gives E cut m s inp l f b h w r : value_of m A_in_file = Some inp -> (exists x, file_name_of inp x) -> file_at E s inp l f ->
  verbosity_option m -> number_option m A_burst b -> hash_asked m h -> agreed E m ->
  update_file (v_H E) (v_cpus E) (update_param (v_H E) (uopts_of m h b)) cut f = (w, r) ->
  update_cmd E cut m s = mkRan (upd s l (NFile w)) (match r with ROk _ => Exit 0 | RErr _ => Exit 2 | RPanic => Panicked end) [].
Proof.
  intros VI (x & FNX) (ND & FR & FS & FC) VB NB HA AG UF.
  assert (GI : get_in_file E s m = Go inp) by (unfold get_in_file; rewrite VI; apply check_in_file_iff; split; [reflexivity|]; exists l, f, x; auto).
  apply (verbosity_iff m tt) in VB. apply number_iff in NB.
  unfold update_cmd. rewrite GI. cbn [gbind]. rewrite VB. cbn [gbind]. rewrite NB. cbn [gbind].
  assert (HX : match value_of m A_hash_type with None => Go None | Some x => match string_to_hash_type x with Some h => Go (Some h) | None => Stop (Exit 1) end end = Go h).
  { unfold hash_asked in HA. destruct (value_of m A_hash_type), h; try contradiction; [rewrite HA|]; reflexivity. }
  rewrite HX. cbn [gbind run]. rewrite (agreed_not_refused E m AG). unfold open_read. unfold named in FR. rewrite FR, FS, FC. fold (uopts_of m h b). rewrite UF. reflexivity.
Qed.
Lemma request_changes m m' h b b' : same_request m m' -> same_changes (uopts_of m h b) (uopts_of m' h b').
Proof. intros [V P]. unfold same_changes, uopts_of. cbn [uo_fnm uo_snm uo_no_fnm uo_no_snm uo_no_hsh uo_hash]. rewrite !V, !P by (cbn; tauto). repeat split. Qed.
Lemma request_hash m m' h : same_request m m' -> hash_asked m h -> hash_asked m' h.
Proof. intros [V _]. unfold hash_asked. rewrite V by (cbn; tauto). auto. Qed.
Lemma hash_asked_fun m h h' : hash_asked m h -> hash_asked m h' -> h = h'.
Proof. unfold hash_asked. destruct (value_of m A_hash_type), h, h'; try tauto; congruence. Qed.
(* decode of a file whose metadata blocks need not agree *)
Lemma patched_decode_cmd v uid o rs ms data g n h nm E m s inp li l :
  intact v uid true o rs ms data g n -> lenN g < 18446744073709551616 -> bytes_ok h = true -> lenN h = lenN g -> same_block v g h 0 ->
  (forall i, ~ meta_index (Some true) o i -> same_block v g h i) -> (forall i, meta_index (Some true) o i -> exists pl, block_at v uid h (i * ver_to_block_size v) 0 pl) ->
  shards_recorded o ms -> get_meta_by_id ms IFSZ = Some (FSZ (lenN data)) -> get_meta_by_id ms IFNM = name_field nm -> 1 <= v_cpus E ->
  clap_ok m -> value_of m A_in_file = Some inp -> file_at E s inp li h -> (exists x, file_name_of inp x) -> whole_container m ->
  match o with Some (_, _, B) => value_of m A_burst = None -> B <= 1000 \/ 1 <= n | None => True end ->
  decode_to E m s nm l -> l <> li -> writable E m s l ->
  decode_cmd E m s = mkRan (upd (upd s l (NFile [])) l (NFile data)) (Exit 0) [].
Proof.
  intros IT FL HB LH H0 HS HM SR FZ FN CP CK VI (ND & FR & FS & FC) NM WC BU TG NE WR.
  apply (decode_gives_at E m s inp li l h nm data CK VI NM FR FS FC WC TG NE WR).
  intros q PQ (FL1 & FL2 & FL3 & FL4) NB.
  assert (CH : dc_choice q = Any \/ dc_choice q = Prefer TMeta \/ dc_choice q = MustBe TMeta) by (rewrite FL1; destruct (is_present m A_no_meta); auto).
  assert (BQ : match o with Some (_, _, B) => dc_burst q = None -> B <= SBX_MAX_BURST_ERR_RESISTANCE \/ 1 <= n | None => True end).
  { destruct o as [[[d par] B]|]; [|exact Logic.I]. intro Z. apply BU. unfold number_option in NB. rewrite Z in NB. destruct (value_of m A_burst); [contradiction|reflexivity]. }
  destruct (patched_decode _ _ _ _ _ _ _ _ h IT FL HB LH H0 HS HM SR FZ (v_H E) (v_order E) (v_cpus E) (v_limit E) q CP PQ CH BQ) as (pos & ref & o' & GR & GD & RD & ON & _).
  exists pos, ref, o'. split; [exact GR|]. split; [exact GD|]. split; [unfold get_FNM, block_get_meta; rewrite RD, FN; destruct nm; reflexivity|]. intros old FW.
  assert (BQ' : match o with Some (_, _, B) => dc_burst (with_burst q o') = None -> B <= SBX_MAX_BURST_ERR_RESISTANCE \/ 1 <= n | None => True end).
  { destruct o as [[[d par] B]|]; [|exact Logic.I]. destruct o' as [[[d' p'] B']|]; [cbn; discriminate|]. exact BQ. }
  destruct (patched_decode _ _ _ _ _ _ _ _ h IT FL HB LH H0 HS HM SR FZ (v_H E) (v_order E) (v_cpus E) (v_limit E) (with_burst q o') CP (plain_burst q o' PQ) CH BQ') as (_ & _ & _ & _ & _ & _ & _ & DEC).
  exact (DEC old FW).
Qed.

(* A container as in C56, after any history. A run of update on it would have turned it from [g] into [w] (and does, on some machine). A run of the same update is
   stopped at any moment, or the machine is: what is left is something between [g] and [w]. From there decode gives back the file, under the old or the new name;
   and running the same update again makes it [w] exactly. *)
Theorem c57_interrupted_update E m s inp li content v o n uid :
  machine_ok E -> text_ok m -> value_of m A_in_file = Some inp -> file_at E s inp li content ->
  bytes_ok content = true -> lenN content < 18446744073709551616 -> content <> [] ->
  whole_file m -> with_metadata m o -> spares_input E m s li -> version_options m v o -> uid_option E m uid ->
  match o with Some (d, p, B) => (d + p) * B < 4294967296 | None => True end -> v_rs E = rs_encode ->
  block_count v o (lenN content) n -> n < U32_MAX ->
  rn_exit (encode_cmd E m s) = Exit 0 ->
  exists place container name, derived_place E m s (container_ext m) place /\ rn_fs (encode_cmd E m s) place = Some (NFile container) /\ file_name_of inp name /\
  forall g nm, life (v_H E) v uid o n container (Some name) g nm ->
  forall E1 m1 s1 inp1 l1 w, runs_on (v_H E) o E1 m1 s1 inp1 l1 g -> update_options m1 -> agreed E1 m1 ->
    rn_exit (update_cmd E1 None m1 s1) = Exit 0 -> rn_fs (update_cmd E1 None m1 s1) l1 = Some (NFile w) ->
  (* stopped after k metadata places *)
  (forall E2 k m2 s2 inp2 l2 h, runs_on (v_H E) o E2 m2 s2 inp2 l2 g -> same_request m1 m2 ->
     rn_fs (update_cmd E2 (Some k) m2 s2) l2 = Some (NFile h) -> between v o g w h) /\
  forall h, between v o g w h ->
    (exists nm', (nm' = nm \/ nm' = name_after m1 nm) /\
     forall E2 m2 s2 inp2 l2 l, 1 <= v_cpus E2 ->
       clap_ok m2 -> value_of m2 A_in_file = Some inp2 -> file_at E2 s2 inp2 l2 h -> (exists x, file_name_of inp2 x) ->
       whole_container m2 ->
       decode_to E2 m2 s2 nm' l -> l <> l2 -> writable E2 m2 s2 l ->
       let r := decode_cmd E2 m2 s2 in
       rn_exit r = Exit 0 /\ rn_fs r l = Some (NFile content) /\ same_but l s2 (rn_fs r)) /\
    (forall E2 m2 s2 inp2 l2, runs_on (v_H E) o E2 m2 s2 inp2 l2 h -> same_request m1 m2 -> agreed E2 m2 ->
       let r := update_cmd E2 None m2 s2 in
       rn_exit r = Exit 0 /\ rn_fs r l2 = Some (NFile w) /\ same_but l2 s2 (rn_fs r)).
Proof.
  intros MO TX VI FA CB CL CN WF WM NF VO UO OB CR BC HN X.
  destruct (encode_kept E m s inp li content v o n uid MO TX VI FA CB CL CN WF WM NF VO UO OB CR BC HN X) as (lc & f0 & name & ms0 & DP & RC & FN & HF & L1 & N1 & K0).
  exists lc, f0, name. split; [exact DP|]. split; [exact RC|]. split; [exact FN|].
  intros g nm LI E1 m1 s1 inp1 l1 w (VH1 & CP1 & VI1 & _ & FA1 & _ & _ & LK1 & DR1) UO1 AG1 X1 G1.
  destruct (life_kept _ _ _ _ _ _ _ _ _ _ _ HF L1 N1 K0 LI) as (ms & K). destruct (update_done E1 m1 s1 inp1 l1 g w VI1 FA1 AG1 X1 G1) as (b1 & h1 & st & NB1 & HA1 & UF1). rewrite VH1 in UF1.
  destruct (asked_ok m1 h1 b1 UO1 HA1) as [OO NO]. pose proof (level_told m1 o b1 n h1 LK1 NB1 N1) as TO1. pose proof K as [IT FL MP FZ SR NM _].
  destruct (update_intact _ _ _ _ _ _ _ _ _ _ _ _ _ IT FL SR TO1 FZ (fun _ => L1) CP1 HF OO NO DR1 UF1) as (h' & ms' & _ & CH & IT' & _ & LW & SW).
  assert (KF : forall i, i <> IFNM -> i <> ISNM -> i <> IHSH -> get_meta_by_id ms' i = get_meta_by_id ms i) by (intros i A1 A2 A3; rewrite !get_with_id, (changed_keeps _ h' ms ms' i CH A1 A2 A3); reflexivity).
  split.
  - intros E2 k m2 s2 inp2 l2 h (VH2 & CP2 & VI2 & _ & FA2 & _ & _ & LK2 & DR2) SQ G2.
    destruct (update_cmd_cases E2 (Some k) m2 s2 inp2 l2 g VI2 FA2) as [[S _]|(_ & b2 & h2 & w2 & r & NB2 & HA2 & UF2 & EQ)].
    + destruct FA2 as (_ & _ & FS & _). rewrite S, FS in G2. injection G2 as <-. split; [reflexivity|]. split; intros; [left|]; intros z _; reflexivity.
    + rewrite EQ in G2. cbn [rn_fs] in G2. rewrite upd_same in G2. injection G2 as <-. rewrite VH2 in UF2.
      assert (EH : h2 = h1) by (eapply hash_asked_fun; [exact HA2|exact (request_hash _ _ _ SQ HA1)]). subst h2.
      exact (cut_between v uid o rs_encode ms content g n (v_H E) (v_cpus E1) _ w st (v_cpus E2) _ (Some k) w2 r IT FL SR TO1 (level_told m2 o b2 n h1 LK2 NB2 N1) FZ (fun _ => L1) CP1 CP2 HF NO DR1 DR2 (request_changes m1 m2 h1 b1 b2 SQ) UF1 UF2).
  - intros h BT. split.
    + destruct (half_base _ _ _ _ _ _ _ _ _ _ _ IT IT' LW SW BT) as (g' & mg & GG & ITg & LH & H0 & HS & HM).
      pose proof (between_bytes _ _ _ _ _ _ _ _ _ _ IT (file_bytes _ _ _ _ _ _ _ _ _ IT') BT) as HBh.
      assert (FLg : lenN g' < 18446744073709551616) by (destruct GG as [[-> _]|[-> _]]; [exact FL|rewrite LW; exact FL]).
      assert (SRg : shards_recorded o mg). { destruct GG as [[_ ->]|[_ ->]]; [exact SR|]. unfold shards_recorded in *. destruct o as [[[a b] c]|]; [|exact Logic.I]. rewrite !KF by discriminate. exact SR. }
      assert (FZg : get_meta_by_id mg IFSZ = Some (FSZ (lenN content))) by (destruct GG as [[_ ->]|[_ ->]]; [exact FZ|rewrite KF by discriminate; exact FZ]).
      assert (NMg : exists nm', (nm' = nm \/ nm' = name_after m1 nm) /\ get_meta_by_id mg IFNM = name_field nm').
      { destruct GG as [[_ ->]|[_ ->]]; [exists nm; auto|]. exists (name_after m1 nm). split; [auto|]. exact (changed_name _ _ _ _ _ CH NM). }
      destruct NMg as (nm' & WH & NMg). exists nm'. split; [exact WH|]. intros E2 m2 s2 inp2 l2 l CP2 CK VI2 FA2 FN2 WC TG NE WR. cbv zeta.
      rewrite (patched_decode_cmd _ _ _ _ _ _ _ _ h nm' E2 m2 s2 inp2 l2 l ITg FLg HBh LH H0 HS HM SRg FZg NMg CP2 CK VI2 FA2 FN2 WC ltac:(destruct o as [[[? ?] ?]|]; auto) TG NE WR). cbn.
      split; [reflexivity|]. split; [apply upd_same|]. intros y D. rewrite !upd_other by exact D. reflexivity.
    + intros E2 m2 s2 inp2 l2 (VH2 & CP2 & VI2 & FN2 & FA2 & VB2 & (b2 & NB2) & LK2 & DR2) SQ AG2. cbv zeta.
      destruct (half_run v uid o rs_encode ms content g n (v_H E) (v_cpus E1) _ w st (v_cpus E2) _ h IT FL SR TO1 (level_told m2 o b2 n h1 LK2 NB2 N1) FZ (fun _ => L1) CP1 CP2 HF OO NO DR1 DR2 (request_changes m1 m2 h1 b1 b2 SQ) UF1 BT) as (st' & UF2).
      rewrite <- VH2 in UF2. rewrite (update_gives E2 None m2 s2 inp2 l2 h b2 h1 w _ VI2 FN2 FA2 VB2 NB2 (request_hash _ _ _ SQ HA1) AG2 UF2). cbn.
      split; [reflexivity|]. split; [apply upd_same|]. intros y D. apply upd_other. exact D.
Qed.
Print Assumptions c57_interrupted_update.

(* ---- a concrete case: the update of C56, stopped after the first of the two metadata blocks; and with only the second one on the disk ---- *)
Definition hw_place : loc := w_ ++ [str "o"; str "x"].
Definition hw_h : list N := content (rn_fs (update_cmd mach (Some 1) his_m1 his_0)) hw_place.
Definition hw_2 : list N := takeN 1536 cont ++ takeN 512 (dropN 1536 his_c1) ++ dropN 2048 cont.
Definition hw_runs (h name : list N) : bool :=
  let s := upd toy_fs hw_place (NFile h) in
  let r := update_cmd mach None his_m1 s in
  let d := decode_cmd mach (cmd [(A_in_file, str "o/x"); (A_out, str "o")] []) s in
  zero_exit r && eqbl (content (rn_fs r) hw_place) his_c1 && zero_exit d && eqbl (content (rn_fs d) (w_ ++ [str "o"; name])) toy_data &&
  negb (eqbl h cont) && negb (eqbl h his_c1).
Example c57_runs : hw_runs hw_h (str "zz") && hw_runs hw_2 (str "a") = true.
Proof. vm_compute. reflexivity. Qed.
Lemma between_by v o f w h (ms : list N) : lenN h = lenN f ->
  (forall i, meta_index (Some true) o i -> In i ms) ->
  forallb (fun k => let i := k / ver_to_block_size v in if existsb (N.eqb i) ms then true else nthN h k =? nthN f k) (rangeN 0 (lenN f)) = true ->
  (forall i, In i ms -> same_block v f h i \/ same_block v w h i) -> (forall i, In i ms -> meta_index (Some true) o i) -> between v o f w h.
Proof.
  intros L M X Y Z. split; [exact L|]. split; [intros i MI; apply Y, M, MI|]. intros i NM k Ek.
  destruct (N.lt_ge_cases k (lenN f)) as [HK|HK]; [|rewrite !nthN_out by lia; reflexivity]. rewrite forallb_forall in X. specialize (X k ltac:(apply In_rangeN; lia)). cbv zeta in X. rewrite Ek in X.
  destruct (existsb (N.eqb i) ms) eqn:E; [|apply N.eqb_eq, X]. exfalso. apply NM, Z. apply existsb_exists in E as (j & Hj & E). apply N.eqb_eq in E. subst j. exact Hj.
Qed.
Lemma same_by v f h i : lenN h = lenN f -> eqbl (sliceN (i * ver_to_block_size v) (ver_to_block_size v) f) (sliceN (i * ver_to_block_size v) (ver_to_block_size v) h) = true -> same_block v f h i.
Proof. intros L E. apply eqbl_eq in E. apply slice_same; [symmetry; exact L|exact E]. Qed.
Example c57_between : between V17 (Some (2, 1, 2)) cont his_c1 hw_h /\ between V17 (Some (2, 1, 2)) cont his_c1 hw_2.
Proof.
  assert (MI : forall i, meta_index (Some true) (Some (2, 1, 2)) i <-> In i [0; 3]).
  { intro i. unfold meta_index. split.
    - intros (k & Hk & ->). assert (C : k = 0 \/ k = 1) by lia. destruct C as [-> | ->]; cbn; auto.
    - intros [<-|[<-|[]]]; [exists 0|exists 1]; split; lia. }
  split; (apply (between_by V17 (Some (2, 1, 2)) cont his_c1 _ [0; 3]); [vm_compute; reflexivity|apply MI|vm_compute; reflexivity| |apply MI]); intros i [<-|[<-|[]]].
  - right. apply same_by; vm_compute; reflexivity.
  - left. apply same_by; vm_compute; reflexivity.
  - left. apply same_by; vm_compute; reflexivity.
  - right. apply same_by; vm_compute; reflexivity.
Qed.

(* The blocks have to be written completely or not at all. A version without error correction has a single metadata block, which update overwrites in place: if the
   machine stops when only the first half of it is on the disk, update cannot be run again, and decode ends with success but gives the file with padding at its
   end (finding F31). *)
Definition torn_m : matches := cmd [(A_in_file, str "o/a.sbx"); (A_fnm, str "zz")] [A_skip_warning].
Definition torn_enc : ran := encode_cmd mach (cmd [(A_sbx_version, str "2"); (A_in_file, str "a"); (A_out, str "o")] []) toy_fs.
Definition torn_place : loc := w_ ++ [str "o"; str "a.sbx"].
Definition torn_f : list N := content (rn_fs torn_enc) torn_place.
Definition torn_w : list N := content (rn_fs (update_cmd mach None torn_m (rn_fs torn_enc))) torn_place.
Definition torn_h : list N := takeN 64 torn_w ++ dropN 64 torn_f.
Theorem c57_torn_block_refuted :
  rn_exit torn_enc = Exit 0 /\ rn_exit (update_cmd mach None torn_m (rn_fs torn_enc)) = Exit 0 /\
  (forall i, nthN torn_h i = if i <? 64 then nthN torn_w i else nthN torn_f i) /\
  let s := upd (rn_fs torn_enc) torn_place (NFile torn_h) in
  rn_exit (update_cmd mach None torn_m s) = Exit 2 /\
  rn_exit (decode_cmd mach (cmd [(A_in_file, str "o/a.sbx"); (A_out, str "o/b")] []) s) = Exit 0 /\
  content (rn_fs (decode_cmd mach (cmd [(A_in_file, str "o/a.sbx"); (A_out, str "o/b")] []) s)) (w_ ++ [str "o"; str "b"]) = toy_data ++ repN 36 26.
Proof.
  split; [vm_compute; reflexivity|]. split; [vm_compute; reflexivity|]. split.
  - assert (L : lenN torn_w = lenN torn_f /\ 64 <= lenN torn_f) by (vm_compute; split; [reflexivity|discriminate]). destruct L as [L1 L2]. unfold torn_h. generalize dependent torn_w. generalize dependent torn_f. intros f L2 w L1 i.
    rewrite nthN_app, lenN_take. replace (N.min 64 (lenN w)) with 64 by lia. destruct (N.ltb_spec i 64) as [H|H].
    + rewrite nthN_take. destruct (N.ltb_spec i 64); [reflexivity|lia].
    + rewrite nthN_drop. f_equal. lia.
  - cbv zeta. split; [vm_compute; reflexivity|]. split; vm_compute; reflexivity.
Qed.
Print Assumptions c57_torn_block_refuted.
