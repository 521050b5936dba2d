(* C56: a container over the years. *)
From Coq Require Import String Ascii.
From Verif Require Import L_Update P_Update M_Base M_Specs M_Header M_Multihash M_Metadata M_Block M_Index M_FileUtils M_Buffer M_Ranges M_Encode
  M_Scan M_Loop M_Decode M_Sort M_Repair M_Update M_Rescue M_Hex M_Json M_Codec M_Path M_Cli S_Meta S_Block S_Index S_Container S_Encode S_Scan S_Decode S_Repair S_Update S_Cli S_History
  L_Base L_File L_Index2 L_Container L_Intact L_Intact2 L_Repair6 L_Path L_Cli L_Cli2 L_Cli3 L_Roundtrip L_LostCmd P_Index P_Encode P_Decode P_Roundtrip P_Repair P_Codec P_Cli P_Options P_Commands L_Renew L_History.

Lemma life_kept H v uid o data n first name ms0 g nm : hash_fn_ok H -> 1 <= lenN data -> 1 <= n ->
  kept_well v uid o rs_encode data n first first name ms0 -> life H v uid o n first name g nm -> exists ms, kept_well v uid o rs_encode data n first g nm ms.
Proof.
  intros HF L1 N1 K0 LF. induction LF as [|E m s inp l f nm g LF IH VH CP VI FA UO LK AG DR X G|E m s inp l f nm g LF IH VH VI FA WHY G|E m s inp l f nm g d par B bursts hurt LF IH EO BD RC VI FA NM VB NB DR AG G].
  - exists ms0. exact K0.
  - destruct IH as (ms & K). destruct (update_done E m s inp l f g VI FA AG X G) as (b & h & st & NB & HA & UF). destruct (asked_ok m h b UO HA) as [OO NO]. rewrite VH in UF.
    exact (kept_update _ _ _ _ _ _ _ _ _ _ _ _ _ _ _ K (level_told m o b n h LK NB N1) (fun _ => L1) CP HF OO NO DR UF).
  - destruct IH as (ms & K). rewrite <- VH in HF. pose proof (file_bytes _ _ _ _ _ _ _ _ _ (kw_intact _ _ _ _ _ _ _ _ _ _ K)) as HB.
    rewrite (update_undone E m s inp l f g HF HB VI FA WHY G). exists ms. exact K.
  - destruct IH as (ms & K). subst o. destruct (kept_repair _ _ _ _ _ _ _ _ _ _ _ _ _ K BD) as (t & RF). destruct FA as (ND & FR & FS & FC). rewrite <- RC in RF.
    rewrite (repair_gives E m s inp l hurt t f (Some B) VI NM FR FS FC VB NB DR AG RF) in G. cbn [rn_fs] in G. rewrite upd_same in G. injection G as <-. exists ms. exact K.
Qed.

(* what encode leaves *)
Lemma encode_kept E m s inp li content v o n uid :
  machine_ok E -> text_ok m -> value_of m A_in_file = Some inp -> file_at E s inp li content ->
  bytes_ok content = true -> lenN content < 18446744073709551616 -> content <> [] ->
  whole_file m -> with_metadata m o -> spares_input E m s li -> version_options m v o -> uid_option E m uid ->
  match o with Some (d, p, B) => (d + p) * B < 4294967296 | None => True end -> v_rs E = rs_encode ->
  block_count v o (lenN content) n -> n < U32_MAX ->
  rn_exit (encode_cmd E m s) = Exit 0 ->
  exists place container name ms, derived_place E m s (container_ext m) place /\ rn_fs (encode_cmd E m s) place = Some (NFile container) /\ file_name_of inp name /\
    hash_fn_ok (v_H E) /\ 1 <= lenN content /\ 1 <= n /\ kept_well v uid o rs_encode content n container container (Some name) ms.
Proof.
  intros MO TX VI FA CB CL CN WF WM NF VO UO OB CR BC HN X.
  assert (CO : codec_ok (v_rs E) o).
  { rewrite CR. destruct o as [[[d par] B]|]; [|exact Logic.I]. assert (PB : 1 <= d /\ d + par <= 256); [|destruct PB; apply c44_codec; assumption].
    unfold version_options in VO. destruct (value_of m A_sbx_version); [destruct VO as (_ & _ & _ & _ & P1 & P2 & P3 & _); lia|].
    destruct VO as (_ & _ & _ & _ & Z). injection Z as -> -> ->. lia. }
  destruct (encode_exit0 E m s inp li content v o n MO TX VI FA CB CL WF WM NF VO OB CO BC HN X)
    as (p & out & lc & name & UI & FN & EV & EO & EI & EF & ET & ME & OK & MF & (mx & HMX & LM) & EN & EC & DP & SN & RC & SB).
  exists lc, (eo_file out), name, (recorded (v_H E) p content). split; [exact DP|]. split; [exact RC|]. split; [exact FN|].
  assert (HF : hash_fn_ok (v_H E)) by apply MO.
  assert (L1 : 1 <= lenN content) by (destruct content; [congruence|]; unfold lenN; cbn [length]; lia).
  assert (N1 : 1 <= n).
  { destruct BC as (chunks & C1 & C2). assert (1 <= chunks) by (unfold is_ceil_div in C1; destruct (N.eq_dec chunks 0) as [->|]; lia).
    assert (DK : dpb_ok o) by (rewrite <- EO; apply OK). destruct o as [[[d q] B]|]; [|lia]. destruct C2 as (sets & C2 & ->). destruct DK as (D1 & _). assert (1 <= sets) by (unfold is_ceil_div in C2; destruct (N.eq_dec sets 0) as [->|]; lia). nia. }
  assert (EU : e_uid p = uid). { apply uid_iff in UI, UO. congruence. }
  rewrite CR in OK, EN, EC. pose proof BC as BC'. rewrite <- EV, <- EO in BC'.
  destruct (encoded_intact (v_H E) rs_encode (v_cpus E) p content out n OK CB EC BC' ltac:(lia)) as [IT FL]. rewrite ME in IT.
  assert (K0 : kept_well v uid o rs_encode content n (eo_file out) (eo_file out) (Some name) (recorded (v_H E) p content)).
  { rewrite EV, EU, EO in IT. split; [exact IT|exact FL| | | | |].
    - destruct EC as (_ & (meta & C & M) & _). specialize (M ME). rewrite ME, EO in C. destruct C as (n' & _ & _ & C & _). intros i MI. rewrite <- EV, <- EU, <- EO in *. rewrite (C i MI). apply M.
    - unfold recorded. rewrite EI. destruct (e_fdt p); reflexivity.
    - unfold shards_recorded, recorded. rewrite EI, EO. destruct o as [[[d q] B]|]; [|exact Logic.I]. destruct (e_fdt p); split; reflexivity.
    - unfold recorded. rewrite EI. reflexivity.
    - split; [reflexivity|]. intros i _ k _. reflexivity. }
  auto.
Qed.

(* A file is encoded by a run that ends with exit code 0. Whatever happens to the container then, in any order and any number of times - updates of the names and
   the hash (complete, refused, failed, or just tried), damage within what the parity blocks can make good followed by repair, moves from machine to machine -,
   decode gives back the file, under the name recorded last; repair can make good as much damage as on the first day, and gives back the container as last
   updated exactly; and no update has changed anything outside the metadata blocks. *)
Theorem c56_history E m s inp li content v o n uid :
  machine_ok E -> text_ok m -> value_of m A_in_file = Some inp -> file_at E s inp li content ->
  bytes_ok content = true -> lenN content < 18446744073709551616 -> content <> [] ->
  whole_file m -> with_metadata m o -> spares_input E m s li -> version_options m v o -> uid_option E m uid ->
  match o with Some (d, p, B) => (d + p) * B < 4294967296 | None => True end -> v_rs E = rs_encode ->
  block_count v o (lenN content) n -> n < U32_MAX ->
  rn_exit (encode_cmd E m s) = Exit 0 ->
  exists place container name, derived_place E m s (container_ext m) place /\ rn_fs (encode_cmd E m s) place = Some (NFile container) /\ file_name_of inp name /\
  forall g nm, life (v_H E) v uid o n container (Some name) g nm ->
    (forall E' m' s' inp' l' l, 1 <= v_cpus E' ->
       clap_ok m' -> value_of m' A_in_file = Some inp' -> file_at E' s' inp' l' g -> (exists x, file_name_of inp' x) ->
       whole_container m' ->
       decode_to E' m' s' nm l -> l <> l' -> writable E' m' s' l ->
       let r := decode_cmd E' m' s' in
       rn_exit r = Exit 0 /\ rn_fs r l = Some (NFile content) /\ same_but l s' (rn_fs r)) /\
    (forall E' m' s' inp' l' d par B bursts hurt, o = Some (d, par, B) -> burst_damage v uid d par B n bursts g hurt ->
       v_rc E' = rs_reconstruct -> value_of m' A_in_file = Some inp' -> file_at E' s' inp' l' hurt -> (exists x, file_name_of inp' x) ->
       verbosity_option m' -> number_option m' A_burst (Some B) -> is_present m' A_dry_run = false -> agreed E' m' ->
       let r := repair_cmd E' m' s' in
       rn_exit r = Exit 0 /\ rn_fs r l' = Some (NFile g) /\ same_but l' s' (rn_fs r)) /\
    lenN g = lenN container /\ (forall i, ~ meta_index (Some true) o i -> same_block v container g i).
Proof.
  intros MO TX VI FA CB CL CN WF WM NF VO UO OB CR BC HN X.
  destruct (encode_kept E m s inp li content v o n uid MO TX VI FA CB CL CN WF WM NF VO UO OB CR BC HN X) as (lc & f0 & name & ms0 & DP & RC & FN & HF & L1 & N1 & K0).
  exists lc, f0, name. split; [exact DP|]. split; [exact RC|]. split; [exact FN|].
  intros g nm LI. destruct (life_kept _ _ _ _ _ _ _ _ _ _ _ HF L1 N1 K0 LI) as (ms & K). split; [|split].
  - intros E' m' s' inp' l' l CP CK VI' FA' NM WC TG NE WR. cbv zeta. rewrite (kept_decode_cmd _ _ _ _ _ _ _ _ _ _ E' m' s' inp' l' l K CP CK VI' FA' NM WC ltac:(destruct o as [[[? ?] ?]|]; auto) TG NE WR). cbn.
    split; [reflexivity|]. split; [apply upd_same|]. intros x D. rewrite !upd_other by exact D. reflexivity.
  - intros E' m' s' inp' l' d par B bursts hurt EB BD RC' VI' (ND & FR & FS & FC) NM VB NB DR AG. cbv zeta. subst o. destruct (kept_repair _ _ _ _ _ _ _ _ _ _ _ _ _ K BD) as (t & RF). rewrite <- RC' in RF.
    rewrite (repair_gives E' m' s' inp' l' hurt t g (Some B) VI' NM FR FS FC VB NB DR AG RF). cbn. split; [reflexivity|]. split; [apply upd_same|]. intros y D. apply upd_other. exact D.
  - apply K.
Qed.
Print Assumptions c56_history.

(* ---- a concrete case: the container of C49 ---- *)
(* Its file name is changed and its hash replaced; a dry run would remove the name; its second block is destroyed and repaired; decode. *)
Definition his_0 : fs := upd toy_fs (w_ ++ [str "o"; str "x"]) (NFile cont).
Definition his_m1 : matches := cmd [(A_in_file, str "o/x"); (A_fnm, str "zz"); (A_hash_type, str "sha1")] [A_skip_warning].
Definition his_1 : ran := update_cmd mach None his_m1 his_0.
Definition his_c1 : list N := content (rn_fs his_1) (w_ ++ [str "o"; str "x"]).
Definition his_m2 : matches := cmd [(A_in_file, str "o/x")] [A_no_fnm; A_dry_run].
Definition his_h : list N := takeN 512 his_c1 ++ repN 512 255 ++ dropN 1024 his_c1.
Definition his_m3 : matches := cmd [(A_in_file, str "y"); (A_burst, str "2")] [A_json].
Definition his_s3 : fs := upd toy_fs (w_ ++ [str "y"]) (NFile his_h).
Definition his_3 : ran := repair_cmd mach his_m3 his_s3.
Definition his_d : ran := decode_cmd mach (cmd [(A_in_file, str "y"); (A_out, str "o")] []) (rn_fs his_3).
Lemma his_2_file : rn_fs (update_cmd mach None his_m2 (rn_fs his_1)) (w_ ++ [str "o"; str "x"]) = Some (NFile his_c1).
Proof. vm_compute. reflexivity. Qed.
Lemma his_3_file : rn_fs (repair_cmd mach his_m3 his_s3) (w_ ++ [str "y"]) = Some (NFile his_c1).
Proof. vm_compute. reflexivity. Qed.
Lemma out_but bs k f f0 : lenN f = lenN f0 -> forallb (fun j => (j / bs =? k) || (nthN f j =? nthN f0 j)) (rangeN 0 (lenN f0)) = true ->
  forall i, i / bs <> k -> nthN f i = nthN f0 i.
Proof.
  intros E X i NE. destruct (N.lt_ge_cases i (lenN f0)) as [L|L]; [|rewrite !nthN_out by lia; reflexivity].
  rewrite forallb_forall in X. specialize (X i ltac:(apply In_rangeN; lia)). apply orb_true_iff in X as [X|X]; apply N.eqb_eq in X; [contradiction|exact X].
Qed.
Lemma his_damage : burst_damage V17 [1;2;3;4;5;6] 2 1 2 3 [1] his_c1 his_h.
Proof.
  split; [vm_compute; reflexivity|]. split; [vm_compute; reflexivity|]. split; [vm_compute; discriminate|]. split; [intros (s & [<-|[]] & L); lia|].
  change (ver_to_block_size V17) with 512. split.
  - assert (X : forall i, i / 512 <> 1 -> nthN his_h i = nthN his_c1 i) by (apply out_but; vm_compute; reflexivity).
    intros i [NH|NU]; apply X; intro E; rewrite E in *.
    + apply NH. exists 1. split; [left; reflexivity|]. lia.
    + apply NU. right. exists 1. split; [lia|]. vm_compute. reflexivity.
  - intros i seq pl (s & [<-|[]] & L) U BA. assert (C : i = 1 \/ i = 2) by lia. destruct C as [->| ->].
    + exfalso. revert BA. apply no_sig. vm_compute. reflexivity.
    + exfalso. destruct U as [(k & Hk)|(k & Hk & U)]; [lia|]. assert (C : k = 1 \/ k = 2 \/ k = 3) by lia. destruct C as [->|[->| ->] ]; vm_compute in U; discriminate.
Qed.
Example c56_life : life toy_hash V17 [1;2;3;4;5;6] (Some (2, 1, 2)) 3 cont (Some (str "a")) his_c1 (Some (str "zz")).
Proof.
  assert (CAN : forall l, forallb (fun n => lenN n <=? 255) l = true -> v_can mach l = true) by (intros l X; exact X).
  assert (L1 : life toy_hash V17 [1;2;3;4;5;6] (Some (2, 1, 2)) 3 cont (Some (str "a")) his_c1 (Some (str "zz"))).
  { apply (life_update _ _ _ _ _ _ _ mach his_m1 his_0 (str "o/x") (w_ ++ [str "o"; str "x"]) cont (Some (str "a"))).
    - apply life_new.
    - reflexivity.
    - vm_compute. discriminate.
    - reflexivity.
    - split; [discriminate|]. split; [vm_compute; reflexivity|]. split; [apply upd_same|reflexivity].
    - split; [intros a x; destruct a; cbn; try discriminate; intro Q; injection Q as <-; split; reflexivity|].
      split; [intros x Q; cbn in Q; injection Q as <-; vm_compute; split; discriminate|]. split; [intros x Q; discriminate|]. repeat split; auto.
    - right. split; [reflexivity|]. discriminate.
    - left. reflexivity.
    - reflexivity.
    - vm_compute. reflexivity.
    - vm_compute. reflexivity. }
  assert (L2 : life toy_hash V17 [1;2;3;4;5;6] (Some (2, 1, 2)) 3 cont (Some (str "a")) his_c1 (Some (str "zz"))).
  { apply (life_no_update _ _ _ _ _ _ _ mach his_m2 (rn_fs his_1) (str "o/x") (w_ ++ [str "o"; str "x"]) his_c1).
    - exact L1.
    - reflexivity.
    - reflexivity.
    - split; [discriminate|]. split; [vm_compute; reflexivity|]. split; [vm_compute; reflexivity|reflexivity].
    - right. left. reflexivity.
    - exact his_2_file. }
  apply (life_repair _ _ _ _ _ _ _ mach his_m3 his_s3 (str "y") (w_ ++ [str "y"]) his_c1 (Some (str "zz")) his_c1 2 1 2 [1] his_h).
  - exact L2.
  - reflexivity.
  - exact his_damage.
  - reflexivity.
  - reflexivity.
  - split; [discriminate|]. split; [vm_compute; reflexivity|]. split; [apply upd_same|reflexivity].
  - exists (str "y"). split; [split; [discriminate|]; split; [cbn; intuition discriminate|split; discriminate]|]. exists []. split; [constructor|left; reflexivity].
  - exact Logic.I.
  - apply number_iff. vm_compute. reflexivity.
  - reflexivity.
  - right. left. reflexivity.
  - exact his_3_file.
Qed.
Definition zero_exit (r : ran) : bool := match rn_exit r with Exit 0 => true | _ => false end.
Example c56_run : forallb zero_exit [his_1; his_3; his_d] && negb (eqbl his_c1 cont) && negb (eqbl his_h his_c1) && eqbl (content (rn_fs his_d) (w_ ++ [str "o"; str "zz"])) toy_data = true.
Proof. vm_compute. reflexivity. Qed.
