(* C49: the commands one after the other. *)
From Coq Require Import String Ascii.
From Verif Require Import M_Base M_Specs M_Header M_Multihash M_Metadata M_Block M_Index M_FileUtils M_Buffer M_Ranges M_Encode
  M_Scan M_Loop M_Decode M_Sort M_Repair M_Rescue M_Hex M_Json M_Codec M_Path M_Cli S_Meta S_Block S_Index S_Container S_Encode S_Scan S_Decode S_Repair S_Cli
  L_Base L_Index2 L_Path L_Cli L_Cli2 L_Cli3 L_Roundtrip P_Index P_Encode P_Decode P_Roundtrip P_Stdout P_Codec P_Cli P_Options.

(* A file encoded by a run that ends with exit code 0 is given back by decode, wherever the container has been moved or copied to, whatever it is called
   by then, on whatever machine, under the name asked for or (in the directory asked for, or the working directory) its own name. *)
Theorem c49_encode_decode E m s inp li content v o n :
  machine_ok E -> text_ok m -> value_of m A_in_file = Some inp -> file_at E s inp li content ->
  bytes_ok content = true -> lenN content < 18446744073709551616 ->
  whole_file m -> with_metadata m o -> spares_input E m s li -> version_options m v o ->
  match o with Some (d, p, B) => (d + p) * B < 4294967296 | None => True end -> codec_ok (v_rs E) o ->
  block_count v o (lenN content) n -> n < U32_MAX ->
  rn_exit (encode_cmd E m s) = Exit 0 ->
  exists place container name, derived_place E m s (container_ext m) place /\ rn_fs (encode_cmd E m s) place = Some (NFile container) /\ file_name_of inp name /\
  forall E' m' s' inp' l' l,
    v_H E' = v_H E -> 1 <= v_cpus E' -> clap_ok m' -> value_of m' A_in_file = Some inp' -> file_at E' s' inp' l' container -> (exists x, file_name_of inp' x) ->
    whole_container m' -> match o with Some (_, _, B) => value_of m' A_burst = None -> B <= 1000 \/ content <> [] | None => True end ->
    decode_target E' m' s' name l -> l <> l' -> writable E' m' s' l ->
    let r := decode_cmd E' m' s' in
    rn_exit r = Exit 0 /\ rn_fs r l = Some (NFile content) /\ same_but l s' (rn_fs r).
Proof.
  intros MO TX VI FA CB CL WF WM NF VO OB CO BC HN X.
  destruct (encode_exit0 E m s inp li content v o n MO TX VI FA CB CL WF WM NF VO OB CO BC HN X)
    as (p & out & lc & name & UI & FN & EV & EO & EI & EF & ET & ME & OK & MF & (mx & HMX & LM) & EN & EC & DP & SN & RC & SB).
  exists lc, (eo_file out), name. split; [exact DP|]. split; [exact RC|]. split; [exact FN|].
  intros E' m' s' inp' l' l VH CP CK VI' (ND & FR & FS & FC) NM WC BU TG NE WR.
  rewrite <- EV, <- EO in HMX, BC.
  apply (decode_restores (v_H E) (v_rs E) (v_cpus E) p content mx n out name OK MF (conj CB CL) EF ET ME HMX LM BC HN EN EI E' m' s' inp' l' l VH CP CK VI' NM FR FS FC WC); try assumption.
  - rewrite EO. exact BU.
  - apply FN.
  - eapply no_zero; [apply FA|exact FN].
Qed.
Print Assumptions c49_encode_decode.

(* encode succeeds exactly if the metadata fits into a block. (A file of fewer than 2^32 - 1 blocks is not too large.) *)
Theorem c49_encode_succeeds E m s inp li content v o n uid h name place called :
  machine_ok E -> text_ok m -> clap_ok m -> value_of m A_in_file = Some inp -> file_at E s inp li content ->
  bytes_ok content = true -> lenN content < 18446744073709551616 ->
  whole_file m -> with_metadata m o -> spares_input E m s li -> version_options m v o ->
  match o with Some (d, p, B) => (d + p) * B < 4294967296 | None => True end -> codec_ok (v_rs E) o ->
  block_count v o (lenN content) n -> n < U32_MAX ->
  uid_option E m uid -> hash_option m h -> verbosity_option m ->
  file_name_of inp name -> encode_target E m s inp place called -> writable E m s place ->
  (rn_exit (encode_cmd E m s) = Exit 0 <->
   record_size name called (match v_mtime E li with Some _ => true | None => false end) h o <= ver_to_block_size v - 16).
Proof.
  intros MO TX CK VI FA CB CL WF WM NF VO OB CO BC HN UO HO VB FN TG WR. pose proof FA as (FD & FR & FS & FC).
  destruct (proj2 (c48_encode_options E s m uid v o h None None)) as (inf & out & Q).
  { pose proof WF as (W1 & W2 & W3 & _). repeat split; auto.
    - unfold number_option. rewrite W1. exact Logic.I.
    - unfold range_option. rewrite W2, W3. exact Logic.I.
    - left. split; [congruence|]. exists inp, li, content, name. auto. }
  exact (encode_exit0_iff E m s inp li content v o n MO TX VI FA CB CL WF WM NF VO OB CO BC HN _ place name called Q FN TG WR).
Qed.
Print Assumptions c49_encode_succeeds.

(* decode - writes the file to standard output, and nothing else anywhere. (An empty file with error correction excepted, see C40.) *)
Theorem c49_encode_decode_stdout E m s inp li content v o n :
  machine_ok E -> text_ok m -> value_of m A_in_file = Some inp -> file_at E s inp li content ->
  bytes_ok content = true -> lenN content < 18446744073709551616 ->
  whole_file m -> with_metadata m o -> spares_input E m s li -> version_options m v o ->
  match o with Some (d, p, B) => (d + p) * B < 4294967296 | None => True end -> codec_ok (v_rs E) o ->
  block_count v o (lenN content) n -> n < U32_MAX -> (o = None \/ content <> []) ->
  rn_exit (encode_cmd E m s) = Exit 0 ->
  exists place container, derived_place E m s (container_ext m) place /\ rn_fs (encode_cmd E m s) place = Some (NFile container) /\
  forall E' m' s' inp' l',
    v_H E' = v_H E -> 1 <= v_cpus E' -> (forall l x, In x (v_order E' l) <-> In x l) -> n <= N.of_nat (v_limit E') ->
    clap_ok m' -> value_of m' A_in_file = Some inp' -> file_at E' s' inp' l' container -> (exists x, file_name_of inp' x) ->
    whole_container m' -> value_of m' A_out = Some [45] ->
    match o with
    | Some (_, _, B) => (value_of m' A_burst = None /\ B <= 1000) \/ number_option m' A_burst (Some B)
    | None => True end ->
    decode_cmd E' m' s' = mkRan s' (Exit 0) content.
Proof.
  intros MO TX VI FA CB CL WF WM NF VO OB CO BC HN NEM X.
  destruct (encode_exit0 E m s inp li content v o n MO TX VI FA CB CL WF WM NF VO OB CO BC HN X)
    as (p & out & lc & name & UI & FN & EV & EO & EI & EF & ET & ME & OK & MF & (mx & HMX & LM) & EN & EC & DP & SN & RC & SB).
  exists lc, (eo_file out). split; [exact DP|]. split; [exact RC|].
  intros E' m' s' inp' l' VH CP OR LI CK VI' (ND & FR & FS & FC) NM WC OUT BU.
  rewrite <- EV, <- EO in HMX, BC.
  apply (decode_prints (v_H E) (v_rs E) (v_cpus E) p content mx n out name OK MF (conj CB CL) EF ET ME HMX LM BC HN EN EI E' m' s' inp' l' VH CP CK VI' NM FR FS FC WC); try assumption.
  - rewrite EO. destruct o as [[[d par] B]|]; [|exact Logic.I]. intro Z. left. destruct BU as [(_ & BU)|BU]; [exact BU|]. unfold number_option in BU. rewrite Z in BU. contradiction.
  - apply FN.
  - rewrite EO. intro Z. destruct NEM as [W|W]; [congruence|]. destruct content; [congruence|]. unfold lenN. cbn [length]. lia.
  - rewrite EO. intros d par B b EB NB. destruct o as [[[d' p'] B']|]; [|discriminate]. injection EB as -> -> ->. destruct BU as [(Z & _)|BU]; [unfold number_option in NB; rewrite Z in NB; contradiction|].
    unfold number_option in NB, BU. destruct (value_of m' A_burst); [|contradiction]. apply parse_number in NB, BU. congruence.
  - rewrite EO. destruct o as [[[d par] B]|]; [|exact Logic.I]. intro Z. destruct BU as [(_ & BU)|BU]; [exact BU|]. unfold number_option in BU. rewrite Z in BU. contradiction.
Qed.
Print Assumptions c49_encode_decode_stdout.

(* Up to p bursts of B blocks each damage the container (not its first block); repair --burst B gives back the container exactly. With the
   Reed-Solomon code of C44, so nothing is assumed of it. *)
Theorem c49_encode_damage_repair E m s inp li content v d par B n uid :
  machine_ok E -> text_ok m -> value_of m A_in_file = Some inp -> file_at E s inp li content ->
  bytes_ok content = true -> lenN content < 18446744073709551616 ->
  whole_file m -> spares_input E m s li -> version_options m v (Some (d, par, B)) -> uid_option E m uid ->
  (d + par) * B < 4294967296 -> v_rs E = rs_encode ->
  block_count v (Some (d, par, B)) (lenN content) n -> n < U32_MAX ->
  rn_exit (encode_cmd E m s) = Exit 0 ->
  exists place container, derived_place E m s (container_ext m) place /\ rn_fs (encode_cmd E m s) place = Some (NFile container) /\
  let bs := ver_to_block_size v in
  forall E' m' s' inp' l' damaged bursts,
    v_rc E' = rs_reconstruct -> value_of m' A_in_file = Some inp' -> file_at E' s' inp' l' damaged -> (exists x, file_name_of inp' x) ->
    verbosity_option m' -> number_option m' A_burst (Some B) -> is_present m' A_dry_run = false ->
    (is_present m' A_skip_warning = true \/ is_present m' A_json = true \/ exists rest, concat (v_stdin E') = 121 :: rest) ->
    bytes_ok damaged = true -> lenN damaged = lenN container -> lenN bursts <= par -> ~ hit B bursts 0 ->
    (forall i, ~ hit B bursts (i / bs) \/ ~ used_index true (Some (d, par, B)) n (i / bs) -> nthN damaged i = nthN container i) ->
    (forall i seq pl, hit B bursts i -> used_index true (Some (d, par, B)) n i ->
       block_at v uid damaged (i * bs) seq pl -> block_at v uid container (i * bs) seq pl) ->
    let r := repair_cmd E' m' s' in
    rn_exit r = Exit 0 /\ rn_fs r l' = Some (NFile container) /\ same_but l' s' (rn_fs r).
Proof.
  intros MO TX VI FA CB CL WF NF VO UO OB CR BC HN X.
  assert (CO : codec_ok (v_rs E) (Some (d, par, B))).
  { rewrite CR. assert (PB : 1 <= d /\ d + par <= 256); [|destruct PB; apply c44_codec; assumption].
    unfold version_options in VO. destruct (value_of m A_sbx_version); [destruct VO as (_ & _ & _ & _ & P1 & P2 & P3 & _); lia|].
    destruct VO as (_ & _ & _ & _ & Z). injection Z as -> -> ->. lia. }
  assert (WM : with_metadata m (Some (d, par, B))) by (right; discriminate).
  destruct (encode_exit0 E m s inp li content v (Some (d, par, B)) n MO TX VI FA CB CL WF WM NF VO OB CO BC HN X)
    as (p & out & lc & name & UI & FN & EV & EO & EI & EF & ET & ME & OK & MF & (mx & HMX & LM) & EN & EC & DP & SN & RC & SB).
  rewrite CR in OK, EN. rewrite <- EV, <- EO in HMX, BC.
  destruct (c44_encode_damage_repair_decode (v_H E) p (v_cpus E) content mx n d par B OK MF (conj CB CL) EF ET EO HMX LM BC HN) as (out' & EN' & _ & R).
  rewrite EN in EN'. injection EN' as <-. cbv zeta in R. rewrite EV, EO in R.
  assert (EU : e_uid p = uid). { apply uid_iff in UI, UO. congruence. } rewrite EU in R.
  exists lc, (eo_file out). split; [exact DP|]. split; [exact RC|]. cbv zeta.
  intros E' m' s' inp' l' f bursts RCO VI' (ND & FR & FS & FC) (x & FNX) VB NB DR AN FB FL LB NH OUT HIT.
  destruct (R bursts f FB FL LB OUT HIT (or_introl NH)) as (t & RF & _).
  assert (GI : get_in_file E' s' m' = Go inp') by (unfold get_in_file; rewrite VI'; apply check_in_file_iff; split; [reflexivity|]; exists l', f, x; auto).
  apply (verbosity_iff m' tt) in VB. apply number_iff in NB.
  assert (AR : asked_and_refused E' m' = false).
  { unfold asked_and_refused. destruct AN as [->|[->|(rest & AN)]]; [reflexivity|apply andb_false_iff; left; apply andb_false_r|]. unfold wish_to_continue. rewrite AN. apply andb_false_r. }
  assert (RUN : repair_cmd E' m' s' = mkRan (upd s' l' (NFile (eo_file out))) (Exit 0) []).
  { unfold repair_cmd. rewrite GI. cbn [gbind]. rewrite VB. cbn [gbind]. rewrite NB. cbn [gbind run]. rewrite AR. unfold open_read. unfold named in FR. rewrite FR, FS, FC, DR, RCO, RF. reflexivity. }
  rewrite RUN. cbn. split; [reflexivity|]. split; [apply upd_same|]. intros y D. apply upd_other. exact D.
Qed.
Print Assumptions c49_encode_damage_repair.

(* ---- a concrete case ---- *)
(* Names longer than 255 bytes cannot be opened. 300 bytes are encoded with 2 + 1 shards and burst level 2. *)
Definition mach : env := mkEnv toy_hash rs_encode rs_reconstruct 2 (fun l => l) 20%nat w_ (forallb (fun n => lenN n <=? 255)) [1;2;3;4;5;6] 1600000000%Z
  (fun _ => Some 1500000000%Z) [] [] (Exit 1).
Definition enc_m : matches := cmd [(A_sbx_version, str "17"); (A_rs_data, str "2"); (A_rs_parity, str "1"); (A_burst, str "2"); (A_in_file, str "a")] [].
Definition enc_r : ran := encode_cmd mach enc_m toy_fs.
Definition cont : list N := content (rn_fs enc_r) (w_ ++ [str "a.ecsbx"]).
Example c49_hypotheses : machine_ok mach /\ text_ok enc_m /\ clap_ok enc_m /\ file_at mach toy_fs (str "a") (w_ ++ [str "a"]) toy_data /\ bytes_ok toy_data = true /\
  whole_file enc_m /\ with_metadata enc_m (Some (2, 1, 2)) /\ version_options enc_m V17 (Some (2, 1, 2)) /\ codec_ok (v_rs mach) (Some (2, 1, 2)) /\
  block_count V17 (Some (2, 1, 2)) (lenN toy_data) 3 /\ rn_exit enc_r = Exit 0 /\ lenN cont = 3584 /\
  encode_target mach enc_m toy_fs (str "a") (w_ ++ [str "a.ecsbx"]) (str "a.ecsbx") /\ writable mach enc_m toy_fs (w_ ++ [str "a.ecsbx"]).
Proof.
  split.
  { split; [reflexivity|]. split; [reflexivity|]. split; [intros t data; split; [destruct t; reflexivity|apply bytes_ok_rep; apply N.mod_lt; lia]|]. split; [cbn; lia|].
    split; [split; vm_compute; congruence|]. split; [intros l t Q; cbn in Q; injection Q as <-; split; vm_compute; congruence|].
    intros l n C I. cbn in C. rewrite forallb_forall in C. apply N.leb_le. apply C. exact I. }
  split; [intros a x; destruct a; cbn; try discriminate; intro Q; injection Q as <-; split; reflexivity|].
  split; [split; [discriminate|]; cbn; auto|].
  split; [split; [discriminate|]; split; [vm_compute; reflexivity|]; split; [vm_compute; reflexivity|reflexivity]|].
  split; [vm_compute; reflexivity|]. split; [repeat split; reflexivity|]. split; [left; reflexivity|].
  split; [apply version_options_iff; vm_compute; reflexivity|].
  split; [apply c44_codec; lia|]. split; [apply block_count_iff; [cbn; lia|vm_compute; reflexivity]|]. split; [vm_compute; reflexivity|]. split; [vm_compute; reflexivity|].
  split.
  - exists w_, (str "a"). split; [split; [split; [discriminate|]; split; [cbn; intuition discriminate|split; discriminate]|]; exists []; split; [constructor|left; reflexivity]|].
    cbn [enc_m cmd value_of find]. cbn. split; [vm_compute; reflexivity|]. split; reflexivity.
  - split; [vm_compute; reflexivity|]. split; [vm_compute; discriminate|left; vm_compute; reflexivity].
Qed.
(* --force spares the input here, too: the container gets another name *)
Definition enc_f : matches := cmd [(A_sbx_version, str "17"); (A_rs_data, str "2"); (A_rs_parity, str "1"); (A_burst, str "2"); (A_in_file, str "a")] [A_force].
Example c49_force : spares_input mach enc_m toy_fs (w_ ++ [str "a"]) /\ is_present enc_f A_force = true /\ spares_input mach enc_f toy_fs (w_ ++ [str "a"]).
Proof.
  split; [discriminate|]. split; [reflexivity|]. intros _ l (inp & VI & D). injection VI as <-. cbn [enc_f cmd value_of find] in D.
  destruct D as (d & n & R & _ & ->). vm_compute in R. injection R as R. change [[119]; [97]] with ([[119]] ++ [[97]] : loc) in R. apply app_inj_tail in R as [<- <-]. discriminate.
Qed.
(* The container is moved; its second block is destroyed; repair mends it; decode gives the file back. *)
Definition hurt_c : list N := takeN 512 cont ++ repN 512 255 ++ dropN 1024 cont.
Definition moved : fs := upd (upd toy_fs (w_ ++ [str "o"; str "x"]) (NFile hurt_c)) (w_ ++ [str "a"]) NDir.
Definition rep_r : ran := repair_cmd mach (cmd [(A_in_file, str "o/x"); (A_burst, str "2")] [A_skip_warning]) moved.
Definition dec_r : ran := decode_cmd mach (cmd [(A_in_file, str "o/x"); (A_out, str "o")] []) (rn_fs rep_r).
Definition dec_s : ran := decode_cmd mach (cmd [(A_in_file, str "o/x"); (A_out, str "-")] []) (rn_fs rep_r).
Example c49_run : match rn_exit rep_r, rn_exit dec_r, rn_exit dec_s with Exit 0, Exit 0, Exit 0 => true | _, _, _ => false end
  && negb (eqbl hurt_c cont) && eqbl (content (rn_fs rep_r) (w_ ++ [str "o"; str "x"])) cont
  && eqbl (content (rn_fs dec_r) (w_ ++ [str "o"; str "a"])) toy_data && eqbl (rn_stdout dec_s) toy_data = true.
Proof. vm_compute. reflexivity. Qed.
