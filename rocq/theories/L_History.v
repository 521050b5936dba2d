(* Lemmas about the commands update, repair and decode on containers as encode and update leave them. *)
From Coq Require Import String Ascii.
From Verif Require Import L_Update P_Update M_Base M_Specs M_Crc M_Header M_Multihash M_Metadata M_Block M_Index M_FileUtils M_Buffer M_Ranges M_Encode
  M_Scan M_Loop M_Decode M_Content M_Sort M_Repair M_Update M_Rescue M_Hex M_Json M_Codec M_Path M_Cli
  S_Crc S_Meta S_Block S_Index S_Container S_Encode S_Scan S_Decode S_Content S_Repair S_Update S_Cli S_History
  L_Base L_File L_Index L_Index2 L_Container L_Ref L_Decode2 L_Intact L_Intact2 L_Repair8 L_Repair9 L_Roundtrip
  L_Path L_Cli L_Cli2 L_Cli3 L_LostCmd P_Encode P_Decode P_Roundtrip P_Content P_Codec P_Cli P_Options L_Renew.
Ltac Zify.zify_post_hook ::= idtac.

(* ---- update ---- *)
Definition uopts_of (m : matches) (h : option hash_type) (b : option N) : uopts :=
  mkUopts (is_present m A_dry_run) (value_of m A_fnm) (value_of m A_snm) (is_present m A_no_fnm) (is_present m A_no_snm) (is_present m A_no_hsh) h b.
Definition hash_asked (m : matches) (h : option hash_type) : Prop :=
  match value_of m A_hash_type, h with None, None => True | Some x, Some t => string_to_hash_type x = Some t | _, _ => False end.
Lemma update_cmd_cases E cut m s inp l f : value_of m A_in_file = Some inp -> file_at E s inp l f ->
  (rn_fs (update_cmd E cut m s) = s /\ (rn_exit (update_cmd E cut m s) <> Exit 0 \/ asked_and_refused E m = true)) \/
  asked_and_refused E m = false /\
  exists b h w r, number_option m A_burst b /\ hash_asked m h /\ update_file (v_H E) (v_cpus E) (update_param (v_H E) (uopts_of m h b)) cut f = (w, r) /\
    update_cmd E cut m s = mkRan (upd s l (NFile w)) (match r with ROk _ => Exit 0 | RErr _ => Exit 2 | RPanic => Panicked end) [].
Proof.
  intros VI (ND & FR & FS & FC). unfold update_cmd. set (rq := gbind (get_in_file E s m) _).
  destruct rq as [[[inf b] h]|e] eqn:RQ; cbn [run].
  - unfold rq in RQ. destruct (get_in_file E s m) as [i|] eqn:GI; [|discriminate]. unfold get_in_file in GI. rewrite VI in GI. apply check_in_file_iff in GI as [-> _]. cbn [gbind] in RQ.
    destruct (get_pr_verbosity_level m); [|discriminate]. cbn [gbind] in RQ. destruct (get_number m A_burst) as [b'|] eqn:GB; [|discriminate]. cbn [gbind] in RQ.
    assert (X : inf = inp /\ b = b' /\ hash_asked m h).
    { unfold hash_asked. destruct (value_of m A_hash_type) as [x|]; [destruct (string_to_hash_type x) as [t|] eqn:ST; [|discriminate]|]; cbn [gbind] in RQ; injection RQ as <- <- <-; auto. }
    destruct X as (-> & -> & HA). destruct (asked_and_refused E m) eqn:AR; [left; auto|]. right. split; [reflexivity|].
    unfold open_read. unfold named in FR. rewrite FR, FS, FC. fold (uopts_of m h b'). destruct (update_file _ _ _ cut f) as [w r] eqn:UF.
    exists b', h, w, r. split; [apply number_iff, GB|]. split; [exact HA|]. split; [exact UF|]. reflexivity.
  - left. split; [reflexivity|]. left. cbn [rn_exit]. intros ->. unfold rq, get_in_file in RQ. rewrite VI in RQ. revert RQ.
    change (never0 (gbind (check_in_file E s inp) (fun inf => gbind (get_pr_verbosity_level m) (fun _ => gbind (get_number m A_burst) (fun burst =>
      gbind (match value_of m A_hash_type with None => Go None | Some x => match string_to_hash_type x with Some h => Go (Some h) | None => Stop (Exit 1) end end) (fun h => Go (inf, burst, h))))))).
    unfold check_in_file, get_number, get_pr_verbosity_level. n0.
Qed.
Lemma agreed_not_refused E m : agreed E m -> asked_and_refused E m = false.
Proof. intros [X|[X|(rest & X)]]; unfold asked_and_refused, wish_to_continue; rewrite X; cbn; rewrite ?andb_false_r; reflexivity. Qed.
Lemma refused_agreed E m : ~ agreed E m -> is_present m A_dry_run = false -> asked_and_refused E m = true.
Proof.
  intros NA DR. unfold asked_and_refused, wish_to_continue. rewrite DR. destruct (is_present m A_skip_warning) eqn:A1; [exfalso; apply NA; left; exact A1|].
  destruct (is_present m A_json) eqn:A2; [exfalso; apply NA; right; left; exact A2|]. cbn [negb andb].
  destruct (concat (v_stdin E)) as [|c r] eqn:A3; [reflexivity|]. destruct (N.eq_dec c 121) as [->|NE]; [exfalso; apply NA; right; right; eauto|].
  destruct c as [|c]; [reflexivity|]. do 7 (try (destruct c as [c|c|]; try reflexivity)). congruence.
Qed.
(* whatever goes wrong: the file is as before *)
Lemma update_undone E m s inp l f g : hash_fn_ok (v_H E) -> bytes_ok f = true -> value_of m A_in_file = Some inp -> file_at E s inp l f ->
  ~ agreed E m \/ is_present m A_dry_run = true \/ rn_exit (update_cmd E None m s) <> Exit 0 -> rn_fs (update_cmd E None m s) l = Some (NFile g) -> g = f.
Proof.
  intros HF HB VI FA WHY G. pose proof FA as (_ & _ & FS & _). destruct (update_cmd_cases E None m s inp l f VI FA) as [[S _]|(AR & b & h & w & r & NB & HA & UF & EQ)].
  - rewrite S in G. congruence.
  - rewrite EQ in G, WHY. cbn [rn_fs rn_exit] in G, WHY. rewrite upd_same in G. injection G as <-. destruct (is_present m A_dry_run) eqn:DR.
    + pose proof (c24_dry_run (v_H E) (v_cpus E) (uopts_of m h b) f HF HB DR) as [X _]. rewrite UF in X. exact X.
    + destruct WHY as [NA|[X|NE]]; [|discriminate|].
      * rewrite (refused_agreed E m NA DR) in AR. discriminate.
      * apply (c24_all_or_nothing _ _ _ _ _ _ _ HF HB UF). intros x ->. congruence.
Qed.
Lemma update_done E m s inp l f g : value_of m A_in_file = Some inp -> file_at E s inp l f -> agreed E m ->
  rn_exit (update_cmd E None m s) = Exit 0 -> rn_fs (update_cmd E None m s) l = Some (NFile g) ->
  exists b h st, number_option m A_burst b /\ hash_asked m h /\ update_file (v_H E) (v_cpus E) (update_param (v_H E) (uopts_of m h b)) None f = (g, ROk st).
Proof.
  intros VI FA AG X G. destruct (update_cmd_cases E None m s inp l f VI FA) as [[_ [NE|AR]]|(_ & b & h & w & r & NB & HA & UF & EQ)].
  - congruence.
  - rewrite (agreed_not_refused E m AG) in AR. discriminate.
  - rewrite EQ in G, X. cbn [rn_fs rn_exit] in G, X. rewrite upd_same in G. injection G as <-. destruct r as [st| |]; try discriminate. eauto 8.
Qed.
Lemma asked_ok m h b : update_options m -> hash_asked m h -> opts_ok (uopts_of m h b) /\ names_ok (uopts_of m h b).
Proof.
  intros (TX & N1 & N2 & C1 & C2 & C3) HA. unfold uopts_of, opts_ok, names_ok. cbn [uo_fnm uo_snm uo_no_fnm uo_no_snm uo_no_hsh uo_hash]. split.
  - split; [destruct C1 as [->|C1]; congruence|]. split; [destruct C2 as [->|C2]; congruence|]. unfold hash_asked in HA. split.
    + destruct C3 as [C3|C3]; [|auto]. rewrite C3 in HA. destruct h; [contradiction|congruence].
    + destruct h as [t|]; [|exact Logic.I]. destruct (value_of m A_hash_type) as [x|]; [|contradiction]. apply hash_iff in HA. unfold hashes in HA. cbn [In] in HA.
      repeat (destruct HA as [HA|HA]; [injection HA as _ <-; reflexivity|]). contradiction.
  - split; [destruct (value_of m A_fnm) eqn:V; [|exact Logic.I]|destruct (value_of m A_snm) eqn:V; [|exact Logic.I]]; destruct (TX _ _ V); split; auto.
Qed.
Lemma level_told m o b n h : level_known m o -> number_option m A_burst b -> 1 <= n -> told (uopts_of m h b) o n.
Proof.
  intros LK NB N1. unfold told. destruct o as [[[d p] B]|]; [|exact Logic.I]. cbn [uopts_of uo_burst]. destruct LK as [X|(X & L)].
  - left. apply number_iff in X, NB. congruence.
  - right. unfold number_option in NB. rewrite X in NB. destruct b; [contradiction|]. auto.
Qed.

(* ---- repair ---- *)
Lemma kept_repair v uid d par B data n first f nm ms bursts hurt : kept_well v uid (Some (d, par, B)) rs_encode data n first f nm ms ->
  burst_damage v uid d par B n bursts f hurt -> exists t, repair_file rs_reconstruct false (Some B) hurt = ROk (Some (t, f)).
Proof.
  intros [IT FL MP FZ [RD RP] _ _] (HB & LF & LB & NH & OUT & HIT). destruct (L_Intact.HO _ _ _ _ _ _ _ _ _ IT) as (D1 & D2 & D3).
  assert (HR : recon_ok rs_encode rs_reconstruct d par) by (apply (c44_codec d par B); assumption).
  assert (OUT' : forall i, ~ hit B bursts (i / ver_to_block_size v) -> nthN hurt i = nthN f i) by (intros; apply OUT; auto).
  destruct (first_spared v uid rs_encode f hurt d par B n ms data bursts) as (ref & G & EV & EU & ED); try assumption.
  destruct (burst_repaired v uid rs_encode rs_reconstruct f hurt d par B n ms data bursts HR IT MP FZ RD RP HB FL LF LB OUT' HIT 0 ref G EV EU ED) as (t & w & RF & RS).
  exists t. rewrite RF. do 2 f_equal. f_equal. apply (restored_same _ _ _ _ _ _ _ _ _ _ IT RS). intros i U. apply OUT. right. exact U.
Qed.

(* ---- decode ---- *)
Lemma decode_path E m s nm l ref : get_FNM ref = nm -> decode_to E m s nm l -> exists op, decode_out_path E s (value_of m A_out) ref = Go (Some op) /\ resolve s (v_cwd E) op = Some l.
Proof.
  intros FN TO. unfold decode_out_path. rewrite FN. destruct nm as [x|]; cbn [decode_to] in TO.
  - destruct TO as (n & FNX & NZ & TG). rewrite (proj2 (c47_file_name x n) FNX). cbn [gbind]. assert (GN : good_name n) by apply FNX. unfold decode_target in TG. destruct (value_of m A_out) as [o|].
    + destruct TG as (ND & [(R & NDI)|(d & R & D & ->)]); assert (X : is_dash o = false) by (apply eqbl_neq; exact ND); rewrite X.
      * destruct (path_is_dir s (v_cwd E) o) eqn:PD; [|eauto]. apply is_dir_resolve in PD. destruct PD as (l' & R' & D'). unfold named in R. congruence.
      * assert (PD : path_is_dir s (v_cwd E) o = true) by (apply is_dir_resolve; eauto). rewrite PD.
        exists (make_path [o; n]). split; [reflexivity|]. rewrite (resolve_child _ _ _ _ _ R D GN). apply zero_In in NZ. rewrite NZ. reflexivity.
    + destruct TG as (D & ->). exists n. split; [reflexivity|]. rewrite resolve_name by exact GN. apply zero_In in NZ. rewrite NZ. unfold is_dir_at. rewrite D. reflexivity.
  - destruct TO as (o & VO & ND & R & NDI). rewrite VO. cbn [gbind]. assert (X : is_dash o = false) by (apply eqbl_neq; exact ND). rewrite X.
    destruct (path_is_dir s (v_cwd E) o) eqn:PD; [|eauto]. apply is_dir_resolve in PD. destruct PD as (l' & R' & D'). unfold named in R. congruence.
Qed.
Lemma decode_gives_at E m s inp li l f nm content :
  clap_ok m -> value_of m A_in_file = Some inp -> (exists x, file_name_of inp x) -> named E s inp li -> s li = Some (NFile f) -> v_can E li = true -> whole_container m ->
  decode_to E m s nm l -> l <> li -> writable E m s l ->
  (forall q, plain q -> flags_of m q -> number_option m A_burst (dc_burst q) ->
     exists pos ref o', get_ref_block f (ref_from_pos (dc_ref_from q) (dc_from q)) (dc_ref_to q) (dc_misalign q) (dc_choice q) = ROk (Some (pos, ref)) /\
       get_data_par_burst f (dc_burst q) (guess_from_param (dc_guess q) (dc_from q)) (dc_misalign q) ref = ROk o' /\ get_FNM ref = nm /\
       forall old, (dc_force_write q = true \/ old = None) ->
         exists dout, decode_file (v_H E) (v_order E) (v_cpus E) (v_limit E) (with_burst q o') f (ToFile old) = ROk dout /\ do_out dout = content) ->
  decode_cmd E m s = mkRan (upd (upd s l (NFile [])) l (NFile content)) (Exit 0) [].
Proof.
  intros CK VI NM FR FS FC WC TG NE WR X.
  destruct (whole_request E s m inp li _ CK VI FR FS NM WC) as (q & Q & PQ & FL & NB). destruct (X q PQ FL NB) as (pos & ref & o' & GR & GD & FN & DEC).
  destruct FL as (FL1 & FL2 & FL3 & FL4). destruct (decode_path E m s nm l ref FN TG) as (op & DP & RO).
  destruct WR as (WC1 & WC2 & WC3). unfold decode_cmd. rewrite Q. cbn [run]. unfold open_read. unfold named in FR. rewrite FR, FS, FC, GR, DP. cbn [run].
  assert (MU : dc_multi q = None) by apply PQ. unfold truncating at 1. rewrite MU, FL2. cbn [andb]. rewrite andb_true_r.
  assert (PE : negb (is_present m A_force) && path_exists s (v_cwd E) op = false).
  { destruct WC3 as [Z|Z]; [|rewrite Z; reflexivity]. apply andb_false_iff. right. destruct (path_exists s (v_cwd E) op) eqn:PE; [|reflexivity].
    apply exists_resolve in PE. destruct PE as (l' & R' & Y). congruence. }
  rewrite PE. unfold decode_run. rewrite GD. assert (TR : truncating q = true) by (unfold truncating; rewrite MU; reflexivity). rewrite TR.
  assert (OW : exists s1, open_write s (v_cwd E) (v_can E) true op = Some (l, s1) /\ s1 = upd s l (NFile [])).
  { unfold open_write. rewrite RO, WC1. cbn [negb]. destruct (s l) as [[c|]|]; [eauto|congruence|eauto]. }
  destruct OW as (s1 & OW & ->). rewrite OW. assert (LN : loc_eqb li l = false) by (apply loc_eqb_neq; congruence). rewrite LN. cbn [negb andb].
  set (q' := with_burst q o') in *. set (old := match s l with Some (NFile c) => Some c | _ => None end).
  assert (FW : dc_force_write q = true \/ old = None) by (rewrite FL2; destruct WC3 as [Z|Z]; [right; unfold old; rewrite Z; reflexivity|left; exact Z]).
  destruct (DEC old FW) as (dout & ED & DO).
  assert (ED' : decode (v_H E) (v_order E) (v_cpus E) (v_limit E) q' f ref (ToFile old) = ROk dout).
  { revert ED. unfold decode_file. unfold q' at 1 2 3 4 5. cbn [with_burst dc_ref_from dc_from dc_ref_to dc_misalign dc_choice]. rewrite GR. cbn [rbind]. destruct (_ && _ && _); [discriminate|auto]. }
  rewrite ED', DO. reflexivity.
Qed.
(* what decode_file makes of such a container *)
Lemma kept_decode v uid o rs data n first f nm ms H order cpus limit q : kept_well v uid o rs data n first f nm ms -> 1 <= cpus -> plain q ->
  (dc_choice q = Any \/ dc_choice q = Prefer TMeta \/ dc_choice q = MustBe TMeta) ->
  match o with Some (_, _, B) => dc_burst q = None -> B <= SBX_MAX_BURST_ERR_RESISTANCE \/ 1 <= n | None => True end ->
  exists pos ref o', get_ref_block f (ref_from_pos (dc_ref_from q) (dc_from q)) (dc_ref_to q) (dc_misalign q) (dc_choice q) = ROk (Some (pos, ref)) /\
    get_data_par_burst f (dc_burst q) (guess_from_param (dc_guess q) (dc_from q)) (dc_misalign q) ref = ROk o' /\ get_FNM ref = nm /\ b_data ref = DMeta ms /\
    (o = None -> o' = None) /\ (forall seq j, is_chunk o' seq j <-> is_chunk o seq j) /\
    forall old, (dc_force_write q = true \/ old = None) ->
      exists dout, decode_file H order cpus limit q f (ToFile old) = ROk dout /\ do_out dout = data.
Proof.
  intros [IT FL MP FZ SR NM _] CP PQ CH BU.
  assert (MD : match o with Some (d, p, B) => get_meta_by_id ms IRSD = Some (RSD d) /\ get_meta_by_id ms IRSP = Some (RSP p) /\ (dc_burst q = None -> B <= SBX_MAX_BURST_ERR_RESISTANCE \/ 1 <= n) | None => True end).
  { unfold shards_recorded in SR. destruct o as [[[d p] B]|]; [|exact Logic.I]. destruct SR. auto. }
  destruct (setup_meta_large _ _ _ _ _ _ _ _ _ q IT FL PQ eq_refl CH MD) as (ref & o' & ST & RV & RU & RD & IC). pose proof ST as ((pos & GR) & GD & _).
  exists pos, ref, o'. split; [exact GR|]. split; [exact GD|].
  split; [unfold get_FNM, block_get_meta; rewrite RD, NM; destruct nm; reflexivity|]. split; [exact RD|].
  split. { intros ->. assert (RS : ver_uses_rs v = false) by apply IT. unfold get_data_par_burst in GD. rewrite RV, RS in GD. congruence. }
  split; [exact IC|].
  intros old FW. assert (ID : is_data ref = false) by (unfold is_data, block_type_of; rewrite RD; reflexivity).
  destruct (decode_file_total H order cpus limit q f old ref o' _ 0 CP ST) as (dout & ED).
  { rewrite ID. apply andb_false_r. } { destruct FW; auto. }
  exists dout. split; [exact ED|]. pose proof (file_bytes _ _ _ _ _ _ _ _ _ IT) as HB.
  refine (c17_shuffled_container _ _ _ _ _ _ f _ _ _ _ _ _ f _ _ _ _ _ _ IT _ _ CP HB FL _ ED ST RV RU RD _ _).
  - destruct o as [[[d p] B]|]; [destruct MD as (A & B' & _); auto|exact Logic.I].
  - exact FZ.
  - apply PQ.
  - intros k seq pl [_ BA]. exists k. rewrite N.add_0_l in BA. exact BA.
  - intros i seq pl BA (j & CJ). destruct (block_inv _ _ _ _ _ _ _ _ _ IT _ _ _ BA) as [[-> _]|(Hs & -> & ->)].
    { exfalso. unfold is_chunk in CJ. destruct o as [[[d p] B]|]; [destruct CJ as (a & b & _ & X & _); lia|lia]. }
    eexists. split; [exact (visited_used _ _ _ _ _ _ _ _ _ IT seq Hs)|]. rewrite N.add_0_l. exact BA.
Qed.
Lemma kept_decode_cmd v uid o rs data n first f nm ms E m s inp li l :
  kept_well v uid o rs data n first f nm ms -> 1 <= v_cpus E ->
  clap_ok m -> value_of m A_in_file = Some inp -> file_at E s inp li f -> (exists x, file_name_of inp x) -> whole_container m ->
  match o with Some (_, _, B) => value_of m A_burst = None -> B <= 1000 \/ 1 <= n | None => True end ->
  decode_to E m s nm l -> l <> li -> writable E m s l ->
  decode_cmd E m s = mkRan (upd (upd s l (NFile [])) l (NFile data)) (Exit 0) [].
Proof.
  intros KW CP CK VI (ND & FR & FS & FC) NM WC BU TG NE WR.
  apply (decode_gives_at E m s inp li l f nm data CK VI NM FR FS FC WC TG NE WR).
  intros q PQ (FL1 & FL2 & FL3 & FL4) NB.
  assert (CH : dc_choice q = Any \/ dc_choice q = Prefer TMeta \/ dc_choice q = MustBe TMeta) by (rewrite FL1; destruct (is_present m A_no_meta); auto).
  assert (BQ : match o with Some (_, _, B) => dc_burst q = None -> B <= SBX_MAX_BURST_ERR_RESISTANCE \/ 1 <= n | None => True end).
  { destruct o as [[[d par] B]|]; [|exact Logic.I]. intro Z. apply BU. unfold number_option in NB. rewrite Z in NB. destruct (value_of m A_burst); [contradiction|reflexivity]. }
  destruct (kept_decode _ _ _ _ _ _ _ _ _ _ (v_H E) (v_order E) (v_cpus E) (v_limit E) q KW CP PQ CH BQ) as (pos & ref & o' & GR & GD & FN & _ & ON & IC & _).
  exists pos, ref, o'. split; [exact GR|]. split; [exact GD|]. split; [exact FN|]. intros old FW.
  assert (BQ' : match o with Some (_, _, B) => dc_burst (with_burst q o') = None -> B <= SBX_MAX_BURST_ERR_RESISTANCE \/ 1 <= n | None => True end).
  { destruct o as [[[d par] B]|]; [|exact Logic.I]. destruct o' as [[[d' p'] B']|]; [cbn; discriminate|]. exact BQ. }
  destruct (kept_decode _ _ _ _ _ _ _ _ _ _ (v_H E) (v_order E) (v_cpus E) (v_limit E) (with_burst q o') KW CP (plain_burst q o' PQ) CH BQ') as (_ & _ & _ & _ & _ & _ & _ & _ & _ & DEC).
  exact (DEC old FW).
Qed.
