(* An update that did not come to its end, run again. *)
From Coq Require Import String Ascii.
From Verif Require Import L_Update P_Update M_Base M_Specs M_Crc M_Header M_Multihash M_Metadata M_Block M_Index M_FileUtils M_Buffer M_Ranges M_Encode
  M_Scan M_Loop M_Decode M_Content M_Sort M_Repair M_Update M_Rescue M_Hex M_Json M_Codec M_Path M_Cli
  S_Crc S_Meta S_Block S_Index S_Container S_Encode S_Scan S_Decode S_Content S_Repair S_Update S_Cli S_History S_Halfway
  L_Base L_Crc L_File L_Header L_Meta L_Meta2 L_Block L_Index L_Index2 L_Container L_Scan L_Ranges L_Ref L_Decode2 L_Guess L_Intact L_Intact2 L_Encode4 L_Repair L_Repair9 L_Roundtrip
  L_Path L_Cli L_Cli2 L_Cli3 P_Encode P_Decode P_Roundtrip P_Content P_Cli P_Options L_Renew L_History L_Halfway.
Ltac Zify.zify_post_hook ::= idtac.

(* what a run, complete or not, makes of an undamaged container *)
Lemma update_core v uid o rs ms data f n H cpus q cut w r :
  intact v uid true o rs ms data f n -> lenN f < 18446744073709551616 -> shards_recorded o ms -> told q o n ->
  get_meta_by_id ms IFSZ = Some (FSZ (lenN data)) -> (uo_hash q <> None -> 1 <= lenN data) -> 1 <= cpus ->
  hash_fn_ok H -> names_ok q -> uo_dry q = false ->
  update_file H cpus (update_param H q) cut f = (w, r) ->
  (w = f /\ (forall s, r <> ROk s)) \/
  exists s h d, r = ROk s /\ hash_fits q h /\ (forall t, uo_hash q = Some t -> h = finish_hash H t data) /\
    meta_plain v uid (newf (second H q h) ms) d /\ lenN d = ver_to_block_size v /\
    (forall ref i, b_version ref = v -> b_uid ref = uid -> meta_index (Some true) o i -> outcome ref f (second H q h) i = ROk (Some d)) /\
    lenN w = lenN f /\ (forall i, meta_index (Some true) o i -> reached o cut i -> sliceN (i * ver_to_block_size v) (ver_to_block_size v) w = d) /\
    (forall i, ~ (meta_index (Some true) o i /\ reached o cut i) -> same_block v f w i).
Proof.
  intros IT FL SR TO FS L1 CP HF NO DR E. pose proof (file_bytes _ _ _ _ _ _ _ _ _ IT) as HB. pose proof (block_size_pos v) as BP.
  destruct (update_setup_intact _ _ _ _ _ _ _ _ q IT FL SR TO) as (ref & ST & RV & RU & RD).
  destruct (update_file_cases H cpus q cut f w _ HF E) as [X|(ref' & o' & h & ST' & NH & HH & TS & R)]; [left; exact X|right].
  assert (EQ : ref' = ref /\ o' = o).
  { destruct ST as [(x & G) D], ST' as [(x' & G') D']. rewrite G in G'. apply ROk_inj, Some_inj, pair_inj in G' as [_ <-]. rewrite D in D'. apply ROk_inj in D'. auto. }
  destruct EQ as [-> ->]. clear ST'. destruct (second_run H q h ref o f HF HB HH None TS) as [OK _]. destruct (second_run H q h ref o f HF HB HH cut TS) as [_ R'].
  rewrite R, DR in R'. apply pair_inj in R' as [EW R'].
  pose proof (second_storable H q h NO HH) as STO. pose proof (storable_safe _ STO) as SF. set (p := second H q h) in *. set (L := done ref o f cut) in *.
  assert (LN : forall i, In i (done ref o f None) <-> meta_index (Some true) o i).
  { intro i. rewrite (live_cut ref o f None i). split; [tauto|]. intro M. split; [exact M|]. split; [exact Logic.I|]. rewrite RV. apply (I4 _ _ _ _ _ _ _ _ _ IT). left. exact M. }
  assert (LC : forall i, In i L <-> meta_index (Some true) o i /\ reached o cut i).
  { intro i. unfold L. rewrite (live_cut ref o f cut i). split; [tauto|]. intros [M Z]. split; [exact M|]. split; [exact Z|]. rewrite RV. apply (I4 _ _ _ _ _ _ _ _ _ IT). left. exact M. }
  assert (FA : forall i, meta_index (Some true) o i -> fields_at (b_version ref) (b_uid ref) f i ms) by (intros i Hi; rewrite RV, RU; apply (meta_fields _ _ _ _ _ _ _ _ IT), Hi).
  assert (LE : forall i, meta_index (Some true) o i -> (i + 1) * ver_to_block_size (b_version ref) <= lenN f) by (intros i Hi; exact (fields_len ref f i ms (FA i Hi))).
  assert (M0 : meta_index (Some true) o 0) by (apply (meta_zero _ _ _ _ _ _ _ _ _ IT eq_refl)).
  assert (SAME : forall i, meta_index (Some true) o i -> outcome ref f p i = outcome ref f p 0).
  { intros i Hi. unfold outcome, file_read. rewrite RV. destruct (proj2 (proj2 (proj2 (proj2 (proj2 (proj2 (proj2 (proj2 (proj2 IT))))))))) as (meta0 & (n' & _ & _ & C3 & _) & _). f_equal. rewrite (C3 i), (C3 0) by assumption. reflexivity. }
  destruct (update_block_cases ref f HB p 0 SF (LE 0 M0)) as [A _]. specialize (A ms (FA 0 M0)). fold (outcome ref f p 0) in A.
  destruct (_ <? _); [destruct (OK 0 (proj2 (LN 0) M0)) as (x & X); congruence|]. destruct A as (d & OD & LD & _).
  assert (ALL : forall i, meta_index (Some true) o i -> outcome ref f p i = ROk (Some d)) by (intros i Hi; rewrite (SAME i Hi); exact OD).
  assert (WI : forall i b, In (i, b) (writes ref f p L) <-> In i L /\ b = d).
  { intros i b. rewrite writes_in. split; intros [X Y]; (split; [exact X|]); apply LC in X; [rewrite (ALL i (proj1 X)) in Y; apply ROk_inj, Some_inj in Y; congruence|rewrite Y; apply ALL, X]. }
  destruct (put_blocks_ok (ver_to_block_size (b_version ref)) ltac:(rewrite RV; lia) (writes ref f p L) f) as (P1 & P2 & P3 & P4 & P5).
  { apply Forall_forall. intros [i b] Hi. apply WI in Hi as [_ ->]. exact LD. }
  { intros a b b' X X'. apply WI in X as [_ ->]. apply WI in X' as [_ ->]. reflexivity. }
  rewrite <- EW in P1, P2, P3, P4, P5.
  assert (LW : lenN w = lenN f). { destruct P5 as [X|(a & b & X & Y)]; [exact X|]. apply WI in X as [X _]. apply LC in X. specialize (LE a (proj1 X)). lia. }
  eexists _, h, d. split; [exact R'|]. split; [exact HH|]. split; [|split; [|split; [|split; [|split; [exact LW|split]]]]].
  - intros t HT. unfold new_hash in NH. rewrite HT in NH. destruct NH as (x & FZ & CH). unfold get_FSZ, block_get_meta in FZ. rewrite RD, FS in FZ. apply Some_inj in FZ. subst x.
    rewrite (c39_intact_container _ _ _ _ _ _ _ _ H cpus ref t IT (L1 ltac:(congruence)) CP RV RU) in CH. apply ROk_inj in CH. congruence.
  - rewrite <- RV, <- RU. exact (written_plain ref f p 0 ms d HB STO (FA 0 M0) OD).
  - rewrite <- RV. exact LD.
  - intros r2 i V2 U2 Hi. rewrite <- (ALL i Hi). unfold outcome. rewrite V2, RV. apply update_block_ext; congruence.
  - intros i Hi Z. rewrite <- RV. apply P1. apply WI. split; [apply LC; auto|reflexivity].
  - intros i Hi k Ek. apply P2. intros b X. apply WI in X as [X _]. apply Hi, LC. rewrite RV in X. rewrite Ek in X. exact X.
Qed.
Lemma asked_same q h h' : (forall t, uo_hash q = Some t -> h = h') -> asked_fields q h = asked_fields q h'.
Proof. intro X. unfold asked_fields. destruct (uo_hash q) as [t|]; [rewrite (X t eq_refl)|]; reflexivity. Qed.
(* the same changes, whatever the burst level given *)
Definition same_changes (q q' : uopts) : Prop :=
  uo_fnm q' = uo_fnm q /\ uo_snm q' = uo_snm q /\ uo_no_fnm q' = uo_no_fnm q /\ uo_no_snm q' = uo_no_snm q /\ uo_no_hsh q' = uo_no_hsh q /\ uo_hash q' = uo_hash q.
Lemma same_newf H q q' h ms : same_changes q q' -> newf (second H q' h) ms = newf (second H q h) ms.
Proof. intros (E1 & E2 & E3 & E4 & E5 & E6). unfold newf, second, asked_fields, asked_gone. cbn [up_set up_remove]. rewrite E1, E2, E3, E4, E5, E6. reflexivity. Qed.
Lemma same_outcome H q q' h ref f i : same_changes q q' -> outcome ref f (second H q' h) i = outcome ref f (second H q h) i.
Proof. intros (E1 & E2 & E3 & E4 & E5 & E6). unfold outcome, update_block, second, asked_fields, asked_gone. cbn [up_set up_remove]. rewrite E1, E2, E3, E4, E5, E6. reflexivity. Qed.
Lemma slice_same v f w i : lenN f = lenN w -> sliceN (i * ver_to_block_size v) (ver_to_block_size v) f = sliceN (i * ver_to_block_size v) (ver_to_block_size v) w -> same_block v f w i.
Proof.
  intros L E k Ek. pose proof (block_size_pos v) as BP. pose proof (N.div_mod' k (ver_to_block_size v)) as DM. pose proof (N.mod_lt k (ver_to_block_size v) ltac:(lia)) as ML. rewrite Ek in DM.
  apply (f_equal (fun l => nthN l (k mod ver_to_block_size v))) in E. rewrite !nthN_slice in E. destruct (N.ltb_spec (k mod ver_to_block_size v) (ver_to_block_size v)); [|lia].
  replace k with (i * ver_to_block_size v + k mod ver_to_block_size v) by lia. congruence.
Qed.
(* a run stopped early *)
Lemma cut_between v uid o rs ms data f n H cpus q w s cpus' q' cut w' r :
  intact v uid true o rs ms data f n -> lenN f < 18446744073709551616 -> shards_recorded o ms -> told q o n -> told q' o n ->
  get_meta_by_id ms IFSZ = Some (FSZ (lenN data)) -> (uo_hash q <> None -> 1 <= lenN data) -> 1 <= cpus -> 1 <= cpus' ->
  hash_fn_ok H -> names_ok q -> uo_dry q = false -> uo_dry q' = false -> same_changes q q' ->
  update_file H cpus (update_param H q) None f = (w, ROk s) ->
  update_file H cpus' (update_param H q') cut f = (w', r) -> between v o f w w'.
Proof.
  intros IT FL SR TO TO' FS L1 CP CP' HF NO DR DR' SC E E'.
  assert (NO' : names_ok q') by (destruct SC as (E1 & E2 & _); unfold names_ok; rewrite E1, E2; exact NO).
  assert (L1' : uo_hash q' <> None -> 1 <= lenN data) by (destruct SC as (_ & _ & _ & _ & _ & E6); rewrite E6; exact L1).
  destruct (update_core _ _ _ _ _ _ _ _ _ _ _ _ _ _ IT FL SR TO FS L1 CP HF NO DR E) as [[_ X]|(s1 & h & d & _ & _ & HD & MP & LD & _ & LW & IN & OUT)]; [destruct (X s eq_refl)|].
  destruct (update_core _ _ _ _ _ _ _ _ _ _ _ _ _ _ IT FL SR TO' FS L1' CP' HF NO' DR' E') as [[-> _]|(s2 & h' & d' & _ & _ & HD' & MP' & LD' & _ & LW' & IN' & OUT')].
  { split; [reflexivity|]. split; intros i Hi; [left|]; apply same_block_refl. }
  assert (HH : forall t, uo_hash q = Some t -> h' = h). { intros t HT. rewrite (HD t HT). apply HD'. destruct SC as (_ & _ & _ & _ & _ & ->). exact HT. }
  rewrite (same_newf H q q' h' ms SC) in MP'. unfold newf, second in MP, MP'. cbn [up_set up_remove] in MP, MP'. rewrite (asked_same q h' h HH) in MP'. pose proof (plain_unique _ _ _ _ _ MP MP') as ED. subst d'.
  split; [exact LW'|]. split.
  - intros i MI. destruct (N.lt_ge_cases (rank o i) (match cut with Some k => k | None => rank o i + 1 end)) as [RK|RK].
    + right. assert (RC : reached o cut i) by (destruct cut; [exact RK|exact Logic.I]). apply slice_same; [congruence|]. rewrite (IN i MI Logic.I), (IN' i MI RC). reflexivity.
    + left. apply OUT'. intros [_ RC]. destruct cut as [k|]; cbn [reached] in RC; lia.
  - intros i NM. apply OUT'. tauto.
Qed.

Lemma bytes_nth l : (forall i, nthN l i < 256) -> bytes_ok l = true.
Proof.
  intro X. unfold bytes_ok. apply forallb_forall. intros x Hx. destruct (In_nth l x 0 Hx) as (k & _ & E). specialize (X (N.of_nat k)). unfold nthN in X. rewrite Nnat.Nat2N.id, E in X. apply N.ltb_lt, X.
Qed.
Lemma between_bytes v uid o rs ms data f n w h : intact v uid true o rs ms data f n -> bytes_ok w = true -> between v o f w h -> bytes_ok h = true.
Proof.
  intros IT BW (LH & HM & HS). pose proof (file_bytes _ _ _ _ _ _ _ _ _ IT) as BF. apply bytes_nth. intro i. set (b := i / ver_to_block_size v).
  assert (C : meta_index (Some true) o b \/ ~ meta_index (Some true) o b).
  { destruct (index_cases _ _ _ _ _ _ _ _ _ IT b) as [M|[(sq & Hs & E)|NU]]; [left; exact M|right; rewrite <- E; apply (not_meta _ _ _ _ _ _ _ _ _ IT Hs)|right; intro X; apply NU; left; exact X]. }
  destruct C as [C|C]; [destruct (HM b C) as [S|S]|pose proof (HS b C) as S]; rewrite (S i eq_refl); apply nthN_byte; assumption.
Qed.

(* the file read as a container with other metadata blocks than the old or the new one *)
Lemma half_base v uid o rs ms ms' data f n w h : intact v uid true o rs ms data f n -> intact v uid true o rs ms' data w n -> lenN w = lenN f ->
  (forall i, ~ meta_index (Some true) o i -> same_block v f w i) -> between v o f w h ->
  exists g mg, (g = f /\ mg = ms \/ g = w /\ mg = ms') /\ intact v uid true o rs mg data g n /\ lenN h = lenN g /\ same_block v g h 0 /\
    (forall i, ~ meta_index (Some true) o i -> same_block v g h i) /\ (forall i, meta_index (Some true) o i -> exists pl, block_at v uid h (i * ver_to_block_size v) 0 pl).
Proof.
  intros IT IT' LW SW (LH & HM & HS). assert (M0 : meta_index (Some true) o 0) by (apply (meta_zero _ _ _ _ _ _ _ _ _ IT eq_refl)).
  assert (MB : forall i, meta_index (Some true) o i -> exists pl, block_at v uid h (i * ver_to_block_size v) 0 pl).
  { intros i MI. destruct (HM i MI) as [S|S].
    - destruct (meta_block_at _ _ _ _ _ _ _ _ _ IT i MI) as (pl & BA). exists pl. apply (block_at_same v uid f h); [exact S|lia|exact BA].
    - destruct (meta_block_at _ _ _ _ _ _ _ _ _ IT' i MI) as (pl & BA). exists pl. apply (block_at_same v uid w h); [exact S|lia|exact BA]. }
  destruct (HM 0 M0) as [S|S].
  - exists f, ms. repeat split; auto; apply IT.
  - exists w, ms'. split; [right; auto|]. split; [exact IT'|]. split; [congruence|]. split; [exact S|]. split; [|exact MB].
    intros i NM k Ek. rewrite (HS i NM k Ek). symmetry. apply (SW i NM k Ek).
Qed.
(* running the same update again on what an unfinished one has left completes it *)
Lemma half_run v uid o rs ms data f n H cpus q w s cpus' q' h :
  intact v uid true o rs ms data f n -> lenN f < 18446744073709551616 -> shards_recorded o ms -> told q o n -> told q' o n ->
  get_meta_by_id ms IFSZ = Some (FSZ (lenN data)) -> (uo_hash q <> None -> 1 <= lenN data) -> 1 <= cpus -> 1 <= cpus' ->
  hash_fn_ok H -> opts_ok q -> names_ok q -> uo_dry q = false -> uo_dry q' = false -> same_changes q q' ->
  update_file H cpus (update_param H q) None f = (w, ROk s) -> between v o f w h ->
  exists s', update_file H cpus' (update_param H q') None h = (w, ROk s').
Proof.
  intros IT FL SR TO TO' FS L1 CP CP' HF OO NO DR DR' SC E BT. pose proof (block_size_pos v) as BP.
  assert (NO' : names_ok q') by (destruct SC as (E1 & E2 & _); unfold names_ok; rewrite E1, E2; exact NO).
  destruct (update_core _ _ _ _ _ _ _ _ _ _ _ _ _ _ IT FL SR TO FS L1 CP HF NO DR E) as [[_ X]|(s1 & hh & d & _ & HH & HD & MP & LD & OC & LW & IN & OUT)]; [destruct (X s eq_refl)|].
  destruct (update_intact _ _ _ _ _ _ _ _ _ _ _ _ _ IT FL SR TO FS L1 CP HF OO NO DR E) as (h2 & ms' & HD2 & CH & IT' & MP' & _ & SW).
  assert (M0 : meta_index (Some true) o 0) by (apply (meta_zero _ _ _ _ _ _ _ _ _ IT eq_refl)).
  set (p := second H q hh) in *.
  pose proof (file_bytes _ _ _ _ _ _ _ _ _ IT) as HB. pose proof (second_storable H q hh NO HH) as STO. fold p in STO. pose proof (storable_safe _ STO) as SF.
  destruct (update_setup_intact _ _ _ _ _ _ _ _ q' IT FL SR TO') as (rf & _ & RVf & RUf & _).
  assert (EM : forall i, meta_index (Some true) o i -> fields_at v uid w i (newf p ms)).
  { intros i MI. pose proof (meta_fields _ _ _ _ _ _ _ _ IT i MI) as FA. assert (LE : (i + 1) * ver_to_block_size (b_version rf) <= lenN f) by (rewrite RVf; apply (I4 _ _ _ _ _ _ _ _ _ IT); left; exact MI).
    destruct (update_block_cases rf f HB p i SF LE) as [A _]. rewrite RVf, RUf in A. specialize (A ms FA). pose proof (OC rf i RVf RUf MI) as OI. unfold outcome in OI. rewrite RVf in OI.
    destruct (_ <? _); [congruence|]. destruct A as (d' & OD & _ & AD). rewrite OD in OI. apply ROk_inj, Some_inj in OI. subst d'. apply (proj2 (AD STO)). apply IN; [exact MI|exact Logic.I]. }
  assert (MS : ms' = newf p ms).
  { pose proof (fields_unique rf w 0 ms' (newf p ms)) as FU. rewrite RVf, RUf in FU. apply FU; [apply (meta_fields _ _ _ _ _ _ _ _ IT' 0 M0)|apply EM, M0]. }
  assert (TW : newf p (newf p ms) = newf p ms) by (apply new_twice; [apply (second_nodup H q hh)|apply (second_disjoint H q hh OO)]).
  assert (K : forall i, i <> IFNM -> i <> ISNM -> i <> IHSH -> get_meta_by_id ms' i = get_meta_by_id ms i) by (intros i A1 A2 A3; rewrite !get_with_id, (changed_keeps q h2 ms ms' i CH A1 A2 A3); reflexivity).
  destruct (half_base _ _ _ _ _ _ _ _ _ _ _ IT IT' LW SW BT) as (g & mg & GG & ITg & LH & H0 & HS & HM).
  pose proof (between_bytes _ _ _ _ _ _ _ _ _ _ IT (file_bytes _ _ _ _ _ _ _ _ _ IT') BT) as HBh.
  assert (FLg : lenN g < 18446744073709551616) by (destruct GG as [[-> _]|[-> _]]; [exact FL|rewrite LW; exact FL]).
  assert (SRg : shards_recorded o mg). { destruct GG as [[_ ->]|[_ ->]]; [exact SR|]. unfold shards_recorded in *. destruct o as [[[a b] c]|]; [|exact Logic.I]. rewrite !K by discriminate. exact SR. }
  assert (FZg : get_meta_by_id mg IFSZ = Some (FSZ (lenN data))) by (destruct GG as [[_ ->]|[_ ->]]; [exact FS|rewrite K by discriminate; exact FS]).
  destruct (patched_ref _ _ _ _ _ _ _ _ h ITg FLg HBh LH H0 HS HM (MustBe TMeta) false ltac:(auto)) as (ref & GR & RV & RU & RD).
  assert (ST : update_setup q' h ref o).
  { split; [exists 0; exact GR|]. rewrite (patched_level _ _ _ _ _ _ _ _ h ITg FLg HBh LH H0 HS HM ref (uo_burst q') false RV RU).
    destruct (update_setup_intact _ _ _ _ _ _ _ _ q' ITg FLg SRg TO') as (rg & [_ GD] & RVg & RUg & RDg). rewrite <- GD. apply level_ext; congruence. }
  assert (SC6 : uo_hash q' = uo_hash q) by apply SC.
  assert (HH' : hash_fits q' hh) by (unfold hash_fits; rewrite SC6; exact HH).
  assert (OH : forall i, meta_index (Some true) o i -> outcome ref h (second H q' hh) i = ROk (Some d)).
  { intros i MI. rewrite (same_outcome H q q' hh ref h i SC). fold p. pose proof (I4 _ _ _ _ _ _ _ _ _ IT i (or_introl MI)) as LE. destruct BT as (LHf & BM & _). destruct (BM i MI) as [S|S].
    - rewrite <- (OC ref i RV RU MI). unfold outcome, file_read. rewrite RV. f_equal. apply (same_slice_full v f h i S); lia.
    - pose proof (update_block_cases ref w (file_bytes _ _ _ _ _ _ _ _ _ IT') p i SF) as A. rewrite RV, RU in A. specialize (A ltac:(lia)). destruct A as [A _]. specialize (A _ (EM i MI)). rewrite TW in A.
      pose proof (update_block_cases ref f HB p i SF) as Z. rewrite RV, RU in Z. specialize (Z ltac:(lia)). destruct Z as [Z _]. specialize (Z _ (meta_fields _ _ _ _ _ _ _ _ IT i MI)).
      pose proof (OC ref i RV RU MI) as OI. unfold outcome in OI. rewrite RV in OI.
      destruct (_ <? _); [congruence|]. destruct A as (d' & OD & _). unfold outcome, file_read in *. rewrite RV. rewrite (same_slice_full v w h i S) by lia. rewrite OD. do 2 f_equal.
      pose proof (written_plain ref w p i (newf p ms) d' (file_bytes _ _ _ _ _ _ _ _ _ IT') STO) as WP. rewrite RV, RU, TW in WP. exact (plain_unique _ _ _ _ _ (WP (EM i MI) OD) MP). }
  assert (LN : forall i, In i (done ref o h None) <-> meta_index (Some true) o i).
  { intro i. rewrite (live_cut ref o h None i). split; [tauto|]. intro M. split; [exact M|]. split; [exact Logic.I|]. rewrite RV, LH. apply (I4 _ _ _ _ _ _ _ _ _ ITg). left. exact M. }
  assert (TS : exists st, snd (update_metadata_blocks ref (update_param H q') o true None h) = ROk st).
  { destruct (first_test H q' ref o h HF HBh) as [[TS _]|[_ (i & X & Y)]]; [exact TS|]. exfalso. assert (MI : meta_index (Some true) o i) by (apply LN; exact X).
    assert (LE : (i + 1) * ver_to_block_size (b_version ref) <= lenN h) by (rewrite RV, LH; apply (I4 _ _ _ _ _ _ _ _ _ ITg); left; exact MI).
    destruct (proj2 (both_ok H q' hh ref h HF HBh HH' i LE) (ex_intro _ _ (OH i MI))) as (x & Z). congruence. }
  destruct (second_run H q' hh ref o h HF HBh HH' None TS) as [_ RR]. rewrite DR' in RR.
  assert (EW : put_blocks (ver_to_block_size (b_version ref)) (writes ref h (second H q' hh) (done ref o h None)) h = w).
  { assert (WI : forall i b, In (i, b) (writes ref h (second H q' hh) (done ref o h None)) <-> meta_index (Some true) o i /\ b = d).
    { intros i b. rewrite writes_in, LN. split; intros [X Y]; (split; [exact X|]); [rewrite (OH i X) in Y; apply ROk_inj, Some_inj in Y; congruence|rewrite Y; apply OH, X]. }
    destruct (put_blocks_ok (ver_to_block_size (b_version ref)) ltac:(rewrite RV; lia) (writes ref h (second H q' hh) (done ref o h None)) h) as (P1 & P2 & P3 & P4 & P5).
    { apply Forall_forall. intros [i b] Hi. apply WI in Hi as [_ ->]. rewrite RV. exact LD. }
    { intros a b b' X X'. apply WI in X as [_ ->]. apply WI in X' as [_ ->]. reflexivity. }
    set (z := put_blocks _ _ _) in *.
    assert (LZ : lenN z = lenN h). { destruct P5 as [X|(a & b & X & Y)]; [exact X|]. apply WI in X as [X _]. pose proof (I4 _ _ _ _ _ _ _ _ _ ITg a (or_introl X)) as LE. rewrite RV in Y. rewrite LH in *. lia. }
    assert (LHw : lenN h = lenN w) by (destruct BT as (X & _); congruence).
    apply list_ext_N; [congruence|]. intros k Hk. set (i := k / ver_to_block_size v).
    assert (C : meta_index (Some true) o i \/ ~ meta_index (Some true) o i).
    { destruct (index_cases _ _ _ _ _ _ _ _ _ IT i) as [M|[(sq & Hs & EE)|NU]]; [left; exact M|right; rewrite <- EE; apply (not_meta _ _ _ _ _ _ _ _ _ IT Hs)|right; intro X; apply NU; left; exact X]. }
    destruct C as [C|C].
    - apply (slice_same v w z i); [congruence| |reflexivity]. rewrite (IN i C Logic.I). symmetry. rewrite <- RV. apply P1. apply WI. auto.
    - rewrite P2 by (intros b X; apply WI in X as [X _]; rewrite RV in X; apply C, X). destruct BT as (_ & _ & BS). rewrite (BS i C k eq_refl). symmetry. apply (SW i C k eq_refl). }
  eexists. rewrite update_file_prepare. 
  assert (PR : prepare H cpus' q' h = ROk (ref, o, asked_fields q' hh)).
  { apply prepare_ok; [exact HF|]. split; [exact ST|]. split; [exact TS|]. destruct (uo_hash q') as [t|] eqn:HT; [|symmetry; apply asked_none, HT].
    split; [unfold is_data, block_type_of; rewrite RD; reflexivity|]. split; [destruct OO as (_ & _ & _ & OO); replace (uo_hash q) with (Some t) in OO by congruence; exact OO|].
    exists hh. split; [|split; [reflexivity|unfold hash_fits in HH'; rewrite HT in HH'; exact HH']]. unfold new_hash. rewrite HT. exists (lenN data). split; [unfold get_FSZ, block_get_meta; rewrite RD, FZg; reflexivity|].
    rewrite (HD t ltac:(congruence)). apply (patched_hash _ _ _ _ _ _ _ _ h ITg FLg HBh LH H0 HS HM); auto. apply L1. congruence. }
  rewrite PR. fold (second H q' hh). rewrite RR, EW. reflexivity.
Qed.
