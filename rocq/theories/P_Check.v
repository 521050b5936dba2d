(* C37: checking a container. *)
From Verif Require Import M_Base M_Specs M_Header M_Multihash M_Metadata M_Block M_Index M_FileUtils M_Buffer M_Ranges M_Encode M_Scan M_Loop M_Decode M_Content M_Repair M_Update M_Check
  S_Crc S_Meta S_Block S_Index S_Container S_Decode S_Encode S_Content S_Repair S_Check
  L_Base L_File L_Header L_Block L_Index L_Ranges L_Scan L_Ref L_Guess L_Decode L_Decode2 L_Repair6 L_Intact L_Intact2 L_Roundtrip L_Check P_Encode P_Content P_Roundtrip P_Update.
From Coq Require Import Lia.
Local Open Scope N_scope.

(* what a successful run consists of *)
Lemma check_file_ok H cpus p f out : bytes_ok f = true -> lenN f < 18446744073709551616 -> check_file H cpus p f = ROk out ->
  exists ref len lo, check_setup p f ref len lo /\ lo <= lenN f /\
    (cp_hash p = HashOnly /\ ko_check out = None \/ cp_hash p <> HashOnly /\ exists x, ko_check out = Some x /\ check_blocks p ref f len lo = ROk x) /\
    (cp_hash p = NoHash /\ ko_hash out = None \/ cp_hash p <> NoHash /\ exists total h x, check_hash_setup ref = ROk (total, h) /\ ko_hash out = Some (h, x) /\
       x = (do! o <- get_data_par_burst f (cp_burst p) (guess_from_param (cp_guess p) (cp_from p)) (cp_misalign p) ref; content_hash H cpus f o total ref (fst h)) /\ x <> RPanic).
Proof.
  intros HB HL E. unfold check_file in E. destruct (get_ref_block _ _ _ _ _) as [[[pos ref]|]|e|] eqn:G; try discriminate. cbn [rbind] in E.
  destruct (calc_required_len_and_seek_to_from_byte_range _ _ _ _ _ (Some _)) as [len lo] eqn:R. exists ref, len, lo.
  split; [split; [exists pos; exact G|exact R]|].
  split. { apply range_in_file in R; [lia| |exact HL]. cbn [mult_of]. pose proof (block_size_pos (b_version ref)). lia. }
  destruct (match cp_hash p with NoHash => false | _ => true end) eqn:DH; cbn [rbind] in E.
  - destruct (check_hash_setup ref) as [[total h]|e|]; try discriminate. cbn [rbind] in E.
    set (X := rbind (get_data_par_burst _ _ _ _ _) _) in *.
    destruct (match cp_hash p with HashOnly => false | _ => true end) eqn:DC; cbn [rbind] in E.
    + destruct (check_blocks p ref f len lo) as [x|e|]; try discriminate. cbn [rbind] in E.
      assert (E' : X <> RPanic /\ out = mkCoutcome (Some x) (Some (h, X))) by (destruct X; try discriminate; apply ROk_inj in E; subst out; split; [discriminate|reflexivity| discriminate|reflexivity]).
      destruct E' as [NP ->]. split; [right; split; [intro Z; rewrite Z in DC; discriminate|exists x; auto]|]. right. split; [intro Z; rewrite Z in DH; discriminate|].
      exists total, h, X. auto.
    + assert (E' : X <> RPanic /\ out = mkCoutcome None (Some (h, X))) by (destruct X; try discriminate; apply ROk_inj in E; subst out; split; [discriminate|reflexivity|discriminate|reflexivity]).
      destruct E' as [NP ->]. split; [left; destruct (cp_hash p); try discriminate; auto|]. right. split; [intro Z; rewrite Z in DH; discriminate|].
      exists total, h, X. auto.
  - destruct (cp_hash p); try discriminate. destruct (check_blocks p ref f len lo) as [x|e|]; try discriminate. cbn [rbind] in E. apply ROk_inj in E. subst out.
    split; [right; split; [discriminate|exists x; auto]|left; auto].
Qed.
Lemma exactly_fun P a b : exactly P a -> exactly P b -> a = b.
Proof.
  intros (l & N1 & I1 & <-) (l' & N2 & I2 & <-). apply N.le_antisymm; unfold lenN.
  - pose proof (NoDup_incl_length N1 (l' := l') ltac:(intros x Hx; apply I2, I1; exact Hx)). lia.
  - pose proof (NoDup_incl_length N2 (l' := l) ltac:(intros x Hx; apply I1, I2, Hx)). lia.
Qed.
Lemma NoDup_map_in {A B} (g : A -> B) l : NoDup l -> (forall a b, In a l -> In b l -> g a = g b -> a = b) -> NoDup (map g l).
Proof.
  induction l as [|x l IH]; intros N I; [constructor|]. apply NoDup_cons_iff in N as [N0 N]. cbn [map]. constructor.
  - intro H. apply in_map_iff in H as (y & E & H). apply N0. rewrite <- (I y x); [exact H|right; exact H|left; reflexivity|exact E].
  - apply IH; [exact N|]. intros a b HA HB. apply I; right; assumption.
Qed.
Lemma exactly_ext (P Q : N -> Prop) a : (forall k, P k <-> Q k) -> exactly P a -> exactly Q a.
Proof. intros E (l & ND & I & L). exists l. split; [exact ND|]. split; [intro i; rewrite I; apply E|exact L]. Qed.
Lemma exactly_add (P Q : N -> Prop) a b : exactly P a -> exactly Q b -> (forall k, P k -> ~ Q k) -> exactly (fun k => P k \/ Q k) (a + b).
Proof.
  intros (l & N1 & I1 & <-) (l' & N2 & I2 & <-) D. exists (l ++ l'). split; [|split].
  - clear - D N1 N2 I1 I2. assert (D' : forall x, In x l -> ~ In x l') by (intros x A B; apply (D x); [apply I1, A|apply I2, B]). clear - N1 N2 D'.
    induction l as [|a l IH]; [exact N2|]. cbn [app]. apply NoDup_cons_iff in N1 as [N0 N1]. constructor.
    + intro H. apply in_app_iff in H as [H|H]; [auto|]. apply (D' a); [left; reflexivity|exact H].
    + apply IH; [exact N1|]. intros x Hx. apply D'. right. exact Hx.
  - intro i. rewrite in_app_iff, I1, I2. reflexivity.
  - apply lenN_app.
Qed.

(* C37: the four numbers reported are the numbers of places in the range checked holding a metadata block of the container, a data or
   parity block of it, something else (blank places included if asked), and blank places not counted as failed; together they are
   all the places in the range. *)
Theorem c37_every_block_counted H cpus p f out :
  bytes_ok f = true -> lenN f < 18446744073709551616 -> check_file H cpus p f = ROk out -> cp_hash p <> HashOnly ->
  exists ref len lo s ps, check_setup p f ref len lo /\ ko_check out = Some (s, ps) /\
    check_counts (b_version ref) (b_uid ref) f lo len (cp_report_blank p) s /\
    exactly (visited (ver_to_block_size (b_version ref)) f lo len) (ck_meta s + ck_data s + ck_failed s + ck_blank s).
Proof.
  intros HB HL E NH. destruct (check_file_ok _ _ _ _ _ HB HL E) as (ref & len & lo & ST & LO & [[C _]|(_ & x & C & CB)] & _); [congruence|].
  rewrite check_blocks_ok in CB by exact LO. apply ROk_inj in CB. subst x. pose proof (counts_ok p ref f len lo HB) as CO. 
  eexists ref, len, lo, _, _. split; [exact ST|]. split; [exact C|]. split; [exact CO|].
  destruct CO as (C1 & C2 & C3 & C4).
  set (bs := ver_to_block_size (b_version ref)) in *.
  assert (UQ : forall k a b, visited bs f lo len k -> state_at (b_version ref) (b_uid ref) f (lo + k * bs) a -> state_at (b_version ref) (b_uid ref) f (lo + k * bs) b -> a = b).
  { intros k a b [_ V] A B. apply (state_of_ok ref f _ HB) in A; [|fold bs; lia]. apply (state_of_ok ref f _ HB) in B; [|fold bs; lia]. congruence. }
  assert (EX : forall k, visited bs f lo len k -> exists a, state_at (b_version ref) (b_uid ref) f (lo + k * bs) a).
  { intros k [_ V]. exists (state_of ref f (lo + k * bs)). apply (state_of_ok ref f _ HB); [fold bs; lia|reflexivity]. }
  pose proof (exactly_add _ _ _ _ C1 C2 ltac:(intros k [V A] [_ B]; pose proof (UQ k _ _ V A B); discriminate)) as X. cbv beta in X.
  assert (D2 : forall k, (visited bs f lo len k /\ state_at (b_version ref) (b_uid ref) f (lo + k * bs) SMeta \/ visited bs f lo len k /\ state_at (b_version ref) (b_uid ref) f (lo + k * bs) SData) ->
     ~ ((visited bs f lo len k /\ state_at (b_version ref) (b_uid ref) f (lo + k * bs) SBroken) \/ cp_report_blank p = true /\ visited bs f lo len k /\ state_at (b_version ref) (b_uid ref) f (lo + k * bs) SBlank)).
  { intros k [[V A]|[V A]] [[_ B]|(_ & _ & B)]; pose proof (UQ k _ _ V A B); discriminate. }
  pose proof (exactly_add _ _ _ _ X C3 D2) as Y. cbv beta in Y.
  refine (exactly_ext _ _ _ _ (exactly_add _ _ _ _ Y C4 _)).
  - intro k. cbv beta. split; [tauto|]. intro V. destruct (EX k V) as [[] A]; destruct (cp_report_blank p); tauto.
  - intros k [[[V A]|[V A]]|[[V A]|(R & V & A)]] (R' & _ & B); pose proof (UQ k _ _ V A B); congruence.
Qed.
Print Assumptions c37_every_block_counted.

(* C37: if no failure is reported although blank places count, every place of the range holds a block of the container; if blank
   places do not count, a block or zeros. Conversely anything else is reported. *)
Theorem c37_no_failure_iff H cpus p f out s ps ref len lo :
  bytes_ok f = true -> lenN f < 18446744073709551616 -> check_file H cpus p f = ROk out -> ko_check out = Some (s, ps) -> check_setup p f ref len lo ->
  let bs := ver_to_block_size (b_version ref) in
  (ck_failed s = 0 <-> forall k, visited bs f lo len k ->
     (exists seq pl, block_at (b_version ref) (b_uid ref) f (lo + k * bs) seq pl) \/ (cp_report_blank p = false /\ blank_at (b_version ref) f (lo + k * bs))).
Proof.
  intros HB HL E KO ST bs.
  assert (NH : cp_hash p <> HashOnly) by (destruct (check_file_ok _ _ _ _ _ HB HL E) as (? & ? & ? & _ & _ & [[_ C]|[C _]] & _); congruence).
  destruct (c37_every_block_counted _ _ _ _ _ HB HL E NH) as (ref' & len' & lo' & s' & ps' & ST' & C & (_ & _ & C3 & _) & _). rewrite KO in C. apply Some_inj, pair_inj in C as [<- <-].
  destruct ST as [(x & G) R], ST' as [(x' & G') R']. rewrite G in G'. apply ROk_inj, Some_inj, pair_inj in G' as [<- <-]. rewrite R in R'. apply pair_inj in R' as [<- <-]. fold bs in C3.
  assert (EX : forall k, visited bs f lo len k -> exists a, state_at (b_version ref) (b_uid ref) f (lo + k * bs) a).
  { intros k [_ V]. exists (state_of ref f (lo + k * bs)). apply (state_of_ok ref f _ HB); [fold bs; lia|reflexivity]. }
  destruct C3 as (l & ND & I & L). rewrite <- L. clear L. split.
  - intro Z. assert (l = []) as -> by (destruct l; [reflexivity|rewrite lenN_cons in Z; lia]). intros k V. destruct (EX k V) as [[] A]; cbn [state_at] in A.
    + destruct A as (pl & A). eauto.
    + destruct A as (seq & pl & _ & A). eauto.
    + destruct (cp_report_blank p) eqn:RB; [exfalso; apply (I k); right; auto|right; split; [reflexivity|apply A]].
    + exfalso. apply (I k). left. auto.
  - intro A. destruct l as [|k l]; [reflexivity|]. exfalso. assert (In k (k :: l)) as X by (left; reflexivity). apply I in X as [[V [B1 B2]]|(RB & V & B1 & _)]; destruct (A k V) as [(seq & pl & Y)|[RB' Y]].
    + eapply B1, Y.
    + auto.
    + eapply B1, Y.
    + congruence.
Qed.
Print Assumptions c37_no_failure_iff.

(* C37: the verdict on the contents: a match is reported exactly when the data stored in the container, in place, has a hash equal to
   the one recorded; a mismatch when it has another one; if some of the data is missing, neither. *)
Theorem c37_verdict H cpus p f out ref len lo o size h :
  1 <= cpus -> bytes_ok f = true -> lenN f < 18446744073709551616 -> check_file H cpus p f = ROk out -> cp_hash p <> NoHash ->
  check_setup p f ref len lo -> get_data_par_burst f (cp_burst p) (guess_from_param (cp_guess p) (cp_from p)) (cp_misalign p) ref = ROk o ->
  get_FSZ ref = Some size -> get_HSH ref = Some h -> 1 <= size -> numbered (b_version ref) o size ->
  let stored := data_in_place (b_version ref) (b_uid ref) o f in
  forall b, verdict out = Some b <-> exists data, lenN data = size /\ stored data /\ (b = true <-> H (ctx_hash_type (fst h)) data = snd h).
Proof.
  intros CP HB HL E NH ST GD GF GH S1 NU stored b.
  destruct (check_file_ok _ _ _ _ _ HB HL E) as (ref' & len' & lo' & ST' & _ & _ & [[C _]|(_ & total & h' & x & HS & KO & EX & NP)]); [congruence|].
  destruct ST as [(y & G) R], ST' as [(y' & G') R']. rewrite G in G'. apply ROk_inj, Some_inj, pair_inj in G' as [<- <-]. clear R R'.
  unfold check_hash_setup in HS. destruct (is_data ref); [discriminate|]. rewrite GF, GH in HS. destruct (hash_supported (fst h)); [|discriminate]. apply ROk_inj, pair_inj in HS as [<- <-].
  rewrite GD in EX. cbn [rbind] in EX. unfold verdict. rewrite KO.
  assert (HO : dpb_ok o).
  { pose proof (get_ref_block_ok f (ref_from_pos (cp_ref_from p) (cp_from p)) (cp_ref_to p) (cp_misalign p) (cp_choice p) HB) as K.
    pose proof (fun req lo => range_in_file (ref_from_pos (cp_ref_from p) (cp_from p)) (cp_ref_to p) (cp_misalign p) (lenN f) None req lo ltac:(discriminate) HL) as RG.
    destruct (calc_required_len_and_seek_to_from_byte_range _ _ _ _ _ None) as [req l0].
    destruct K as (r & K1 & K2); [apply (RG req l0 eq_refl)|]. rewrite G in K1. apply ROk_inj in K1. subst r.
    apply ref_block_reads in K2 as (h0 & pl & W & RA & BP); [|exact HB]. apply (ref_dpb _ _ _ _ _ _ _ _ BP RA GD). }
  pose proof (fun hh => c39_container_hash H cpus f o size ref (fst h) hh CP HB HO S1 NU) as CH. rewrite <- EX in CH.
  destruct x as [hh|e|]; [| |congruence].
  - destruct (proj1 (CH hh) eq_refl) as (data & LD & DP & ->). cbn [finish_hash snd]. split.
    + intro B. apply Some_inj in B. subst b. exists data. split; [exact LD|]. split; [exact DP|]. rewrite eqbl_eq. split; congruence.
    + intros (d2 & L2 & D2 & B). assert (d2 = data) as -> by (apply (c39_data_unique (b_version ref) (b_uid ref) o f); [exact HO|congruence|exact D2|exact DP]).
      f_equal. destruct (eqbl (snd h) (H (ctx_hash_type (fst h)) data)) eqn:Q.
      * symmetry. apply B. apply eqbl_eq in Q. congruence.
      * destruct b; [|reflexivity]. assert (X : H (ctx_hash_type (fst h)) data = snd h) by (apply B; reflexivity). rewrite X in Q. rewrite (proj2 (eqbl_eq _ _) eq_refl) in Q. discriminate.
  - split; [discriminate|]. intros (data & LD & DP & _). exfalso. pose proof (proj2 (CH (finish_hash H (fst h) data))) as X. assert (RErr e = ROk (finish_hash H (fst h) data)); [apply X; exists data; auto|discriminate].
Qed.
Print Assumptions c37_verdict.

(* C37 for an undamaged container: no failures; one for each metadata place, and the n data and parity blocks; the hash recorded at
   encoding matches. *)
Definition check_plain (p : cparam) : Prop :=
  cp_ref_from p = None /\ cp_ref_to p = None /\ cp_guess p = None /\ cp_from p = None /\ cp_to p = None /\ 
  (cp_choice p = Any \/ cp_choice p = Prefer TMeta \/ cp_choice p = MustBe TMeta).
Definition told_check (p : cparam) (o : dpb) (n : N) : Prop :=
  match o with None => True | Some (_, _, B) => cp_burst p = Some B \/ (cp_burst p = None /\ B <= SBX_MAX_BURST_ERR_RESISTANCE /\ 1 <= n) end.
Theorem c37_intact_container v uid o rs ms data f n H cpus p t :
  intact v uid true o rs ms data f n -> lenN f < 18446744073709551616 -> shards_recorded o ms -> told_check p o n -> check_plain p ->
  get_meta_by_id ms IFSZ = Some (FSZ (lenN data)) -> get_meta_by_id ms IHSH = Some (HSH (t, H t data)) -> ctx_hash_type t = t -> hash_supported t = true ->
  1 <= lenN data -> 1 <= cpus ->
  exists out, check_file H cpus p f = ROk out /\
    (cp_hash p <> HashOnly -> exists s ps, ko_check out = Some (s, ps) /\ ck_data s = n /\ exactly (meta_index (Some true) o) (ck_meta s) /\
       (cp_report_blank p = false -> ck_failed s = 0)) /\
    ko_hash out = (match cp_hash p with NoHash => None | _ => Some ((t, H t data), ROk (t, H t data)) end) /\
    (cp_hash p <> NoHash -> verdict out = Some true).
Proof.
  intros IT FL SR TO (P1 & P2 & P3 & P4 & P5 & CH) FS HS CT SU L1 CP.
  pose proof (file_bytes _ _ _ _ _ _ _ _ _ IT) as HB.
  destruct (ref_meta _ _ _ _ _ _ _ _ _ IT (cp_choice p) (cp_misalign p) FL eq_refl CH) as (ref & GR & RV & RU & RD).
  assert (GDB : get_data_par_burst f (cp_burst p) None (cp_misalign p) ref = ROk o).
  { unfold get_data_par_burst. rewrite RV. assert (RS : ver_uses_rs v = match o with Some _ => true | None => false end) by apply IT. rewrite RS. destruct o as [[[d q] B]|]; [|reflexivity]. destruct SR as [S1 S2].
    assert (GD : get_RSD ref = ROk d) by (unfold get_RSD; rewrite RD, S1; reflexivity). assert (GP : get_RSP ref = ROk q) by (unfold get_RSP; rewrite RD, S2; reflexivity).
    rewrite GD, GP. cbn [rbind]. unfold get_burst_or_guess. destruct TO as [->|(-> & LB & N1)]; [reflexivity|]. rewrite RV, RS. unfold is_data, block_type_of. rewrite RD.
    destruct (guess_intact _ _ _ _ _ _ _ _ _ IT d q B ref (cp_misalign p) eq_refl RV RU GD GP) as (g & G & _ & _ & EQ); [unfold LEVELS; lia|]. rewrite G. cbn [rbind]. rewrite (EQ N1). reflexivity. }
  assert (RG : calc_required_len_and_seek_to_from_byte_range None None (cp_misalign p) 0 (Len (lenN f)) (Some (ver_to_block_size (b_version ref))) = (N.max 1 (lenN f), 0)).
  { apply range_whole; [|exact FL]. cbn [mult_of]. pose proof (block_size_pos (b_version ref)). lia. }
  assert (ID : is_data ref = false) by (unfold is_data, block_type_of; rewrite RD; reflexivity).
  assert (GF : get_FSZ ref = Some (lenN data)) by (unfold get_FSZ, block_get_meta; rewrite RD, FS; reflexivity).
  assert (GH : get_HSH ref = Some (t, H t data)) by (unfold get_HSH, block_get_meta; rewrite RD, HS; reflexivity).
  assert (SH : check_hash_setup ref = ROk (lenN data, (t, H t data))) by (unfold check_hash_setup; rewrite ID, GF, GH; cbn [fst]; rewrite SU; reflexivity).
  assert (CO : content_hash H cpus f o (lenN data) ref t = ROk (t, H t data)).
  { rewrite (c39_intact_container _ _ _ _ _ _ _ _ H cpus ref t IT L1 CP RV RU). unfold finish_hash. rewrite CT. reflexivity. }
  assert (EO : exists out, check_file H cpus p f = ROk out /\ ko_hash out = (match cp_hash p with NoHash => None | _ => Some ((t, H t data), ROk (t, H t data)) end) /\
    (cp_hash p <> NoHash -> verdict out = Some true)).
  { unfold check_file. rewrite P1, P2, P4, P5. cbn [ref_from_pos]. rewrite GR. cbn [rbind]. rewrite RG, P3. cbn [guess_from_param]. rewrite GDB. cbn [rbind]. rewrite SH.
    rewrite check_blocks_ok by lia. destruct (cp_hash p); cbn [rbind fst]; rewrite ?CO; eexists; (split; [reflexivity|]); (split; [reflexivity|]); intro X; try congruence; unfold verdict; cbn [ko_hash snd]; rewrite (proj2 (eqbl_eq _ _) eq_refl); reflexivity. }
  destruct EO as (out & E & KH & VD). exists out. split; [exact E|]. split; [|exact (conj KH VD)]. intro NH.
  destruct (c37_every_block_counted _ _ _ _ _ HB FL E NH) as (ref' & len & lo & s & ps & ST & KO & (C1 & C2 & _) & _). exists s, ps. split; [exact KO|].
  pose proof ST as [(x & G) R]. rewrite P1, P2, P4 in G. cbn [ref_from_pos] in G. rewrite GR in G. apply ROk_inj, Some_inj, pair_inj in G as [_ <-]. rewrite P4, P5, RG in R. apply pair_inj in R as [<- <-].
  rewrite RV, RU in C1, C2. set (bs := ver_to_block_size v) in *. pose proof (block_size_pos v) as BP. fold bs in BP.
  assert (V : forall k, visited bs f 0 (N.max 1 (lenN f)) k <-> (k + 1) * bs <= lenN f). { intro k. unfold visited. rewrite N.add_0_l. nia. }
  assert (UV : forall i, used_index true o n i -> visited bs f 0 (N.max 1 (lenN f)) i). { intros i U. apply V, (I4 _ _ _ _ _ _ _ _ _ IT i U). }
  split; [|split].
  - apply (exactly_fun _ _ _ C2). exists (map (fun s => calc_data_block_write_index s (Some true) o) (rangeN 1 (n + 1))).
    assert (HO' := HO _ _ _ _ _ _ _ _ _ IT). split; [|split].
    + apply NoDup_map_in; [apply NoDup_range|]. intros a b A B EQ. apply In_rangeN in A, B. apply (write_index_inj (Some true) o); [exact HO'|lia|lia|exact EQ].
    + intro k. rewrite in_map_iff. split.
      * intros (seq & <- & I). apply In_rangeN in I. split; [apply UV; right; exists seq; split; [lia|reflexivity]|]. exists seq. eexists. split; [lia|]. rewrite N.add_0_l. apply (data_block _ _ _ _ _ _ _ _ _ IT); lia.
      * intros [_ (seq & pl & S1 & B)]. rewrite N.add_0_l in B. destruct (block_inv _ _ _ _ _ _ _ _ _ IT k seq pl B) as [[-> _]|(SN & -> & _)]; [lia|]. exists seq. split; [reflexivity|]. apply In_rangeN. lia.
    + rewrite lenN_map, lenN_range. lia.
  - revert C1. apply exactly_ext. intro k. split.
    + intros [_ (pl & B)]. rewrite N.add_0_l in B. destruct (block_inv _ _ _ _ _ _ _ _ _ IT k 0 pl B) as [[_ M]|(SN & _)]; [exact M|lia].
    + intro M. split; [apply UV; left; exact M|]. cbn [state_at]. rewrite N.add_0_l. apply (meta_block_at _ _ _ _ _ _ _ _ _ IT k M).
  - intro RB. apply (c37_no_failure_iff H cpus p f out s ps ref (N.max 1 (lenN f)) 0 HB FL E KO ST). intros k _. rewrite RV, RU, N.add_0_l. fold bs.
    destruct (index_cases _ _ _ _ _ _ _ _ _ IT k) as [M|[(seq & Hs & <-)|U]].
    + left. exists 0. apply (meta_block_at _ _ _ _ _ _ _ _ _ IT k M).
    + left. exists seq. eexists. apply (data_block _ _ _ _ _ _ _ _ _ IT seq Hs).
    + right. split; [exact RB|]. intros i Hi. apply (I3 _ _ _ _ _ _ _ _ _ IT). fold bs in Hi |- *. replace ((k * bs + i) / bs) with k; [exact U|]. apply N.div_unique with (r := i); lia.
Qed.
Print Assumptions c37_intact_container.

(* C37: checking blocks never crashes; it fails only if there is no reference block. *)
Theorem c37_ends H cpus p f : bytes_ok f = true -> lenN f < 18446744073709551616 -> cp_hash p = NoHash ->
  (exists out, check_file H cpus p f = ROk out) \/
  (check_file H cpus p f = RErr OtherError /\ get_ref_block f (ref_from_pos (cp_ref_from p) (cp_from p)) (cp_ref_to p) (cp_misalign p) (cp_choice p) = ROk None).
Proof.
  intros HB HL NH. unfold check_file.
  pose proof (get_ref_block_ok f (ref_from_pos (cp_ref_from p) (cp_from p)) (cp_ref_to p) (cp_misalign p) (cp_choice p) HB) as K.
  pose proof (fun req lo => range_in_file (ref_from_pos (cp_ref_from p) (cp_from p)) (cp_ref_to p) (cp_misalign p) (lenN f) None req lo ltac:(discriminate) HL) as RG.
  destruct (calc_required_len_and_seek_to_from_byte_range _ _ _ _ _ None) as [req l0].
  destruct K as (r & K1 & K2); [apply (RG req l0 eq_refl)|]. rewrite K1. cbn [rbind]. destruct r as [[pos ref]|]; [left|right; auto].
  destruct (calc_required_len_and_seek_to_from_byte_range _ _ _ _ _ (Some _)) as [len lo] eqn:R.
  apply range_in_file in R; [|cbn [mult_of]; pose proof (block_size_pos (b_version ref)); lia|exact HL].
  rewrite NH. cbn [rbind]. rewrite check_blocks_ok by lia. cbn [rbind]. eexists. reflexivity.
Qed.
Print Assumptions c37_ends.

(* C37, the messages of verbose mode. They should list the places counted as failed:
     In x ps <-> exists k, visited bs f lo len k /\ (place k failed) /\ x = lo + k * bs.
   What is printed are only the blank ones among them, and their distance from the start of the range instead of their position. *)
Theorem c37_messages_partial H cpus p f out s ps ref len lo :
  bytes_ok f = true -> lenN f < 18446744073709551616 -> check_file H cpus p f = ROk out -> ko_check out = Some (s, ps) -> check_setup p f ref len lo ->
  let bs := ver_to_block_size (b_version ref) in
  forall x, In x ps <-> cp_verbose p = true /\ cp_report_blank p = true /\ exists k, visited bs f lo len k /\ state_at (b_version ref) (b_uid ref) f (lo + k * bs) SBlank /\ x = k * bs.
Proof.
  intros HB HL E KO ST bs x. destruct (check_file_ok _ _ _ _ _ HB HL E) as (ref' & len' & lo' & ST' & LO & [[_ C]|(_ & y & C & CB)] & _); [congruence|].
  destruct ST as [(z & G) R], ST' as [(z' & G') R']. rewrite G in G'. apply ROk_inj, Some_inj, pair_inj in G' as [<- <-]. rewrite R in R'. apply pair_inj in R' as [<- <-].
  rewrite check_blocks_ok in CB by exact LO. apply ROk_inj in CB. rewrite C in KO. apply Some_inj in KO. rewrite KO in CB. apply pair_inj in CB as [_ <-].
  assert (BP : 1 <= bs) by (pose proof (block_size_pos (b_version ref)); unfold bs; lia).
  unfold msgs. fold bs. destruct (cp_report_blank p) eqn:RB, (cp_verbose p) eqn:VB; cbn [andb]; try (cbn [In]; split; [tauto|intros (? & ? & _); discriminate]).
  rewrite in_map_iff. split.
  - intros (k & <- & I). apply filter_In in I as [I B]. apply In_rangeN in I. split; [reflexivity|]. split; [reflexivity|]. exists k.
    assert (V : visited bs f lo len k) by (apply visited_iff; [exact BP|lia]). split; [exact V|]. split; [|reflexivity]. apply (state_of_ok ref f _ HB); [destruct V; fold bs; lia|].
    destruct (state_of _ _ _); try discriminate. reflexivity.
  - intros (_ & _ & k & V & B & ->). exists k. split; [reflexivity|]. apply filter_In. split; [apply In_rangeN; apply visited_iff in V; [lia|exact BP]|].
    apply (state_of_ok ref f _ HB) in B; [|destruct V; fold bs; lia]. rewrite B. reflexivity.
Qed.
Print Assumptions c37_messages_partial.

(* ---- examples ---- *)
Definition toy_check (h : hash_action) (blank : bool) (from : option N) : cparam := mkCparam (Prefer TMeta) None None None blank from None false h None true.
Definition checked (p : cparam) (f : file) : option (cstats * list N) * option bool :=
  match check_file toy_hash 2 p f with ROk out => (ko_check out, verdict out) | _ => (None, None) end.
(* the container of C16, with a byte of its second block changed, with that block zeroed *)
Definition toy_broken : list N := takeN 600 toy_file ++ [nthN toy_file 600 + 1] ++ dropN 601 toy_file.
Definition toy_blanked : list N := takeN 512 toy_file ++ repN 512 0 ++ dropN 1024 toy_file.
Example c37_run : checked (toy_check HashAfterCheck false None) toy_file = (Some (mkCstats 3 5 0 12, []), Some true) /\
  checked (toy_check HashAfterCheck false None) toy_broken = (Some (mkCstats 3 4 1 12, []), None) /\
  checked (toy_check NoHash false None) toy_blanked = (Some (mkCstats 3 4 0 13, []), None) /\
  checked (toy_check NoHash true None) toy_blanked = (Some (mkCstats 3 4 13 0, [512; 1024; 1536; 2048; 3584; 4096; 4608; 6144; 6656; 7168; 8192; 8704; 9216]), None).
Proof. split; [|split; [|split]]; vm_compute; reflexivity. Qed.
(* the hypotheses of c37_intact_container hold of it *)
Example c37_hypotheses : exists n, intact V17 [1;2;3;4;5;6] true toy_o toy_rs (recorded toy_hash (toy_p V17 toy_o) toy_content) toy_content toy_file n /\
  lenN toy_file < 18446744073709551616 /\ shards_recorded toy_o (recorded toy_hash (toy_p V17 toy_o) toy_content) /\
  told_check (toy_check HashAfterCheck false None) toy_o n /\ check_plain (toy_check HashAfterCheck false None) /\
  get_meta_by_id (recorded toy_hash (toy_p V17 toy_o) toy_content) IFSZ = Some (FSZ (lenN toy_content)) /\
  get_meta_by_id (recorded toy_hash (toy_p V17 toy_o) toy_content) IHSH = Some (HSH (SHA256, toy_hash SHA256 toy_content)) /\
  1 <= lenN toy_content.
Proof.
  destruct c16_hypotheses as (OK & F & IO & (mx & HMX & HL) & ME & PQ & HBC & HN).
  destruct (c38_encoded_container_is_the_file toy_hash toy_rs (toy_p V17 toy_o) 4 toy_content mx 5 OK F IO eq_refl eq_refl HMX HL HBC HN) as (out & E & EN).
  assert (EF : toy_file = eo_file out) by (unfold toy_file; rewrite E; reflexivity). rewrite EF.
  destruct (encoded_intact toy_hash toy_rs 4 (toy_p V17 toy_o) toy_content out 5 OK ltac:(apply IO) EN HBC ltac:(lia)) as [IT FL].
  exists 5. split; [exact IT|]. split; [exact FL|]. split; [split; reflexivity|]. split; [right; split; [reflexivity|split; [vm_compute; discriminate|lia]]|].
  split; [repeat split; auto|]. split; [reflexivity|]. split; [reflexivity|]. vm_compute. discriminate.
Qed.

(* Finding F17: in verbose mode a block that failed is not listed unless it is blank, and what is listed of a blank one is not its
   position but its distance from the start of the range. *)
Theorem c37_messages_refuted :
  (exists p f s, bytes_ok f = true /\ cp_verbose p = true /\ checked p f = (Some (s, []), None) /\ ck_failed s = 1) /\
  (exists p f s ps, bytes_ok f = true /\ cp_verbose p = true /\ cp_report_blank p = true /\ checked p f = (Some (s, ps), None) /\ cp_from p = Some 512 /\
     ck_failed s = 1 /\ ps = [0]).
Proof.
  split.
  - exists (toy_check NoHash false None), toy_broken, (mkCstats 3 4 1 12). split; [|split; [|split]]; vm_compute; reflexivity.
  - exists (mkCparam (Prefer TMeta) (Some 0) None None true (Some 512) (Some (Exc 1024)) false NoHash None true), toy_blanked, (mkCstats 0 0 1 0), [0].
    split; [|split; [|split; [|split; [|split; [|split]]]]]; vm_compute; reflexivity.
Qed.
Print Assumptions c37_messages_refuted.
