(* Rescuing from a disk given as pieces, and decoding what was rescued. *)
From Coq Require Import Permutation Sorted.
From Verif Require Import M_Base M_Specs M_Header M_Crc M_Metadata M_Block M_Hex M_Ranges M_Scan M_Rescue M_Index S_Crc S_Block S_Scan S_Rescue S_Decode S_Lost.
From Verif Require Import L_Base L_Crc L_Header L_Block L_Block2 L_Ranges L_Ref L_Rescue L_Rescue2 L_Rescue3 P_Rescue L_Scan.

(* ---- pieces ---- *)
Lemma piece_len p : piece_ok p -> lenN (bytes_of p) = match p with Blk h _ => ver_to_block_size (h_version h) | Other _ => 128 end.
Proof.
  destruct p as [h pl|x]; cbn [piece_ok bytes_of]; [|intros [H _]; exact H]. intros [H1 H2].
  apply header_ok_spec in H1 as (_ & U & _). rewrite lenN_app, lenN_header_to_bytes, H2 by exact U.
  pose proof (block_size_pos (h_version h)). lia.
Qed.
Lemma piece_len_ge p : piece_ok p -> 128 <= lenN (bytes_of p).
Proof. intro H. rewrite (piece_len p H). destruct p as [h pl|x]; [apply block_size_pos|lia]. Qed.
Lemma blk_wf h pl t : piece_ok (Blk h pl) -> (well_formed_block (bytes_of (Blk h pl) ++ t) h pl <-> sound h pl).
Proof.
  intro H. pose proof (piece_len _ H) as L. cbv iota in L. destruct H as [H1 H2]. split.
  - intros (_ & _ & _ & C). exact C.
  - intro C. split; [exact H1|]. split; [exact H2|]. split; [|exact C].
    rewrite take_app_exact by (symmetry; exact L). reflexivity.
Qed.
Lemma blk_header h pl t : piece_ok (Blk h pl) -> header_at (bytes_of (Blk h pl) ++ t) 0 h.
Proof.
  intros [H1 H2]. split; [exact H1|]. unfold sliceN. rewrite drop_0. cbn [bytes_of]. rewrite <- app_assoc. apply take_app_exact.
  apply header_ok_spec in H1 as (_ & U & _). rewrite lenN_header_to_bytes by exact U. reflexivity.
Qed.
Lemma other_header x t h : piece_ok (Other x) -> ~ header_at (bytes_of (Other x) ++ t) 0 h.
Proof.
  intros [H1 H2] [A B]. apply (H2 h A). rewrite <- B. unfold sliceN. rewrite drop_0. cbn [bytes_of]. rewrite take_app, H1. change (16 - 128) with 0. symmetry. apply app_nil_r.
Qed.
Lemma sound_dec h pl : piece_ok (Blk h pl) -> bytes_ok (bytes_of (Blk h pl)) = true -> {sound h pl} + {~ sound h pl}.
Proof.
  intros [H1 H2] HB. cbn [bytes_of] in HB. rewrite bytes_ok_app in HB. apply andb_true_iff in HB as [_ HB].
  apply header_ok_spec in H1 as (_ & _ & UB & _).
  assert (C : is_crc (ver_to_usize (h_version h)) (h_uid h ++ be_bytes 4 (h_seq_num h) ++ pl) (crc_ccitt_generic (ver_to_usize (h_version h)) (h_uid h ++ be_bytes 4 (h_seq_num h) ++ pl))).
  { apply crc_is_remainder; [pose proof (ver_usize_lt (h_version h)); lia|]. rewrite !bytes_ok_app, UB, bytes_ok_be, HB. reflexivity. }
  destruct (N.eq_dec (h_crc h) (crc_ccitt_generic (ver_to_usize (h_version h)) (h_uid h ++ be_bytes 4 (h_seq_num h) ++ pl))) as [E|E].
  - left. unfold sound. rewrite E. exact C.
  - right. intro S. apply E. exact (is_crc_unique _ _ _ _ S C).
Qed.
Lemma list_N_dec (a b : list N) : {a = b} + {a <> b}.
Proof. apply list_eq_dec, N.eq_dec. Qed.
Lemma kept_exists u ps : Forall piece_ok ps -> Forall (fun p => bytes_ok (bytes_of p) = true) ps -> exists l, kept_blocks u ps l.
Proof.
  induction 1 as [|p ps HP HPS IH]; intro HB; [exists []; constructor|]. inversion HB as [|? ? B1 B2]; subst. destruct (IH B2) as (l & K).
  destruct p as [h pl|x].
  - destruct (list_N_dec (h_uid h) u) as [E|E]; [destruct (sound_dec h pl HP B1) as [S|S]|].
    + eexists. apply kb_block; eassumption.
    + exists l. apply kb_skip; [|exact K]. intros h' pl' Eq _ S'. injection Eq as <- <-. contradiction.
    + exists l. apply kb_skip; [|exact K]. intros h' pl' Eq U. injection Eq as <- <-. contradiction.
  - exists l. apply kb_skip; [|exact K]. discriminate.
Qed.

(* ---- the scan stops at the pieces ---- *)
Section Disk.
Variables (ps : list piece) (rest f : list N).
Hypothesis DK : disk_of ps rest f.
Hypothesis HB : bytes_ok f = true.
Definition start_at (a : list piece) : N := lenN (concat (map bytes_of a)).
Lemma cut a b : ps = a ++ b -> dropN (start_at a) f = concat (map bytes_of b) ++ rest /\ start_at a <= lenN f.
Proof using DK.
  intro E. pose proof DK as (EF & _ & _). rewrite EF, E, map_app, concat_app, <- app_assoc. unfold start_at. split.
  - apply drop_app_exact. reflexivity.
  - rewrite lenN_app. lia.
Qed.
Lemma drop_at pos n : n = pos -> forall h, header_at f pos h <-> header_at (dropN n f) 0 h.
Proof using. intros -> h. unfold header_at, sliceN. rewrite drop_0. reflexivity. Qed.
Lemma skip_piece a p b : ps = a ++ p :: b -> skip f (start_at a) (lenN (bytes_of p)).
Proof using DK.
  intro E. destruct (cut a (p :: b) E) as [C1 C2]. pose proof DK as (_ & _ & PK).
  assert (OK : piece_ok p). { rewrite E in PK. apply Forall_app in PK as [_ PK]. inversion PK; assumption. }
  pose proof (piece_len_ge p OK) as G.
  assert (L : lenN f - start_at a = lenN (bytes_of p) + lenN (concat (map bytes_of b) ++ rest)).
  { rewrite <- lenN_drop, C1. cbn [map concat]. rewrite <- app_assoc, lenN_app. reflexivity. }
  split; [lia|]. split; [lia|]. pose proof (drop_at (start_at a) _ eq_refl) as DA. rewrite C1 in DA. cbn [map concat] in DA. rewrite <- app_assoc in DA.
  destruct p as [h pl|x].
  - left. exists h. split; [apply DA, blk_header, OK|apply (piece_len _ OK)].
  - right. split; [|apply OK]. intros h HA. apply DA in HA. exact (other_header _ _ _ OK HA).
Qed.
Lemma start_snoc a p : start_at (a ++ [p]) = start_at a + lenN (bytes_of p).
Proof using. unfold start_at. rewrite map_app, concat_app, lenN_app. cbn [map concat]. rewrite app_nil_r. reflexivity. Qed.
Lemma lands_pieces hi pos : lands f 0 hi pos -> exists a b, ps = a ++ b /\ pos = start_at a.
Proof using DK HB.
  induction 1 as [|pos n L (a & b & E & ->) S H]; [exists [], ps; split; reflexivity|].
  destruct b as [|p b].
  - exfalso. destruct (cut a [] E) as [C1 C2]. cbn [map concat app] in C1. destruct DK as (_ & R & _). destruct S as (_ & S & _).
    assert (lenN (dropN (start_at a) f) = lenN rest) by (rewrite C1; reflexivity). rewrite lenN_drop in *. lia.
  - rewrite (skip_fun _ _ _ _ HB S (skip_piece a p b E)). exists (a ++ [p]), b. split; [rewrite <- app_assoc; exact E|]. symmetry. apply start_snoc.
Qed.
Lemma pieces_land hi : lenN f <= hi -> forall a p b, ps = a ++ p :: b -> lands f 0 hi (start_at a).
Proof using DK HB.
  intros HH a. induction a as [|q a IH] using rev_ind; intros p b E.
  - apply (lands_start f 0 hi). pose proof (skip_piece [] p b E) as (_ & S & _). change (start_at []) with 0 in S. lia.
  - rewrite start_snoc. rewrite <- app_assoc in E. cbn [app] in E. apply lands_next; [exact (IH q (p :: b) E)|exact (skip_piece a q (p :: b) E)|].
    rewrite <- start_snoc. assert (E2 : ps = (a ++ [q]) ++ p :: b) by (rewrite <- app_assoc; exact E).
    pose proof (skip_piece (a ++ [q]) p b E2) as (_ & S & _). lia.
Qed.
Lemma block_piece a p b h pl : ps = a ++ p :: b -> any_block_at f (start_at a) h pl <-> p = Blk h pl /\ sound h pl.
Proof using DK HB.
  intro E. destruct (cut a (p :: b) E) as [C1 C2]. pose proof DK as (_ & _ & PK).
  assert (OK : piece_ok p). { rewrite E in PK. apply Forall_app in PK as [_ PK]. inversion PK; assumption. }
  unfold any_block_at. rewrite C1. cbn [map concat]. rewrite <- app_assoc. split.
  - intro W. pose proof (drop_at (start_at a) _ eq_refl) as DA. rewrite C1 in DA. cbn [map concat] in DA. rewrite <- app_assoc in DA.
    assert (HA : header_at f (start_at a) h).
    { apply (wf_header f (start_at a) h pl). unfold any_block_at. rewrite C1. cbn [map concat]. rewrite <- app_assoc. exact W. }
    destruct p as [h' pl'|x]; [|exfalso; apply DA in HA; exact (other_header _ _ _ OK HA)].
    pose proof (proj2 (DA h') (blk_header _ _ _ OK)) as HA'. apply (header_at_parse _ _ _ HB) in HA, HA'. rewrite HA in HA'. apply ROk_inj in HA'. subst h'.
    assert (pl' = pl).
    { destruct W as (_ & W2 & W3 & _). destruct OK as [O1 O2]. pose proof (piece_len _ (conj O1 O2 : piece_ok (Blk h pl'))) as PLn. cbv iota in PLn.
      rewrite take_app_exact in W3 by (symmetry; exact PLn). cbn [bytes_of] in W3. apply app_inv_head in W3. exact W3. }
    subst pl'. split; [reflexivity|]. destruct W as (_ & _ & _ & W). exact W.
  - intros [-> S]. apply blk_wf; assumption.
Qed.
Lemma piece_slice a h pl b : ps = a ++ Blk h pl :: b -> sliceN (start_at a) (ver_to_block_size (h_version h)) f = bytes_of (Blk h pl).
Proof using DK.
  intro E. destruct (cut a (Blk h pl :: b) E) as [C1 C2]. pose proof DK as (_ & _ & PK).
  assert (OK : piece_ok (Blk h pl)). { rewrite E in PK. apply Forall_app in PK as [_ PK]. inversion PK; assumption. }
  unfold sliceN. rewrite C1. cbn [map concat]. rewrite <- app_assoc. apply take_app_exact. symmetry. apply (piece_len _ OK).
Qed.
End Disk.
Lemma kept_in u ps l x : kept_blocks u ps l -> In x l <-> exists h pl, In (Blk h pl) ps /\ sound h pl /\ h_uid h = u /\ x = Blk h pl.
Proof.
  induction 1 as [|h pl ps l HU HS K IH|p ps l HN K IH].
  - split; [intros []|intros (h & pl & [] & _)].
  - split.
    + intros [<-|Hx]; [exists h, pl; split; [left; reflexivity|auto]|]. apply IH in Hx as (h' & pl' & I & R). exists h', pl'. split; [right; exact I|exact R].
    + intros (h' & pl' & [E|I] & S & U & ->); [injection E as <- <-; left; reflexivity|]. right. apply IH. eauto 10.
  - rewrite IH. split; intros (h' & pl' & I & S & U & ->); exists h', pl'; [split; [right; exact I|auto]|].
    destruct I as [E|I]; [exfalso; subst p; exact (HN _ _ eq_refl U S)|auto].
Qed.
Lemma kept_len u ps l : kept_blocks u ps l -> lenN (concat (map bytes_of l)) <= lenN (concat (map bytes_of ps)).
Proof. induction 1 as [|h pl ps l HU HS K IH|p ps l HN K IH]; cbn [map concat]; rewrite ?lenN_app; lia. Qed.

Section Out.
Variables (ps : list piece) (rest f : list N) (p : rparam) (u : list N) (hi c : N).
Hypothesis DK : disk_of ps rest f.
Hypothesis HB : bytes_ok f = true.
Hypothesis PT : rp_type p = None.
Hypothesis PU : rp_uid p = None \/ rp_uid p = Some u.
Hypothesis HH : lenN f <= hi.
Hypothesis HC : lenN f <= c.
Lemma rescue_piece a h pl b : ps = a ++ Blk h pl :: b -> h_uid h = u -> sound h pl -> to_rescue p f 0 hi (start_at a) u (bytes_of (Blk h pl)) /\ start_at a < c.
Proof using All.
  intros E U S. split.
  - exists h. split; [|split; [|split]].
    + split; [exact (pieces_land _ _ _ DK HB hi HH a _ b E)|]. exists pl. apply (block_piece _ _ _ DK HB a (Blk h pl) b h pl E). auto.
    + split; [rewrite PT; exact I|]. destruct PU as [-> | ->]; [exact I|exact U].
    + symmetry. exact U.
    + symmetry. exact (piece_slice _ _ _ DK a h pl b E).
  - pose proof (skip_piece _ _ _ DK a _ b E) as (_ & S2 & _). lia.
Qed.
Lemma rescue_only pos b0 : to_rescue p f 0 hi pos u b0 -> exists a h pl b, ps = a ++ Blk h pl :: b /\ pos = start_at a /\ h_uid h = u /\ sound h pl.
Proof using DK HB.
  clear HH HC PU PT.
  intros (h & (L & pl & W) & _ & EU & _). destruct (lands_pieces _ _ _ DK HB hi pos L) as (a & b & E & ->).
  destruct b as [|q b].
  - exfalso. apply wf_header in W as [_ W]. destruct (cut _ _ _ DK a [] E) as [C1 _]. cbn [map concat app] in C1.
    assert (L2 : lenN (dropN (start_at a) f) = lenN rest) by (rewrite C1; reflexivity). rewrite lenN_drop in L2.
    pose proof DK as (_ & R & _). pose proof (block_size_pos (h_version h)). lia.
  - apply (block_piece _ _ _ DK HB a q b h pl E) in W as [-> S]. exists a, h, pl, b. auto.
Qed.
Lemma kept_out b l : kept_blocks u b l -> forall a, ps = a ++ b -> exists poss, StronglySorted N.lt poss /\
  Forall2 (fun pos x => to_rescue p f 0 hi pos u x /\ pos < c) poss (map bytes_of l) /\ Forall (fun pos => start_at a <= pos) poss /\
  forall a' h pl b', b = a' ++ Blk h pl :: b' -> h_uid h = u -> sound h pl -> In (start_at (a ++ a')) poss.
Proof using All.
  induction 1 as [|h pl b l HU HS K IH|q b l HN K IH]; intros a E.
  - exists []. repeat split; try constructor. intros [|? a'] h pl b' E'; discriminate.
  - destruct (IH (a ++ [Blk h pl])) as (poss & S & F & G & A); [rewrite <- app_assoc; exact E|].
    assert (ST : start_at a < start_at (a ++ [Blk h pl])).
    { rewrite start_snoc. pose proof DK as (_ & _ & PK). rewrite E in PK. apply Forall_app in PK as [_ PK]. inversion PK as [|? ? OK _]; subst. pose proof (piece_len_ge _ OK). lia. }
    exists (start_at a :: poss). split; [|split; [|split]].
    + constructor; [exact S|]. apply Forall_forall. intros x Hx. pose proof (proj1 (Forall_forall _ _) G x Hx) as GX. cbv beta in GX. lia.
    + constructor; [exact (rescue_piece a h pl b E HU HS)|exact F].
    + constructor; [lia|]. apply Forall_forall. intros x Hx. pose proof (proj1 (Forall_forall _ _) G x Hx) as GX. cbv beta in GX. lia.
    + intros [|q a'] h' pl' b' E' U' S'; cbn [app] in E'.
      * left. rewrite app_nil_r. reflexivity.
      * right. injection E' as <- ->. pose proof (A a' h' pl' b' eq_refl U' S') as X. rewrite <- app_assoc in X. exact X.
  - destruct (IH (a ++ [q])) as (poss & S & F & G & A); [rewrite <- app_assoc; exact E|]. exists poss. split; [exact S|]. split; [exact F|]. split.
    + apply Forall_forall. intros x Hx. pose proof (proj1 (Forall_forall _ _) G x Hx) as GX. cbv beta in GX. rewrite start_snoc in GX. lia.
    + intros [|q' a'] h' pl' b' E' U' S'; cbn [app] in E'.
      * exfalso. injection E' as -> ->. exact (HN _ _ eq_refl U' S').
      * injection E' as <- ->. pose proof (A a' h' pl' b' eq_refl U' S') as X. rewrite <- app_assoc in X. exact X.
Qed.
Lemma kept_output l : kept_blocks u ps l -> output_for p f 0 hi c u (concat (map bytes_of l)).
Proof using All.
  intro K. destruct (kept_out ps l K [] eq_refl) as (poss & S & F & _ & A). exists poss, (map bytes_of l). split; [exact S|]. split; [exact F|]. split; [|reflexivity].
  intros pos b0 R _. destruct (rescue_only pos b0 R) as (a & h & pl & b & E & -> & U & SD). exact (A a h pl b E U SD).
Qed.
End Out.

(* what a rescue leaves behind *)
Lemma disk_rescue ps rest f p order size fuel w : disk_of ps rest f -> bytes_ok f = true -> 0 < lenN f < 18446744073709551616 ->
  (forall k x, Permutation (order k x) x) -> 1 <= size -> lenN f < N.of_nat fuel ->
  rp_from p = None -> rp_to p = None -> rp_type p = None -> 
  exists w' s, rescue_from_file order size fuel p f None None w = Some (w', ROk s) /\
    (forall u l, bytes_ok u = true -> (rp_uid p = None \/ rp_uid p = Some u) -> kept_blocks u ps l -> content w' (name_of u) = content w (name_of u) ++ concat (map bytes_of l)) /\
    (forall n, (forall h pl, In (Blk h pl) ps -> sound h pl -> (rp_uid p = None \/ rp_uid p = Some (h_uid h)) -> n <> name_of (h_uid h)) -> w' n = w n).
Proof.
  intros DK HB HL HO HS HF P1 P2 P3. assert (RR : rescue_range p f 0 (lenN f)).
  { exists (lenN f). rewrite P1, P2. split; [|reflexivity]. rewrite range_whole; [f_equal; lia|unfold mult_of, SBX_SCAN_BLOCK_SIZE; lia|apply HL]. }
  destruct (c25_rescue order size fuel p f None w 0 (lenN f) HO HS HB HL RR Logic.I HF) as (w' & s & E & C). cbv zeta in C. destruct C as (C1 & C2 & C3 & _).
  specialize (C1 eq_refl). exists w', s. split; [exact E|]. split.
  - intros u l UB PU K. destruct (C2 u UB) as (out & O & ->). f_equal. eapply c25_output_unique; [exact O|]. eapply kept_output; eauto. lia.
  - intros n HN. apply C3. intros pos u b R _. pose proof R as (h & _ & (_ & WU) & -> & _).
    destruct (rescue_only _ _ _ _ _ _ DK HB pos b R) as (a & h' & pl & b' & EP & _ & U & SD). rewrite <- U. apply (HN h' pl); [rewrite EP; apply in_elt|exact SD|].
    destruct (rp_uid p) as [u0|]; [right; congruence|left; reflexivity].
Qed.
