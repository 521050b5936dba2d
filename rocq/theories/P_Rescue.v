(* Properties C25, C26 and C27 (rescuing). *)
From Coq Require Import Permutation Sorted Relations.
From Verif Require Import M_Base M_Specs M_Crc M_Header M_Metadata M_Block M_Index M_Buffer M_Hex M_Ranges M_Scan M_Rescue
  S_Crc S_Meta S_Block S_Scan S_Repair S_Rescue
  L_Base L_File L_Crc L_Header L_Meta L_Block L_Block2 L_Index2 L_Scan L_Ref L_Ranges L_Log L_Rescue L_Rescue2 L_Rescue3.
Ltac Zify.zify_post_hook ::= idtac.

Definition undisturbed (ev : option (N * event)) : Prop := match ev with None | Some (_, Stopped) => True | _ => False end.
Definition meta_found (f : file) (lo hi c pos : N) : Prop := pos < c /\ exists h, block_found f lo hi pos h /\ h_seq_num h = 0.
Definition data_found (f : file) (lo hi c pos : N) : Prop := pos < c /\ exists h, block_found f lo hi pos h /\ 1 <= h_seq_num h.
Lemma between_output p f lo hi c L u : between p f lo hi lo c L -> output_for p f lo hi c u (concat (uid_part u (map snd L))).
Proof.
  intros [S I]. set (M := filter (fun x => eqbl (rb_uid (snd x)) u) L).
  exists (map fst M), (map (fun x => rb_bytes (snd x)) M). split; [|split; [|split]].
  - unfold M. clear I. induction L as [|[x b] L IH]; [constructor|]. cbn [map fst] in S. apply StronglySorted_inv in S as [S F]. cbn [filter snd].
    specialize (IH S). destruct (eqbl (rb_uid b) u); [|exact IH]. cbn [map fst]. constructor; [exact IH|].
    rewrite Forall_forall in F |- *. intros y Hy. apply F. apply in_map_iff in Hy as (z & <- & Hz). apply in_map. apply filter_In in Hz. apply Hz.
  - assert (X : forall z, In z M -> to_rescue p f lo hi (fst z) u (rb_bytes (snd z)) /\ fst z < c).
    { intros [x [v b]] Hz. apply filter_In in Hz as [Hz E]. cbn [snd rb_uid fst rb_bytes] in *. apply eqbl_eq in E. subst v. apply I in Hz as [A B]. split; [exact A|lia]. }
    clear - X. induction M as [|z M IH]; [constructor|]. cbn [map]. constructor; [apply X; left; reflexivity|]. apply IH. intros y Hy. apply X. right. exact Hy.
  - intros pos b T HP. assert (LG : lo <= pos) by (destruct T as (h & (Q & _) & _); apply lands_ge in Q; lia).
    assert (IN : In (pos, mkRblock u b) L) by (apply I; split; [exact T|lia]). apply in_map_iff. exists (pos, mkRblock u b). split; [reflexivity|].
    apply filter_In. split; [exact IN|apply eqbl_refl].
  - unfold uid_part, M. f_equal. clear. induction L as [|[x b] L IH]; [reflexivity|]. cbn [map snd filter]. destruct (eqbl (rb_uid b) u); cbn [map snd]; [f_equal; exact IH|exact IH].
Qed.
Lemma to_rescue_uid p f lo hi pos u b : to_rescue p f lo hi pos u b -> bytes_ok u = true /\ lenN u = 6.
Proof. intros (h & (_ & pl & W) & _ & -> & _). destruct W as (HO & _). apply header_ok_spec in HO as (_ & U & BU & _). auto. Qed.

(* C25: for every file, filters, range, buffer size, hash map order, and stop signal at any moment *)
Theorem c25_rescue order size fuel p f ev w lo hi :
  (forall k x, Permutation (order k x) x) -> 1 <= size -> bytes_ok f = true -> 0 < lenN f < 18446744073709551616 ->
  rescue_range p f lo hi -> undisturbed ev -> lenN f < N.of_nat fuel ->
  exists w' s, rescue_from_file order size fuel p f ev None w = Some (w', ROk s) /\
    let c := lo + rs_bytes s in
    (ev = None -> hi <= c) /\
    (forall u, bytes_ok u = true -> exists out, output_for p f lo hi c u out /\ content w' (name_of u) = content w (name_of u) ++ out) /\
    (forall n, (forall pos u b, to_rescue p f lo hi pos u b -> pos < c -> n <> name_of u) -> w' n = w n) /\
    exactly (meta_found f lo hi c) (rs_meta s) /\ exactly (data_found f lo hi c) (rs_data s).
Proof.
  intros HO HS HB [H0 HL] HR UD HF. pose proof (HI p f lo hi H0 HL HR) as HI. unfold rescue_from_file.
  destruct (rescue_start p f None) as [[[rl s0] at_]|e|] eqn:ES.
  2,3: unfold rescue_start in ES; cbn [read_log] in ES; discriminate.
  assert (S0 : s0 = mkRstats 0 0 0 /\ rl = hi - lo /\ at_ = lo).
  { destruct (start_eq p f lo hi H0 HL HR None s0 rl at_ ES) as (-> & RL & AT). cbn [read_log] in RL. apply ROk_inj in RL. subst s0.
    split; [reflexivity|]. split; [reflexivity|]. apply AT; [cbn [rs_bytes]; lia|reflexivity]. }
  destruct S0 as (-> & -> & ->). set (s0 := mkRstats 0 0 0).
  destruct (read_ok p f lo hi HB ltac:(lia) size ev HS fuel fuel s0 ltac:(cbn; lia) ltac:(cbn; lia) (at_start p f lo hi H0 HL HR)) as (l & failed & E & C & FE).
  rewrite E. destruct failed.
  { destruct (FE eq_refl) as (n & e & -> & NE). destruct e; [contradiction|contradiction|contradiction]. }
  destruct (chain_flat p f lo hi ev l s0 C) as (L & EL & R). cbv zeta in R.
  pose proof (writes_ok order HO l s0 w) as W. cbv zeta in W. destruct (write_buffers order l s0 w) as [w' s']. destruct W as (-> & WC & WO).
  set (s := fold_left (fun _ x => snd x) l s0) in *. exists w', s. split; [reflexivity|]. cbv zeta. destruct R as (_ & BT & CT & EN).
  change (rs_bytes s0) with 0 in *. rewrite N.add_0_r in *. rewrite EL in WC, WO.
  assert (IB : forall b, In b (map snd L) -> exists pos, to_rescue p f lo hi pos (rb_uid b) (rb_bytes b) /\ lo <= pos < lo + rs_bytes s).
  { intros b Hb. apply in_map_iff in Hb as ([pos [u d]] & <- & Hb). apply BT in Hb. exists pos. exact Hb. }
  split; [|split; [|split; [|split]]].
  - intros ->. destruct EN as [Q|(n & Q & _)]; [lia|discriminate].
  - intros u HU. exists (concat (uid_part u (map snd L))). split; [apply between_output, BT|]. apply WC; [|exact HU].
    intros b Hb. destruct (IB b Hb) as (pos & T & _). apply (to_rescue_uid _ _ _ _ _ _ _ T).
  - intros n H. apply WO. intros b Hb. destruct (IB b Hb) as (pos & T & Q). apply (H pos _ _ T). lia.
  - destruct CT as (m & d & EM & _ & XM & _). cbn [rs_meta s0] in EM. rewrite EM. rewrite N.add_0_l. eapply exactly_same; [exact XM|].
    intro i. unfold meta_found. split; [intros (A & h & B & D)|intros (A & h & B & D)]; (split; [|eauto]); [|lia]. destruct B as [B _]. apply lands_ge in B. lia.
  - destruct CT as (m & d & _ & ED & _ & XD). cbn [rs_data s0] in ED. rewrite ED. rewrite N.add_0_l. eapply exactly_same; [exact XD|].
    intro i. unfold data_found. split; [intros (A & h & B & D)|intros (A & h & B & D)]; (split; [|eauto]); [|lia]. destruct B as [B _]. apply lands_ge in B. lia.
Qed.
(* what is to be appended is determined *)
Lemma sorted_same : forall l l', StronglySorted N.lt l -> StronglySorted N.lt l' -> (forall x, In x l <-> In x l') -> l = l'.
Proof.
  induction l as [|a l IH]; intros l' S S' E.
  - destruct l' as [|b l']; [reflexivity|]. exfalso. apply (E b). left. reflexivity.
  - destruct l' as [|b l']; [exfalso; apply (E a); left; reflexivity|].
    apply StronglySorted_inv in S as [S F]. apply StronglySorted_inv in S' as [S' F']. rewrite Forall_forall in F, F'.
    assert (a = b).
    { destruct (proj1 (E a) (or_introl eq_refl)) as [Q|Q]; [auto|]. destruct (proj2 (E b) (or_introl eq_refl)) as [Q'|Q']; [auto|].
      specialize (F b Q'). specialize (F' a Q). lia. }
    subst b. f_equal. apply IH; [exact S|exact S'|]. intro x. split; intro Hx.
    + destruct (proj1 (E x) (or_intror Hx)) as [Q|Q]; [|exact Q]. subst x. specialize (F a Hx). lia.
    + destruct (proj2 (E x) (or_intror Hx)) as [Q|Q]; [|exact Q]. subst x. specialize (F' a Hx). lia.
Qed.
Theorem c25_output_unique p f lo hi c u out out' : output_for p f lo hi c u out -> output_for p f lo hi c u out' -> out = out'.
Proof.
  intros (ps & bs & S & F & I & ->) (ps' & bs' & S' & F' & I' & ->).
  assert (X : forall ps bs x, Forall2 (fun pos b => to_rescue p f lo hi pos u b /\ pos < c) ps bs -> In x ps -> exists b, to_rescue p f lo hi x u b /\ x < c).
  { clear. intros ps bs x F. induction F as [|pos b ps bs HF F IH]; [intros []|]. intros [<-|Hx]; [eauto|apply IH, Hx]. }
  assert (ps = ps').
  { apply sorted_same; [exact S|exact S'|]. intro x. split; intro Hx; [destruct (X _ _ _ F Hx) as (b & A & B); apply (I' x b A B)|destruct (X _ _ _ F' Hx) as (b & A & B); apply (I x b A B)]. }
  subst ps'. f_equal. clear - F F'. revert bs' F'. induction F as [|pos b ps bs [HF _] F IH]; intros bs' F'; inversion F' as [|? b' ? bs'' [HF' _] F'']; subst; [reflexivity|].
  f_equal; [|apply IH; assumption]. destruct HF as (h & (_ & pl & W) & _ & _ & ->). destruct HF' as (h' & (_ & pl' & W') & _ & _ & ->).
  destruct (any_block_fun f _ _ _ _ _ W W') as [-> _]. reflexivity.
Qed.

(* C26: the log can be read back; cut short it is refused *)
Theorem c26_log_roundtrip total s : rs_bytes s < 18446744073709551616 -> rs_meta s + rs_data s < 18446744073709551616 ->
  read_log total (Some (serialize s)) = ROk (mkRstats (N.min total (rs_bytes s) / 128 * 128) (rs_meta s) (rs_data s)) /\
  (rs_bytes s <= total -> rs_bytes s mod 128 = 0 -> read_log total (Some (serialize s)) = ROk s).
Proof.
  intros H1 H2. assert (E : restart total s = mkRstats (N.min total (rs_bytes s) / 128 * 128) (rs_meta s) (rs_data s)) by reflexivity.
  rewrite (read_log_whole total s H1 H2), E. split; [reflexivity|]. intros H3 H4. rewrite N.min_r by exact H3.
  pose proof (N.div_mod (rs_bytes s) 128 ltac:(lia)) as D. rewrite H4, N.add_0_r, N.mul_comm in D. rewrite <- D. destruct s. reflexivity.
Qed.
Theorem c26_cut_log_refused total s k : k < lenN (serialize s) -> read_log total (Some (takeN k (serialize s))) = RErr OtherError.
Proof.
  intro HK. destruct (read_log total (Some (takeN k (serialize s)))) as [x|e|] eqn:E.
  - apply read_log_cut in E. lia.
  - unfold read_log in E. destruct (deserialize _ _); congruence.
  - unfold read_log in E. destruct (deserialize _ _); discriminate.
Qed.
(* At every moment of any number of interrupted runs: nothing that was in the directory is lost; and if the log can be read,
   every block found before the position it gives is saved. *)
Theorem c26_log_never_ahead size p f w0 w g lo hi s : 1 <= size -> bytes_ok f = true -> 0 < lenN f < 18446744073709551616 ->
  rescue_range p f lo hi -> history size p f w0 w g ->
  (forall n, exists x, content w n = content w0 n ++ x) /\
  (read_log (hi - lo) g = ROk s -> forall pos u b, to_rescue p f lo hi pos u b -> pos < lo + rs_bytes s -> saved w u b).
Proof.
  intros HS HB [H0 HL] HR H. destruct (history_ok size p f lo hi HS HB H0 HL HR w0 w g H) as [G LG]. split; [exact G|].
  intros E pos u b T HP. destruct (LG s E) as [A|(_ & _ & A)]; [|apply (A pos u b T HP)].
  apply (A pos u b T). destruct T as (h & (Q & _) & _). apply lands_ge in Q. lia.
Qed.
(* A run that gets to the end leaves every block saved, whatever happened before: as the function computes it, *)
Theorem c26_resumed_run_completes order size fuel p f w0 w g w' s lo hi :
  (forall k x, Permutation (order k x) x) -> 1 <= size -> bytes_ok f = true -> 0 < lenN f < 18446744073709551616 ->
  rescue_range p f lo hi -> history size p f w0 w g ->
  rescue_from_file order size fuel p f None g w = Some (w', ROk s) ->
  forall pos u b, to_rescue p f lo hi pos u b -> saved w' u b.
Proof.
  intros HO HS HB [H0 HL] HR H E pos u b T. unfold rescue_from_file in E. destruct (rescue_start p f g) as [[[rl s0] at_]|e|] eqn:ES; try discriminate.
  destruct (read_buffers fuel fuel size p f rl at_ None s0) as [[[l failed]|e|]|] eqn:ER; try discriminate.
  pose proof (write_steps order g HO l s0 w) as R. destruct (write_buffers order l s0 w) as [w1 s1]. destruct failed; [discriminate|].
  assert (w1 = w') by (injection E as <- _; reflexivity). subst w1.
  assert (A : all_saved p f lo hi w').
  { apply (finished_ok size p f lo hi HS HB H0 HL HR w0 w g (mkRunning w g s0 None l) (mkRunning w' g s1 None []) H); [|exact R|split; reflexivity].
    exists rl, s0, at_, fuel, l, false. auto. }
  apply (A pos u b T). destruct T as (h & (Q & _) & _). apply lands_ge in Q. lia.
Qed.
(* and with the log written at any moment *)
Theorem c26_finished_run size p f w0 w g r r' lo hi : 1 <= size -> bytes_ok f = true -> 0 < lenN f < 18446744073709551616 ->
  rescue_range p f lo hi -> history size p f w0 w g -> started size p f None w g r -> runs r r' -> finished r' ->
  forall pos u b, to_rescue p f lo hi pos u b -> saved (ru_dir r') u b.
Proof.
  intros HS HB [H0 HL] HR H ST R FN pos u b T. apply (finished_ok size p f lo hi HS HB H0 HL HR w0 w g r r' H ST R FN pos u b T).
  destruct T as (h & (Q & _) & _). apply lands_ge in Q. lia.
Qed.

(* C27 *)
Lemma lazy_progress f pos : bytes_ok f = true -> pos < lenN f -> exists r, read_block_lazily f pos = ROk r /\ 1 <= lz_len r.
Proof.
  intros HB HP. destruct (lazy_spec f pos HB) as (r & E & H). exists r. split; [exact E|]. destruct (lz_eof r) eqn:EO; [|lia].
  rewrite (lazy_eof_len f pos r HB E EO). lia.
Qed.
Lemma fill_ends size p f req at_ ev : bytes_ok f = true -> at_ + req <= lenN f -> forall fuel slots s, lenN f - (at_ + rs_bytes s) < N.of_nat fuel ->
  exists slots' s' x, fill_buffer fuel size p f req at_ ev slots s = Some (ROk (slots', s', x)) /\ rs_bytes s <= rs_bytes s' /\
    (x = Full -> lenN slots <> size -> rs_bytes s < rs_bytes s').
Proof.
  intros HB HR. induction fuel as [|fuel IH]; intros slots s HF; [lia|]. cbn [fill_buffer].
  destruct (N.eqb_spec (lenN slots) size) as [Q|Q]; [exists slots, s, Full; split; [reflexivity|]; split; [lia|contradiction]|].
  assert (D' : forall (y : list rblock) x, x <> Full -> exists slots' s' x', Some (ROk (y, s, x)) = Some (ROk (slots', s', x')) /\ rs_bytes s <= rs_bytes s' /\ (x' = Full -> lenN slots <> size -> rs_bytes s < rs_bytes s')).
  { intros y x NX. exists y, s, x. split; [reflexivity|]. split; [lia|contradiction]. }
  destruct (match ev with Some _ => _ | None => _ end) as [[| |]|]; try (apply D'; discriminate); (destruct (N.leb_spec req (rs_bytes s)) as [Q1|Q1]; [apply D'; discriminate|]); try (apply D'; discriminate).
  destruct (lazy_progress f (at_ + rs_bytes s) HB ltac:(lia)) as (r & -> & HL). destruct (lz_block r) as [b|].
  - assert (B1 : rs_bytes (count_block b (lz_len r) s) = rs_bytes s + lz_len r) by (unfold count_block; destruct (block_type_of b); reflexivity).
    edestruct (IH (if picked p b then slots ++ [mkRblock (b_uid b) (file_read f (at_ + rs_bytes s) (ver_to_block_size (b_version b)))] else slots) (count_block b (lz_len r) s)) as (x & s' & y & E & A & B); [lia|].
    rewrite E. exists x, s', y. split; [reflexivity|]. split; [lia|]. intros; lia.
  - edestruct (IH slots (mkRstats (rs_bytes s + lz_len r) (rs_meta s) (rs_data s))) as (x & s' & y & E & A & B); [cbn [rs_bytes]; lia|]. cbn [rs_bytes] in A.
    rewrite E. exists x, s', y. split; [reflexivity|]. split; [lia|]. intros; lia.
Qed.
Lemma read_ends size p f req at_ ev : 1 <= size -> bytes_ok f = true -> at_ + req <= lenN f -> forall n fuel s, lenN f - (at_ + rs_bytes s) < N.of_nat n -> lenN f - (at_ + rs_bytes s) < N.of_nat fuel ->
  exists x, read_buffers n fuel size p f req at_ ev s = Some (ROk x).
Proof.
  intros HS HB HR. induction n as [|n IH]; intros fuel s HN HF; [lia|]. cbn [read_buffers].
  destruct (fill_ends size p f req at_ ev HB HR fuel [] s HF) as (slots & s' & x & E & A & B). rewrite E. destruct x; [|eauto|eauto].
  rewrite lenN_nil in B. specialize (B eq_refl ltac:(lia)). destruct (N.le_gt_cases (lenN f) (at_ + rs_bytes s)) as [Q|Q].
  - destruct n as [|n].
    + exfalso. destruct fuel; [lia|]. cbn [fill_buffer] in E. rewrite lenN_nil in E. destruct (N.eqb_spec 0 size); [lia|].
      destruct (N.leb_spec req (rs_bytes s)); [|lia]. destruct (match ev with Some _ => _ | None => _ end) as [[| |]|]; discriminate.
    + destruct (IH fuel s' ltac:(lia) ltac:(lia)) as ([l e] & E2). rewrite E2. eauto.
  - destruct (IH fuel s' ltac:(lia) ltac:(lia)) as ([l e] & E2). rewrite E2. eauto.
Qed.
(* A rescue of a file that is not empty ends: with any log (also one not written by this program), filters, range, and whatever happens *)
Theorem c27_rescue_ends order size fuel p f ev g w lo hi : 1 <= size -> bytes_ok f = true -> 0 < lenN f < 18446744073709551616 ->
  rescue_range p f lo hi -> lenN f < N.of_nat fuel -> exists w' r, rescue_from_file order size fuel p f ev g w = Some (w', r).
Proof.
  intros HS HB [H0 HL] HR HF. unfold rescue_from_file. destruct (rescue_start p f g) as [[[rl s] at_]|e|] eqn:ES; [|eauto|eauto].
  pose proof (HI p f lo hi H0 HL HR) as HI. destruct (start_eq p f lo hi H0 HL HR g s rl at_ ES) as (-> & RL & AT).
  assert (X : exists x, read_buffers fuel fuel size p f (hi - lo) at_ ev s = Some (ROk x)).
  { destruct (N.lt_ge_cases (rs_bytes s) (hi - lo)) as [Q|Q].
    - assert (M : rs_bytes s mod 128 = 0).
      { unfold read_log in RL. destruct g as [t|]; [|apply ROk_inj in RL; subst s; reflexivity]. destruct (deserialize _ _) as [y|] eqn:ED; [|discriminate]. apply ROk_inj in RL. subst y.
        unfold deserialize in ED. repeat match type of ED with obind ?x _ = _ => destruct x as [?|]; cbn [obind] in ED; [|discriminate ED] | (let '(_, _) := ?x in _) = _ => destruct x end.
        assert (ES' : rs_bytes s = round_down_to_multiple (rs_bytes s) 128).
        { inversion ED as [ED']. cbn [rs_bytes]. unfold SBX_SCAN_BLOCK_SIZE. symmetry. apply round_down_multiple; [lia|]. apply round_down_spec. lia. }
        rewrite ES'. apply round_down_spec. lia. }
      rewrite (AT Q M). apply read_ends; try assumption; lia.
    - destruct fuel as [|fuel]; [lia|]. rewrite (read_done p f lo hi size ev at_ fuel fuel s HS Q). eauto. }
  destruct X as ([l failed] & ->). destruct (write_buffers order l s w). eauto.
Qed.
(* Rescue of an empty file never ends (unless stopped): finding F18 *)
Lemma empty_read f pos : lenN f = 0 -> read_block_lazily f pos = ROk (mkLazy 0 None true).
Proof. intro H. assert (f = []) by (apply lenN_zero_inv, H) || (destruct f; [reflexivity|rewrite lenN_cons in H; lia]). subst f. unfold read_block_lazily, file_read. assert (E : lenN (sliceN pos SBX_SCAN_BLOCK_SIZE (@nil N)) = 0) by (rewrite lenN_slice; cbn; lia). rewrite E. reflexivity. Qed.
Lemma empty_fill size p f req at_ : 1 <= size -> lenN f = 0 -> forall fuel s, rs_bytes s < req -> fill_buffer fuel size p f req at_ None [] s = None.
Proof.
  intros HS H0. induction fuel as [|fuel IH]; intros s HS'; cbn [fill_buffer]; rewrite lenN_nil; (destruct (N.eqb_spec 0 size); [lia|]); (destruct (N.leb_spec req (rs_bytes s)); [lia|]); [reflexivity|].
  rewrite (empty_read f _ H0). cbn [lz_block lz_len]. apply IH. cbn [rs_bytes]. lia.
Qed.
Theorem c27_rescue_empty_refuted : exists p f, bytes_ok f = true /\ lenN f = 0 /\
  forall order size fuel w, 1 <= size -> rescue_from_file order size fuel p f None None w = None.
Proof.
  exists (mkRparam None None false None None), []. split; [reflexivity|]. split; [reflexivity|]. intros order size fuel w HS.
  unfold rescue_from_file.
  assert (E : rescue_start (mkRparam None None false None None) [] None = ROk (1, mkRstats 0 0 0, 0)) by (vm_compute; reflexivity). rewrite E.
  destruct fuel as [|fuel]; [reflexivity|]. cbn [read_buffers].
  rewrite empty_fill; [reflexivity|exact HS|reflexivity|reflexivity].
Qed.

(* ---- a file to rescue from: blocks of two UIDs and two sizes, other data between and after ---- *)
Definition toy_block (v : version) (uid : list N) (seq fill : N) : list N :=
  match sync_to_buffer (mkBlock (mkHeader v 0 uid seq) (if seq =? 0 then DMeta [] else DData)) None (repN (ver_to_block_size v) fill) with
  | ROk (_, buf) => buf
  | _ => []
  end.
Definition uA : list N := [1; 2; 3; 4; 5; 6].
Definition uB : list N := [170; 187; 204; 1; 2; 3].
Definition disk : list N := toy_block V2 uA 1 7 ++ repN 128 9 ++ toy_block V1 uB 1 3 ++ toy_block V2 uA 2 8 ++ toy_block V2 uA 0 0 ++ repN 50 1.
Definition all_of_it : rparam := mkRparam None None false None None.
Definition no_files : dir := fun _ => None.
Definition rev_order : nat -> list (list N * list (list N)) -> list (list N * list (list N)) := fun _ l => rev l.
Definition rescued order size p ev g w u : option (result rstats * list N) :=
  match rescue_from_file order size 2000 p disk ev g w with Some (w', r) => Some (r, content w' (name_of u)) | None => None end.
Example c25_run :
  rescued rev_order 2 all_of_it None None no_files uA = Some (ROk (mkRstats 1074 1 3), toy_block V2 uA 1 7 ++ toy_block V2 uA 2 8 ++ toy_block V2 uA 0 0) /\
  rescued (fun _ l => l) 1000 all_of_it None None no_files uB = Some (ROk (mkRstats 1074 1 3), toy_block V1 uB 1 3) /\
  rescued rev_order 2 (mkRparam None (Some (Exc 896)) false (Some TData) (Some uA)) None None no_files uA = Some (ROk (mkRstats 896 0 3), toy_block V2 uA 1 7 ++ toy_block V2 uA 2 8).
Proof. split; [|split]; vm_compute; reflexivity. Qed.
Example c25_hypotheses : (forall k x, Permutation (rev_order k x) x) /\ bytes_ok disk = true /\ 0 < lenN disk < 18446744073709551616 /\
  rescue_range all_of_it disk 0 1074 /\ undisturbed None /\ lenN disk < N.of_nat 2000.
Proof.
  split; [intros k x; apply Permutation_sym, Permutation_rev|]. split; [vm_compute; reflexivity|].
  assert (E : lenN disk = 1074) by (vm_compute; reflexivity). rewrite E. split; [lia|]. split; [|split; [exact I|lia]].
  exists 1074. rewrite E. split; [vm_compute; reflexivity|reflexivity].
Qed.
(* A read error leaves what was in the buffer as a block of UID 0: finding F19. Here no block has that UID. *)
Theorem c25_read_error_refuted : exists p f n junk, bytes_ok f = true /\ lenN f = 1074 /\ bytes_ok junk = true /\
  (forall lo hi pos b, rescue_range p f lo hi -> ~ to_rescue p f lo hi pos [0; 0; 0; 0; 0; 0] b) /\
  forall w, exists w' e, rescue_from_file rev_order 2 2000 p f (Some (n, ReadError junk)) None w = Some (w', RErr e) /\
    content w' (name_of [0; 0; 0; 0; 0; 0]) = content w (name_of [0; 0; 0; 0; 0; 0]) ++ junk.
Proof.
  exists (mkRparam None None false None (Some uA)), disk, 128, (repN 512 5). split; [vm_compute; reflexivity|]. split; [vm_compute; reflexivity|]. split; [vm_compute; reflexivity|]. split.
  - intros lo hi pos b _ (h & _ & (_ & W) & E & _). cbn [rp_uid] in W. rewrite W in E. discriminate.
  - intro w. eexists. eexists. split; [|].
    + unfold rescue_from_file.
      assert (E1 : rescue_start (mkRparam None None false None (Some uA)) disk None = ROk (1074, mkRstats 0 0 0, 0)) by (vm_compute; reflexivity). rewrite E1.
      assert (E2 : read_buffers 2000 2000 2 (mkRparam None None false None (Some uA)) disk 1074 0 (Some (128, ReadError (repN 512 5))) (mkRstats 0 0 0) =
        Some (ROk ([([mkRblock uA (toy_block V2 uA 1 7); mkRblock [0;0;0;0;0;0] (repN 512 5)], mkRstats 128 0 1)], true))) by (vm_compute; reflexivity). rewrite E2.
      cbn [write_buffers]. reflexivity.
    + unfold write_buffer. assert (E3 : appends (rev_order (length (@nil (list rblock * rstats)))) [mkRblock uA (toy_block V2 uA 1 7); mkRblock [0;0;0;0;0;0] (repN 512 5)] =
        [(name_of [0;0;0;0;0;0], repN 512 5); (name_of uA, toy_block V2 uA 1 7)]) by (vm_compute; reflexivity). rewrite E3. cbn [fold_left].
      rewrite !content_append. assert (E4 : eqbl (name_of [0;0;0;0;0;0]) (name_of uA) = false) by (vm_compute; reflexivity). rewrite E4, eqbl_refl, app_nil_r. reflexivity.
Qed.

(* ---- an interrupted run and its continuation ---- *)
Definition log1 : list N := serialize (mkRstats 256 0 1).
(* log1 as text *)
Example c26_log_text : log1 = S_BYTES ++ [50; 53; 54; 10] ++ S_BLOCKS ++ [49; 10] ++ S_META ++ [48; 10] ++ S_DATA ++ [49; 10].
Proof. vm_compute. reflexivity. Qed.
Lemma stopped_history : exists w, history 2 all_of_it disk no_files w (Some log1) /\ history 2 all_of_it disk no_files w (Some []) /\
  content w (name_of uA) = toy_block V2 uA 1 7 /\ content w (name_of uB) = [].
Proof.
  set (l := [([mkRblock uA (toy_block V2 uA 1 7)], mkRstats 256 0 1)]). set (s0 := mkRstats 0 0 0).
  assert (ST : started 2 all_of_it disk (Some (256, Stopped)) no_files None (mkRunning no_files None s0 None l)).
  { exists 1074, s0, 0, 2000%nat, l, false. split; [vm_compute; reflexivity|]. split; [vm_compute; reflexivity|reflexivity]. }
  pose proof (write_steps (fun _ x => x) None ltac:(intros; apply Permutation_refl) l s0 no_files) as R.
  assert (SS : snd (write_buffers (fun _ x => x) l s0 no_files) = mkRstats 256 0 1) by reflexivity.
  assert (CA : content (fst (write_buffers (fun _ x => x) l s0 no_files)) (name_of uA) = toy_block V2 uA 1 7) by (vm_compute; reflexivity).
  assert (CB : content (fst (write_buffers (fun _ x => x) l s0 no_files)) (name_of uB) = []) by (vm_compute; reflexivity).
  destruct (write_buffers (fun _ x => x) l s0 no_files) as [w s]. cbn [fst snd] in *. subst s. exists w.
  assert (LG : forall k, runs (mkRunning no_files None s0 None l) (mkRunning w (Some (takeN k log1)) (mkRstats 256 0 1) None [])).
  { intro k. eapply runs_trans; [exact R|]. econstructor; [apply (step_log _ _ _ _ _ k)|]. constructor. }
  split; [|split; [|auto]].
  - assert (EL : takeN 1024 log1 = log1) by (vm_compute; reflexivity). pose proof (LG 1024) as LG'. rewrite EL in LG'. exact (h_run _ _ _ _ _ _ _ _ _ (h_start _ _ _ _) ST LG').
  - exact (h_run _ _ _ _ _ _ _ _ _ (h_start _ _ _ _) ST (LG 0)).
Qed.
Example c26_run :
  rescued rev_order 2 all_of_it None (Some log1) (fun n => if eqbl n (name_of uA) then Some (toy_block V2 uA 1 7) else None) uA
    = Some (ROk (mkRstats 1074 1 3), toy_block V2 uA 1 7 ++ toy_block V2 uA 2 8 ++ toy_block V2 uA 0 0).
Proof. vm_compute. reflexivity. Qed.
(* After a crash while the log is written, the next run refuses to start: finding F20 *)
Theorem c26_resume_always_possible_refuted : exists size p f w g, history size p f no_files w g /\ 0 < lenN f /\
  forall order fuel, rescue_from_file order size fuel p f None g w = Some (w, RErr OtherError).
Proof.
  destruct stopped_history as (w & _ & H & _). exists 2, all_of_it, disk, w, (Some []). split; [exact H|]. split; [vm_compute; reflexivity|].
  intros order fuel. unfold rescue_from_file, rescue_start. assert (E : forall t, read_log t (Some []) = RErr OtherError) by (intro t; vm_compute; reflexivity). rewrite E. reflexivity.
Qed.

Print Assumptions c25_rescue.
Print Assumptions c25_output_unique.
Print Assumptions c25_read_error_refuted.
Print Assumptions c26_log_roundtrip.
Print Assumptions c26_cut_log_refused.
Print Assumptions c26_log_never_ahead.
Print Assumptions c26_resumed_run_completes.
Print Assumptions c26_finished_run.
Print Assumptions c26_resume_always_possible_refuted.
Print Assumptions c27_rescue_ends.
Print Assumptions c27_rescue_empty_refuted.
