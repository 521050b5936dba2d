(* Lemmas about file access. *)
From Verif Require Import M_Base M_FileIO S_FileIO L_Base L_File.

Definition core (s : os) : file * N * bool := (o_data s, o_pos s, o_append s).
Definition cput (c : file * N * bool) (d : list N) : file * N * bool :=
  let '(f, p, app) := c in let q := if app : bool then lenN f else p in (file_write f q d, match d with [] => p | _ => q + lenN d end, app).
Lemma file_write_app f p a b : file_write (file_write f p a) (p + lenN a) b = file_write f p (a ++ b).
Proof.
  apply list_ext_N.
  - rewrite !lenN_file_write, lenN_app. repeat match goal with |- context [N.eqb ?x ?y] => destruct (N.eqb_spec x y) end; lia.
  - intros i _. rewrite !nthN_file_write, lenN_app, nthN_app.
    repeat match goal with |- context [N.leb ?x ?y] => destruct (N.leb_spec x y) | |- context [N.ltb ?x ?y] => destruct (N.ltb_spec x y) end; cbn [andb]; try lia; try reflexivity. f_equal. lia.
Qed.
Lemma cput_nil c : cput c [] = c.
Proof. destruct c as [[f p] app]. reflexivity. Qed.
Lemma cput_app c a b : cput (cput c a) b = cput c (a ++ b).
Proof.
  destruct a as [|x a]; [rewrite cput_nil; reflexivity|]. destruct b as [|y b]; [rewrite cput_nil, app_nil_r; reflexivity|].
  destruct c as [[f p] app]. unfold cput. cbn [List.app]. destruct app; cbv zeta.
  - assert (L : lenN (file_write f (lenN f) (x :: a)) = lenN f + lenN (x :: a)) by (rewrite lenN_file_write, lenN_cons; destruct (N.eqb_spec (1 + lenN a) 0); lia).
    rewrite L, file_write_app. change ((x :: a) ++ y :: b) with (x :: a ++ y :: b). f_equal. f_equal. rewrite !lenN_cons, lenN_app, lenN_cons. lia.
  - rewrite file_write_app. f_equal. f_equal. rewrite !lenN_cons, lenN_app, lenN_cons. lia.
Qed.
Lemma core_put s d a : core (o_put s d a) = cput (core s) d.
Proof. destruct s. reflexivity. Qed.
Lemma plain_write c d : plain_step c (OpWrite d) = (cput c d, GotLen (lenN d)).
Proof. destruct c as [[f p] app]. destruct d; reflexivity. Qed.

Lemma o_write_ok s d s' n : o_write s d = (s', Some n) -> core s' = cput (core s) (takeN n d) /\ n <= lenN d /\ (d <> [] -> 1 <= n).
Proof.
  unfold o_write. destruct d as [|x d]; [intros E; injection E as <- <-; rewrite take_0, cput_nil; split; [reflexivity|split; [lia|congruence]]|].
  destruct (o_answers s) as [|[k|] a].
  - intros E. injection E as <- <-. rewrite core_put, take_all by lia. split; [reflexivity|]. rewrite lenN_cons. split; [lia|intros _; lia].
  - destruct (N.eqb_spec k 0) as [Z|Z]; [discriminate|]. intros E. injection E as <- <-. rewrite core_put. rewrite lenN_take, lenN_cons.
    split; [|split; [lia|intros _; lia]]. f_equal. destruct (N.le_ge_cases k (1 + lenN d)).
    + rewrite N.min_l by lia. reflexivity.
    + rewrite N.min_r by lia. rewrite !take_all by (rewrite lenN_cons; lia). reflexivity.
  - intros E. injection E as <- <-. rewrite core_put, take_all by lia. split; [reflexivity|]. rewrite lenN_cons. split; [lia|intros _; lia].
Qed.
Lemma flush_ok fuel : forall s b s' b', (length b <= fuel)%nat -> flush_loop fuel s b = (s', b', true) -> b' = [] /\ core s' = cput (core s) b.
Proof.
  induction fuel as [|fuel IH]; intros s b s' b' L E.
  - destruct b as [|x b]; [|cbn [length] in L; lia]. cbn [flush_loop] in E. injection E as <- <-. rewrite cput_nil. auto.
  - destruct b as [|x b]; [cbn [flush_loop] in E; injection E as <- <-; rewrite cput_nil; auto|].
    cbn [flush_loop] in E. destruct (o_write s (x :: b)) as [s1 [n|]] eqn:W; [|discriminate].
    apply o_write_ok in W as (C & LE & P). specialize (P ltac:(discriminate)).
    assert (LD : (length (dropN n (x :: b)) <= fuel)%nat) by (pose proof (lenN_drop n (x :: b)) as D; unfold lenN in D; cbn [length] in *; lia).
    destruct (IH _ _ _ _ LD E) as [-> C']. split; [reflexivity|]. rewrite C', C, cput_app, take_drop. reflexivity.
Qed.
Definition held (b : option (list N)) : list N := match b with Some b => b | None => [] end.
Definition wabs (w : fwriter) : file * N * bool := cput (core (w_os w)) (held (w_buf w)).
Lemma fw_flush_ok w w' : fw_flush w = (w', true) -> core (w_os w') = wabs w /\ held (w_buf w') = [] /\ wabs w' = wabs w.
Proof.
  unfold fw_flush, wabs. destruct (w_buf w) as [b|] eqn:B.
  - unfold flush_buf. destruct (flush_loop (length b) (w_os w) b) as [[s b1] ok] eqn:F. intros E. injection E as <- ->. apply flush_ok in F as [-> C]; [|lia]. cbn [w_os w_buf held]. rewrite cput_nil. auto.
  - intros E. injection E as <-. rewrite B. cbn [held]. rewrite cput_nil. auto.
Qed.
Lemma core_seek s p : core (o_seek s p) = (o_data s, p, o_append s).
Proof. reflexivity. Qed.
Lemma fw_seek_ok w p w' : fw_seek w p = (w', true) -> wabs w' = fst (plain_step (wabs w) (OpSeek p)) /\ held (w_buf w') = [] /\ core (w_os w') = wabs w'.
Proof.
  unfold fw_seek. destruct (fw_flush w) as [w1 ok] eqn:F. destruct ok; [|discriminate]. intros E. injection E as <-. apply fw_flush_ok in F as (C & H & _).
  assert (A : wabs (mkFw (o_seek (w_os w1) p) (w_buf w1)) = core (o_seek (w_os w1) p)) by (unfold wabs; cbn [w_os w_buf]; rewrite H; apply cput_nil).
  rewrite A, <- C. cbn [w_os w_buf]. split; [reflexivity|auto].
Qed.
Lemma fw_pos_ok w w' n : fw_cur_pos w = (w', Some n) -> wabs w' = wabs w /\ core (w_os w') = wabs w' /\ n = snd (fst (wabs w)).
Proof.
  unfold fw_cur_pos. destruct (fw_flush w) as [w1 ok] eqn:F. destruct ok; [|discriminate]. intros E. injection E as <- <-. apply fw_flush_ok in F as (C & H & A).
  split; [exact A|]. split; [congruence|]. rewrite <- C. reflexivity.
Qed.
Lemma fw_write_ok w d w' : fw_write w d = (w', Some (lenN d)) -> wabs w' = cput (wabs w) d.
Proof.
  unfold fw_write, wabs. destruct (w_buf w) as [b|] eqn:B; cbn [held].
  - assert (F : forall s b1, (if CAP <? lenN b + lenN d then flush_buf (w_os w) b else (w_os w, b, true)) = (s, b1, true) -> cput (core s) b1 = cput (core (w_os w)) b /\ (CAP <= lenN d -> b1 = [])).
    { intros s b1 E. destruct (N.ltb_spec CAP (lenN b + lenN d)) as [L|L].
      - apply flush_ok in E as [-> C]; [|lia]. rewrite cput_nil. auto.
      - injection E as <- <-. split; [reflexivity|]. intros LE. assert (Z : lenN b = 0) by lia. apply lenN_0 in Z. exact Z. }
    destruct (if CAP <? lenN b + lenN d then flush_buf (w_os w) b else (w_os w, b, true)) as [[s b1] ok]. destruct ok; cbn [negb]; [|discriminate].
    destruct (F _ _ eq_refl) as [C NB]. destruct (N.leb_spec CAP (lenN d)) as [L|L].
    + destruct (o_write s d) as [s' [n|]] eqn:W; [|discriminate]. intros E. injection E as <- ->. apply o_write_ok in W as (C' & _). cbn [w_os w_buf held].
      rewrite (NB L) in *. rewrite cput_nil in *. rewrite C', C, take_all by lia. reflexivity.
    + intros E. injection E as <-. cbn [w_os w_buf held]. rewrite <- cput_app, C. reflexivity.
  - destruct (o_write (w_os w) d) as [s [n|]] eqn:W; [|discriminate]. intros E. injection E as <- ->. apply o_write_ok in W as (C & _). cbn [w_os w_buf held].
    rewrite !cput_nil, C, take_all by lia. reflexivity.
Qed.
Lemma read_core s n s' d : o_read s n = (s', d) -> d = sliceN (o_pos s) n (o_data s) /\ core s' = (o_data s, o_pos s + lenN d, o_append s).
Proof. unfold o_read. intros E. injection E as <- <-. split; reflexivity. Qed.
Lemma slice_short {A} p n (l : list A) : lenN (sliceN p n l) < n -> lenN l <= p + lenN (sliceN p n l).
Proof. rewrite lenN_slice. lia. Qed.
Lemma slice_end {A} p n (l : list A) : lenN l <= p -> sliceN p n l = [].
Proof. intros L. unfold sliceN. rewrite drop_all by exact L. apply take_nil. Qed.
Lemma slice_more {A} p n m (l : list A) : lenN (sliceN p n l) = n -> n <= m -> sliceN p n l ++ sliceN (p + n) (m - n) l = sliceN p m l.
Proof. intros L LE. rewrite <- slice_split. f_equal. lia. Qed.
Lemma fw_read_loop_ok t : forall w n got w' d, fw_read_loop t w n got = (w', Some d) ->
  forall f p app, wabs w = (f, p, app) -> 
  (t = O \/ n <= lenN got -> d = got /\ wabs w' = wabs w) /\
  (t <> O -> d = got ++ sliceN p (n - lenN got) f /\ wabs w' = (f, p + lenN (sliceN p (n - lenN got) f), app)).
Proof.
  induction t as [|t IH]; intros w n got w' d E f p app A; cbn [fw_read_loop] in E.
  - injection E as <- <-. split; [auto|congruence].
  - destruct (N.leb_spec n (lenN got)) as [L|L].
    + injection E as <- <-. split; [auto|]. intros _. replace (n - lenN got) with 0 by lia. unfold sliceN. rewrite take_0, app_nil_r, A. split; [reflexivity|]. rewrite lenN_nil, N.add_0_r. reflexivity.
    + split; [intros [X|X]; [discriminate|lia]|]. intros _. destruct (fw_flush w) as [w1 ok] eqn:F. destruct ok; [|discriminate]. apply fw_flush_ok in F as (C & H & _).
      destruct (o_read (w_os w1) (n - lenN got)) as [s d1] eqn:R. apply read_core in R as [D C1]. rewrite A in C. unfold core in C. injection C as C1a C1b C1c.
      rewrite C1a, C1b in D. assert (A1 : wabs (mkFw s (w_buf w1)) = (f, p + lenN d1, app)) by (unfold wabs; cbn [w_os w_buf]; rewrite H, cput_nil, C1, C1a, C1b, C1c; reflexivity).
      destruct (IH _ _ _ _ _ E _ _ _ A1) as [I1 I2]. rewrite <- D. destruct (N.le_gt_cases n (lenN (got ++ d1))) as [LE|GT].
      * destruct I1 as [-> ->]; [right; exact LE|]. auto.
      * rewrite lenN_app in GT. assert (EOF : lenN f <= p + lenN d1) by (rewrite D in *; apply slice_short; lia).
        destruct t as [|t]; [destruct I1 as [-> ->]; auto|]. destruct I2 as [-> ->]; [discriminate|]. rewrite slice_end by exact EOF. rewrite lenN_nil, app_nil_r, N.add_0_r. auto.
Qed.
Lemma slice_n0 {A} p (l : list A) : sliceN p 0 l = [].
Proof. reflexivity. Qed.
Lemma fw_step_ok w op w' r : fw_step w op = (w', r) -> whole op r -> plain_step (wabs w) op = (wabs w', r).
Proof.
  destruct op as [d|p|n|n| |]; cbn [fw_step whole].
  - destruct (fw_write w d) as [w1 x] eqn:W. intros E; injection E as <- <-. destruct x as [m|]; cbn [or_error]; [|discriminate]. intros E. injection E as ->. apply fw_write_ok in W. rewrite plain_write, W. reflexivity.
  - destruct (fw_seek w p) as [w1 ok] eqn:S. intros E; injection E as <- <-. destruct ok; [|congruence]. intros _. apply fw_seek_ok in S as (-> & _). destruct (wabs w) as [[f q] app]. reflexivity.
  - unfold fw_read. destruct (fw_read_loop READ_RETRIES w n []) as [w1 x] eqn:R. intros E; injection E as <- <-. destruct x as [d|]; [|congruence]. intros _.
    destruct (wabs w) as [[f p] app] eqn:A. destruct (fw_read_loop_ok _ _ _ _ _ _ R _ _ _ A) as [_ I]. destruct I as [-> ->]; [discriminate|]. rewrite lenN_nil, N.sub_0_r. reflexivity.
  - unfold fw_set_len. destruct (fw_flush w) as [w1 ok] eqn:F. destruct ok; intros E; injection E as <- <-; [|congruence]. intros _. apply fw_flush_ok in F as (C & H & _).
    unfold wabs at 2. cbn [w_os w_buf]. rewrite H, cput_nil, <- C. reflexivity.
  - destruct (fw_cur_pos w) as [w1 x] eqn:P. intros E; injection E as <- <-. destruct x as [n|]; cbn [or_error]; [|congruence]. intros _. apply fw_pos_ok in P as (-> & _ & ->). destruct (wabs w) as [[f q] app]. reflexivity.
  - unfold fw_size. destruct (fw_cur_pos w) as [w1 x] eqn:P. destruct x as [p|]; [|intros E; injection E as <- <-; congruence]. apply fw_pos_ok in P as (A1 & C1 & ->).
    destruct (fw_seek w1 _) as [w2 [|]] eqn:S2; [|intros E; injection E as <- <-; congruence]. destruct (fw_seek w2 _) as [w3 [|]] eqn:S3; intros E; injection E as <- <-; [|congruence]. intros _. cbn [or_error].
    apply fw_seek_ok in S2 as (A2 & _). apply fw_seek_ok in S3 as (A3 & _). rewrite A1 in *. destruct (wabs w) as [[f q] app]. cbn [plain_step fst snd] in *. rewrite A2 in A3. cbn [plain_step fst] in A3. rewrite A3.
    unfold core in C1. injection C1 as C1 _ _. rewrite C1. reflexivity.
Qed.
Lemma fw_run_ok l : forall w w' rs, fw_run w l = (w', rs) -> Forall2 whole l rs -> plain_run (wabs w) l = (wabs w', rs).
Proof.
  induction l as [|op l IH]; intros w w' rs E W; cbn [fw_run plain_run] in *.
  - injection E as <- <-. reflexivity.
  - destruct (fw_step w op) as [w1 r] eqn:S. destruct (fw_run w1 l) as [w2 rs2] eqn:R. injection E as <- <-. inversion W; subst.
    rewrite (fw_step_ok _ _ _ _ S) by assumption. rewrite (IH _ _ _ R) by assumption. reflexivity.
Qed.
Lemma fw_close_ok w f : fw_close w = (f, true) -> f = fst (fst (wabs w)).
Proof. unfold fw_close. destruct (fw_flush w) as [w1 ok] eqn:F. intros E; injection E as <- ->. apply fw_flush_ok in F as (C & _). rewrite <- C. reflexivity. Qed.
Lemma wabs_open append truncate buffered data answers : wabs (fw_open append truncate buffered data answers) = (if negb append && truncate then [] else data, 0, append).
Proof. unfold fw_open, wabs. destruct buffered; cbn [w_os w_buf held]; rewrite cput_nil; reflexivity. Qed.
Theorem fw_success append truncate buffered data answers l w rs f :
  fw_run (fw_open append truncate buffered data answers) l = (w, rs) -> Forall2 whole l rs -> fw_close w = (f, true) ->
  exists p, plain_run (if negb append && truncate then [] else data, 0, append) l = (f, p, append, rs).
Proof.
  intros R W C. apply fw_run_ok in R; [|exact W]. rewrite wabs_open in R. apply fw_close_ok in C. subst f. destruct (wabs w) as [[f p] app] eqn:A. exists p. rewrite R.
  assert (X : forall l s f p app rs, plain_run s l = (f, p, app, rs) -> app = snd s).
  { clear. induction l as [|op l IH]; intros [[f0 p0] app0] f p app rs E; cbn [plain_run] in E; [injection E as _ _ <- _; reflexivity|].
    destruct (plain_step (f0, p0, app0) op) as [s1 r] eqn:S. destruct (plain_run s1 l) as [[[f2 p2] app2] rs2] eqn:R. injection E as <- <- <- <-. apply IH in R. rewrite R.
    destruct op as [[|x d]| | | | |]; cbn in S; injection S as <- _; reflexivity. }
  apply X in R. rewrite R. reflexivity.
Qed.

(* with a system that takes everything, nothing fails *)
Lemma o_write_full s d : o_answers s = [] -> exists s', o_write s d = (s', Some (lenN d)) /\ o_answers s' = [].
Proof. intros A. unfold o_write. rewrite A. destruct d; eexists; split; reflexivity || exact A. Qed.
Lemma flush_full fuel : forall s b, (length b <= fuel)%nat -> o_answers s = [] -> exists s', flush_loop fuel s b = (s', [], true) /\ o_answers s' = [].
Proof.
  destruct fuel as [|fuel]; intros s b L A; (destruct b as [|x b]; [exists s; split; [reflexivity|exact A]|]); [cbn [length] in L; lia|].
  cbn [flush_loop]. destruct (o_write_full s (x :: b) A) as (s1 & -> & A1). rewrite drop_all by lia. exists s1. split; [|exact A1]. destruct fuel; reflexivity.
Qed.
Definition wgood (w : fwriter) : Prop := o_answers (w_os w) = [].
Lemma fw_flush_full w : wgood w -> exists w', fw_flush w = (w', true) /\ wgood w'.
Proof.
  unfold wgood, fw_flush. intros G. destruct (w_buf w) as [b|]; [|exists w; auto]. unfold flush_buf. destruct (flush_full (length b) (w_os w) b ltac:(lia) G) as (s & -> & A).
  eexists. split; [reflexivity|exact A].
Qed.
Lemma fw_seek_full w p : wgood w -> exists w', fw_seek w p = (w', true) /\ wgood w'.
Proof. intros G. unfold fw_seek. destruct (fw_flush_full w G) as (w1 & -> & G1). eexists. split; [reflexivity|exact G1]. Qed.
Lemma fw_write_full w d : wgood w -> exists w', fw_write w d = (w', Some (lenN d)) /\ wgood w'.
Proof.
  intros G. unfold fw_write. destruct (w_buf w) as [b|].
  - assert (F : exists s b1, (if CAP <? lenN b + lenN d then flush_buf (w_os w) b else (w_os w, b, true)) = (s, b1, true) /\ o_answers s = []).
    { destruct (CAP <? lenN b + lenN d); [|exists (w_os w), b; auto]. unfold flush_buf. destruct (flush_full (length b) (w_os w) b ltac:(lia) G) as (s & -> & A). exists s, []. auto. }
    destruct F as (s & b1 & -> & A). cbn [negb]. destruct (CAP <=? lenN d); [|eexists; split; [reflexivity|exact A]].
    destruct (o_write_full s d A) as (s' & -> & A'). eexists. split; [reflexivity|exact A'].
  - destruct (o_write_full (w_os w) d G) as (s & -> & A). eexists. split; [reflexivity|exact A].
Qed.
Lemma fw_read_full t : forall w n got, wgood w -> exists w' d, fw_read_loop t w n got = (w', Some d) /\ wgood w'.
Proof.
  induction t as [|t IH]; intros w n got G; cbn [fw_read_loop]; [eauto|]. destruct (n <=? lenN got); [eauto|].
  destruct (fw_flush_full w G) as (w1 & -> & G1). destruct (o_read (w_os w1) (n - lenN got)) as [s d] eqn:R. apply IH. unfold o_read in R. injection R as <- <-. exact G1.
Qed.
Lemma fw_step_full w op : wgood w -> exists w' r, fw_step w op = (w', r) /\ whole op r /\ wgood w'.
Proof.
  intros G. destruct op as [d|p|n|n| |]; cbn [fw_step whole].
  - destruct (fw_write_full w d G) as (w1 & -> & G1). eexists _, _. split; [reflexivity|]. auto.
  - destruct (fw_seek_full w p G) as (w1 & -> & G1). eexists _, _. split; [reflexivity|]. split; [discriminate|auto].
  - unfold fw_read. destruct (fw_read_full READ_RETRIES w n [] G) as (w1 & d & -> & G1). eexists _, _. split; [reflexivity|]. split; [discriminate|auto].
  - unfold fw_set_len. destruct (fw_flush_full w G) as (w1 & -> & G1). eexists _, _. split; [reflexivity|]. split; [discriminate|exact G1].
  - unfold fw_cur_pos. destruct (fw_flush_full w G) as (w1 & -> & G1). eexists _, _. split; [reflexivity|]. split; [discriminate|exact G1].
  - unfold fw_size, fw_cur_pos. destruct (fw_flush_full w G) as (w1 & -> & G1). destruct (fw_seek_full w1 (lenN (o_data (w_os w1))) G1) as (w2 & -> & G2). destruct (fw_seek_full w2 (o_pos (w_os w1)) G2) as (w3 & -> & G3).
    eexists _, _. split; [reflexivity|]. split; [discriminate|exact G3].
Qed.
Lemma fw_run_full l : forall w, wgood w -> exists w' rs, fw_run w l = (w', rs) /\ Forall2 whole l rs /\ wgood w'.
Proof.
  induction l as [|op l IH]; intros w G; cbn [fw_run]; [exists w, []; auto|]. destruct (fw_step_full w op G) as (w1 & r & -> & W & G1). destruct (IH w1 G1) as (w2 & rs & -> & W2 & G2).
  eexists _, _. split; [reflexivity|]. auto.
Qed.

(* ---- FileReader ---- *)
Lemma drop_slice {A} n p m (l : list A) : dropN n (sliceN p m l) = sliceN (p + n) (lenN (sliceN p m l) - n) l.
Proof.
  rewrite lenN_slice. unfold sliceN. rewrite drop_take, drop_drop. destruct (N.le_ge_cases m (lenN l - p)) as [L|L].
  - rewrite N.min_l by lia. reflexivity.
  - rewrite N.min_r by lia. rewrite !take_all; [reflexivity|rewrite lenN_drop; lia|rewrite lenN_drop; lia].
Qed.
Definition rinv (r : freader) : Prop := lenN (held (r_buf r)) <= o_pos (r_os r) /\ o_append (r_os r) = false /\
  held (r_buf r) = sliceN (o_pos (r_os r) - lenN (held (r_buf r))) (lenN (held (r_buf r))) (o_data (r_os r)).
Definition rabs (r : freader) : file * N * bool := (o_data (r_os r), o_pos (r_os r) - lenN (held (r_buf r)), false).
Lemma rinv_empty r : held (r_buf r) = [] -> o_append (r_os r) = false -> rinv r.
Proof. intros H A. unfold rinv. rewrite H, lenN_nil. split; [lia|]. split; [exact A|]. reflexivity. Qed.
Lemma rabs_empty r : held (r_buf r) = [] -> rabs r = (o_data (r_os r), o_pos (r_os r), false).
Proof. intros H. unfold rabs. rewrite H, lenN_nil, N.sub_0_r. reflexivity. Qed.
(* a read with nothing in the buffer gets all there is *)
Lemma fr_read1_empty r n r' d f p : rinv r -> held (r_buf r) = [] -> rabs r = (f, p, false) -> fr_read1 r n = (r', d) ->
  d = sliceN p n f /\ rinv r' /\ rabs r' = (f, p + lenN d, false) /\ (lenN d < n -> held (r_buf r') = []).
Proof.
  intros (_ & AP & _) H A E. rewrite rabs_empty in A by exact H. injection A as A1 A2. unfold fr_read1 in E.
  assert (DIRECT : forall b, held b = [] -> (let (s, d) := o_read (r_os r) n in (mkFr s b, d)) = (r', d) -> d = sliceN p n f /\ rinv r' /\ rabs r' = (f, p + lenN d, false) /\ (lenN d < n -> held (r_buf r') = [])).
  { intros b HB X. destruct (o_read (r_os r) n) as [s d1] eqn:R. injection X as <- <-. apply read_core in R as [D C]. unfold core in C. injection C as C1 C2 C3. rewrite A1, A2 in *.
    split; [exact D|]. split; [apply rinv_empty; cbn; congruence|]. split; [|intros _; exact HB]. rewrite rabs_empty by exact HB. cbn. congruence. }
  destruct (r_buf r) as [b|] eqn:B; cbn [held] in H; [|apply (DIRECT None); [reflexivity|exact E]]. subst b.
  destruct (N.leb_spec CAP n) as [L|L]; [apply (DIRECT (Some [])); [reflexivity|exact E]|].
  destruct (o_read (r_os r) CAP) as [s d1] eqn:R. injection E as <- <-. apply read_core in R as [D C]. unfold core in C. injection C as C1 C2 C3. rewrite A1, A2 in *.
  assert (T : takeN n d1 = sliceN p n f) by (rewrite D; unfold sliceN; rewrite take_take, N.min_l by lia; reflexivity).
  assert (LD : lenN d1 = N.min CAP (lenN f - p)) by (rewrite D, lenN_slice; reflexivity). assert (LT : lenN (takeN n d1) = N.min n (lenN d1)) by apply lenN_take.
  split; [exact T|]. split; [|split].
  - unfold rinv. cbn [r_os r_buf held]. rewrite C1, C2, C3, lenN_drop. split; [lia|]. split; [exact AP|]. destruct (N.le_ge_cases n (lenN d1)) as [LE|GE].
    + replace (p + lenN d1 - (lenN d1 - n)) with (p + n) by lia. rewrite D at 1. rewrite drop_slice. rewrite <- D. reflexivity.
    + rewrite drop_all by lia. replace (lenN d1 - n) with 0 by lia. reflexivity.
  - unfold rabs. cbn [r_os r_buf held]. rewrite C1, C2, lenN_drop. f_equal. f_equal. lia.
  - intros S. cbn [r_buf held]. apply drop_all. lia.
Qed.
(* a read with something in the buffer takes from it *)
Lemma fr_read1_some r n r' d f p : rinv r -> held (r_buf r) <> [] -> rabs r = (f, p, false) -> fr_read1 r n = (r', d) ->
  d = sliceN p (lenN d) f /\ lenN d <= n /\ rinv r' /\ rabs r' = (f, p + lenN d, false) /\ (lenN d < n -> held (r_buf r') = []).
Proof.
  intros (LE & AP & HB) NE A E. unfold fr_read1 in E. unfold rabs in A. injection A as A1 A2. destruct (r_buf r) as [[|x b]|] eqn:B; cbn [held] in NE; try congruence. cbn [held] in *. remember (x :: b) as bb.
  assert (E' : (mkFr (r_os r) (Some (dropN n bb)), takeN n bb) = (r', d)) by (rewrite Heqbb in *; exact E). clear E. injection E' as <- <-. rewrite A1 in *. rewrite A2 in HB. rewrite lenN_take.
  split; [|split; [lia|split; [|split]]].
  - rewrite HB at 1. unfold sliceN. rewrite take_take. reflexivity.
  - unfold rinv. cbn [r_os r_buf held]. rewrite A1, lenN_drop. split; [lia|]. split; [exact AP|]. destruct (N.le_ge_cases n (lenN bb)) as [L|L].
    + replace (o_pos (r_os r) - (lenN bb - n)) with (p + n) by lia. rewrite HB at 1. unfold sliceN. rewrite drop_take, drop_drop. reflexivity.
    + rewrite drop_all by lia. replace (lenN bb - n) with 0 by lia. reflexivity.
  - unfold rabs. cbn [r_os r_buf held]. rewrite A1, lenN_drop. f_equal. f_equal. lia.
  - intros S. cbn [r_buf held]. apply drop_all. lia.
Qed.
Lemma fr_loop_empty t : forall r n got r' d f p, rinv r -> (held (r_buf r) = [] \/ n <= lenN got) -> rabs r = (f, p, false) -> fr_read_loop t r n got = (r', d) ->
  (t = O -> d = got /\ r' = r) /\ (t <> O -> d = got ++ sliceN p (n - lenN got) f /\ rinv r' /\ rabs r' = (f, p + lenN (sliceN p (n - lenN got) f), false)).
Proof.
  induction t as [|t IH]; intros r n got r' d f p I HB A E; cbn [fr_read_loop] in E; [injection E as <- <-; split; [auto|congruence]|].
  split; [discriminate|intros _]. destruct (N.leb_spec n (lenN got)) as [L|L].
  - injection E as <- <-. replace (n - lenN got) with 0 by lia. rewrite slice_n0, lenN_nil, app_nil_r, N.add_0_r. auto.
  - destruct HB as [HB|]; [|lia]. destruct (fr_read1 r (n - lenN got)) as [r1 d1] eqn:R. destruct (fr_read1_empty _ _ _ _ _ _ I HB A R) as (D & I1 & A1 & H1).
    rewrite <- D. assert (LD : lenN d1 <= n - lenN got) by (rewrite D, lenN_slice; lia).
    destruct (IH r1 n (got ++ d1) r' d f (p + lenN d1) I1) as [X0 X1]; [rewrite lenN_app; destruct (N.lt_ge_cases (lenN d1) (n - lenN got)); [left; auto|right; lia]|exact A1|exact E|].
    destruct t as [|t]; [destruct X0 as [-> ->]; auto|]. destruct X1 as (-> & I2 & A2); [discriminate|].
    assert (Z : sliceN (p + lenN d1) (n - lenN (got ++ d1)) f = []).
    { rewrite lenN_app. destruct (N.lt_ge_cases (lenN d1) (n - lenN got)) as [S|S].
      - apply slice_end. rewrite D in S |- *. apply slice_short, S.
      - replace (n - (lenN got + lenN d1)) with 0 by lia. reflexivity. }
    rewrite Z in *. rewrite lenN_nil, N.add_0_r in A2. rewrite app_nil_r. auto.
Qed.
Lemma fr_read_ok r n r' d f p : rinv r -> rabs r = (f, p, false) -> fr_read r n = (r', d) ->
  d = sliceN p n f /\ rinv r' /\ rabs r' = (f, p + lenN d, false).
Proof.
  intros I A E. unfold fr_read in E. destruct (held (r_buf r)) as [|x b] eqn:HB.
  - destruct (fr_loop_empty _ _ _ _ _ _ _ _ I (or_introl HB) A E) as [_ X]. destruct X as (-> & I' & A'); [discriminate|]. rewrite lenN_nil, N.sub_0_r in *. auto.
  - change READ_RETRIES with (S 4) in E. cbn [fr_read_loop] in E. destruct (N.leb_spec n (lenN (@nil N))) as [L|L].
    + rewrite lenN_nil in L. injection E as <- <-. assert (n = 0) by lia. subst n. rewrite slice_n0, lenN_nil, N.add_0_r. auto.
    + rewrite lenN_nil, N.sub_0_r in *. destruct (fr_read1 r n) as [r1 d1] eqn:R. destruct (fr_read1_some _ _ _ _ _ _ I ltac:(congruence) A R) as (D & LE & I1 & A1 & H1).
      change (([] ++ d1)%list) with d1 in E. assert (HL : held (r_buf r1) = [] \/ n <= lenN d1) by (destruct (N.lt_ge_cases (lenN d1) n); [left; auto|right; lia]). destruct (fr_loop_empty 4 _ _ _ _ _ _ _ I1 HL A1 E) as [_ X]. destruct X as (-> & I' & A'); [discriminate|].
      assert (G : d1 ++ sliceN (p + lenN d1) (n - lenN d1) f = sliceN p n f). { rewrite D at 1. apply slice_more; [rewrite <- D; reflexivity|exact LE]. }
      split; [exact G|]. split; [exact I'|]. rewrite A'. rewrite lenN_app. f_equal. f_equal. lia.
Qed.
Lemma fr_seek_ok r p : rinv r -> rinv (fr_seek r p) /\ rabs (fr_seek r p) = (o_data (r_os r), p, false) /\ held (r_buf (fr_seek r p)) = [].
Proof.
  intros (_ & AP & _). assert (H : held (r_buf (fr_seek r p)) = []) by (unfold fr_seek; cbn [r_buf]; destruct (r_buf r); reflexivity).
  split; [apply rinv_empty; [exact H|exact AP]|]. split; [rewrite rabs_empty by exact H; reflexivity|exact H].
Qed.
Lemma fr_pos_ok r r' n : rinv r -> fr_cur_pos r = (r', n) -> rinv r' /\ rabs r' = rabs r /\ held (r_buf r') = [] /\ n = snd (fst (rabs r)).
Proof.
  intros I E. unfold fr_cur_pos in E. injection E as <- <-. destruct (fr_seek_ok r (o_pos (r_os r) - match r_buf r with None => 0 | Some b => lenN b end) I) as (I' & A & H).
  assert (EQ : match r_buf r with None => 0 | Some b => lenN b end = lenN (held (r_buf r))) by (destruct (r_buf r); reflexivity).
  split; [exact I'|]. split; [rewrite A, EQ; reflexivity|]. split; [exact H|]. rewrite EQ. reflexivity.
Qed.
Lemma fr_step_ok r op r' x : rinv r -> (forall n, op <> OpSetLen n) -> fr_step r op = (r', x) -> whole op x -> rinv r' /\ plain_step (rabs r) op = (rabs r', x).
Proof.
  intros I NS. destruct op as [d|p|n|n| |]; cbn [fr_step whole].
  - unfold fr_write. set (r1 := match r_buf r with None => r | Some _ => fst (fr_cur_pos r) end).
    assert (R1 : rinv r1 /\ rabs r1 = rabs r /\ held (r_buf r1) = []).
    { unfold r1. destruct (r_buf r) as [b|] eqn:B; [|rewrite B; auto]. destruct (fr_cur_pos r) as [r2 m] eqn:P. apply fr_pos_ok in P as (A1 & A2 & A3 & _); auto. }
    destruct R1 as (I1 & A1 & H1). destruct (o_write (r_os r1) d) as [s y] eqn:W. intros E; injection E as <- <-. destruct y as [m|]; cbn [or_error]; [|discriminate]. intros E; injection E as ->.
    apply o_write_ok in W as (C & _). rewrite take_all in C by lia. rewrite plain_write, <- A1. rewrite (rabs_empty r1 H1). destruct I1 as (_ & AP & _).
    unfold core in C. rewrite AP in C. split; [apply rinv_empty; [exact H1|cbn [r_os]; unfold cput in C; injection C as _ _ ->; reflexivity]|].
    rewrite (rabs_empty (mkFr s (r_buf r1)) H1). cbn [r_os]. rewrite <- C. unfold cput in C. injection C as _ _ X. rewrite X. reflexivity.
  - intros E; injection E as <- <-. intros _. destruct (fr_seek_ok r p I) as (I' & A & _). split; [exact I'|]. rewrite A. reflexivity.
  - destruct (fr_read r n) as [r1 d] eqn:R. intros E; injection E as <- <-. intros _. unfold rabs at 1. destruct (fr_read_ok _ _ _ _ _ _ I eq_refl R) as (-> & I' & A). split; [exact I'|]. rewrite A. reflexivity.
  - exfalso. apply (NS n). reflexivity.
  - destruct (fr_cur_pos r) as [r1 n] eqn:P. intros E; injection E as <- <-. intros _. apply fr_pos_ok in P as (I' & A & _ & ->); [|exact I]. split; [exact I'|]. rewrite A. reflexivity.
  - unfold fr_size. destruct (fr_cur_pos r) as [r1 p] eqn:P. intros E; injection E as <- <-. intros _. apply fr_pos_ok in P as (I1 & A1 & _ & ->); [|exact I].
    destruct (fr_seek_ok r1 (lenN (o_data (r_os r1))) I1) as (I2 & _). destruct (fr_seek_ok _ (snd (fst (rabs r))) I2) as (I3 & A3 & _). split; [exact I3|]. rewrite A3.
    assert (X : o_data (r_os r1) = o_data (r_os r)) by (unfold rabs in A1; injection A1 as X _; exact X). cbn [fr_seek r_os o_seek o_data]. rewrite X. reflexivity.
Qed.
Lemma fr_run_ok l : forall r r' xs, rinv r -> (forall n, ~ In (OpSetLen n) l) -> fr_run r l = (r', xs) -> Forall2 whole l xs -> plain_run (rabs r) l = (rabs r', xs).
Proof.
  induction l as [|op l IH]; intros r r' xs I NS E W; cbn [fr_run plain_run] in *; [injection E as <- <-; reflexivity|].
  destruct (fr_step r op) as [r1 x] eqn:S. destruct (fr_run r1 l) as [r2 xs2] eqn:R. injection E as <- <-. inversion W; subst.
  assert (N1 : forall n, op <> OpSetLen n) by (intros n ->; apply (NS n); left; reflexivity). assert (N2 : forall n, ~ In (OpSetLen n) l) by (intros n X; apply (NS n); right; exact X).
  destruct (fr_step_ok _ _ _ _ I N1 S ltac:(assumption)) as [I1 ->]. rewrite (IH _ _ _ I1 N2 R) by assumption. reflexivity.
Qed.
Theorem fr_success buffered data answers l r xs : (forall n, ~ In (OpSetLen n) l) ->
  fr_run (fr_open buffered data answers) l = (r, xs) -> Forall2 whole l xs -> exists p, plain_run (data, 0, false) l = (o_data (r_os r), p, false, xs).
Proof.
  intros NS E W. assert (H : held (r_buf (fr_open buffered data answers)) = []) by (destruct buffered; reflexivity).
  apply fr_run_ok in E; [|apply rinv_empty; [exact H|reflexivity]|exact NS|exact W]. rewrite (rabs_empty _ H) in E. exists (o_pos (r_os r) - lenN (held (r_buf r))). exact E.
Qed.
