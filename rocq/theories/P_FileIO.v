(* C45: what the file handles do, with and without their buffers. *)
From Verif Require Import M_Base M_FileIO S_FileIO L_Base L_File L_FileIO.

(* ---- whatever the system does: if every operation says it did all of it, and closing does too, all of it was done ---- *)
Theorem c45_writer_success append truncate buffered data answers l w rs f :
  fw_run (fw_open append truncate buffered data answers) l = (w, rs) -> Forall2 whole l rs -> fw_close w = (f, true) ->
  exists p, plain_run (if negb append && truncate then [] else data, 0, append) l = (f, p, append, rs).
Proof. apply fw_success. Qed.
Theorem c45_reader_success buffered data answers l r xs :
  (forall n, ~ In (OpSetLen n) l) -> fr_run (fr_open buffered data answers) l = (r, xs) -> Forall2 whole l xs ->
  exists p, plain_run (data, 0, false) l = (o_data (r_os r), p, false, xs).
Proof. apply fr_success. Qed.

(* ---- when the system takes all it is given, the buffer cannot be noticed ---- *)
Theorem c45_buffering_invisible append truncate buffered data l :
  let (w, rs) := fw_run (fw_open append truncate buffered data []) l in
  exists p, plain_run (if negb append && truncate then [] else data, 0, append) l = (fst (fw_close w), p, append, rs) /\ snd (fw_close w) = true.
Proof.
  destruct (fw_run_full l (fw_open append truncate buffered data [])) as (w & rs & E & W & G); [destruct buffered; reflexivity|]. rewrite E.
  destruct (fw_flush_full w G) as (w1 & F & _). assert (C : fw_close w = (o_data (w_os w1), true)) by (unfold fw_close; rewrite F; reflexivity).
  destruct (fw_success _ _ _ _ _ _ _ _ _ E W C) as [p P]. exists p. rewrite C. auto.
Qed.
Lemma fr_run_full l : forall r, o_answers (r_os r) = [] -> (forall n, ~ In (OpSetLen n) l) -> Forall2 whole l (snd (fr_run r l)).
Proof.
  induction l as [|op l IH]; intros r G NS; cbn [fr_run]; [constructor|].
  assert (X : exists r1 x, fr_step r op = (r1, x) /\ whole op x /\ o_answers (r_os r1) = []).
  { destruct op as [d|p|n|n| |]; cbn [fr_step whole].
    - unfold fr_write. set (r1 := match r_buf r with None => r | Some _ => fst (fr_cur_pos r) end). assert (G1 : o_answers (r_os r1) = []) by (unfold r1; destruct (r_buf r); exact G).
      destruct (o_write_full (r_os r1) d G1) as (s & -> & G2). eexists _, _. split; [reflexivity|]. split; [reflexivity|exact G2].
    - eexists _, _. split; [reflexivity|]. split; [discriminate|exact G].
    - assert (L : forall t r n got, o_answers (r_os r) = [] -> o_answers (r_os (fst (fr_read_loop t r n got))) = []).
      { clear. induction t as [|t IH]; intros r n got G; cbn [fr_read_loop]; [exact G|]. destruct (n <=? lenN got); [exact G|]. destruct (fr_read1 r (n - lenN got)) as [r1 d] eqn:R. apply IH.
        unfold fr_read1, o_read in R. destruct (r_buf r) as [[|x b]|]; [destruct (CAP <=? n - lenN got)| |]; injection R as <- _; exact G. }
      specialize (L READ_RETRIES r n [] G). unfold fr_read. destruct (fr_read_loop READ_RETRIES r n []) as [r1 d]. eexists _, _. split; [reflexivity|]. split; [discriminate|exact L].
    - exfalso. apply (NS n). left. reflexivity.
    - unfold fr_cur_pos. eexists _, _. split; [reflexivity|]. split; [discriminate|exact G].
    - unfold fr_size, fr_cur_pos. eexists _, _. split; [reflexivity|]. split; [discriminate|exact G]. }
  destruct X as (r1 & x & -> & W & G1). specialize (IH r1 G1 ltac:(intros n X; apply (NS n); right; exact X)). destruct (fr_run r1 l) as [r2 xs]. constructor; assumption.
Qed.
Theorem c45_reader_buffering_invisible buffered data l : (forall n, ~ In (OpSetLen n) l) ->
  let (r, xs) := fr_run (fr_open buffered data []) l in exists p, plain_run (data, 0, false) l = (o_data (r_os r), p, false, xs).
Proof.
  intros NS. pose proof (fr_run_full l (fr_open buffered data []) eq_refl NS) as W. destruct (fr_run (fr_open buffered data []) l) as [r xs] eqn:E. apply (c45_reader_success _ _ _ _ _ _ NS E W).
Qed.

(* ---- blocks written by a command ---- *)
(* Without a buffer, if the system writes all of a block or nothing of it: the file holds a prefix of the blocks, and all
   of them if the command reports success. *)
Lemma o_write_aon s d s' x : all_or_nothing (o_answers s) -> o_write s d = (s', x) ->
  all_or_nothing (o_answers s') /\ match x with Some n => n = lenN d | None => core s' = core s end.
Proof.
  intros A E. unfold o_write in E. destruct d as [|y d]; [injection E as <- <-; auto|]. destruct (o_answers s) as [|[k|] a] eqn:O.
  - injection E as <- <-. cbn [o_put o_answers]. split; [intros z []|reflexivity].
  - assert (A' : all_or_nothing a) by (intros z Z; apply A; right; exact Z). destruct (A (Some k) ltac:(left; reflexivity)) as [X|X]; [discriminate|]. injection X as ->. injection E as <- <-. split; [exact A'|reflexivity].
  - assert (A' : all_or_nothing a) by (intros z Z; apply A; right; exact Z). injection E as <- <-. split; [exact A'|reflexivity].
Qed.
Theorem c45_blocks_whole data answers l : all_or_nothing answers ->
  let (w, ok) := write_blocks (fw_open false false false data answers) l in
  exists done left, l = done ++ left /\ fw_close w = (written data done, true) /\ (ok = true -> left = []).
Proof.
  intros A. assert (G : forall l w, w_buf w = None -> o_append (w_os w) = false -> all_or_nothing (o_answers (w_os w)) ->
    let (w', ok) := write_blocks w l in exists done left, l = done ++ left /\ fw_close w' = (written (o_data (w_os w)) done, true) /\ (ok = true -> left = [])).
  { clear. induction l as [|[p d] l IH]; intros w B AP A; cbn [write_blocks].
    - exists [], []. unfold fw_close, fw_flush. rewrite B. auto.
    - unfold fw_seek, fw_flush. rewrite B. unfold fw_write. cbn [w_buf w_os]. rewrite B. destruct (o_write (o_seek (w_os w) p) d) as [s x] eqn:W. pose proof W as W0. apply o_write_aon in W as [A' X]; [|exact A]. destruct x as [n|].
      + subst n. apply o_write_ok in W0 as (C & _). rewrite take_all in C by lia. unfold core, o_seek in C. cbn [o_data o_pos o_append] in C. rewrite AP in C. unfold cput in C. injection C as C1 _ C3.
        specialize (IH (mkFw s None) eq_refl C3 A'). destruct (write_blocks (mkFw s None) l) as [w' ok]. destruct IH as (dn & lf & -> & E & K). exists ((p, d) :: dn), lf. split; [reflexivity|]. split; [|exact K].
        rewrite E. cbn [w_os]. rewrite C1. reflexivity.
      + exists [], ((p, d) :: l). split; [reflexivity|]. unfold fw_close, fw_flush. cbn [w_buf w_os]. unfold core in X. injection X as X1 _ _. rewrite X1. split; [reflexivity|discriminate]. }
  apply (G l (fw_open false false false data answers)); [reflexivity|reflexivity|exact A].
Qed.
(* With a buffer and blocks smaller than it, whatever the system does: if the command reports success and so does closing
   the file, every block is there. *)
Lemma fw_write_small w d w' n : lenN d < CAP -> w_buf w <> None -> fw_write w d = (w', Some n) -> n = lenN d /\ w_buf w' <> None.
Proof.
  intros L B E. unfold fw_write in E. destruct (w_buf w) as [b|]; [|congruence]. destruct (if CAP <? lenN b + lenN d then flush_buf (w_os w) b else (w_os w, b, true)) as [[s b1] ok].
  destruct ok; cbn [negb] in E; [|discriminate]. destruct (N.leb_spec CAP (lenN d)); [lia|]. injection E as <- <-. split; [reflexivity|discriminate].
Qed.
Theorem c45_blocks_buffered data answers l w f : Forall (fun x => lenN (snd x) < CAP) l ->
  write_blocks (fw_open false false true data answers) l = (w, true) -> fw_close w = (f, true) -> f = written data l.
Proof.
  intros S E C. apply fw_close_ok in C. subst f.
  assert (G : forall l w w', Forall (fun x => lenN (snd x) < CAP) l -> w_buf w <> None -> snd (wabs w) = false -> write_blocks w l = (w', true) -> fst (fst (wabs w')) = written (fst (fst (wabs w))) l).
  { clear. induction l as [|[p d] l IH]; intros w w' S B AP E; cbn [write_blocks] in E; [injection E as <-; reflexivity|]. inversion S as [|? ? S1 S2]; subst. cbn [snd] in S1.
    destruct (fw_seek w p) as [w1 ok] eqn:K. destruct ok; [|discriminate]. destruct (fw_write w1 d) as [w2 [n|]] eqn:W; [|discriminate].
    assert (B1 : w_buf w1 <> None). { unfold fw_seek, fw_flush in K. destruct (w_buf w) as [b|]; [|congruence]. destruct (flush_buf (w_os w) b) as [[s b1] [|]]; injection K as <-; discriminate. }
    destruct (fw_write_small _ _ _ _ S1 B1 W) as [-> B2]. apply fw_seek_ok in K as (K & _). apply fw_write_ok in W. destruct (wabs w) as [[f0 p0] app] eqn:A. cbn [snd] in AP. subst app. cbn [plain_step fst] in K.
    rewrite K in W. unfold cput in W. rewrite (IH _ _ S2 B2 ltac:(rewrite W; reflexivity) E). rewrite W. reflexivity. }
  assert (B0 : w_buf (fw_open false false true data answers) <> None) by discriminate. assert (A0 : snd (wabs (fw_open false false true data answers)) = false) by (rewrite wabs_open; reflexivity).
  rewrite (G l _ _ S B0 A0 E). rewrite wabs_open. reflexivity.
Qed.
(* What rescue does to the file of one UID when the system takes what it is given *)
Theorem c45_rescue_group data l : rescue_group data [] l = (data ++ concat l, true).
Proof.
  unfold rescue_group.
  assert (G : forall l w, wgood w -> snd (wabs w) = true -> exists w', append_blocks w l = (w', true) /\ wgood w' /\ fst (fst (wabs w')) = fst (fst (wabs w)) ++ concat l).
  { clear. induction l as [|d l IH]; intros w G AP; cbn [append_blocks concat]; [exists w; rewrite app_nil_r; auto|].
    destruct (fw_write_full w d G) as (w1 & W & G1). rewrite W. apply fw_write_ok in W. destruct (wabs w) as [[f p] app]. cbn [snd] in AP. subst app.
    destruct (IH w1 G1 ltac:(rewrite W; reflexivity)) as (w2 & -> & G2 & E). exists w2. split; [reflexivity|]. split; [exact G2|]. rewrite E, W. cbn [cput fst]. rewrite app_assoc. f_equal.
    apply list_ext_N; [rewrite lenN_file_write, lenN_app; destruct (N.eqb_spec (lenN d) 0); lia|]. intros i _. rewrite nthN_file_write, nthN_app.
    repeat match goal with |- context [N.leb ?x ?y] => destruct (N.leb_spec x y) | |- context [N.ltb ?x ?y] => destruct (N.ltb_spec x y) end; cbn [andb]; try lia; try reflexivity.
    rewrite (nthN_out f) by lia. rewrite (nthN_out d) by lia. reflexivity. }
  destruct (G l (fw_open true false true data []) eq_refl ltac:(rewrite wabs_open; reflexivity)) as (w & -> & GW & E). rewrite wabs_open in E. cbn [negb andb fst] in E. rewrite <- E. f_equal.
  destruct (fw_flush_full w GW) as (w1 & F & _). pose proof (fw_flush_ok _ _ F) as (C & _). unfold fw_close. rewrite F. rewrite <- C. reflexivity.
Qed.

(* ---- where the commands fall short: the length returned by a write is not looked at ---- *)
(* encode, decode, repair and update write without a buffer: a last block of which the disk takes 300 of 512 bytes is
   reported as written (finding F25) *)
Theorem c45_short_write_refuted : exists answers l w f,
  write_blocks (fw_open false true false [] answers) l = (w, true) /\ fw_close w = (f, true) /\ f <> written [] l.
Proof.
  set (l := [(0, repN 512 7); (512, repN 512 9)]).
  set (w := fst (write_blocks (fw_open false true false [] [None; Some 300]) l)).
  exists [None; Some 300], l, w, (fst (fw_close w)).
  split; [vm_compute; reflexivity|]. split; [vm_compute; reflexivity|].
  intros E. assert (L : lenN (fst (fw_close w)) = lenN (written [] l)) by (rewrite E; reflexivity). revert L. vm_compute. discriminate.
Qed.
(* rescue and sort write through a buffer and drop the writer without flushing it: a full disk is not noticed at all
   (finding F26); the log of rescue then goes past blocks which are nowhere *)
Theorem c45_close_refuted : exists data l, l <> [] /\ rescue_group data [Some 0] l = (data, true) /\ Forall (fun d => lenN d = 512) l.
Proof. exists [], [repN 512 7; repN 512 9]. split; [discriminate|]. split; [vm_compute; reflexivity|]. repeat constructor. Qed.
Theorem c45_sort_close_refuted : exists l w, write_blocks (fw_open false true true [] [None; Some 0]) l = (w, true) /\ snd (fw_close w) = false /\ fst (fw_close w) <> written [] l.
Proof.
  set (l := [(0, repN 512 7); (512, repN 512 9)]). set (w := fst (write_blocks (fw_open false true true [] [None; Some 0]) l)).
  exists l, w. split; [vm_compute; reflexivity|]. split; [vm_compute; reflexivity|].
  intros E. assert (L : lenN (fst (fw_close w)) = lenN (written [] l)) by (rewrite E; reflexivity). revert L. vm_compute. discriminate.
Qed.

(* ---- concrete cases ---- *)
(* a buffered writer: writes, a read of what is in the buffer, a position, a shortening, a write of more than the buffer *)
Definition ex_ops : list fop := [OpWrite [1; 2; 3; 4]; OpPos; OpSeek 1; OpRead 2; OpWrite [9]; OpSetLen 6; OpSize; OpWrite (repN 9000 5); OpPos].
Example c45_run : snd (fw_run (fw_open false true true [7; 7] []) ex_ops) =
    [GotLen 4; GotLen 4; GotDone; GotData [2; 3]; GotLen 1; GotDone; GotLen 6; GotLen 9000; GotLen 9004] /\
  takeN 6 (fst (fw_close (fst (fw_run (fw_open false true true [7; 7] []) ex_ops)))) = [1; 2; 3; 9; 5; 5].
Proof. vm_compute. split; reflexivity. Qed.
(* the hypotheses of c45_writer_success with a system that takes a few bytes at a time *)
Example c45_hypotheses : exists w rs f, fw_run (fw_open false false true [] [Some 2; Some 1; Some 1]) [OpWrite [1; 2; 3; 4]; OpSeek 1; OpWrite [8]] = (w, rs) /\
  Forall2 whole [OpWrite [1; 2; 3; 4]; OpSeek 1; OpWrite [8]] rs /\ fw_close w = (f, true) /\ f = [1; 8; 3; 4].
Proof.
  eexists _, _, _. split; [vm_compute; reflexivity|]. split; [|split; vm_compute; reflexivity].
  constructor; [reflexivity|]. constructor; [discriminate|]. constructor; [reflexivity|constructor].
Qed.
(* a buffered reader: reading across the end of its buffer, going back, writing in place, reading on *)
Definition ex_rops : list fop := [OpRead 8000; OpRead 500; OpPos; OpSeek 3; OpRead 2; OpWrite [1; 1]; OpRead 2; OpSize].
Example c45_reader_run : forall b, match snd (fr_run (fr_open b (repN 9000 7) []) ex_rops) with
  | [GotData a; GotData b; x; y; z; u; v; w] => (lenN a, lenN b, [x; y; z; u; v; w]) = (8000, 500, [GotLen 8500; GotDone; GotData [7; 7]; GotLen 2; GotData [7; 7]; GotLen 9000])
  | _ => False end.
Proof. intros [|]; vm_compute; reflexivity. Qed.
(* a disk that fills up after two blocks *)
Example c45_full_disk : let (w, ok) := write_blocks (fw_open false false false [] [None; None; Some 0]) [(0, [1; 2]); (2, [3; 4]); (4, [5; 6])] in
  ok = false /\ fw_close w = ([1; 2; 3; 4], true).
Proof. vm_compute. split; reflexivity. Qed.
Example c45_blocks_buffered_hypotheses : exists w f, write_blocks (fw_open false false true [] [Some 300; None; Some 10]) [(0, repN 512 7); (512, repN 512 9)] = (w, true) /\ fw_close w = (f, true).
Proof. eexists _, _. split; vm_compute; reflexivity. Qed.

Print Assumptions c45_writer_success.
Print Assumptions c45_reader_success.
Print Assumptions c45_buffering_invisible.
Print Assumptions c45_reader_buffering_invisible.
Print Assumptions c45_blocks_whole.
Print Assumptions c45_blocks_buffered.
Print Assumptions c45_rescue_group.
Print Assumptions c45_short_write_refuted.
Print Assumptions c45_close_refuted.
Print Assumptions c45_sort_close_refuted.
