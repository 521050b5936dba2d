(* C72: reading a file that the system hands out in pieces. *)
From Verif Require Import M_Base M_FileIO M_ReadIO S_ReadIO L_Base.

(* the bytes d stand at p in f *)
Definition here (f : file) (p : N) (d : list N) : Prop := dropN p f = d ++ dropN (p + lenN d) f.
Lemma here_slice f p m : here f p (sliceN p m f).
Proof.
  unfold here. rewrite lenN_slice. unfold sliceN. rewrite <- (take_drop m (dropN p f)) at 1. f_equal. rewrite drop_drop.
  destruct (N.le_gt_cases m (lenN f - p)) as [L|L]; [f_equal; lia|]. rewrite !drop_all by lia. reflexivity.
Qed.
Lemma here_split f p a b : here f p (a ++ b) <-> here f p a /\ here f (p + lenN a) b.
Proof.
  unfold here. rewrite lenN_app. split.
  - intro E. assert (E2 : dropN (p + lenN a) f = b ++ dropN (p + lenN a + lenN b) f).
    { rewrite <- drop_drop, E, <- app_assoc, drop_app_exact by reflexivity. f_equal. f_equal. lia. }
    split; [|exact E2]. rewrite E2, <- N.add_assoc, app_assoc. exact E.
  - intros [E1 E2]. rewrite E1, E2, <- app_assoc. do 3 f_equal. lia.
Qed.
Lemma here_is f p d : here f p d -> d = sliceN p (lenN d) f.
Proof. intro E. unfold sliceN. rewrite E. symmetry. apply take_app_exact. reflexivity. Qed.
Lemma here_len f p d : here f p d -> d = [] \/ p + lenN d <= lenN f.
Proof. intro E. destruct d as [|x d]; [left; reflexivity|right]. apply (f_equal lenN) in E. rewrite lenN_app, !lenN_drop in E. assert (1 <= lenN (x :: d)) by (unfold lenN; cbn [length]; lia). lia. Qed.
Lemma here_nil f p : here f p [].
Proof. unfold here. change (lenN []) with 0. rewrite N.add_0_r. reflexivity. Qed.
(* the handle stands before byte p of the file f *)
Definition in_buf (r : qreader) : list N := match q_buf r with None => [] | Some b => b end.
Definition stands (r : qreader) (f : file) (p : N) : Prop := y_data (q_sys r) = f /\ y_pos (q_sys r) = p + lenN (in_buf r) /\ here f p (in_buf r).
Definition more (r r1 : qreader) : Prop := incl (y_answers (q_sys r1)) (y_answers (q_sys r)).
(* one call of the system *)
Lemma y_read_ok s n : 1 <= n ->
  match y_read s n with
  | (s1, Some d) => y_data s1 = y_data s /\ y_pos s1 = y_pos s + lenN d /\ incl (y_answers s1) (y_answers s) /\
      exists m, d = sliceN (y_pos s) m (y_data s) /\ 1 <= m <= n /\ (m = n \/ exists k, In (Some k) (y_answers s) /\ k <= m)
  | (s1, None) => y_data s1 = y_data s /\ y_pos s1 = y_pos s /\ incl (y_answers s1) (y_answers s) /\ In None (y_answers s)
  end.
Proof.
  intro N1. unfold y_read, y_take, file_read. destruct (y_answers s) as [|[k|] a]; cbn [y_data y_pos y_answers].
  - repeat split; [apply incl_refl|]. exists n. split; [reflexivity|]. split; [lia|]. left. reflexivity.
  - repeat split; [apply incl_tl, incl_refl|]. exists (N.min n (N.max 1 k)). split; [reflexivity|]. split; [lia|]. destruct (N.le_gt_cases n (N.max 1 k)); [left; lia|]. right. exists k. split; [left; reflexivity|lia].
  - repeat split; [apply incl_tl, incl_refl|]. left. reflexivity.
Qed.
(* one call of the handle: all of it; or up to the end of the file; or the rest of the buffer; or a short piece *)
Definition outcome (r r1 : qreader) (f : file) (p n : N) (d : list N) : Prop :=
  lenN d = n \/ lenN f <= p + lenN d \/ (in_buf r <> [] /\ in_buf r1 = []) \/ (in_buf r1 = [] /\ exists k, In (Some k) (y_answers (q_sys r)) /\ k <= lenN d).
Lemma read1_ok r f p n : stands r f p -> 1 <= n ->
  match q_read1 r n with
  | (r1, Some d) => stands r1 f (p + lenN d) /\ more r r1 /\ here f p d /\ lenN d <= n /\ (d = [] -> lenN f <= p) /\ outcome r r1 f p n d
  | (r1, None) => stands r1 f p /\ more r r1 /\ In None (y_answers (q_sys r))
  end.
Proof.
  intros (D & B & HB) N1. unfold q_read1.
  assert (Direct : in_buf r = [] -> forall bf : option (list N), match bf with Some b => b | None => [] end = [] ->
    match (let (s, d) := y_read (q_sys r) n in (mkQr s bf, d)) with
    | (r1, Some d) => stands r1 f (p + lenN d) /\ more r r1 /\ here f p d /\ lenN d <= n /\ (d = [] -> lenN f <= p) /\ outcome r r1 f p n d
    | (r1, None) => stands r1 f p /\ more r r1 /\ In None (y_answers (q_sys r))
    end).
  { intros EB bf BF. rewrite EB in *. change (lenN []) with 0 in *. rewrite N.add_0_r in B.
    pose proof (y_read_ok (q_sys r) n N1) as Y. destruct (y_read (q_sys r) n) as [s [d|]]; destruct Y as (Y1 & Y2 & Y3 & Y).
    - destruct Y as (m & -> & M & S). rewrite D, B in *. unfold stands, more, outcome, in_buf. cbn [q_sys q_buf]. rewrite BF.
      split; [split; [exact Y1|split; [change (lenN []) with 0; lia|apply here_nil]]|]. split; [exact Y3|]. split; [apply here_slice|]. rewrite lenN_slice. split; [lia|].
      split. { intro E. apply (f_equal lenN) in E. rewrite lenN_slice in E. change (lenN []) with 0 in E. lia. }
      destruct (N.le_gt_cases m (lenN f - p)) as [L|L]; [|right; left; lia]. destruct S as [->|(k & K1 & K2)]; [left; lia|]. right. right. right. split; [reflexivity|]. exists k. split; [exact K1|lia].
    - unfold stands, more, in_buf. cbn [q_sys q_buf]. rewrite BF. split; [split; [congruence|split; [change (lenN []) with 0; lia|apply here_nil]]|]. split; [exact Y3|exact Y]. }
  destruct (q_buf r) as [[|x b]|] eqn:QB.
  - assert (EB : in_buf r = []) by (unfold in_buf; rewrite QB; reflexivity).
    destruct (N.leb_spec CAP n) as [C|C]; [apply (Direct EB (Some []) eq_refl)|]. clear Direct. rewrite EB in *. change (lenN []) with 0 in *. rewrite N.add_0_r in B.
    assert (CP : CAP = 8192) by reflexivity. pose proof (y_read_ok (q_sys r) CAP ltac:(lia)) as Y. destruct (y_read (q_sys r) CAP) as [s [d|]]; destruct Y as (Y1 & Y2 & Y3 & Y).
    + destruct Y as (m & E & M & S). rewrite D, B in *. assert (HD : here f p d) by (rewrite E; apply here_slice).
      assert (LD : lenN d = N.min m (lenN f - p)) by (rewrite E; apply lenN_slice). clear E. rewrite <- (take_drop n d) in HD. apply here_split in HD as [H1 H2].
      unfold stands, more, outcome, in_buf. cbn [q_sys q_buf]. rewrite QB.
      split; [split; [exact Y1|]; split; [rewrite Y2, lenN_take, lenN_drop; lia|exact H2]|]. split; [exact Y3|]. split; [exact H1|]. rewrite lenN_take. split; [lia|].
      split. { intro E. apply (f_equal lenN) in E. rewrite lenN_take in E. change (lenN []) with 0 in E. lia. }
      destruct (N.le_gt_cases n (lenN d)) as [L|L]; [left; lia|]. destruct (N.le_gt_cases m (lenN f - p)) as [L2|L2]; [|right; left; lia].
      right. right. right. split; [apply drop_all; lia|]. destruct S as [->|(k & K1 & K2)]; [lia|]. exists k. split; [exact K1|lia].
    + unfold stands, more, in_buf. cbn [q_sys q_buf]. split; [split; [congruence|split; [change (lenN []) with 0; lia|apply here_nil]]|]. split; [exact Y3|exact Y].
  - clear Direct. assert (EB : in_buf r = x :: b) by (unfold in_buf; rewrite QB; reflexivity). rewrite EB in *. remember (x :: b) as c eqn:EC.
    assert (LC : 1 <= lenN c) by (rewrite EC; unfold lenN; cbn [length]; lia).
    pose proof HB as HB0. rewrite <- (take_drop n c) in HB. apply here_split in HB as [H1 H2].
    unfold stands, more, outcome. rewrite EB. unfold in_buf. cbn [q_sys q_buf]. split; [split; [exact D|]; split; [rewrite B, lenN_take, lenN_drop; lia|exact H2]|]. split; [apply incl_refl|]. split; [exact H1|].
    rewrite lenN_take. split; [lia|]. split. { intro E. apply (f_equal lenN) in E. rewrite lenN_take in E. change (lenN []) with 0 in E. lia. }
    destruct (N.le_gt_cases n (lenN c)) as [L|L]; [left; lia|]. right. right. left. split; [rewrite EC; discriminate|]. apply drop_all. lia.
  - apply (Direct ltac:(unfold in_buf; rewrite QB; reflexivity) None eq_refl).
Qed.
Lemma loop_done t r n got : n <= lenN got -> q_read_loop t r n got = (r, Some got).
Proof. intro L. destruct t; [reflexivity|]. cbn [q_read_loop]. destruct (N.ltb_spec (lenN got) n); [lia|reflexivity]. Qed.
Lemma loop_ok : forall t r f p n got, stands r f p ->
  match q_read_loop t r n got with
  | (r1, Some e) => exists d, e = got ++ d /\ stands r1 f (p + lenN d) /\ more r r1 /\ here f p d /\ (lenN got <= n -> lenN e <= n) /\ (t <> O -> lenN got < n -> d = [] -> lenN f <= p)
  | (r1, None) => (exists q, p <= q /\ stands r1 f q) /\ more r r1
  end.
Proof.
  induction t as [|t IH]; intros r f p n got ST; cbn [q_read_loop].
  { exists []. rewrite app_nil_r. change (lenN []) with 0. rewrite N.add_0_r. split; [reflexivity|]. split; [exact ST|]. split; [apply incl_refl|]. split; [apply here_nil|]. split; [auto|intro Z; congruence]. }
  destruct (N.ltb_spec (lenN got) n) as [L|L].
  2:{ exists []. rewrite app_nil_r. change (lenN []) with 0. rewrite N.add_0_r. split; [reflexivity|]. split; [exact ST|]. split; [apply incl_refl|]. split; [apply here_nil|]. split; [auto|intros _ Z; lia]. }
  pose proof (read1_ok r f p (n - lenN got) ST ltac:(lia)) as R. destruct (q_read1 r (n - lenN got)) as [r1 [d|]].
  - destruct R as (S1 & M1 & H1 & L1 & E1 & _). specialize (IH r1 f (p + lenN d) n (got ++ d) S1). destruct (q_read_loop t r1 n (got ++ d)) as [r2 [e|]].
    + destruct IH as (d' & -> & S2 & M2 & H2 & L2 & _). exists (d ++ d'). rewrite lenN_app. split; [symmetry; apply app_assoc|]. split; [rewrite N.add_assoc; exact S2|].
      split; [exact (incl_tran M2 M1)|]. split; [apply here_split; split; assumption|]. split; [intro; apply L2; rewrite lenN_app; lia|].
      intros _ _ E. apply app_eq_nil in E as [-> _]. apply E1. reflexivity.
    + destruct IH as ((q & Q & S2) & M2). split; [|exact (incl_tran M2 M1)]. exists q. split; [lia|exact S2].
  - destruct R as (S1 & M1 & _). split; [|exact M1]. exists p. split; [lia|exact S1].
Qed.
(* with pieces of at least K bytes *)
Lemma loop_end t r f p n got : stands r f p -> ~ In None (y_answers (q_sys r)) -> lenN f <= p ->
  exists r1, q_read_loop t r n got = (r1, Some got) /\ stands r1 f p /\ more r r1.
Proof.
  revert r. induction t as [|t IH]; intros r ST NE L; cbn [q_read_loop]; [exists r; split; [reflexivity|split; [exact ST|apply incl_refl]]|].
  destruct (N.ltb_spec (lenN got) n) as [L'|L']; [|exists r; split; [reflexivity|split; [exact ST|apply incl_refl]]].
  pose proof (read1_ok r f p (n - lenN got) ST ltac:(lia)) as R. destruct (q_read1 r (n - lenN got)) as [r1 [d|]]; [|destruct R as (_ & _ & R); contradiction].
  destruct R as (S1 & M1 & H1 & _). assert (d = []) as ->. { apply here_len in H1 as [H1|H1]; [exact H1|]. destruct d; [reflexivity|]. unfold lenN in *. cbn [length] in *. lia. }
  rewrite app_nil_r. change (lenN []) with 0 in S1. rewrite N.add_0_r in S1. destruct (IH r1 S1 (fun I => NE (M1 _ I)) L) as (r2 & E & S2 & M2). exists r2. split; [exact E|]. split; [exact S2|exact (incl_tran M2 M1)].
Qed.
Definition enough (K : N) (r : qreader) : Prop := forall a, In a (y_answers (q_sys r)) -> exists k, a = Some k /\ K <= k.
Lemma enough_no K r : enough K r -> ~ In None (y_answers (q_sys r)).
Proof. intros E I. destruct (E _ I) as (k & Q & _). discriminate. Qed.
Lemma loop_pieces K : forall t r f p n got, stands r f p -> enough K r -> in_buf r = [] -> n - lenN got <= N.of_nat t * K -> lenN got <= n ->
  exists r1 d, q_read_loop t r n got = (r1, Some (got ++ d)) /\ stands r1 f (p + lenN d) /\ more r r1 /\ here f p d /\ (lenN (got ++ d) = n \/ lenN (got ++ d) <= n /\ lenN f <= p + lenN d).
Proof.
  induction t as [|t IH]; intros r f p n got ST EN EB LT LG.
  { exists r, []. rewrite app_nil_r. change (lenN []) with 0. rewrite N.add_0_r. split; [reflexivity|]. split; [exact ST|]. split; [apply incl_refl|]. split; [apply here_nil|]. left. lia. }
  destruct (N.le_gt_cases n (lenN got)) as [L|L].
  { exists r, []. rewrite app_nil_r, loop_done by exact L. change (lenN []) with 0. rewrite N.add_0_r. split; [reflexivity|]. split; [exact ST|]. split; [apply incl_refl|]. split; [apply here_nil|]. left. lia. }
  cbn [q_read_loop]. destruct (N.ltb_spec (lenN got) n) as [_|L']; [|lia].
  pose proof (read1_ok r f p (n - lenN got) ST ltac:(lia)) as R. destruct (q_read1 r (n - lenN got)) as [r1 [d|]]; [|destruct R as (_ & _ & R); destruct (enough_no K r EN R)].
  destruct R as (S1 & M1 & H1 & L1 & _ & O). assert (EN1 : enough K r1) by (intros a I; apply EN, M1, I).
  destruct O as [O|[O|[[O _]|(O & k & K1 & K2)]]].
  - exists r1, d. rewrite loop_done by (rewrite lenN_app; lia). split; [reflexivity|]. split; [exact S1|]. split; [exact M1|]. split; [exact H1|]. left. rewrite lenN_app. lia.
  - destruct (loop_end t r1 f (p + lenN d) n (got ++ d) S1 (enough_no K r1 EN1) O) as (r2 & E & S2 & M2). exists r2, d. split; [exact E|]. split; [exact S2|]. split; [exact (incl_tran M2 M1)|]. split; [exact H1|]. right. rewrite lenN_app. lia.
  - congruence.
  - destruct (EN _ K1) as (k' & Q & KK). injection Q as <-.
    destruct (IH r1 f (p + lenN d) n (got ++ d) S1 EN1 O) as (r2 & d2 & E & S2 & M2 & H2 & F2); [rewrite lenN_app; lia|rewrite lenN_app; lia|].
    exists r2, (d ++ d2). rewrite E, <- app_assoc, lenN_app. split; [reflexivity|]. split; [rewrite N.add_assoc; exact S2|]. split; [exact (incl_tran M2 M1)|].
    split; [apply here_split; split; assumption|]. rewrite <- app_assoc in F2. rewrite N.add_assoc. exact F2.
Qed.
Lemma read_pieces K r f p n : stands r f p -> enough K r -> n <= 4 * K ->
  exists r1, q_read r n = (r1, Some (sliceN p n f, lenN (sliceN p n f) <? n)) /\ stands r1 f (p + lenN (sliceN p n f)) /\ more r r1.
Proof.
  intros ST EN NK. unfold q_read, READ_RETRIES.
  assert (G : exists r1 d, q_read_loop 5 r n [] = (r1, Some d) /\ stands r1 f (p + lenN d) /\ more r r1 /\ here f p d /\ (lenN d = n \/ lenN d <= n /\ lenN f <= p + lenN d)).
  { destruct (in_buf r) as [|x b] eqn:EB.
    - destruct (loop_pieces K 5 r f p n [] ST EN EB) as (r1 & d & E); [change (lenN []) with 0; lia|apply N.le_0_l|]. exists r1, d. exact E.
    - destruct (N.eq_dec n 0) as [->|NZ].
      { exists r, []. rewrite loop_done by apply N.le_0_l. change (lenN []) with 0. rewrite N.add_0_r. split; [reflexivity|]. split; [exact ST|]. split; [apply incl_refl|]. split; [apply here_nil|left; reflexivity]. }
      change (q_read_loop 5 r n []) with (if lenN (@nil N) <? n then match q_read1 r (n - lenN (@nil N)) with (r1, Some d) => q_read_loop 4 r1 n ([] ++ d) | (r1, None) => (r1, None) end else (r, Some [])).
      change (lenN []) with 0. destruct (N.ltb_spec 0 n) as [_|?]; [|lia]. rewrite N.sub_0_r.
      pose proof (read1_ok r f p n ST ltac:(lia)) as R. destruct (q_read1 r n) as [r1 [d|]]; [|destruct R as (_ & _ & R); destruct (enough_no K r EN R)].
      destruct R as (S1 & M1 & H1 & L1 & _ & O). assert (EN1 : enough K r1) by (intros a I; apply EN, M1, I). cbn [app].
      destruct O as [O|[O|O]].
      + exists r1, d. rewrite loop_done by lia. split; [reflexivity|]. split; [exact S1|]. split; [exact M1|]. split; [exact H1|left; exact O].
      + destruct (loop_end 4 r1 f (p + lenN d) n d S1 (enough_no K r1 EN1) O) as (r2 & E & S2 & M2). exists r2, d. split; [exact E|]. split; [exact S2|]. split; [exact (incl_tran M2 M1)|]. split; [exact H1|]. right. split; assumption.
      + assert (B1 : in_buf r1 = []) by (destruct O as [[_ O]|[O _]]; exact O).
        destruct (loop_pieces K 4 r1 f (p + lenN d) n d S1 EN1 B1) as (r2 & d2 & E & S2 & M2 & H2 & F2); [lia|exact L1|].
        exists r2, (d ++ d2). rewrite lenN_app in *. split; [exact E|]. split; [rewrite N.add_assoc; exact S2|]. split; [exact (incl_tran M2 M1)|]. split; [apply here_split; split; assumption|]. rewrite N.add_assoc. exact F2. }
  destruct G as (r1 & d & E & S1 & M1 & H1 & F). exists r1. rewrite E. pose proof (here_is _ _ _ H1) as ED. pose proof (here_len _ _ _ H1) as HL.
  assert (LS : lenN (sliceN p n f) = lenN d).
  { rewrite lenN_slice. destruct HL as [->|HL]; [change (lenN []) with 0 in *; lia|lia]. }
  assert (EQ : d = sliceN p n f).
  { rewrite ED, <- LS, lenN_slice. unfold sliceN. destruct (N.le_gt_cases n (lenN f - p)); [f_equal; lia|]. rewrite !take_all by (rewrite lenN_drop; lia). reflexivity. }
  rewrite LS. split; [|split; assumption]. rewrite <- EQ. reflexivity.
Qed.
Lemma seek_ok r f p q : stands r f p -> stands (q_seek r q) f q /\ more r (q_seek r q).
Proof.
  intros (D & _). unfold q_seek, stands, more, in_buf. cbn [q_sys q_buf y_data y_pos y_answers].
  split; [|apply incl_refl]. split; [exact D|]. destruct (q_buf r); (split; [change (lenN []) with 0; lia|apply here_nil]).
Qed.
Lemma pos_ok r f p : stands r f p -> exists r1, q_cur_pos r = (r1, p) /\ stands r1 f p /\ more r r1.
Proof.
  intro ST. pose proof ST as (_ & B & _). unfold q_cur_pos. replace (y_pos (q_sys r) - match q_buf r with None => 0 | Some b => lenN b end) with p.
  - eexists. split; [reflexivity|]. apply (seek_ok _ _ p). exact ST.
  - unfold in_buf in B. destruct (q_buf r); [lia|]. change (lenN []) with 0 in B. lia.
Qed.
Lemma size_ok r f p : stands r f p -> exists r1, q_size r = (r1, lenN f) /\ stands r1 f p /\ more r r1.
Proof.
  intro ST. unfold q_size. destruct (pos_ok r f p ST) as (r1 & -> & S1 & M1). rewrite (proj1 S1). eexists. split; [reflexivity|].
  destruct (seek_ok r1 f p (lenN f) S1) as [S2 M2]. destruct (seek_ok _ f _ p S2) as [S3 M3]. split; [exact S3|]. exact (incl_tran M3 (incl_tran M2 M1)).
Qed.
Lemma open_ok b f a : stands (q_open b f a) f 0.
Proof. destruct b; (split; [reflexivity|split; [reflexivity|apply here_nil]]). Qed.

(* Whatever the system does: no byte is made up, skipped or read twice. *)
Theorem c72_reads_are_true buffered f answers l r xs : q_run (q_open buffered f answers) l = (r, xs) -> true_results f 0 l xs.
Proof.
  generalize (open_ok buffered f answers). generalize (q_open buffered f answers), 0. clear buffered answers. revert r xs.
  induction l as [|op l IH]; intros r xs r0 p ST E; [injection E as _ <-; constructor|]. cbn [q_run] in E.
  destruct (q_step r0 op) as [r1 x] eqn:ES. destruct (q_run r1 l) as [r2 ys] eqn:ER. injection E as <- <-. destruct op as [n|q| |]; cbn [q_step] in ES.
  - unfold q_read in ES. pose proof (loop_ok READ_RETRIES r0 f p n [] ST) as L. destruct (q_read_loop READ_RETRIES r0 n []) as [r' [e|]].
    + destruct L as (d & ED & S1 & _ & H1 & L1 & E1). cbn [app] in ED. subst e. injection ES as <- <-. apply tr_read.
      * apply L1. apply N.le_0_l.
      * apply here_is, H1.
      * intro Z. destruct (N.eq_dec n 0) as [NZ|NZ]; [left; exact NZ|right]. apply E1; [discriminate| |exact Z]. change (lenN []) with 0. lia.
      * eapply IH; eassumption.
    + destruct L as ((q & Q & S1) & _). injection ES as <- <-. apply (tr_failed f p q); [exact Q|]. eapply IH; eassumption.
  - injection ES as <- <-. apply tr_seek. eapply IH; [|eassumption]. apply (seek_ok _ _ _ _ ST).
  - destruct (pos_ok r0 f p ST) as (r3 & Q & S1 & _). rewrite Q in ES. injection ES as <- <-. apply tr_pos. eapply IH; eassumption.
  - destruct (size_ok r0 f p ST) as (r3 & Q & S1 & _). rewrite Q in ES. injection ES as <- <-. apply tr_size. eapply IH; eassumption.
Qed.
Print Assumptions c72_reads_are_true.

(* If the system hands out at least a quarter of what is asked for each time, nothing is missing and the end is reported only at the end. *)
Theorem c72_large_pieces_complete_partial buffered f answers l : large_pieces answers l -> snd (q_run (q_open buffered f answers) l) = complete_results f 0 l.
Proof.
  intro LP. assert (LP' : large_pieces (y_answers (q_sys (q_open buffered f answers))) l) by exact LP. clear LP. revert LP'.
  generalize (open_ok buffered f answers). generalize (q_open buffered f answers), 0. clear buffered answers.
  induction l as [|op l IH]; intros r p ST LP; [reflexivity|]. cbn [q_run complete_results].
  assert (NX : forall r1, more r r1 -> large_pieces (y_answers (q_sys r1)) l).
  { intros r1 M a I. destruct (LP a (M _ I)) as (k & -> & Q). exists k. split; [reflexivity|]. intros n IN. apply Q. right. exact IN. }
  destruct op as [n|q| |]; cbn [q_step].
  - destruct (read_pieces ((n + 3) / 4) r f p n ST) as (r1 & E & S1 & M1).
    + intros a I. destruct (LP a I) as (k & -> & Q). exists k. split; [reflexivity|]. specialize (Q n (or_introl eq_refl)). apply N.lt_succ_r. apply N.div_lt_upper_bound; lia.
    + pose proof (N.mul_succ_div_gt (n + 3) 4 ltac:(lia)). lia.
    + rewrite E. destruct (q_run r1 l) as [r2 ys] eqn:ER. cbn [snd]. f_equal. pose proof (IH r1 _ S1 (NX r1 M1)) as J. rewrite ER in J. exact J.
  - destruct (seek_ok r f p q ST) as [S1 M1]. destruct (q_run (q_seek r q) l) as [r2 ys] eqn:ER. cbn [snd]. f_equal. pose proof (IH _ _ S1 (NX _ M1)) as J. rewrite ER in J. exact J.
  - destruct (pos_ok r f p ST) as (r1 & E & S1 & M1). rewrite E. destruct (q_run r1 l) as [r2 ys] eqn:ER. cbn [snd]. f_equal. pose proof (IH r1 _ S1 (NX r1 M1)) as J. rewrite ER in J. exact J.
  - destruct (size_ok r f p ST) as (r1 & E & S1 & M1). rewrite E. destruct (q_run r1 l) as [r2 ys] eqn:ER. cbn [snd]. f_equal. pose proof (IH r1 _ S1 (NX r1 M1)) as J. rewrite ER in J. exact J.
Qed.
Print Assumptions c72_large_pieces_complete_partial.

Lemma loop_exact : forall t r f p n got, stands r f p -> in_buf r = [] -> lenN got <= n -> p + (n - lenN got) <= lenN f ->
  match handed t (n - lenN got) (y_answers (q_sys r)) with
  | Some m => m <= n - lenN got /\ exists r1, q_read_loop t r n got = (r1, Some (got ++ sliceN p m f))
  | None => exists r1, q_read_loop t r n got = (r1, None)
  end.
Proof.
  induction t as [|t IH]; intros r f p n got ST EB LG LF; cbn [handed q_read_loop].
  { split; [lia|]. exists r. rewrite app_nil_r. reflexivity. }
  destruct (N.eqb_spec (n - lenN got) 0) as [Z|Z].
  { split; [lia|]. exists r. destruct (N.ltb_spec (lenN got) n); [lia|]. rewrite app_nil_r. reflexivity. }
  destruct (N.ltb_spec (lenN got) n) as [_|?]; [|lia]. set (w := n - lenN got) in *.
  pose proof ST as (D & B & _). rewrite EB in B. change (lenN []) with 0 in B. rewrite N.add_0_r in B.
  (* the call *)
  assert (C : match y_answers (q_sys r) with
    | [] => exists r1, q_read1 r w = (r1, Some (sliceN p w f))
    | None :: _ => exists r1, q_read1 r w = (r1, None)
    | Some k :: a => exists r1, q_read1 r w = (r1, Some (sliceN p (N.min w (N.max 1 k)) f)) /\ y_answers (q_sys r1) = a /\ (N.max 1 k < w -> in_buf r1 = [])
    end).
  { unfold q_read1. unfold in_buf in EB. destruct (q_buf r) as [[|x b]|]; [|discriminate EB|].
    - destruct (N.leb_spec CAP w) as [CW|CW]; unfold y_read, y_take, file_read; rewrite D, B; destruct (y_answers (q_sys r)) as [|[k|] a]; try (eexists; reflexivity).
      + eexists. split; [reflexivity|]. split; [reflexivity|]. intros _. reflexivity.
      + eexists. rewrite <- (N.min_l w CAP) at 3 by lia. unfold sliceN. rewrite take_take. reflexivity.
      + eexists. split; [unfold sliceN; rewrite take_take; replace (N.min w (N.min CAP (N.max 1 k))) with (N.min w (N.max 1 k)) by lia; reflexivity|]. split; [reflexivity|]. intro L. unfold in_buf. cbn [q_buf]. apply drop_all. rewrite lenN_take. lia.
    - unfold y_read, y_take, file_read; rewrite D, B; destruct (y_answers (q_sys r)) as [|[k|] a]; try (eexists; reflexivity).
      eexists. split; [reflexivity|]. split; [reflexivity|]. intros _. reflexivity. }
  pose proof (read1_ok r f p w ST ltac:(lia)) as R.
  destruct (y_answers (q_sys r)) as [|[k|] a].
  - destruct C as (r1 & C). rewrite C. split; [lia|]. exists r1. apply loop_done. rewrite lenN_app, lenN_slice. unfold w in *. lia.
  - destruct C as (r1 & C & CA & CB). rewrite C in *. destruct R as (S1 & _). set (m := N.min w (N.max 1 k)) in *.
    assert (LM : lenN (sliceN p m f) = m) by (rewrite lenN_slice; unfold m; lia). rewrite LM in S1.
    destruct (N.le_gt_cases w (N.max 1 k)) as [L|L].
    + assert (m = w) as -> by (unfold m; lia). rewrite N.sub_diag. assert (HZ : handed t 0 a = Some 0) by (destruct t; reflexivity). rewrite HZ. cbn [option_map]. rewrite N.add_0_r. split; [lia|]. exists r1. apply loop_done. rewrite lenN_app, LM. unfold w. lia.
    + specialize (CB L). assert (EW : n - lenN (got ++ sliceN p m f) = w - m) by (rewrite lenN_app, LM; unfold w; lia).
      specialize (IH r1 f (p + m) n (got ++ sliceN p m f) S1 CB). rewrite EW, CA in IH. specialize (IH ltac:(rewrite lenN_app, LM; unfold m, w in *; lia) ltac:(unfold m; lia)).
      destruct (handed t (w - m) a) as [m'|]; cbn [option_map].
      * destruct IH as (LE & r2 & E). split; [unfold m in *; lia|]. exists r2. rewrite E, slice_split, app_assoc. reflexivity.
      * exact IH.
  - destruct C as (r1 & C). rewrite C. exists r1. reflexivity.
Qed.
(* Exactly what is read, within the file: after a seek, at most five pieces, as large as the system likes. So all is read iff five calls are enough. *)
Theorem c72_read_exact buffered f answers l r xs p n : q_run (q_open buffered f answers) l = (r, xs) -> p + n <= lenN f ->
  snd (q_step (q_seek r p) (RRead n)) =
    match handed 5 n (y_answers (q_sys r)) with Some m => Bytes (sliceN p m f) (m <? n) | None => Failed end.
Proof.
  intros E LF. assert (ST : exists q, stands r f q).
  { revert E. generalize (open_ok buffered f answers). generalize (q_open buffered f answers), 0. clear buffered answers p n LF. revert xs.
    induction l as [|op l IH]; intros xs r0 p ST E; [injection E as <- _; eauto|]. cbn [q_run] in E.
    destruct (q_step r0 op) as [r1 x] eqn:ES. destruct (q_run r1 l) as [r2 ys] eqn:ER. injection E as <- _. destruct op as [n|q| |]; cbn [q_step] in ES.
    - unfold q_read in ES. pose proof (loop_ok READ_RETRIES r0 f p n [] ST) as L. destruct (q_read_loop READ_RETRIES r0 n []) as [r' [e|]].
      + destruct L as (d & _ & S1 & _). injection ES as <- _. eapply IH; eassumption.
      + destruct L as ((q & _ & S1) & _). injection ES as <- _. eapply IH; eassumption.
    - injection ES as <- _. eapply IH; [|eassumption]. apply (seek_ok _ _ _ _ ST).
    - destruct (pos_ok r0 f p ST) as (r3 & Q & S1 & _). rewrite Q in ES. injection ES as <- _. eapply IH; eassumption.
    - destruct (size_ok r0 f p ST) as (r3 & Q & S1 & _). rewrite Q in ES. injection ES as <- _. eapply IH; eassumption. }
  destruct ST as (q & ST). destruct (seek_ok r f q p ST) as [S1 _].
  assert (EB : in_buf (q_seek r p) = []) by (unfold in_buf, q_seek; cbn [q_buf]; destruct (q_buf r); reflexivity).
  pose proof (loop_exact 5 (q_seek r p) f p n [] S1 EB (N.le_0_l _)) as X. change (lenN []) with 0 in X. rewrite N.sub_0_r in X. specialize (X LF).
  change (y_answers (q_sys (q_seek r p))) with (y_answers (q_sys r)) in X. cbn [q_step]. unfold q_read, READ_RETRIES.
  destruct (handed 5 n (y_answers (q_sys r))) as [m|].
  - destruct X as (LM & r1 & X). rewrite X. cbn [app snd]. replace (lenN (sliceN p m f)) with m by (rewrite lenN_slice; lia). reflexivity.
  - destruct X as (r1 & X). rewrite X. reflexivity.
Qed.
Print Assumptions c72_read_exact.

(* But after five small pieces the end of the file is reported in the middle of it, without an error. *)
Theorem c72_small_pieces_refuted : exists f answers, ~ In None answers /\ lenN f = 512 /\
  forall buffered, snd (q_run (q_open buffered f answers) [RRead 512; RPos]) = [Bytes (takeN 5 f) true; Number 5].
Proof.
  exists (map (fun i => i mod 256) (rangeN 0 512)), (repeat (Some 1) 600). split; [intro I; apply repeat_spec in I; discriminate|]. split; [vm_compute; reflexivity|].
  intros []; vm_compute; reflexivity.
Qed.

(* cases: pieces of 200 and 129 bytes, reads of 512 and 128; one byte at a time with an error *)
Example c72_complete_ex : let f := map (fun i => i mod 256) (rangeN 0 700) in
  large_pieces [Some 200; Some 129] [RRead 512; RPos; RRead 128; RSeek 690; RRead 128; RSize] /\
  snd (q_run (q_open true f [Some 200; Some 129]) [RRead 512; RPos; RRead 128; RSeek 690; RRead 128; RSize])
    = [Bytes (takeN 512 f) false; Number 512; Bytes (sliceN 512 128 f) false; Moved; Bytes (dropN 690 f) true; Number 700].
Proof.
  split; [|vm_compute; reflexivity].
  intros a [<-|[<-|[]]]; eexists; (split; [reflexivity|]); intros n IN; cbn in IN; repeat (destruct IN as [Q|IN]; [try discriminate Q; injection Q as <-; lia|]); destruct IN.
Qed.
Example c72_error_ex : let f := map (fun i => i mod 256) (rangeN 0 700) in
  snd (q_run (q_open true f [Some 1; Some 2; None]) [RRead 2; RRead 4; RRead 4]) = [Bytes [0; 1] false; Failed; Bytes [3; 4; 5; 6] false].
Proof. vm_compute. reflexivity. Qed.
Example c72_exact_ex : handed 5 512 [Some 100; Some 100; Some 100; Some 100; Some 100; Some 100] = Some 500 /\ handed 5 512 [Some 100; Some 100; Some 100; Some 100; Some 112] = Some 512 /\
  handed 5 512 [Some 100; None] = None.
Proof. vm_compute. auto. Qed.
