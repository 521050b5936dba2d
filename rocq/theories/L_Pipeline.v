(* Threads in a ring: the order of moves does not matter, and one order leads to the end. *)
From Coq Require Import List Arith Bool Lia.
From Verif Require Import M_Pipeline.
Import ListNotations.
Local Open Scope nat_scope.

(* ---- lists ---- *)
Lemma upd_length {A} i (x : A) l : length (upd i x l) = length l.
Proof. revert i. induction l as [|a l IH]; intros [|i]; cbn; auto. Qed.
Lemma nth_upd_same {A} i (x d : A) l : i < length l -> nth i (upd i x l) d = x.
Proof. revert i. induction l as [|a l IH]; intros [|i] H; cbn in *; try lia; auto. apply IH. lia. Qed.
Lemma nth_upd_other {A} i j (x d : A) l : i <> j -> nth j (upd i x l) d = nth j l d.
Proof. revert i j. induction l as [|a l IH]; intros [|i] [|j] H; cbn in *; auto; try congruence. Qed.
Lemma nth_error_upd_other {A} i j (x : A) l : i <> j -> nth_error (upd i x l) j = nth_error l j.
Proof. revert i j. induction l as [|a l IH]; intros [|i] [|j] H; cbn in *; auto; try congruence. Qed.
Lemma upd_comm {A} i j (x y : A) l : i <> j -> upd i x (upd j y l) = upd j y (upd i x l).
Proof. revert i j. induction l as [|a l IH]; intros [|i] [|j] H; cbn in *; try congruence. f_equal. apply IH. lia. Qed.
Lemma upd_upd {A} i (x y : A) l : upd i x (upd i y l) = upd i x l.
Proof. revert i. induction l as [|a l IH]; intros [|i]; cbn; try congruence. Qed.
Lemma upd_out {A} i (x : A) l : length l <= i -> upd i x l = l.
Proof. revert i. induction l as [|a l IH]; intros [|i] H; cbn in *; try lia; auto. f_equal. apply IH. lia. Qed.
Lemma upd_app {A} (a b : list A) x y : upd (length a) x (a ++ y :: b) = a ++ x :: b.
Proof. induction a as [|z a IH]; cbn; [reflexivity|]. f_equal. exact IH. Qed.
Lemma nth_app_at {A} (a b : list A) y d : nth (length a) (a ++ y :: b) d = y.
Proof. induction a as [|z a IH]; cbn; auto. Qed.
Lemma nth_error_app_at {A} (a b : list A) y : nth_error (a ++ y :: b) (length a) = Some y.
Proof. induction a as [|z a IH]; cbn; auto. Qed.

Section Ring.
Variables (M St : Type) (n : nat) (cap : nat -> nat) (f : nat -> St -> M -> St * list M * bool).
Notation move := (move M St n cap f).
Notation step := (step M St n cap f).
Notation work := (work M St f).
Notation next := (next n).
Notation sys := (sys M St).
Notation thread := (thread M St).

Lemma next_inj i j : i < n -> j < n -> next i = next j -> i = j.
Proof. unfold M_Pipeline.next. intros. destruct (Nat.eqb_spec (S i) n), (Nat.eqb_spec (S j) n); lia. Qed.
Lemma next_lt i : i < n -> next i < n.
Proof. unfold M_Pipeline.next. intros. destruct (Nat.eqb_spec (S i) n); lia. Qed.
Definition shaped (s : sys) : Prop := length (s_threads s) = n /\ length (s_channels s) = n.
Lemma move_lt i s s' : shaped s -> move i s = Some s' -> i < n.
Proof.
  intros [L _]. unfold M_Pipeline.move. destruct (nth_error (s_threads s) i) eqn:E; [|discriminate]. intros _. rewrite <- L.
  apply nth_error_Some. congruence.
Qed.
Lemma move_shaped i s s' : shaped s -> move i s = Some s' -> shaped s'.
Proof.
  intros [L C]. unfold M_Pipeline.move. destruct (nth_error (s_threads s) i) as [[st ph]|]; [|discriminate]. destruct ph as [|[|x xs] k| |]; try discriminate.
  - destruct (nth i (s_channels s) []); [discriminate|]. destruct (work i st o) as [[st' xs] k]. intro E. injection E as <-. split; cbn; rewrite upd_length; assumption.
  - intro E. injection E as <-. split; cbn; rewrite ?upd_length; assumption.
  - destruct (_ <? _); [|discriminate]. intro E. injection E as <-. split; cbn; rewrite upd_length; assumption.
Qed.
(* Moves of different threads commute *)
Lemma nth_nonempty {A} i (l : list (list A)) x q : nth i l [] = x :: q -> i < length l.
Proof. intro E. destruct (Nat.lt_ge_cases i (length l)) as [H|H]; [exact H|]. rewrite nth_overflow in E by exact H. discriminate. Qed.
(* what a move reads and writes *)
Inductive effect (i : nat) : thread -> list (list (option M)) -> thread -> list (list (option M)) -> Prop :=
| e_recv st m q ch st' xs k : nth i ch [] = m :: q -> work i st m = (st', xs, k) -> effect i (mkThread st Ready) ch (mkThread st' (Sending xs k)) (upd i q ch)
| e_none st k ch : effect i (mkThread st (Sending [] k)) ch (mkThread st (if k then Ready else AtBarrier)) ch
| e_send st x xs k ch : length (nth (next i) ch []) < cap i ->
    effect i (mkThread st (Sending (x :: xs) k)) ch (mkThread st (Sending xs k)) (upd (next i) (nth (next i) ch [] ++ [x]) ch).
Lemma move_effect i s s' : move i s = Some s' <-> exists t t' ch', nth_error (s_threads s) i = Some t /\ effect i t (s_channels s) t' ch' /\ s' = mkSys (upd i t' (s_threads s)) ch'.
Proof.
  unfold M_Pipeline.move. split.
  - destruct (nth_error (s_threads s) i) as [[st ph]|]; [|discriminate]. destruct ph as [|[|x xs] k| |]; try discriminate.
    + destruct (nth i (s_channels s) []) as [|m q] eqn:E; [discriminate|]. destruct (work i st m) as [[st' xs] k] eqn:W. intro X. injection X as <-.
      eexists _, _, _. split; [reflexivity|]. split; [|reflexivity]. eapply e_recv; eassumption.
    + intro X. injection X as <-. eexists _, _, _. split; [reflexivity|]. split; [|reflexivity]. apply e_none.
    + destruct (Nat.ltb_spec (length (nth (next i) (s_channels s) [])) (cap i)) as [H|H]; [|discriminate]. intro X. injection X as <-.
      eexists _, _, _. split; [reflexivity|]. split; [|reflexivity]. apply e_send, H.
  - intros (t & t' & ch' & -> & E & ->). destruct E as [st m q ch st' xs k E W|st k ch|st x xs k ch H].
    + rewrite E, W. reflexivity.
    + reflexivity.
    + destruct (Nat.ltb_spec (length (nth (next i) ch [])) (cap i)); [reflexivity|lia].
Qed.
Lemma effect_det i t ch t1 c1 t2 c2 : effect i t ch t1 c1 -> effect i t ch t2 c2 -> t1 = t2 /\ c1 = c2.
Proof.
  intros E F. inversion E; subst; inversion F; subst; auto.
  match goal with A : nth i ch [] = _, B : nth i ch [] = _ |- _ => rewrite A in B; injection B as <- <- end.
  match goal with A : work i ?s ?m = _, B : work i ?s ?m = _ |- _ => rewrite A in B; injection B as <- <- <- end. auto.
Qed.
Lemma effect_comm i j ti tj ch ti' tj' ci cj : i < n -> j < n -> length ch = n -> i <> j ->
  effect i ti ch ti' ci -> effect j tj ch tj' cj -> exists c, effect j tj ci tj' c /\ effect i ti cj ti' c.
Proof.
  intros Hi Hj HL NE E F. pose proof (next_lt i Hi) as Ni. pose proof (next_lt j Hj) as Nj.
  assert (NN : next i <> next j) by (intro Q; apply NE; eapply next_inj; eassumption).
  destruct E as [st m q ch st' xs k E W|st k ch|st x xs k ch H];
  destruct F as [st2 m2 q2 ch st2' xs2 k2 E2 W2|st2 k2 ch|st2 x2 xs2 k2 ch H2].
  - exists (upd j q2 (upd i q ch)). split; [eapply e_recv; [rewrite nth_upd_other by exact NE; exact E2|exact W2]|].
    rewrite (upd_comm j i) by auto. eapply e_recv; [rewrite nth_upd_other by auto; exact E|exact W].
  - exists (upd i q ch). split; [apply e_none|eapply e_recv; eassumption].
  - (* i receives, j sends *) destruct (Nat.eq_dec i (next j)) as [Q|Q].
    + subst i. rewrite E in *. exists (upd (next j) (q ++ [x2]) ch). split.
      * replace (upd (next j) (q ++ [x2]) ch) with (upd (next j) (nth (next j) (upd (next j) q ch) [] ++ [x2]) (upd (next j) q ch)).
        -- apply e_send. rewrite nth_upd_same by lia. cbn in H2. lia.
        -- rewrite nth_upd_same by lia. apply upd_upd.
      * replace (upd (next j) (q ++ [x2]) ch) with (upd (next j) (q ++ [x2]) (upd (next j) ((m :: q) ++ [x2]) ch)) by apply upd_upd.
        eapply e_recv; [rewrite nth_upd_same by lia; reflexivity|exact W].
    + exists (upd (next j) (nth (next j) ch [] ++ [x2]) (upd i q ch)). split.
      * rewrite <- (nth_upd_other i (next j) q [] ch) by auto. apply e_send. rewrite nth_upd_other by auto. exact H2.
      * rewrite (upd_comm (next j) i) by auto. eapply e_recv; [rewrite nth_upd_other by auto; exact E|exact W].
  - exists (upd j q2 ch). split; [eapply e_recv; eassumption|apply e_none].
  - exists ch. split; apply e_none.
  - eexists. split; [apply e_send, H2|apply e_none].
  - (* i sends, j receives *) destruct (Nat.eq_dec j (next i)) as [Q|Q].
    + subst j. rewrite E2 in *. exists (upd (next i) (q2 ++ [x]) ch). split.
      * replace (upd (next i) (q2 ++ [x]) ch) with (upd (next i) (q2 ++ [x]) (upd (next i) ((m2 :: q2) ++ [x]) ch)) by apply upd_upd.
        eapply e_recv; [rewrite nth_upd_same by lia; reflexivity|exact W2].
      * replace (upd (next i) (q2 ++ [x]) ch) with (upd (next i) (nth (next i) (upd (next i) q2 ch) [] ++ [x]) (upd (next i) q2 ch)).
        -- apply e_send. rewrite nth_upd_same by lia. cbn in H. lia.
        -- rewrite nth_upd_same by lia. apply upd_upd.
    + exists (upd j q2 (upd (next i) (nth (next i) ch [] ++ [x]) ch)). split.
      * eapply e_recv; [rewrite nth_upd_other by auto; exact E2|exact W2].
      * rewrite (upd_comm j (next i)) by auto. rewrite <- (nth_upd_other j (next i) q2 [] ch) by auto. apply e_send. rewrite nth_upd_other by auto. exact H.
  - eexists. split; [apply e_none|apply e_send, H].
  - exists (upd (next j) (nth (next j) ch [] ++ [x2]) (upd (next i) (nth (next i) ch [] ++ [x]) ch)). split.
    + rewrite <- (nth_upd_other (next i) (next j) (nth (next i) ch [] ++ [x]) [] ch) at 1 by auto. apply e_send. rewrite nth_upd_other by auto. exact H2.
    + rewrite (upd_comm (next j) (next i)) by auto.
      rewrite <- (nth_upd_other (next j) (next i) (nth (next j) ch [] ++ [x2]) [] ch) at 1 by auto. apply e_send. rewrite nth_upd_other by auto. exact H.
Qed.
Lemma barrier_no_move s s' i s'' : release M St s = Some s' -> move i s = Some s'' -> False.
Proof.
  unfold release. destruct (forallb (at_barrier M St) (s_threads s)) eqn:E; [|discriminate]. intros _ F. apply move_effect in F as (t & t' & ch' & HT & EF & _).
  rewrite forallb_forall in E. apply nth_error_In in HT. specialize (E t HT). destruct EF; discriminate.
Qed.
Lemma diamond s a b : shaped s -> step s a -> step s b -> a = b \/ exists c, step a c /\ step b c.
Proof.
  intros SH SA SB. destruct SA as [i s a A|s a A]; destruct SB as [j s b B|s b B].
  - destruct (Nat.eq_dec i j) as [->|NE]; [left; congruence|right]. pose proof (move_lt _ _ _ SH A) as Hi. pose proof (move_lt _ _ _ SH B) as Hj.
    apply move_effect in A as (ti & ti' & ci & TI & EI & ->). apply move_effect in B as (tj & tj' & cj & TJ & EJ & ->).
    destruct (effect_comm i j ti tj (s_channels s) ti' tj' ci cj Hi Hj (proj2 SH) NE EI EJ) as (c & C1 & C2).
    exists (mkSys (upd j tj' (upd i ti' (s_threads s))) c). split.
    + apply (by_thread _ _ _ _ _ j). apply move_effect. exists tj, tj', c. cbn. split; [rewrite nth_error_upd_other by auto; exact TJ|]. auto.
    + apply (by_thread _ _ _ _ _ i). apply move_effect. exists ti, ti', c. cbn. split; [rewrite nth_error_upd_other by auto; exact TI|]. split; [exact C2|]. rewrite upd_comm by auto. reflexivity.
  - exfalso. eapply barrier_no_move; eassumption.
  - exfalso. eapply barrier_no_move; eassumption.
  - left. congruence.
Qed.
Lemma step_shaped s s' : shaped s -> step s s' -> shaped s'.
Proof.
  intros SH ST. destruct ST as [i s s' E|s s' E]; [eapply move_shaped; eassumption|]. unfold release in E. destruct (forallb _ _); [|discriminate]. injection E as <-.
  destruct SH as [A B]. split; cbn; [rewrite map_length; exact A|exact B].
Qed.
(* k steps *)
Inductive steps : nat -> sys -> sys -> Prop :=
| steps_0 s : steps 0 s s
| steps_S k s s' s'' : step s s' -> steps k s' s'' -> steps (S k) s s''.
Lemma steps_app a b s s' s'' : steps a s s' -> steps b s' s'' -> steps (a + b) s s''.
Proof. induction 1; [auto|]. intro. cbn. econstructor; eauto. Qed.
Definition stuck (s : sys) : Prop := forall s', ~ step s s'.
Lemma all_orders_1 k : forall s t s', shaped s -> steps k s t -> stuck t -> step s s' -> exists k', k = S k' /\ steps k' s' t.
Proof.
  induction k as [|k IH]; intros s t s' SH R ST S1; inversion R; subst.
  - exfalso. exact (ST _ S1).
  - match goal with A : step s ?x, B : steps k ?x t |- _ => rename A into SX; rename B into RX; rename x into y end.
    exists k. split; [reflexivity|]. destruct (diamond s s' y SH S1 SX) as [->|(c & C1 & C2)]; [exact RX|].
    destruct (IH y t c (step_shaped _ _ SH SX) RX ST C2) as (k' & -> & R'). econstructor; eassumption.
Qed.
Lemma all_orders m : forall k s t s', shaped s -> steps k s t -> stuck t -> steps m s s' -> exists j, k = m + j /\ steps j s' t.
Proof.
  induction m as [|m IH]; intros k s t s' SH R ST RM; inversion RM; subst.
  - exists k. auto.
  - match goal with A : step s ?x, B : steps m ?x s' |- _ => destruct (all_orders_1 k s t x SH R ST A) as (k' & -> & R'); destruct (IH k' x t s' (step_shaped _ _ SH A) R' ST B) as (j & -> & RJ) end.
    exists j. auto.
Qed.

(* ---- one schedule ---- *)
Definition th_of (g : stage M St) : thread := match g with (st, None) => mkThread st Ready | (st, Some _) => mkThread st AtBarrier end.
Definition ch_of (g : stage M St) : list (option M) := match snd g with None => [] | Some junk => junk end.
(* a message sent to the first of these stages, or to thread 0 if there is none *)
Definition pushed (gs : list (stage M St)) (q : list (option M)) (m : option M) : list (list (option M)) * list (option M) :=
  match gs with
  | [] => ([], q ++ [m])
  | g :: gs' => ((ch_of g ++ [m]) :: map ch_of gs', q)
  end.
Notation deliver := (deliver M St cap f).
Notation deliver_all := (deliver_all M St cap f).
Lemma deliver_unfold d j st gs q m : deliver (S d) j ((st, None) :: gs) q m =
  if 0 <? cap (pred j) then let '(st', xs, k) := work j st m in
    match deliver_all d (S j) xs gs q with Some (gs'', q') => Some ((st', if k then None else Some []) :: gs'', q') | None => None end
  else None.
Proof.
  cbn [M_Pipeline.deliver]. destruct (0 <? cap (pred j)); [|reflexivity]. destruct (work j st m) as [[st' xs] k].
  match goal with |- match ?a with _ => _ end = match ?b with _ => _ end => enough (E : a = b) by (rewrite E; reflexivity) end.
  revert gs q. induction xs as [|x xs IH]; intros gs q; [reflexivity|]. cbn [M_Pipeline.deliver_all]. destruct (deliver d (S j) gs q x) as [[g1 q1]|]; [apply IH|reflexivity].
Qed.
Definition reaches (s s' : sys) : Prop := exists k, steps k s s'.
Lemma reaches_refl s : reaches s s. Proof. exists 0. constructor. Qed.
Lemma reaches_trans a b c : reaches a b -> reaches b c -> reaches a c.
Proof. intros [k K] [l L]. exists (k + l). eapply steps_app; eassumption. Qed.
Lemma reaches_move i s s' : move i s = Some s' -> reaches s s'.
Proof. intro E. exists 1. econstructor; [eapply by_thread, E|constructor]. Qed.
Lemma deliver_length d : forall j gs q m gs' q', deliver d j gs q m = Some (gs', q') -> length gs' = length gs.
Proof.
  induction d as [|d IH]; intros j gs q m gs' q' E.
  - destruct gs as [|[st [junk|]] gs]; cbn [M_Pipeline.deliver] in E.
    + destruct (_ <? _); [|discriminate]. injection E as <- <-. reflexivity.
    + destruct (_ <? _); [|discriminate]. injection E as <- <-. reflexivity.
    + destruct (_ <? _); discriminate.
  - destruct gs as [|[st [junk|]] gs].
    + cbn [M_Pipeline.deliver] in E. destruct (_ <? _); [|discriminate]. injection E as <- <-. reflexivity.
    + cbn [M_Pipeline.deliver] in E. destruct (_ <? _); [|discriminate]. injection E as <- <-. reflexivity.
    + rewrite deliver_unfold in E. destruct (_ <? _); [|discriminate]. destruct (work j st m) as [[st' xs] k].
      destruct (deliver_all d (S j) xs gs q) as [[g2 q2]|] eqn:E2; [|discriminate]. injection E as <- <-. cbn. f_equal.
      revert gs q E2. induction xs as [|x xs IHx]; intros gs q E2; cbn in E2; [injection E2 as <- <-; reflexivity|].
      destruct (deliver d (S j) gs q x) as [[g1 q1]|] eqn:E1; [|discriminate]. rewrite (IHx _ _ E2). eapply IH, E1.
Qed.
Lemma deliver_all_length d j xs : forall gs q gs' q', deliver_all d j xs gs q = Some (gs', q') -> length gs' = length gs.
Proof.
  induction xs as [|x xs IHx]; intros gs q gs' q' E2; cbn in E2; [injection E2 as <- <-; reflexivity|].
  destruct (deliver d j gs q x) as [[g1 q1]|] eqn:E1; [|discriminate]. rewrite (IHx _ _ _ _ E2). eapply deliver_length, E1.
Qed.
(* thread j-1 can send, and the state after its sending m and everything it causes *)
Lemma send_one d : (forall j gs q m gs' q' pre prech, deliver d j gs q m = Some (gs', q') -> length pre = j -> S (length prech) = j -> length pre + length gs = n ->
    let '(chs, q1) := pushed gs q m in
    reaches (mkSys (pre ++ map th_of gs) (q1 :: prech ++ chs)) (mkSys (pre ++ map th_of gs') (q' :: prech ++ map ch_of gs'))) ->
  forall j xs gs q gs' q' pre prech st k, deliver_all d (S j) xs gs q = Some (gs', q') -> length pre = j -> length prech = j -> S j + length gs = n ->
    reaches (mkSys (pre ++ mkThread st (Sending xs k) :: map th_of gs) (q :: prech ++ map ch_of gs))
            (mkSys (pre ++ mkThread st (if k then Ready else AtBarrier) :: map th_of gs') (q' :: prech ++ map ch_of gs')).
Proof.
  intros HD j xs. induction xs as [|x xs IH]; intros gs q gs' q' pre prech st k E LP LC LN; cbn [M_Pipeline.deliver_all] in E.
  - injection E as <- <-. eapply reaches_trans; [|apply reaches_refl]. apply (reaches_move j). apply move_effect. exists (mkThread st (Sending [] k)), (mkThread st (if k then Ready else AtBarrier)), (q :: prech ++ map ch_of gs).
    cbn [s_threads s_channels]. split; [rewrite <- LP; apply nth_error_app_at|]. split; [apply e_none|]. rewrite <- LP, upd_app. reflexivity.
  - destruct (deliver d (S j) gs q x) as [[g1 q1]|] eqn:E1; [|discriminate].
    pose proof (deliver_length _ _ _ _ _ _ _ E1) as L1.
    specialize (HD (S j) gs q x g1 q1 (pre ++ [mkThread st (Sending xs k)]) prech E1 ltac:(rewrite app_length; cbn; lia) ltac:(lia) ltac:(rewrite app_length; cbn; lia)).
    destruct (pushed gs q x) as [chs q0] eqn:EP. rewrite <- !app_assoc in HD. cbn [app] in HD.
    eapply reaches_trans; [|eapply reaches_trans; [exact HD|apply (IH g1 q1 gs' q' pre prech st k E LP LC ltac:(lia))]].
    apply (reaches_move j). apply move_effect. exists (mkThread st (Sending (x :: xs) k)), (mkThread st (Sending xs k)), (q0 :: prech ++ chs).
    cbn [s_threads s_channels]. split; [rewrite <- LP; apply nth_error_app_at|]. split; [|rewrite <- LP, upd_app; reflexivity].
    (* the channel *)
    destruct gs as [|[st1 al] gs]; cbn [pushed] in EP; injection EP as <- <-.
    + assert (NX : next j = 0) by (unfold M_Pipeline.next; cbn [length] in LN; destruct (Nat.eqb_spec (S j) n); lia).
      pose proof (e_send j st x xs k (q :: prech ++ map ch_of [])) as X. rewrite NX in X. cbn [nth upd] in X. apply X.
      destruct d as [|d']; cbn [M_Pipeline.deliver pred] in E1; destruct (Nat.ltb_spec (length q) (cap j)); try discriminate; lia.
    + assert (NX : next j = S j) by (unfold M_Pipeline.next; cbn [length] in LN; destruct (Nat.eqb_spec (S j) n); lia).
      pose proof (e_send j st x xs k (q :: prech ++ map ch_of ((st1, al) :: gs))) as X. rewrite NX in X. cbn [nth upd map] in X.
      rewrite <- LC, nth_app_at, upd_app in X. rewrite LC in X. cbn [fst snd]. apply X.
      unfold ch_of. cbn [snd]. destruct al as [junk|].
      * destruct d as [|d']; cbn [M_Pipeline.deliver pred] in E1; destruct (Nat.ltb_spec (length junk) (cap j)); try discriminate; lia.
      * cbn [length]. destruct d as [|d']; cbn [M_Pipeline.deliver pred] in E1; destruct (Nat.ltb_spec 0 (cap j)); try discriminate; lia.
Qed.
Lemma deliver_steps d : forall j gs q m gs' q' pre prech, deliver d j gs q m = Some (gs', q') -> length pre = j -> S (length prech) = j -> length pre + length gs = n ->
  let '(chs, q1) := pushed gs q m in
  reaches (mkSys (pre ++ map th_of gs) (q1 :: prech ++ chs)) (mkSys (pre ++ map th_of gs') (q' :: prech ++ map ch_of gs')).
Proof.
  induction d as [|d IH]; intros j gs q m gs' q' pre prech E LP LC LN; destruct gs as [|[st [junk|]] gs]; cbn [pushed].
  - cbn [M_Pipeline.deliver] in E. destruct (length q <? cap (pred j)); [|discriminate]. injection E as <- <-. apply reaches_refl.
  - cbn [M_Pipeline.deliver] in E. destruct (length junk <? cap (pred j)); [|discriminate]. injection E as <- <-. apply reaches_refl.
  - cbn [M_Pipeline.deliver] in E. destruct (0 <? cap (pred j)); discriminate.
  - cbn [M_Pipeline.deliver] in E. destruct (length q <? cap (pred j)); [|discriminate]. injection E as <- <-. apply reaches_refl.
  - cbn [M_Pipeline.deliver] in E. destruct (length junk <? cap (pred j)); [|discriminate]. injection E as <- <-. apply reaches_refl.
  - rewrite deliver_unfold in E. destruct (0 <? cap (pred j)); [|discriminate]. destruct (work j st m) as [[st' xs] k] eqn:W.
    destruct (deliver_all d (S j) xs gs q) as [[g2 q2]|] eqn:E2; [|discriminate]. injection E as <- <-. cbn [map th_of ch_of snd app].
    eapply reaches_trans; [apply (reaches_move j); apply move_effect; exists (mkThread st Ready), (mkThread st' (Sending xs k)), (upd j [] (q :: prech ++ [m] :: map ch_of gs))|].
    + cbn [s_threads s_channels]. split; [rewrite <- LP; apply nth_error_app_at|]. split; [|reflexivity].
      eapply e_recv; [|exact W]. rewrite <- LC. cbn [nth]. apply nth_app_at.
    + cbn [s_threads]. rewrite <- LP at 1. rewrite upd_app. destruct j as [|j]; [lia|]. cbn [upd]. replace j with (length prech) by lia. rewrite upd_app.
      pose proof (send_one d IH (S (length prech)) xs gs q g2 q2 pre (prech ++ [[]]) st' k) as X.
      rewrite <- !app_assoc in X. cbn [app] in X.
      cbn [length] in LN. destruct k; (apply X; [rewrite <- LC in E2; exact E2|lia|rewrite app_length; cbn; lia|lia]).
Qed.
End Ring.
