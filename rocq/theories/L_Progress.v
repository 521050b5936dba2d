(* Invariants of the progress reporter. *)
From Coq Require Import Arith.
From Verif Require Import M_Base M_Progress S_Progress L_Base.
Ltac Zify.zify_post_hook ::= idtac.

(* where the main thread is *)
Inductive kind := KIdle | KS0 | KS1 | KS2 | KS3 | KT0 | KT1 | KT2 | KT3 | KP (c : bool).
Inductive pausing : list micro -> bool -> Prop :=
| pa1 : pausing [MLockContext; MUnlockContext] false
| pa2 : pausing [MUnlockContext] true
| pa3 : pausing [MLockContext; MUnlockContext; MLockContext; MErase; MUnlockContext; MCr] false
| pa4 : pausing [MUnlockContext; MLockContext; MErase; MUnlockContext; MCr] true
| pa5 : pausing [MLockContext; MErase; MUnlockContext; MCr] false
| pa6 : pausing [MErase; MUnlockContext; MCr] true
| pa7 : pausing [MUnlockContext; MCr] true
| pa8 : pausing [MCr] false.
Inductive at_ : list micro -> kind -> Prop :=
| at_idle : at_ [] KIdle
| at_s0 : at_ [MLockStats; MUnlockStats; MStartBarrier; MStartBarrier] KS0
| at_s1 : at_ [MUnlockStats; MStartBarrier; MStartBarrier] KS1
| at_s2 : at_ [MStartBarrier; MStartBarrier] KS2
| at_s3 : at_ [MStartBarrier] KS3
| at_t0 : at_ [MLockStats; MUnlockStats; MShutdown; MShutdownBarrier] KT0
| at_t1 : at_ [MUnlockStats; MShutdown; MShutdownBarrier] KT1
| at_t2 : at_ [MShutdown; MShutdownBarrier] KT2
| at_t3 : at_ [MShutdownBarrier] KT3
| at_p ms c : pausing ms c -> at_ ms (KP c).
Definition main_stats (k : kind) (h : bool) : bool := match k with KS1 | KT1 => true | KP _ | KIdle => h | _ => false end.
Definition main_ctx (k : kind) : bool := match k with KP c => c | _ => false end.
Definition closed (k : kind) (h : bool) : bool := match k with KP _ | KIdle => true | _ => negb h end.
Definition in_stop (k : kind) : bool := match k with KT0 | KT1 | KT2 | KT3 => true | _ => false end.
Definition runner_stats (r : runner) : bool := match r with RPrint _ PLockStats => false | RPrint _ _ => true | _ => false end.
Definition runner_ctx (r : runner) : bool := match r with RPrint _ PReport | RPrint _ PUnlockContext => true | _ => false end.
Definition looping (r : runner) : bool := match r with RLoop | RSleep | RCheck | RPrint Again _ => true | _ => false end.
Definition lasting (r : runner) : bool := match r with RPrint Last _ | RShutdownBarrier => true | _ => false end.
Definition firsting (r : runner) : bool := match r with RPrint First _ | RStartBarrier2 => true | _ => false end.
Definition fits (k : kind) (fs fd : bool) (r : runner) : bool :=
  match k with
  | KS0 | KS1 | KS2 => fs && negb fd && match r with RStartBarrier => true | _ => false end
  | KS3 => fs && negb fd && firsting r
  | KT0 | KT1 | KT2 | KP _ => fs && negb fd && looping r
  | KT3 => fs && fd && (looping r || lasting r)
  | KIdle => match fs, fd with
             | false, false => match r with RStartBarrier => true | _ => false end
             | true, false => looping r
             | true, true => match r with RDone => true | _ => false end
             | false, true => false
             end
  end.
Definition owns (k : kind) (h : bool) (r : runner) (ws : list worker) (o : owner) : Prop :=
  match o with Main => main_stats k h = true | Runner => runner_stats r = true | Worker i => exists w, nth_error ws i = Some w /\ w_holds w = true end.
Definition owns_ctx (k : kind) (r : runner) (o : owner) : Prop :=
  match o with Main => main_ctx k = true | Runner => runner_ctx r = true | Worker _ => False end.
Definition inv1 (s : sys) : Prop := exists k h j st,
  at_ (fst (s_main s)) k /\ closed k h = true /\ orderly h j st (snd (s_main s)) = true /\ (in_stop k = true -> st = true /\ j = true) /\
  fits k (f_start (s_shared s)) (f_shutdown (s_shared s)) (s_runner s) = true /\
  (j = true -> forallb idle (s_workers s) = true) /\
  (forall i w, nth_error (s_workers s) i = Some w -> w_holds w = true -> w_todo w <> []) /\
  (forall o, h_stats (s_shared s) = Some o <-> owns k h (s_runner s) (s_workers s) o) /\
  (forall o, h_context (s_shared s) = Some o <-> owns_ctx k (s_runner s) o).

Lemma nth_upd_same {A} i (a : A) l b : nth_error l i = Some b -> nth_error (upd_at i a l) i = Some a.
Proof. revert i. induction l as [|c l IH]; intros [|i] H; try discriminate; [reflexivity|apply IH, H]. Qed.
Lemma nth_upd_other {A} i j (a : A) l : i <> j -> nth_error (upd_at i a l) j = nth_error l j.
Proof. revert i j. induction l as [|c l IH]; intros [|i] [|j] H; try reflexivity; [congruence|]. apply IH. congruence. Qed.

Section Inv.
Variables (v : level) (json : bool).
Notation step := (step v json).
Lemma inv1_begin os todos : orderly_command os todos -> inv1 (begin_sys os todos).
Proof.
  intro O. exists KIdle, false, (match todos with [] => true | _ => false end), false. cbn. split; [constructor|]. split; [reflexivity|]. split; [exact O|]. split; [discriminate|]. split; [reflexivity|].
  split; [destruct todos; [reflexivity|discriminate]|]. split; [|split].
  - intros i w N H. apply nth_error_In, in_map_iff in N as (l & <- & _). discriminate.
  - intros [| |i]; cbn; split; try discriminate. intros (w & N & H). apply nth_error_In, in_map_iff in N as (l & <- & _). discriminate.
  - intros [| |i]; cbn; split; try discriminate. tauto.
Qed.

Ltac lk HS := 
  let o := fresh "o" in let Q := fresh "Q" in
  intro o; pose proof (HS o); pose proof (HS Main); pose proof (HS Runner); pose proof (fun i => HS (Worker i));
  cbn [owns owns_ctx main_stats main_ctx runner_stats runner_ctx] in *;
  split; intro Q; destruct o as [| |i]; cbn [owns owns_ctx main_stats main_ctx runner_stats runner_ctx] in *;
  repeat match goal with HH : forall i : nat, _ <-> _, i : nat |- _ => specialize (HH i) end;
  try discriminate; try congruence; intuition (try congruence).
Ltac sc := cbn [s_main s_runner s_workers s_shared fst snd set_stats set_context set_flags add_units put h_stats h_context f_start f_shutdown f_active u_units c_header c_finish c_last seen] in *.
Ltac inj M := injection M; clear M; intros; subst; sc.
Lemma inv1_step s s' : inv1 s -> step s s' -> inv1 s'.
Proof.
  intros (k & h & j & st & AT & CL & OR & STP & FI & JI & WT & HS & HC) S. destruct s as [[ms os] r ws [hs hc fs fd fa u ch cf cl sn]]. sc.
  inversion S as [s0 s0' M|s0 r' x' M|s0 i w w' x' NE M|ms' os' r' ws' x' RR|ms' os' ws' x']; subst; clear S; sc.
  - unfold move_main in M. sc. destruct ms as [|m ms].
    + destruct os as [|o os]; [discriminate|]. inversion AT; subst; [|match goal with P : pausing [] _ |- _ => inversion P end].
      destruct o; cbn [begin_op] in M; sc; cbn [orderly] in OR.
      * (* start *) apply andb_prop in OR as [NH OR]. destruct h; [discriminate|]. destruct fs; inj M.
        -- exists KIdle, false, j, st. sc. split; [constructor|]. split; [reflexivity|]. split; [assumption|]. split; [discriminate|]. split; [assumption|]. split; [auto|]. split; [assumption|]. split; assumption.
        -- exists KS0, false, j, st. sc. split; [constructor|]. split; [reflexivity|]. split; [exact OR|]. split; [discriminate|]. split; [cbn in FI |- *; destruct fd; [discriminate|]; destruct r; try discriminate; reflexivity|].
           split; [exact JI|]. split; [exact WT|]. split; [lk HS|lk HC].
      * (* pause *) destruct (fs && negb fd && fa) eqn:F; inj M.
        -- apply andb_prop in F as [F Fa]. apply andb_prop in F as [Fs Fd]. destruct fs; [|discriminate]. destruct fd; [discriminate|]. exists (KP false), h, j, st. sc.
           split; [constructor; unfold pause_steps; destruct ((verbose_while_active v || verbose_when_done v) && negb json); cbn [app]; constructor|].
           split; [reflexivity|]. split; [exact OR|]. split; [discriminate|]. split; [exact FI|]. split; [exact JI|]. split; [exact WT|]. split; [lk HS|lk HC].
        -- exists KIdle, h, j, st. sc. split; [constructor|]. split; [reflexivity|]. split; [assumption|]. split; [discriminate|]. split; [assumption|]. split; [auto|]. split; [assumption|]. split; assumption.
      * (* resume *) inj M. exists KIdle, h, j, st. sc. split; [constructor|]. split; [reflexivity|]. split; [assumption|]. split; [discriminate|]. split; [assumption|]. split; [auto|]. split; [assumption|]. split; assumption.
      * (* stop *) apply andb_prop in OR as [NH OR]. apply andb_prop in NH as [NH NJ]. destruct h; [discriminate|]. destruct j; [|discriminate].
        destruct (fs && negb fd) eqn:F; inj M.
        -- apply andb_prop in F as [Fs Fd]. destruct fs; [|discriminate]. destruct fd; [discriminate|]. exists KT0, false, true, true. sc.
           split; [constructor|]. split; [reflexivity|]. split; [exact OR|]. split; [auto|]. split; [exact FI|]. split; [exact JI|]. split; [exact WT|]. split; [lk HS|lk HC].
        -- exists KIdle, false, true, true. sc. split; [constructor|]. split; [reflexivity|]. split; [assumption|]. split; [discriminate|]. split; [assumption|]. split; [auto|]. split; [assumption|]. split; assumption.
      * (* lock *) apply andb_prop in OR as [NH OR]. destruct h; [discriminate|]. destruct hs; [discriminate|]. inj M. exists KIdle, true, j, st. sc.
        split; [constructor|]. split; [reflexivity|]. split; [exact OR|]. split; [discriminate|]. split; [exact FI|]. split; [exact JI|]. split; [exact WT|]. split; [lk HS|lk HC].
      * (* unlock *) apply andb_prop in OR as [NH OR]. destruct h; [|discriminate]. inj M. exists KIdle, false, j, st. sc.
        split; [constructor|]. split; [reflexivity|]. split; [exact OR|]. split; [discriminate|]. split; [exact FI|]. split; [exact JI|]. split; [exact WT|]. split; [lk HS|lk HC].
      * (* add *) apply andb_prop in OR as [NH OR]. inj M. exists KIdle, h, j, st. sc. split; [constructor|]. split; [reflexivity|]. split; [assumption|]. split; [discriminate|]. split; [assumption|]. split; [auto|]. split; [assumption|]. split; assumption.
      * (* print *) inj M. exists KIdle, h, j, st. sc. split; [constructor|]. split; [reflexivity|]. split; [assumption|]. split; [discriminate|]. split; [assumption|]. split; [auto|]. split; [assumption|]. split; assumption.
      * (* join *) apply andb_prop in OR as [NH OR]. destruct (forallb idle ws) eqn:ID; [|discriminate]. inj M. exists KIdle, h, true, st. sc. split; [constructor|]. split; [reflexivity|]. split; [assumption|]. split; [discriminate|]. split; [assumption|]. split; [auto|]. split; [assumption|]. split; assumption.
    + destruct (move_micro m _) as [x'|] eqn:MM; [|discriminate]. inj M.
      inversion AT; subst; cbn [move_micro] in MM; sc.
      * (* s0 *) destruct hs; [discriminate|]. inj MM. exists KS1, h, j, st. sc. split; [constructor|]. split; [exact CL|]. split; [assumption|]. split; [discriminate|]. split; [assumption|]. split; [auto|]. split; [assumption|]. split; [lk HS|lk HC].
      * inj MM. exists KS2, h, j, st. sc. split; [constructor|]. split; [exact CL|]. split; [assumption|]. split; [discriminate|]. split; [assumption|]. split; [auto|]. split; [assumption|]. split; [lk HS|lk HC].
      * discriminate.
      * discriminate.
      * destruct hs; [discriminate|]. inj MM. exists KT1, h, j, st. sc. split; [constructor|]. split; [exact CL|]. split; [assumption|]. split; [assumption|]. split; [assumption|]. split; [auto|]. split; [assumption|]. split; [lk HS|lk HC].
      * inj MM. exists KT2, h, j, st. sc. split; [constructor|]. split; [exact CL|]. split; [assumption|]. split; [assumption|]. split; [assumption|]. split; [auto|]. split; [assumption|]. split; [lk HS|lk HC].
      * inj MM. exists KT3, h, j, st. sc. split; [constructor|]. split; [exact CL|]. split; [assumption|]. split; [assumption|].
        split; [cbn in FI |- *; apply andb_prop in FI as [FI L]; apply andb_prop in FI as [FI _]; rewrite FI, L; reflexivity|]. split; [auto|]. split; [assumption|]. split; [lk HS|lk HC].
      * discriminate.
      * match goal with P : pausing _ _ |- _ => inversion P; subst; clear P end; cbn [move_micro] in MM; sc; try (destruct hc; [discriminate|]); inj MM.
        all: match goal with |- inv1 (mkSys (?ms, _) _ _ _) => let c := eval cbv in (match ms with [] => KIdle | [MUnlockContext] | MErase :: _ | MUnlockContext :: _ => KP true | _ => KP false end) in exists c, h, j, st end; sc.
        all: split; [repeat constructor|]; split; [reflexivity|]; split; [assumption|]; split; [discriminate|].
        all: split; [cbn [fits] in FI |- *; destruct fs, fd; try discriminate FI; exact FI|].
        all: split; [auto|]; split; [assumption|]; split; [lk HS|lk HC].
  - (* runner *)
    assert (KK : forall r', fits k fs fd r' = true -> 
      (forall o, h_stats x' = Some o <-> owns k h r' ws o) -> (forall o, h_context x' = Some o <-> owns_ctx k r' o) -> f_start x' = fs -> f_shutdown x' = fd -> inv1 (mkSys (ms, os) r' ws x')).
    { intros r0 F1 F2 F3 F4 F5. exists k, h, j, st. sc. rewrite F4, F5. auto 10. }
    destruct r as [|p g| | | | | |]; cbn [move_runner] in M; try discriminate; sc.
    + destruct g; sc.
      * destruct hs; [discriminate|]. inj M. apply KK; auto; try solve [lk HS]; try solve [lk HC].
      * destruct hc; [discriminate|]. inj M. apply KK; auto; try solve [lk HS]; try solve [lk HC].
      * inj M. assert (E : forall y b, h_stats (report v json b y) = h_stats y /\ h_context (report v json b y) = h_context y /\ f_start (report v json b y) = f_start y /\ f_shutdown (report v json b y) = f_shutdown y).
        { intros y b. unfold report. destruct (_ && _); auto. }
        match goal with |- context [report v json ?b ?y] => destruct (E y b) as (E1 & E2 & E3 & E4) end. sc. apply KK; try assumption; [rewrite E1; lk HS|rewrite E2; lk HC].
      * inj M. apply KK; auto; try solve [lk HS]; try solve [lk HC].
      * inj M. apply KK; auto; destruct p; try solve [lk HS]; try solve [lk HC]. all: destruct k; cbn [fits after_print looping lasting firsting] in *; try assumption; destruct fs, fd; try discriminate; try assumption.
    + inj M. destruct fd; apply KK; auto; try solve [lk HS]; try solve [lk HC]. all: destruct k; cbn [fits looping lasting firsting] in *; destruct fs; try discriminate; try assumption; reflexivity.
    + inj M. apply KK; auto; try solve [lk HS]; try solve [lk HC].
    + inj M. destruct fa; apply KK; auto; try solve [lk HS]; try solve [lk HC].
  - (* worker *)
    assert (J0 : j = false). { destruct j; [|reflexivity]. specialize (JI eq_refl). rewrite forallb_forall in JI. apply nth_error_In in NE. apply JI in NE.
      unfold idle in NE. unfold move_worker in M. destruct (w_todo w); [destruct (w_holds w); discriminate|discriminate]. }
    unfold move_worker in M. destruct (w_holds w) eqn:WH, (w_todo w) as [|n t] eqn:WD; try discriminate.
    + inj M. exists k, h, false, st. sc. split; [assumption|]. split; [assumption|]. split; [assumption|]. split; [assumption|]. split; [assumption|]. split; [discriminate|].
      split.
      { intros q w' N H. destruct (Nat.eq_dec i q) as [<-|D]; [|rewrite nth_upd_other in N by exact D; eauto]. rewrite (nth_upd_same _ _ _ _ NE) in N. injection N; intros; subst; discriminate. }
      assert (HW : hs = Some (Worker i)) by (apply HS; exists w; auto). subst hs.
      split; [|exact HC]. intros [| |q]; pose proof (HS Main) as Q1; pose proof (HS Runner) as Q2; cbn [owns] in *.
      * split; [discriminate|]. intro Q. apply Q1 in Q. discriminate.
      * split; [discriminate|]. intro Q. apply Q2 in Q. discriminate.
      * split; [discriminate|]. intros (w' & N & H). destruct (Nat.eq_dec i q) as [<-|D].
        -- rewrite (nth_upd_same _ _ _ _ NE) in N. injection N; intros; subst; discriminate.
        -- rewrite nth_upd_other in N by exact D. assert (Q : Some (Worker i) = Some (Worker q)) by (apply HS; exists w'; auto). congruence.
    + destruct hs; [discriminate|]. inj M. exists k, h, false, st. sc. split; [assumption|]. split; [assumption|]. split; [assumption|]. split; [assumption|]. split; [assumption|]. split; [discriminate|].
      split.
      { intros q w' N H. destruct (Nat.eq_dec i q) as [<-|D]; [|rewrite nth_upd_other in N by exact D; eauto]. rewrite (nth_upd_same _ _ _ _ NE) in N. injection N; intros; subst; discriminate. }
      split; [|exact HC]. intros [| |q]; pose proof (HS Main) as Q1; pose proof (HS Runner) as Q2; cbn [owns] in *.
      * split; [discriminate|]. intro Q. apply Q1 in Q. discriminate.
      * split; [discriminate|]. intro Q. apply Q2 in Q. discriminate.
      * split.
        -- intro Q. injection Q; intros <-. exists (mkWorker true (n :: t)). split; [apply (nth_upd_same _ _ _ _ NE)|reflexivity].
        -- intros (w' & N & H). destruct (Nat.eq_dec i q) as [<-|D]; [reflexivity|]. rewrite nth_upd_other in N by exact D.
           assert (Q : None = Some (Worker q)) by (apply HS; exists w'; auto). discriminate.
  - (* the barrier at the start *)
    assert (K : forall r', runner_stats r' = runner_stats r -> runner_ctx r' = runner_ctx r -> forall k', main_stats k' h = main_stats k h -> main_ctx k' = main_ctx k -> in_stop k' = false ->
      at_ ms' k' -> closed k' h = true -> fits k' fs fd r' = true -> inv1 (mkSys (ms', os) r' ws (mkShared hs hc fs fd fa u ch cf cl sn))).
    { intros r' R1 R2 k' K1 K2 K3 A C F. exists k', h, j, st. sc. split; [exact A|]. split; [exact C|]. split; [assumption|]. split; [rewrite K3; discriminate|]. split; [exact F|].
      split; [assumption|]. split; [assumption|]. split; [intros [| |q]; rewrite HS|intros [| |q]; rewrite HC]; cbn [owns owns_ctx]; rewrite ?R1, ?R2, ?K1, ?K2; tauto. }
    inversion AT; subst; try match goal with P : pausing _ _ |- _ => inversion P end.
    + destruct RR as [-> | ->]; cbn [fits] in FI; destruct fs, fd; try discriminate FI. apply (K (RPrint First PLockStats) eq_refl eq_refl KS3); auto; constructor.
    + destruct RR as [-> | ->]; cbn [fits] in FI; destruct fs, fd; try discriminate FI. apply (K RLoop eq_refl eq_refl KIdle); auto; [destruct h; [discriminate CL|reflexivity]|constructor].
  - inversion AT; subst; try match goal with P : pausing _ _ |- _ => inversion P end.
    exists KIdle, h, j, st. sc. cbn [fits] in FI. destruct fs, fd; try discriminate FI. destruct (STP eq_refl) as [-> ->].
    split; [constructor|]. split; [reflexivity|]. split; [assumption|]. split; [discriminate|]. split; [reflexivity|]. split; [assumption|]. split; [assumption|].
    destruct h; [discriminate CL|].
    split; [intros [| |q]; rewrite HS|intros [| |q]; rewrite HC]; cbn [owns owns_ctx main_stats main_ctx runner_stats runner_ctx]; tauto.
Qed.
End Inv.

Lemma reports_more js us u : reports js us None ++ (if js then [EJson false u] else (if negb js && negb (match us with [] => true | _ => false end) then [] else [EHeader]) ++ [EProgress u]) = reports js (us ++ [u]) None.
Proof.
  unfold reports. rewrite map_app, !app_nil_r. destruct us as [|a us]; [destruct js; reflexivity|]. cbn [map app]. destruct js; cbn [negb andb app]; rewrite ?app_nil_r; reflexivity.
Qed.
Lemma reports_end js us t : reports js us None ++ (if js then [EJson true t] else (if negb js && negb (match us with [] => true | _ => false end) then [] else [EHeader]) ++ [EFinish t]) = reports js us (Some t).
Proof.
  unfold reports. rewrite !app_nil_r. destruct us as [|a us]; [destruct js; reflexivity|]. cbn [map app]. destruct js; cbn [negb andb app]; reflexivity.
Qed.

Section Reach.
Variables (v : level) (json : bool) (os0 : list op) (todos : list (list N)).
Hypothesis ord : orderly_command os0 todos.
Set Default Proof Using "All".
Notation reached := (reach v json (begin_sys os0 todos)).
Lemma inv1_reach s : reached s -> inv1 s.
Proof. induction 1; [apply inv1_begin, ord|eapply inv1_step; eassumption]. Qed.

(* the report does not touch locks, flags and count *)
Lemma report_same b x : h_stats (report v json b x) = h_stats x /\ h_context (report v json b x) = h_context x /\ f_start (report v json b x) = f_start x /\
  f_shutdown (report v json b x) = f_shutdown x /\ f_active (report v json b x) = f_active x /\ u_units (report v json b x) = u_units x.
Proof. unfold report. destruct (_ && _); cbn; auto 10. Qed.

(* The steps one by one, for what does not depend on the locks. *)
Definition left_ (s : sys) : N := counted (snd (s_main s)) + sum (map (fun w => sum (w_todo w)) (s_workers s)).
Lemma sum_upd i w w' ws n : nth_error ws i = Some w -> sum (w_todo w) = n + sum (w_todo w') ->
  sum (map (fun w => sum (w_todo w)) ws) = n + sum (map (fun w => sum (w_todo w)) (upd_at i w' ws)).
Proof.
  revert i. induction ws as [|a ws IH]; intros [|i] N E; try discriminate; cbn [map sum upd_at nth_error] in *.
  - injection N; intros ->. lia.
  - rewrite (IH i N E). lia.
Qed.
Lemma units_step s s' : step v json s s' -> u_units (s_shared s') + left_ s' = u_units (s_shared s) + left_ s.
Proof.
  intro S. destruct s as [[ms os] r ws x]. unfold left_. destruct S as [s s' M|s r' x' M|s i w w' x' NE M|? ? ? ? ? RR|]; cbn [s_main s_runner s_workers s_shared fst snd] in *; try reflexivity.
  - unfold move_main in M. destruct (s_main s) as [[|m ms'] os']; [destruct os' as [|o os']; [discriminate|]|].
    + destruct (begin_op v json o (s_shared s) _) as [[ms'' x'']|] eqn:B; [|discriminate]. injection M as <-. cbn [s_main s_runner s_workers s_shared fst snd].
      destruct o; cbn [begin_op] in B; repeat (match type of B with context [match ?e with _ => _ end] => destruct e end; try discriminate); injection B as <- <-; cbn; lia.
    + destruct (move_micro m (s_shared s)) as [x''|] eqn:B; [|discriminate]. injection M as <-. cbn [s_main s_runner s_workers s_shared fst snd].
      destruct m; cbn [move_micro] in B; try discriminate; repeat (match type of B with context [match ?e with _ => _ end] => destruct e end; try discriminate); injection B as <-; cbn; lia.
  - assert (E : u_units x' = u_units (s_shared s)); [|lia].
    destruct (s_runner s) as [|p g| | | | | |]; cbn [move_runner] in M; try discriminate; [destruct g|..];
      repeat (match type of M with context [match ?e with Some _ => _ | None => _ end] => destruct e end; try discriminate); injection M as <- <-; try reflexivity. apply report_same.
  - unfold move_worker in M. destruct (w_holds w), (w_todo w) as [|n t] eqn:WD; try discriminate.
    + injection M as <- <-. cbn. rewrite (sum_upd i w (mkWorker false t) _ n NE); [lia|rewrite WD; reflexivity].
    + destruct (h_stats (s_shared s)); [discriminate|]. injection M as <- <-. cbn. rewrite (sum_upd i w (mkWorker true (n :: t)) _ 0 NE); [lia|rewrite WD; reflexivity].
Qed.
Lemma units_reach s : reached s -> u_units (s_shared s) + left_ s = whole os0 todos.
Proof.
  induction 1; [|rewrite (units_step _ _ H0); exact IHreach]. unfold left_, whole. cbn. rewrite map_map. cbn. reflexivity.
Qed.
Lemma no_more_counting h j os : orderly h j true os = true -> counted os = 0.
Proof. revert h j. induction os as [|o os IH]; intros h j O; [reflexivity|]. destruct o; cbn [orderly counted] in *; try (apply andb_prop in O as [A O]); eauto. apply andb_prop in A as [_ A]. discriminate. Qed.
Lemma idle_none ws : forallb idle ws = true -> sum (map (fun w => sum (w_todo w)) ws) = 0.
Proof. induction ws as [|w ws IH]; [reflexivity|]. cbn. intro A. apply andb_prop in A as [A B]. rewrite (IH B). unfold idle in A. destruct (w_todo w); [reflexivity|discriminate]. Qed.
(* the last report is made when all is counted *)
Lemma last_whole s : reached s -> lasting (s_runner s) = true -> u_units (s_shared s) = whole os0 todos.
Proof.
  intros R L. pose proof (units_reach s R) as U. destruct (inv1_reach s R) as (k & h & j & st & AT & CL & OR & STP & FI & JI & _).
  assert (K : k = KT3).
  { destruct k; try reflexivity; cbn [fits] in FI; destruct (f_start (s_shared s)), (f_shutdown (s_shared s)); try discriminate FI; destruct (s_runner s) as [|[| |] ?| | | | | |]; discriminate. }
  subst k. destruct (STP eq_refl) as [-> ->]. unfold left_ in U. rewrite (no_more_counting _ _ _ OR), (idle_none _ (JI eq_refl)) in U. lia.
Qed.

(* the reports so far *)
Definition past_last (r : runner) : bool := match r with RPrint Last (PUnlockContext | PUnlockStats) | RShutdownBarrier | RDone => true | _ => false end.
Definition past_first (r : runner) : bool := match r with RStartBarrier | RPrint First (PLockStats | PLockContext | PReport) => false | _ => true end.
Definition inv2 (s : sys) : Prop := exists us, let x := s_shared s in
  c_finish x = verbose_when_done v && past_last (s_runner s) /\
  filter is_report (seen x) = reports json us (if c_finish x then Some (whole os0 todos) else None) /\
  c_header x = negb json && negb (match us with [] => negb (c_finish x) | _ => false end) /\
  ascending 0 us /\ Forall (fun u => u <= c_last x) us /\ c_last x <= u_units x /\
  (verbose_while_active v = false -> us = []) /\ (verbose_while_active v && past_first (s_runner s) = true -> us <> []).

Lemma ascending_app from us u : ascending from us -> from <= u -> Forall (fun w => w <= u) us -> ascending from (us ++ [u]).
Proof. revert from. induction us as [|a us IH]; intros from A F U; cbn in *; [auto|]. inversion U; subst. split; [apply A|]. apply IH; [apply A|assumption|assumption]. Qed.
Lemma inv2_keep s s' : inv2 s -> past_last (s_runner s') = past_last (s_runner s) -> past_first (s_runner s') = past_first (s_runner s) ->
  c_finish (s_shared s') = c_finish (s_shared s) -> c_header (s_shared s') = c_header (s_shared s) -> c_last (s_shared s') = c_last (s_shared s) ->
  filter is_report (seen (s_shared s')) = filter is_report (seen (s_shared s)) -> u_units (s_shared s) <= u_units (s_shared s') -> inv2 s'.
Proof.
  intros (us & A) R R' C H L F U. exists us. cbv zeta in *. rewrite R, R', C, H, L, F. intuition lia.
Qed.
Lemma inv2_step s s' : reached s -> inv2 s -> step v json s s' -> inv2 s'.
Proof.
  intros RE I S. pose proof (last_whole s RE) as LW. pose proof (units_step s s' S) as US.
  destruct S as [s s' M|s r' x' M|s i w w' x' NE M|ms os r ws x RR|ms os ws x].
  - unfold move_main in M. destruct (s_main s) as [[|m ms'] os']; [destruct os' as [|o os']; [discriminate|]|].
    + destruct (begin_op v json o (s_shared s) _) as [[ms'' x'']|] eqn:B; [|discriminate]. injection M as <-. apply (inv2_keep s); try assumption; try reflexivity.
      all: cbn [s_main s_runner s_workers s_shared fst snd]; destruct o; cbn [begin_op] in B; repeat (match type of B with context [match ?e with _ => _ end] => destruct e end; try discriminate); injection B as <- <-; cbn; try reflexivity; try lia.
      rewrite filter_app. apply app_nil_r.
    + destruct (move_micro m (s_shared s)) as [x''|] eqn:B; [|discriminate]. injection M as <-. apply (inv2_keep s); try assumption; try reflexivity.
      all: cbn [s_main s_runner s_workers s_shared fst snd]; destruct m; cbn [move_micro] in B; try discriminate; repeat (match type of B with context [match ?e with _ => _ end] => destruct e end; try discriminate); injection B as <-; cbn; try reflexivity; try lia.
      all: rewrite filter_app; apply app_nil_r.
  - destruct (s_runner s) as [|p g| | | | | |] eqn:R; cbn [move_runner] in M; try discriminate; [destruct g|..];
      repeat (match type of M with context [match ?e with Some _ => _ | None => _ end] => destruct e end; try discriminate); injection M as <- <-.
    3: {
      destruct I as (us & CF & FS & CH & AS & FO & LA & VA & VF). rewrite R in *. unfold report.
      assert (CF0 : c_finish (s_shared s) = false) by (rewrite CF; destruct p; apply andb_false_r). rewrite CF0 in *.
      destruct (((verbose_while_active v && negb (is_last p)) || (verbose_when_done v && is_last p)) && negb false) eqn:G.
      - exists (if is_last p then us else us ++ [u_units (s_shared s)]). cbv zeta. cbn [s_shared s_runner c_finish c_header c_last u_units seen].
        destruct p; cbn [is_last negb orb andb past_last past_first] in *.
        1, 2: rewrite !andb_false_r, !orb_false_r, !andb_true_r in G; rewrite filter_app, FS, CH, G;
          (split; [symmetry; apply andb_false_r|]); (split; [rewrite <- reports_more; f_equal; destruct json, us; reflexivity|]);
          (split; [destruct json, us; reflexivity|]); 
          (split; [apply ascending_app; [exact AS|lia|eapply Forall_impl; [|exact FO]; cbn; intros; lia]|]);
          (split; [apply Forall_app; split; [eapply Forall_impl; [|exact FO]; cbn; intros; lia|constructor; [lia|constructor]]|]); (split; [lia|]);
          split; [discriminate|intros _ E; apply app_eq_nil in E as [_ E]; discriminate].
        rewrite !andb_false_r, !andb_true_r in G. cbn [orb] in G. rewrite filter_app, FS, CH, G, LW by reflexivity.
        split; [reflexivity|]. split; [rewrite <- reports_end; f_equal; destruct json, us; reflexivity|].
        split; [destruct json, us; reflexivity|]. split; [exact AS|]. rewrite LW in LA by reflexivity. split; [eapply Forall_impl; [|exact FO]; cbn; intros; lia|]. split; [lia|]. split; [exact VA|exact VF].
      - exists us. cbv zeta. cbn [s_shared s_runner]. rewrite CF0. split; [|split; [exact FS|split; [exact CH|split; [exact AS|split; [exact FO|split; [exact LA|split; [exact VA|]]]]]]].
        + destruct p; cbn [past_last is_last] in *; rewrite ?andb_false_r; try reflexivity. rewrite andb_false_r in G. cbn [orb] in G. rewrite !andb_true_r in G. rewrite G. reflexivity.
        + intro A. apply VF. destruct p; cbn [past_first is_last negb] in *; try exact A. exfalso. rewrite andb_true_r in A. rewrite A in G. discriminate.
    }
    all: apply (inv2_keep s); try assumption; rewrite ?R; cbn [s_runner s_shared set_stats set_context c_finish c_header c_last seen u_units]; try reflexivity; try lia.
    all: try (destruct p; reflexivity); try (destruct (f_shutdown _); reflexivity); try (destruct (f_active _); reflexivity).
  - unfold move_worker in M. destruct (w_holds w), (w_todo w) as [|n t] eqn:WD; try discriminate.
    + injection M as <- <-. apply (inv2_keep s); try assumption; try reflexivity; cbn; lia.
    + destruct (h_stats (s_shared s)); [discriminate|]. injection M as <- <-. apply (inv2_keep s); try assumption; try reflexivity; cbn; lia.
  - apply (inv2_keep _ _ I); cbn; try reflexivity; try lia; destruct RR as [-> | ->]; reflexivity.
  - apply (inv2_keep _ _ I); cbn; try reflexivity; lia.
Qed.
Lemma inv2_reach s : reached s -> inv2 s.
Proof.
  induction 1; [|eapply inv2_step; eassumption]. exists []. cbn. rewrite !andb_false_r. repeat split; try constructor; try reflexivity; discriminate.
Qed.

(* stop is reached *)
Fixpoint will_stop (started : bool) (os : list op) : bool :=
  match os with [] => false | OStart :: os' => will_stop true os' | OStop :: os' => started || will_stop started os' | _ :: os' => will_stop started os' end.
Definition inv3 (s : sys) : Prop := f_shutdown (s_shared s) = true \/ In MShutdown (fst (s_main s)) \/ will_stop (f_start (s_shared s)) (snd (s_main s)) = true.
Lemma inv3_step s s' : inv1 s -> inv3 s -> step v json s s' -> inv3 s'.
Proof.
  intros (k & h & j & st & AT & CL & OR & STP & FI & _) I S. unfold inv3 in *.
  destruct S as [s s' M|s r' x' M|s i w w' x' NE M|ms os r ws x RR|ms os ws x].
  - unfold move_main in M. destruct (s_main s) as [[|m ms'] os']; [destruct os' as [|o os']; [discriminate|]|].
    + cbn [fst snd] in *. destruct I as [I|[[]|I]].
      { left. destruct (begin_op v json o (s_shared s) _) as [[ms'' x'']|] eqn:B; [|discriminate]. injection M as <-. cbn. rewrite <- I.
        destruct o; cbn [begin_op] in B; repeat (match type of B with context [if ?e then _ else _] => destruct e | context [match ?e with Some _ => _ | None => _ end] => destruct e end; try discriminate); injection B as <- <-; reflexivity. }
      assert (FSFD : f_start (s_shared s) = true -> f_shutdown (s_shared s) = false \/ f_shutdown (s_shared s) = true) by (destruct (f_shutdown (s_shared s)); auto).
      destruct o; cbn [begin_op will_stop] in *.
      * destruct (f_start (s_shared s)) eqn:E; injection M as <-; cbn; rewrite ?E; auto.
      * destruct (f_start (s_shared s)) eqn:E, (f_shutdown (s_shared s)) eqn:E2, (f_active (s_shared s)); injection M as <-; cbn; rewrite ?E, ?E2; auto.
      * injection M as <-; cbn; auto.
      * destruct (f_start (s_shared s)) eqn:E; cbn [orb andb] in *.
        -- destruct (f_shutdown (s_shared s)) eqn:E2; injection M as <-; cbn; rewrite ?E, ?E2; auto 10.
        -- injection M as <-; cbn; rewrite ?E; auto.
      * destruct (h_stats (s_shared s)); [discriminate|]. injection M as <-; cbn; auto.
      * injection M as <-; cbn; auto.
      * injection M as <-; cbn; auto.
      * injection M as <-; cbn; auto.
      * destruct (forallb idle _); [|discriminate]. injection M as <-; cbn; auto.
    + cbn [fst snd] in *. destruct (move_micro m (s_shared s)) as [x''|] eqn:B; [|discriminate]. injection M as <-. cbn [s_main s_shared fst snd].
      destruct m; cbn [move_micro] in B; try discriminate; repeat (match type of B with context [match ?e with Some _ => _ | None => _ end] => destruct e end; try discriminate); injection B as <-; cbn in *;
      try (destruct I as [I|[[I|I]|I]]; [auto|discriminate|auto|auto]); auto.
  - assert (E : f_start x' = f_start (s_shared s) /\ f_shutdown x' = f_shutdown (s_shared s)).
    { destruct (s_runner s) as [|p g| | | | | |]; cbn [move_runner] in M; try discriminate; [destruct g|..];
      repeat (match type of M with context [match ?e with Some _ => _ | None => _ end] => destruct e end; try discriminate); injection M as <- <-; try (split; reflexivity). split; apply report_same. }
    cbn [s_shared s_main]. destruct E as [-> ->]. exact I.
  - unfold move_worker in M. destruct (w_holds w), (w_todo w) as [|n t] eqn:WD; try discriminate.
    + injection M as <- <-. exact I.
    + destruct (h_stats (s_shared s)); [discriminate|]. injection M as <- <-. exact I.
  - cbn in *. destruct I as [I|[[I|I]|I]]; [auto|discriminate|auto|auto].
  - cbn in *. destruct I as [I|[[I|I]|I]]; [auto|discriminate|auto|auto].
Qed.
Lemma inv3_reach s : will_stop false os0 = true -> reached s -> inv3 s.
Proof. intro W. induction 1; [right; right; exact W|]. eapply inv3_step; [apply inv1_reach|..]; eassumption. Qed.
Lemma finished_done s : will_stop false os0 = true -> reached s -> finished s -> s_runner s = RDone.
Proof.
  intros W R F. destruct (inv3_reach s W R) as [FD|[A|A]]; [|rewrite F in A; destruct A|rewrite F in A; discriminate].
  destruct (inv1_reach s R) as (k & h & j & st & AT & CL & OR & STP & FI & _). rewrite F in AT. cbn in AT. inversion AT; subst; [|match goal with P : pausing [] _ |- _ => inversion P end].
  rewrite FD in FI. cbn [fits] in FI. destruct (f_start _); [|discriminate]. destruct (s_runner s); try discriminate. reflexivity.
Qed.
Lemma will_stop_app a b : will_stop false (a ++ b) = false -> forall fs, will_stop fs b = true -> fs = false -> False.
Proof. intros W fs B ->. revert W. enough (forall f, will_stop f b = true -> forall g, (f = true -> g = true) -> will_stop g (a ++ b) = true) as Q by (rewrite (Q false B false); [discriminate|auto]).
  intros f Bf. induction a as [|o a IH]; intros g G; cbn [app].
  - clear -Bf G. revert f g Bf G. induction b as [|o b IH]; intros f g Bf G; [discriminate|]. destruct o; cbn [will_stop] in *; eauto.
    apply orb_true_iff in Bf as [Bf|Bf]; apply orb_true_iff; eauto.
  - destruct o; cbn [will_stop]; eauto. apply orb_true_iff. eauto.
Qed.
Lemma start_stop_will a b c : will_stop false (a ++ OStart :: b ++ OStop :: c) = true.
Proof.
  destruct (will_stop false (a ++ OStart :: b ++ OStop :: c)) eqn:E; [reflexivity|]. exfalso. refine (will_stop_app _ _ E false _ eq_refl). clear E. cbn [will_stop].
  induction b as [|o b IH]; [reflexivity|]. cbn [app]. destruct o; cbn [will_stop]; auto.
Qed.
End Reach.
