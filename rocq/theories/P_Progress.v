(* C64: the progress report. Any number of threads, any schedule. *)
From Coq Require Import Arith.
From Verif Require Import M_Base M_Progress S_Progress L_Base L_Progress L_ProgressRun.
Ltac Zify.zify_post_hook ::= idtac.

(* While a command waits nobody waits for ever: from every state it can come to its end, and the thread that reports wakes up at most once more for that. *)
Theorem c64_always_ends v json os todos s : orderly_command os todos -> reach v json (begin_sys os todos) s ->
  exists k z t, runs v json k z s t /\ finished t /\ (z <= 1)%nat.
Proof.
  intros O R. destruct (always_ends v json (wt s) s (Nat.le_refl _) (inv1_reach _ _ _ _ O s R)) as (k & z & t & A & F & Z). exists k, z, t. split; [exact A|]. split; [exact F|]. destruct (awake s); lia.
Qed.
(* In every unfinished state some thread can go on that does not sleep, unless stop waits for the sleeping one. *)
Theorem c64_nobody_stuck v json os todos s : orderly_command os todos -> reach v json (begin_sys os todos) s -> ~ finished s ->
  (exists s', step v json s s' /\ ~ (s_runner s = RSleep /\ s_runner s' <> RSleep)) \/ (s_runner s = RSleep /\ f_shutdown (s_shared s) = true).
Proof. intros O R NF. exact (nobody_stuck v json s (inv1_reach _ _ _ _ O s R) NF). Qed.
(* The number of steps of a run is bounded by the program and the number of times the reporting thread woke up: no thread runs in circles. *)
Theorem c64_bounded v json os todos k z s : runs v json k z (begin_sys os todos) s ->
  (k <= 20 * length os + 2 * length (concat todos) + 15 + 15 * z)%nat.
Proof.
  intro R. pose proof (runs_weight v json _ _ _ _ R) as W.
  enough (wt (begin_sys os todos) <= 20 * length os + 2 * length (concat todos) + 15)%nat by lia.
  unfold wt, begin_sys. cbn [s_main fst snd s_workers s_shared s_runner map sumn wt_runner].
  assert (A : (sumn (map wt_op os) <= 20 * length os)%nat) by (clear; induction os as [|o os IH]; cbn [map sumn length]; [lia|destruct o; cbn [wt_op]; lia]).
  assert (B : (sumn (map wt_worker (map (mkWorker false) todos)) = 2 * length (concat todos))%nat).
  { clear. induction todos as [|t todos IH]; [reflexivity|]. cbn [map sumn concat]. rewrite app_length, IH. unfold wt_worker. cbn. lia. }
  lia.
Qed.
(* What has been reported at any time: the header once and first, the counts never going down and never above what has been counted, then the end with the whole count; then nothing *)
Theorem c64_reports v json os todos s : orderly_command os todos -> reach v json (begin_sys os todos) s ->
  exists us fin, filter is_report (seen (s_shared s)) = reports json us fin /\ ascending 0 us /\ Forall (fun u => u <= u_units (s_shared s)) us /\
    u_units (s_shared s) <= whole os todos /\ (fin = None \/ fin = Some (whole os todos) /\ v <> L0) /\ (v <> L2 -> us = []).
Proof.
  intros O R. pose proof (units_reach _ _ _ _ O s R) as U. destruct (inv2_reach v json _ _ O s R) as (us & CF & F & CH & A & FO & LA & VA & VF). exists us, (if c_finish (s_shared s) then Some (whole os todos) else None).
  split; [exact F|]. split; [exact A|]. split; [eapply Forall_impl; [|exact FO]; cbn; intros; lia|]. split; [lia|]. split.
  - destruct (c_finish (s_shared s)); [right|auto]. split; [reflexivity|]. intros ->. discriminate.
  - intro N. apply VA. destruct v; try reflexivity. contradiction.
Qed.
(* A command that has called start and stop has told the end exactly once, with all counted (unless it was to be silent), and its progress at least once at level 2 *)
Theorem c64_end_told v json a b c todos s : orderly_command (a ++ OStart :: b ++ OStop :: c) todos -> reach v json (begin_sys (a ++ OStart :: b ++ OStop :: c) todos) s -> finished s ->
  exists us, filter is_report (seen (s_shared s)) = reports json us (match v with L0 => None | _ => Some (whole (a ++ OStart :: b ++ OStop :: c) todos) end) /\
    ascending 0 us /\ Forall (fun u => u <= whole (a ++ OStart :: b ++ OStop :: c) todos) us /\ (us = [] <-> v <> L2).
Proof.
  intros O R FN. pose proof (finished_done v json _ _ O s (start_stop_will v json _ _ O a b c) R FN) as D. pose proof (units_reach _ _ _ _ O s R) as U.
  destruct (inv2_reach v json _ _ O s R) as (us & CF & F & CH & A & FO & LA & VA & VF). exists us. rewrite D in *. cbn [past_last past_first] in *. rewrite !andb_true_r in *. rewrite CF in F.
  split; [rewrite F; destruct v; reflexivity|]. split; [exact A|]. split; [eapply Forall_impl; [|exact FO]; cbn; intros; lia|].
  split; [intros E N; subst v; apply VF; [reflexivity|exact E]|]. intro N. apply VA. destruct v; try reflexivity. contradiction.
Qed.
(* the subtraction of the count last reported never goes below 0 *)
Theorem c64_no_underflow v json os todos s : orderly_command os todos -> reach v json (begin_sys os todos) s -> c_last (s_shared s) <= u_units (s_shared s).
Proof. intros O R. destruct (inv2_reach v json _ _ O s R) as (us & CF & F & CH & A & FO & LA & _). exact LA. Qed.
(* Text printed between pause and resume with the counters locked, as check and repair do, is never mixed with progress. *)
Theorem c64_pause v os todos s : v <> L0 -> orderly_command (OStart :: os ++ [OStop]) todos -> polite false false os = true ->
  reach v false (begin_sys (OStart :: os ++ [OStop]) todos) s -> undisturbed (seen (s_shared s)).
Proof. intros V O P R. apply (inv4_reach v os todos V O P s R). Qed.
(* At level 2, when the reporting thread wakes up and nobody holds the mutexes, it tells the count as it is, unless the report is paused; then it says nothing. *)
Theorem c64_next_report json os todos s : orderly_command os todos -> reach L2 json (begin_sys os todos) s -> s_runner s = RSleep -> h_stats (s_shared s) = None -> h_context (s_shared s) = None ->
  exists k s', runs L2 json k 1 s s' /\ s_main s' = s_main s /\ s_workers s' = s_workers s /\ s_runner s' = RLoop /\
    seen (s_shared s') = seen (s_shared s) ++ (if f_active (s_shared s) then [if json then EJson false (u_units (s_shared s)) else EProgress (u_units (s_shared s))] else []).
Proof. apply next_report. Qed.
(* It is paused by pause, not before, and no longer after resume. *)
Theorem c64_paused_or_not v json os todos s o rest s' : orderly_command os todos -> reach v json (begin_sys os todos) s -> s_main s = ([], o :: rest) -> move_main v json s = Some s' ->
  f_active (s_shared s') = (if o_is_resume o then true else if o_is_pause o then f_active (s_shared s) && negb (f_start (s_shared s) && negb (f_shutdown (s_shared s))) else f_active (s_shared s)).
Proof.
  intros O R E M. unfold move_main in M. rewrite E in M. destruct (begin_op v json o (s_shared s) _) as [[ms x]|] eqn:B; [|discriminate]. injection M as <-. cbn [s_shared].
  destruct o; cbn [begin_op o_is_resume o_is_pause] in *; repeat (match type of B with context [match ?e with Some _ => _ | None => _ end] => destruct e end; try discriminate).
  - destruct (f_start (s_shared s)); injection B as <- <-; reflexivity.
  - destruct (f_start (s_shared s)), (f_shutdown (s_shared s)), (f_active (s_shared s)) eqn:FA; injection B as <- <-; try reflexivity; exact FA.
  - injection B as <- <-. reflexivity.
  - destruct (_ && _); injection B as <- <-; reflexivity.
  - injection B as <- <-. reflexivity.
  - injection B as <- <-. reflexivity.
  - injection B as <- <-. reflexivity.
  - injection B as <- <-. reflexivity.
  - destruct (forallb idle _); [|discriminate]. injection B as <- <-. reflexivity.
Qed.
(* With --json the reporter prints nothing but JSON objects. *)
Theorem c64_json_only v os todos s : reach v true (begin_sys os todos) s -> forall e, In e (seen (s_shared s)) -> (exists b u, e = EJson b u) \/ (exists t, e = EText t).
Proof.
  intros R e I. pose proof (json_reach v os todos s R) as J. rewrite forallb_forall in J. specialize (J e I). destruct e; try discriminate; eauto.
Qed.
(* The percentage and the bar *)
Theorem c64_percent u t : 100 * u <= U64_MAX -> exists p, calc_percent u t = Some p /\ p <= 100 /\ (p = 100 <-> t <= u) /\ lenN (make_progress_bar p) = 27.
Proof.
  intro F. assert (Q : exists p, calc_percent u t = Some p /\ p <= 100 /\ (p = 100 <-> t <= u)).
  { unfold calc_percent. destruct (t =? 0) eqn:T.
    - apply N.eqb_eq in T. exists 100. split; [reflexivity|]. split; [lia|]. split; intro; [lia|reflexivity].
    - apply N.eqb_neq in T. destruct (U64_MAX <? 100 * u) eqn:L; [apply N.ltb_lt in L; lia|]. eexists. split; [reflexivity|]. split; [lia|].
      split; intro H.
      + assert (100 <= 100 * u / t) by lia. assert (t * 100 <= t * (100 * u / t)) by (apply N.mul_le_mono_l; assumption). pose proof (N.mul_div_le (100 * u) t T). lia.
      + assert (100 <= 100 * u / t) by (apply N.div_le_lower_bound; lia). lia. }
  destruct Q as (p & E & P & H). exists p. split; [exact E|]. split; [exact P|]. split; [exact H|]. unfold make_progress_bar.
  assert (25 * p / 100 <= 25) by (apply N.div_le_upper_bound; lia).
  rewrite !lenN_app, !lenN_rep. unfold lenN. cbn [length N.of_nat]. lia.
Qed.

(* show calls pause without the lock: a report comes after the progress text has been wiped out and before the text of the command *)
Definition show_ops : list op := [OStart; OPause; OPrint 1; OResume; OStop].
Definition bad_schedule : list pick :=
  [PkMain; PkMain; PkMain; PkBarrier; PkRunner; PkRunner; PkRunner; PkRunner; PkRunner; PkBarrier; PkRunner; PkRunner; PkRunner; 
   PkMain; PkMain; PkMain; PkMain; PkMain; PkMain; PkMain; PkRunner; PkRunner; PkRunner; PkRunner; PkRunner; PkMain].
Theorem c64_pause_refuted : exists s, orderly_command show_ops [] /\ reach L2 false (begin_sys show_ops []) s /\ ~ undisturbed (seen (s_shared s)) /\
  seen (s_shared s) = [EHeader; EProgress 0; EErase; ECr; EProgress 0; EText 1].
Proof.
  destruct (take_steps L2 false bad_schedule (begin_sys show_ops [])) as [s|] eqn:E; [|vm_compute in E; discriminate].
  exists s. split; [reflexivity|]. split; [eapply take_steps_ok; [apply reach_start|exact E]|].
  assert (S : seen (s_shared s) = [EHeader; EProgress 0; EErase; ECr; EProgress 0; EText 1]) by (vm_compute in E; injection E as <-; reflexivity).
  split; [|exact S]. rewrite S. intro U. destruct (U [EHeader; EProgress 0; EErase; ECr; EProgress 0] 1 [] eq_refl) as (a & e & A & K).
  change [EHeader; EProgress 0; EErase; ECr; EProgress 0] with ([EHeader; EProgress 0; EErase; ECr] ++ [EProgress 0]) in A. apply app_inj_tail in A as [_ <-]. destruct K as [K|[t K]]; discriminate.
Qed.

(* check: two blocks, a message about the first *)
Definition check_ops : list op := [OLock; OPause; OPrint 7; OPrint 8; OResume; OAdd 1; OUnlock; OLock; OAdd 1; OUnlock].
(* decode: two threads besides *)
Definition decode_ops : list op := [OStart; OLock; OAdd 1; OUnlock; OJoin; OStop].
Example c64_hypotheses : orderly_command (OStart :: check_ops ++ [OStop]) [] /\ polite false false check_ops = true /\ orderly_command decode_ops [[1; 1]; [2]] /\
  orderly_command ([] ++ OStart :: [OLock; OAdd 1; OUnlock; OJoin] ++ OStop :: []) [[1; 1]; [2]] /\ whole decode_ops [[1; 1]; [2]] = 5 /\ 100 * 5 <= U64_MAX.
Proof. repeat split; vm_compute; intro; discriminate. Qed.
Fixpoint reps {A} (n : nat) (l : list A) : list A := match n with O => [] | S n' => l ++ reps n' l end.
Example c64_asleep : exists s, orderly_command decode_ops [[1; 1]; [2]] /\ reach L2 false (begin_sys decode_ops [[1; 1]; [2]]) s /\ s_runner s = RSleep /\ h_stats (s_shared s) = None /\
  h_context (s_shared s) = None /\ u_units (s_shared s) = 3 /\ f_active (s_shared s) = true.
Proof.
  destruct (take_steps L2 false (reps 3 [PkMain] ++ [PkBarrier] ++ reps 5 [PkRunner] ++ [PkBarrier; PkRunner; PkWorker 0; PkWorker 0; PkWorker 1; PkWorker 1]) (begin_sys decode_ops [[1; 1]; [2]])) as [s|] eqn:E; [|vm_compute in E; discriminate].
  exists s. split; [reflexivity|]. split; [eapply take_steps_ok; [apply reach_start|exact E]|]. vm_compute in E. injection E as <-. repeat split.
Qed.
Example c64_run :
  (match take_steps L2 false (reps 3 [PkMain] ++ [PkBarrier] ++ reps 5 [PkRunner] ++ [PkBarrier] ++ reps 1 [PkMain] ++ reps 3 [PkRunner] ++ reps 12 [PkMain] ++ reps 5 [PkRunner] ++
     reps 3 [PkMain] ++ reps 4 [PkMain] ++ [PkRunner] ++ reps 5 [PkRunner] ++ [PkBarrier]) (begin_sys (OStart :: check_ops ++ [OStop]) []) with
   | Some s => Some (s_main s, s_runner s, seen (s_shared s)) | None => None end)
  = Some (([], []), RDone, [EHeader; EProgress 0; EErase; ECr; EText 7; EText 8; EProgress 1; EFinish 2]).
Proof. vm_compute. reflexivity. Qed.
Example c64_run_workers :
  (match take_steps L1 true ([PkMain; PkWorker 1; PkWorker 1; PkMain; PkMain; PkWorker 0; PkWorker 0] ++ [PkBarrier] ++ reps 5 [PkRunner] ++ [PkBarrier; PkWorker 0] ++ [PkRunner; PkWorker 0] ++ reps 4 [PkMain] ++
     reps 4 [PkMain] ++ [PkRunner; PkRunner] ++ reps 5 [PkRunner] ++ [PkRunner] ++ reps 5 [PkRunner] ++ [PkBarrier]) (begin_sys decode_ops [[1; 1]; [2]]) with
   | Some s => Some (s_main s, s_runner s, seen (s_shared s)) | None => None end)
  = Some (([], []), RDone, [EJson true 5]).
Proof. vm_compute. reflexivity. Qed.

Print Assumptions c64_always_ends. Print Assumptions c64_nobody_stuck. Print Assumptions c64_bounded. Print Assumptions c64_reports. Print Assumptions c64_end_told.
Print Assumptions c64_no_underflow. Print Assumptions c64_pause. Print Assumptions c64_percent. Print Assumptions c64_json_only. Print Assumptions c64_next_report. Print Assumptions c64_paused_or_not. Print Assumptions c64_pause_refuted.
