(* C65: the log of rescue and the thread that writes it. *)
From Coq Require Import List Lia.
Import ListNotations.
From Verif Require Import M_Log S_Log.

Definition log_holds (t : log_thread) : bool := match t with TOpen | TWrite | TError | TUnlock => true | _ => false end.
Definition writer_holds (w : writer_at) : bool := match w with WCount | WCount2 | WUnlock => true | _ => false end.
Definition ahead (w : writer_at) : nat := match w with WLock | WCount => 1 | _ => 0 end.
Definition running (t : log_thread) : bool := match t with TStartBarrier => false | _ => true end.
Definition phase_ok (m : main_at) (t : log_thread) (w : writer_at) (d : bool) : bool :=
  match m with
  | MStart | MStartBarrier => negb d && negb (running t) && match w with WNext => true | _ => false end
  | MJoin => negb d && running t && match t with TShutdownBarrier => false | _ => true end
  | MStop => negb d && running t && match t with TShutdownBarrier => false | _ => true end && match w with WDone _ => true | _ => false end
  | MShutdownBarrier => d && running t && match w with WDone _ => true | _ => false end
  | MEnd => d && negb (running t) && match w with WDone _ => true | _ => false end
  end.
Definition linv (s : lsys) : Prop :=
  phase_ok (l_main s) (l_thread s) (l_writer s) (l_shutdown s) = true /\
  (log_holds (l_thread s) = true <-> l_holder s = Some HLog) /\ (writer_holds (l_writer s) = true <-> l_holder s = Some HWriter) /\
  l_written s = (l_counted s + ahead (l_writer s))%nat /\
  l_counted s = (l_blocks s + match l_writer s with WCount2 => 1 | _ => 0 end)%nat /\
  match l_log s with LAt n k => n = k /\ n <= l_counted s | _ => True end.
Lemma linv_begin c0 files g : old_log c0 g -> linv (begin_log c0 files g).
Proof. intro O. unfold linv; cbn. repeat split; try discriminate; try lia. destruct O as [-> | ->]; [exact I|split; [reflexivity|lia]]. Qed.
Ltac brk := repeat match goal with
  | H : context [match ?x with _ => _ end] |- _ => destruct x eqn:?; try discriminate
  | |- context [match ?x with _ => _ end] => destruct x eqn:?; try discriminate
  end.
Ltac ph := match goal with P : phase_ok ?m ?t ?w ?d = true |- phase_ok _ _ _ _ = true => destruct m, d; try discriminate P; try reflexivity; try (destruct t; try discriminate P; reflexivity); try (destruct w; try discriminate P; reflexivity); try (destruct t, w; try discriminate P; reflexivity) end.
Ltac hl := split; intro; try congruence; try discriminate; intuition congruence.
Lemma linv_step s s' : linv s -> lstep s s' -> linv s'.
Proof.
  intros (P & HL & HW & N & B & G) S. destruct S as [ok s s' M|ok s s' R M|s s' M|w l h d e c b n g|w l h d e c b n g|m t w l d e c b n g|m t w l d e c b n g].
  - destruct s as [m t w l h d e c b n g]. unfold linv. cbn [l_main l_thread l_writer l_shutdown l_holder l_written l_counted l_blocks l_log] in *. 
    destruct t; cbn [move_log] in M; try discriminate.
    + injection M as <-. cbn. split; [destruct d; ph|]. destruct d; cbn in *; auto 10.
    + injection M as <-. cbn. split; [ph|]. cbn in *; auto 10.
    + destruct h; [discriminate|]. injection M as <-. cbn in *. split; [ph|]. split; [tauto|]. split; [hl|]. auto 10.
    + destruct ok; injection M as <-; cbn in *; (split; [ph|]); auto 10.
    + assert (W2 : w <> WCount2) by (intros ->; cbn in HL, HW; assert (h = Some HLog) by (apply HL; reflexivity); assert (h = Some HWriter) by (apply HW; reflexivity); congruence).
      destruct ok; injection M as <-; cbn in *; (split; [ph|]); auto. split; [exact HL|]. split; [exact HW|]. split; [exact N|]. split; [exact B|]. destruct w; try contradiction; lia.
    + injection M as <-; cbn in *; (split; [ph|]); auto 10.
    + injection M as <-; cbn in *; (split; [ph|]). split; [hl|]. split; [hl|]. auto 10.
  - destruct s as [m t w l h d e c b n g]. unfold linv. cbn [l_main l_thread l_writer l_shutdown l_holder l_written l_counted l_blocks l_log] in *.
    assert (NW : forall w', phase_ok m t w d = true -> (match w with WDone _ => false | _ => true end) = true -> phase_ok m t w' d = true).
    { intros w' Q NW. destruct m; cbn in R; try discriminate R; cbn in Q |- *; try exact Q; destruct w; try discriminate NW; rewrite ?Bool.andb_false_r in Q; discriminate Q. }
    destruct w; cbn [move_writer] in M; try discriminate.
    + destruct l as [|k l]; [injection M as <-|destruct e; injection M as <-]; cbn in *; (split; [apply NW; [exact P|reflexivity]|]); auto 10.
    + destruct left as [|k]; [injection M as <-|destruct ok; injection M as <-]; cbn in *; (split; [apply NW; [exact P|reflexivity]|]); auto. split; [exact HL|]. split; [exact HW|]. split; [lia|]. split; [lia|exact G].
    + destruct h; [discriminate|]. injection M as <-; cbn in *; (split; [apply NW; [exact P|reflexivity]|]). split; [hl|]. split; [tauto|]. auto 10.
    + injection M as <-; cbn in *; (split; [apply NW; [exact P|reflexivity]|]). split; [exact HL|]. split; [exact HW|]. split; [lia|]. split; [lia|]. destruct g as [| |n0 k0]; auto; lia.
    + injection M as <-; cbn in *; (split; [apply NW; [exact P|reflexivity]|]). split; [exact HL|]. split; [exact HW|]. split; [lia|]. split; [lia|]. destruct g as [| |n0 k0]; auto; lia.
    + injection M as <-; cbn in *; (split; [apply NW; [exact P|reflexivity]|]). split; [hl|]. split; [hl|]. auto 10.
  - destruct s as [m t w l h d e c b n g]. unfold linv. cbn [l_main l_thread l_writer l_shutdown l_holder l_written l_counted l_blocks l_log] in *.
    destruct m; cbn [move_main] in M; try discriminate.
    + injection M as <-; cbn in *. auto 10.
    + destruct w; try discriminate. injection M as <-; cbn in *. rewrite P. auto 10.
    + injection M as <-; cbn in *. destruct d; [discriminate P|]. split; [|auto 10]. destruct t, w; try discriminate P; reflexivity.
  - unfold linv in *. cbn in *. destruct d; [discriminate P|]. auto 10.
  - unfold linv in *. cbn in *. destruct d; [|discriminate P]. auto 10.
  - unfold linv in *. cbn in *. split; [exact P|]. split; [hl|]. split; [hl|]. auto 10.
  - unfold linv in *. cbn in *. split; [exact P|]. split; [hl|]. split; [hl|]. auto 10.
Qed.
Lemma linv_reach c0 files g s : old_log c0 g -> lreach (begin_log c0 files g) s -> linv s.
Proof. intro O. induction 1; [apply linv_begin, O|eapply linv_step; eassumption]. Qed.

(* At no moment does the log count a buffer whose blocks are not all written: what is read from it on resuming loses nothing. *)
Theorem c65_log_true c0 files g s : old_log c0 g -> lreach (begin_log c0 files g) s -> log_true s.
Proof. intros O R. destruct (linv_reach _ _ _ _ O R) as (_ & _ & _ & N & B & G). unfold log_true. destruct (l_log s); auto. lia. Qed.

(* the work left *)
Definition wt_main (m : main_at) : nat := match m with MStart => 71 | MStartBarrier => 70 | MJoin => 56 | MStop => 55 | MShutdownBarrier => 30 | MEnd => 0 end.
Definition wt_thread (d : bool) (t : log_thread) : nat :=
  match t with TStartBarrier => 0 | TLoop => 8 | TSleep => if d then 20 else 0 | TLock => 15 | TOpen => 14 | TWrite => 13 | TError => 12 | TUnlock => 9 | TShutdownBarrier => 1 end.
Fixpoint wt_files (l : list nat) : nat := match l with [] => 0 | k :: l' => k + 8 + wt_files l' end.
Definition wt_writer (w : writer_at) : nat := match w with WNext => 1 | WFiles k => k + 6 | WLock => 5 | WCount => 4 | WCount2 => 3 | WUnlock => 2 | WDone _ => 0 end.
Definition lwt (s : lsys) : nat :=
  wt_main (l_main s) + wt_thread (l_shutdown s) (l_thread s) + wt_writer (l_writer s) + wt_files (l_left s) + match l_holder s with Some HOther => 1 | _ => 0 end.
Definition lawake (s : lsys) : bool := andb (l_shutdown s) (match l_thread s with TSleep => false | _ => true end).
Definition goes (s s' : lsys) : Prop := lstep s s' /\ lwt s' < lwt s /\ (l_thread s = TSleep -> l_thread s' = TSleep \/ l_shutdown s = true).
Lemma log_goes s : linv s -> (match l_thread s with TSleep => l_shutdown s | TLock => match l_holder s with None => true | _ => false end | TStartBarrier | TShutdownBarrier => false | _ => true end) = true -> exists s', goes s s'.
Proof.
  intros I H. destruct s as [m t w l h d e c b n g]. cbn in H. destruct t; try discriminate H.
  all: try (eexists; split; [eapply (log_steps true); reflexivity|]; split; [|discriminate]; unfold lwt; cbn; try destruct d; cbn; destruct h as [[| |]|]; lia).
  - subst d. eexists; split; [eapply (log_steps true); reflexivity|]. split; [unfold lwt; cbn; lia|auto].
  - destruct h; [discriminate|]. eexists; split; [eapply (log_steps true); reflexivity|]. split; [unfold lwt; cbn; lia|discriminate].
Qed.
Lemma nobody_waits s : linv s -> l_main s <> MEnd -> exists s', goes s s'.
Proof.
  intros I NE. pose proof (log_goes s I) as LG. destruct I as (P & HL & HW & N & B & G). destruct s as [m t w l h d e c b n g]. cbn [l_main l_thread l_writer l_left l_holder l_shutdown l_counted l_written l_log] in *.
  destruct h as [[| |]|].
  - assert (T : log_holds t = true) by (apply HL; reflexivity). apply LG. destruct t; try discriminate T; reflexivity.
  - assert (T : writer_holds w = true) by (apply HW; reflexivity).
    assert (S : writer_started m = true) by (destruct m; try reflexivity; destruct w; try discriminate T; cbn in P; rewrite Bool.andb_false_r in P; discriminate P).
    destruct w; try discriminate T; (eexists; split; [eapply (writer_steps true); [exact S|reflexivity]|]; split; [unfold lwt; cbn; lia|cbn; auto]).
  - eexists. split; [apply other_unlocks|]. split; [unfold lwt; cbn; lia|cbn; auto].
  - destruct m; cbn [phase_ok] in P.
    + eexists. split; [apply main_steps; reflexivity|]. split; [unfold lwt; cbn; lia|cbn; auto].
    + destruct d; [discriminate P|]. destruct t; try discriminate P. eexists. split; [apply start_together|]. split; [unfold lwt; cbn; lia|discriminate].
    + destruct w as [|[|k]| | | | |f].
      * destruct l as [|k l]; [|destruct e]; (eexists; split; [eapply (writer_steps true); reflexivity|]; split; [unfold lwt; cbn; lia|cbn; auto]).
      * eexists; split; [eapply (writer_steps true); reflexivity|]; split; [unfold lwt; cbn; lia|cbn; auto].
      * eexists; split; [eapply (writer_steps true); reflexivity|]; split; [unfold lwt; cbn; lia|cbn; auto].
      * eexists; split; [eapply (writer_steps true); reflexivity|]; split; [unfold lwt; cbn; lia|cbn; auto].
      * eexists; split; [eapply (writer_steps true); reflexivity|]; split; [unfold lwt; cbn; lia|cbn; auto].
      * eexists; split; [eapply (writer_steps true); reflexivity|]; split; [unfold lwt; cbn; lia|cbn; auto].
      * eexists; split; [eapply (writer_steps true); reflexivity|]; split; [unfold lwt; cbn; lia|cbn; auto].
      * eexists. split; [apply main_steps; reflexivity|]. split; [unfold lwt; cbn; lia|cbn; auto].
    + destruct d; [discriminate P|]. eexists. split; [apply main_steps; reflexivity|]. split; [unfold lwt; cbn; destruct t; cbn; lia|cbn; auto].
    + destruct d; [|discriminate P]. destruct t; try discriminate P; try (apply LG; reflexivity). eexists. split; [apply stop_together|]. split; [unfold lwt; cbn; lia|discriminate].
    + contradiction.
Qed.
Lemma lawake_step s s' : lstep s s' -> lawake s = true -> lawake s' = true.
Proof.
  unfold lawake. intros S A. apply andb_prop in A as [D T]. destruct S as [ok s s' M|ok s s' R M|s s' M|w l h d e c b n g|w l h d e c b n g|m t w l d e c b n g|m t w l d e c b n g]; cbn in *; subst; try reflexivity; try (rewrite T; reflexivity).
  - destruct s as [m t w l h d e c b n g]. cbn in *. subst d. destruct t; try discriminate; cbn in M; try (destruct h; [discriminate|]); try destruct ok; injection M as <-; reflexivity.
  - destruct s as [m t w l h d e c b n g]. cbn in *. subst d. destruct w as [|[|k]| | | | |]; try discriminate; cbn in M; try (destruct h; [discriminate|]); try (destruct l; try destruct e); try destruct ok; injection M as <-; exact T.
  - destruct s as [m t w l h d e c b n g]. cbn in *. subst d. destruct m; try discriminate; cbn in M; try (destruct w; try discriminate); injection M as <-; exact T.
Qed.
Lemma lruns_cat z s t z' u : lruns z s t -> lruns z' t u -> lruns (z' + z) s u.
Proof.
  intros A B. induction B; cbn [Nat.add]; [exact A| |].
  - eapply lruns_wake; eauto.
  - eapply lruns_step; eauto.
Qed.
Lemma log_ends k : forall s, lwt s <= k -> linv s -> exists z t, lruns z s t /\ l_main t = MEnd /\ z <= (if lawake s then 0 else 1).
Proof.
  induction k as [|k IH]; intros s W I; (assert (D : l_main s = MEnd \/ l_main s <> MEnd) by (destruct (l_main s); (left; reflexivity) || (right; discriminate))).
  all: destruct D as [E|NE]; [exists 0, s; split; [constructor|split; [exact E|lia]]|]. all: destruct (nobody_waits s I NE) as (s' & S & L & SL); [lia || idtac].
  destruct (IH s') as (z & t & R & F & Z); [lia|eapply linv_step; eassumption|].
  destruct (l_thread s) eqn:T; try (exists (z + 0), t; split; [apply (lruns_cat 0 s s'); [eapply lruns_step; [apply lruns_nil|exact S|rewrite T; discriminate]|exact R]|split; [exact F|]];
    destruct (lawake s) eqn:AW; [rewrite (lawake_step _ _ S AW) in Z; lia|destruct (lawake s'); lia]).
  destruct (SL eq_refl) as [T'|SD].
  - exists (z + 0), t; split; [apply (lruns_cat 0 s s'); [eapply lruns_step; [apply lruns_nil|exact S|intros _; exact T']|exact R]|split; [exact F|]].
    destruct (lawake s) eqn:AW; [rewrite (lawake_step _ _ S AW) in Z; lia|destruct (lawake s'); lia].
  - assert (AW : lawake s = false) by (unfold lawake; rewrite T; apply Bool.andb_false_r). rewrite AW.
    destruct (l_thread s') eqn:T'.
    3: { exists (z + 0), t; split; [apply (lruns_cat 0 s s'); [eapply lruns_step; [apply lruns_nil|exact S|intros _; exact T']|exact R]|split; [exact F|]]. destruct (lawake s'); lia. }
    all: assert (AW' : lawake s' = true) by (unfold lawake; rewrite T'; destruct S as [ok s s' M|ok s s' RR M|s s' M| | | |]; cbn in *; try discriminate; try (rewrite SD; reflexivity);
      destruct s as [m tt w l h d e c b n g]; cbn in T, SD; subst; cbn in M; [injection M as <-; reflexivity|..]; exfalso;
      repeat (match type of M with context [match ?x with _ => _ end] => destruct x end; try discriminate); injection M as <-; discriminate T').
    all: rewrite AW' in Z; exists (z + 1), t; (split; [apply (lruns_cat 1 s s'); [eapply lruns_wake; [apply lruns_nil|exact T|exact S|rewrite T'; discriminate]|exact R]|split; [exact F|lia]]).
Qed.
(* Nobody waits for ever: from every state the command can come to its end, and waits for the log thread to wake up at most once. *)
Theorem c65_always_ends c0 files g s : old_log c0 g -> lreach (begin_log c0 files g) s -> exists z t, lruns z s t /\ l_main t = MEnd /\ z <= 1.
Proof. intros O R. destruct (log_ends (lwt s) s (le_n _) (linv_reach _ _ _ _ O R)) as (z & t & A & B & C). exists z, t. split; [exact A|]. split; [exact B|]. destruct (lawake s); lia. Qed.
(* If the log thread sleeps, or waits for the counters, when the writer has ended, the log is up to date when the command ends, unless it cannot be written. *)
Definition newest (s : lsys) (c : nat) : Prop :=
  l_counted s = c /\ l_blocks s = c /\ (exists f, l_writer s = WDone f) /\ running (l_thread s) = true /\
  (match l_thread s with TSleep | TLock | TOpen | TWrite => True | TError => False | _ => l_log s = LAt c c end) \/
  l_main s = MEnd /\ l_log s = LAt c c /\ l_thread s = TStartBarrier /\ (exists f, l_writer s = WDone f).
Lemma newest_step s s' c : newest s c -> lstep s s' -> l_thread s' <> TError -> newest s' c.
Proof.
  intros I S NE. unfold newest in *. destruct S as [ok s s' M|ok s s' R M|s s' M|w l h d e cc b n g|w l h d e cc b n g|m t w l d e cc b n g|m t w l d e cc b n g].
  - destruct s as [m t w l h d e cc b n g]. cbn in *. destruct I as [(C & CB & W & RU & T)|(E & _ & -> & _)]; [|discriminate]. subst cc. subst b. left.
    destruct t; try discriminate; try contradiction; cbn in M; try (destruct h; [discriminate|]); try destruct ok; injection M as <-; cbn in *; try contradiction; try solve [destruct d; cbn in *; auto].
  - destruct s as [m t w l h d e cc b n g]. cbn in *. destruct I as [(_ & _ & [f ->] & _)|(_ & _ & _ & [f ->])]; discriminate M.
  - destruct s as [m t w l h d e cc b n g]. cbn in *. destruct I as [(C & CB & W & RU & T)|(-> & _)]; [|discriminate]. destruct m; try discriminate; try (destruct w; try discriminate); injection M as <-; cbn; left; auto.
  - cbn in *. destruct I as [(_ & _ & _ & RU & _)|(E & _)]; discriminate.
  - cbn in *. destruct I as [(C & CB & W & RU & T)|(E & _)]; [|discriminate]. right. auto.
  - cbn in *. exact I.
  - cbn in *. exact I.
Qed.
(* Every buffer is written, waits, or is in the hands of the writing thread *)
Definition all_here (c0 : nat) (files : list nat) (s : lsys) : Prop :=
  match l_writer s with
  | WDone true => True
  | WDone false => l_left s = [] /\ l_written s = c0 + length files
  | WFiles _ => l_written s + 1 + length (l_left s) = c0 + length files
  | _ => l_written s + length (l_left s) = c0 + length files
  end.
Lemma all_here_step c0 files s s' : all_here c0 files s -> lstep s s' -> all_here c0 files s'.
Proof.
  unfold all_here. intros A S. destruct S as [ok s s' M|ok s s' R M|s s' M|w l h d e c b n g|w l h d e c b n g|m t w l d e c b n g|m t w l d e c b n g]; cbn in *; try exact A.
  - destruct s as [m t w l h d e c b n g]. cbn in *. destruct t; try discriminate; try (destruct h; [discriminate|]); try destruct ok; injection M as <-; exact A.
  - destruct s as [m t w l h d e c b n g]. cbn in *. destruct w as [|[|k]| | | | |]; try discriminate; cbn in M; try (destruct h; [discriminate|]); try (destruct l; try destruct e); try destruct ok; injection M as <-; cbn in *; try exact A; try exact I; try lia.
    all: split; [reflexivity|lia].
  - destruct s as [m t w l h d e c b n g]. cbn in *. destruct m; try discriminate; try (destruct w; try discriminate); injection M as <-; exact A.
Qed.
Theorem c65_newest c0 files g s t f : old_log c0 g -> lreach (begin_log c0 files g) s -> l_writer s = WDone f -> l_thread s = TSleep \/ l_thread s = TLock ->
  good_log s t -> l_main t = MEnd -> l_log t = LAt (l_written s) (l_written s) /\ (f = false -> l_written s = c0 + length files).
Proof.
  intros O R W T GL E.
  assert (EC : l_written s = l_counted s) by (destruct (linv_reach _ _ _ _ O R) as (_ & _ & _ & N & _); rewrite W in N; cbn in N; lia). rewrite EC.
  assert (I : newest t (l_counted s)).
  { clear E. induction GL as [s|s s' t GL IH S NE]; [left; split; [reflexivity|]; split; [destruct (linv_reach _ _ _ _ O R) as (_ & _ & _ & _ & B & _); rewrite W in B; lia|]; split; [eauto|]; destruct T as [T|T]; rewrite T; auto|]. eapply newest_step; eauto. }
  split.
  - destruct I as [(_ & _ & _ & RU & _)|(_ & I & _)]; [|exact I]. exfalso.
    assert (R' : lreach (begin_log c0 files g) t) by (clear -R GL; induction GL as [s|s s' t GL IH S NE]; [exact R|eapply lreach_step; [apply IH, R|exact S]]).
    destruct (linv_reach _ _ _ _ O R') as (P & _). rewrite E in P. cbn in P. rewrite RU in P. rewrite Bool.andb_false_r in P. discriminate P.
  - intros ->. rewrite <- EC. assert (A : all_here c0 files s) by (clear -R; induction R; [reflexivity|eapply all_here_step; eassumption]). unfold all_here in A. rewrite W in A. apply A.
Qed.

(* A schedule to compute with *)
Inductive lpick := KMain | KLog | KWriter | KBarrier.
Definition ltake (p : lpick) (s : lsys) : option lsys :=
  match p with
  | KMain => move_main s
  | KLog => move_log true s
  | KWriter => if writer_started (l_main s) then move_writer true s else None
  | KBarrier => match s with
                | mkLsys MStartBarrier TStartBarrier w l h d e c b n g => Some (mkLsys MJoin TLoop w l h d e c b n g)
                | mkLsys MShutdownBarrier TShutdownBarrier w l h d e c b n g => Some (mkLsys MEnd TStartBarrier w l h d e c b n g)
                | _ => None
                end
  end.
Fixpoint ltakes (ps : list lpick) (s : lsys) : option lsys := match ps with [] => Some s | p :: ps' => match ltake p s with Some s' => ltakes ps' s' | None => None end end.
Lemma ltake_ok p s s' : ltake p s = Some s' -> lstep s s'.
Proof.
  destruct p; cbn [ltake]; intro E.
  - apply main_steps, E.
  - eapply log_steps, E.
  - destruct (writer_started (l_main s)) eqn:W; [|discriminate]. eapply writer_steps; eassumption.
  - destruct s as [[| | | | |] [| | | | | | | |] w l h d e c b n g]; try discriminate; injection E as <-; [apply start_together|apply stop_together].
Qed.
Lemma ltakes_ok ps s0 : forall s s', lreach s0 s -> ltakes ps s = Some s' -> lreach s0 s'.
Proof.
  induction ps as [|p ps IH]; cbn [ltakes]; intros s s' R E; [injection E as <-; exact R|]. destruct (ltake p s) as [t|] eqn:T; [|discriminate].
  eapply IH; [|exact E]. eapply lreach_step; [exact R|eapply ltake_ok, T].
Qed.
Lemma ltake_good p s s' : l_thread s <> TError -> ltake p s = Some s' -> l_thread s' <> TError.
Proof.
  intros NE E. destruct s as [m t w l h d e c b n g]. cbn in NE. destruct p; cbn in E.
  - destruct m; try discriminate; try (destruct w; try discriminate); injection E as <-; exact NE.
  - destruct t; try discriminate; try contradiction; try (destruct h; [discriminate|]); injection E as <-; cbn; try discriminate. destruct d; discriminate.
  - destruct (writer_started m); [|discriminate]. destruct w as [|[|k]| | | | |]; try discriminate; try (destruct h; [discriminate|]); try (destruct l; try destruct e); injection E as <-; exact NE.
  - destruct m, t; try discriminate; injection E as <-; cbn; discriminate.
Qed.
Lemma ltakes_good ps s0 : forall s s', good_log s0 s -> l_thread s <> TError -> ltakes ps s = Some s' -> good_log s0 s'.
Proof.
  induction ps as [|p ps IH]; cbn [ltakes]; intros s s' R NE E; [injection E as <-; exact R|]. destruct (ltake p s) as [t|] eqn:T; [|discriminate].
  pose proof (ltake_good _ _ _ NE T). eapply IH; [|eassumption|exact E]. eapply good_step; [exact R|eapply ltake_ok, T|assumption].
Qed.
(* Without that the log may be out of date, or not be there at all, although nothing failed. *)
Theorem c65_newest_refuted :
  (exists s, lreach (begin_log 0 [1] LAbsent) s /\ l_main s = MEnd /\ l_writer s = WDone false /\ l_error s = false /\ l_counted s = 1 /\ l_log s = LAt 0 0) /\
  (exists s, lreach (begin_log 0 [1] LAbsent) s /\ l_main s = MEnd /\ l_writer s = WDone false /\ l_error s = false /\ l_counted s = 1 /\ l_log s = LAbsent).
Proof.
  split.
  - destruct (ltakes [KMain; KBarrier; KLog; KLog; KLog; KLog; KLog; KLog; KWriter; KWriter; KWriter; KWriter; KWriter; KWriter; KWriter; KWriter; KMain; KMain; KLog; KBarrier] (begin_log 0 [1] LAbsent)) as [s|] eqn:E; [|vm_compute in E; discriminate].
    exists s. split; [eapply ltakes_ok; [apply lreach_start|exact E]|]. vm_compute in E. injection E as <-. repeat split.
  - destruct (ltakes [KMain; KBarrier; KWriter; KWriter; KWriter; KWriter; KWriter; KWriter; KWriter; KWriter; KMain; KMain; KLog; KBarrier] (begin_log 0 [1] LAbsent)) as [s|] eqn:E; [|vm_compute in E; discriminate].
    exists s. split; [eapply ltakes_ok; [apply lreach_start|exact E]|]. vm_compute in E. injection E as <-. repeat split.
Qed.
(* two buffers, the log thread asleep at the end; it resumes from a log of three *)
Example c65_run : exists s t, old_log 3 (LAt 3 3) /\ lreach (begin_log 3 [2; 0] (LAt 3 3)) s /\ l_writer s = WDone false /\ l_thread s = TSleep /\ l_log s = LAt 4 4 /\ l_counted s = 5 /\
  good_log s t /\ l_main t = MEnd /\ l_log t = LAt 5 5.
Proof.
  destruct (ltakes [KMain; KBarrier; KLog; KWriter; KWriter; KWriter; KWriter; KWriter; KWriter; KWriter; KWriter; KLog; KLog; KWriter; KLog; KLog; KWriter; KLog; KLog; KWriter; KWriter; KWriter; KWriter; KWriter] (begin_log 3 [2; 0] (LAt 3 3))) as [s|] eqn:E; [|vm_compute in E; discriminate].
  exists s. vm_compute in E. injection E as <-.
  eexists. split; [right; reflexivity|]. split.
  { eapply (ltakes_ok [KMain; KBarrier; KLog; KWriter; KWriter; KWriter; KWriter; KWriter; KWriter; KWriter; KWriter; KLog; KLog; KWriter; KLog; KLog; KWriter; KLog; KLog; KWriter; KWriter; KWriter; KWriter; KWriter]); [apply lreach_start|reflexivity]. }
  repeat (split; [reflexivity|]). split.
  - eapply (ltakes_good [KMain; KMain; KLog; KLog; KLog; KLog; KLog; KLog; KBarrier]); [apply good_nil|discriminate|reflexivity].
  - repeat split.
Qed.
Print Assumptions c65_log_true. Print Assumptions c65_always_ends. Print Assumptions c65_newest. Print Assumptions c65_newest_refuted.
