(* The progress reporter: how long it runs, that nobody waits for ever, and that pause keeps reports out. *)
From Coq Require Import Arith.
From Verif Require Import M_Base M_Progress S_Progress L_Base L_Progress.
Ltac Zify.zify_post_hook ::= idtac.

(* the work left *)
Definition wt_micro (m : micro) : nat := match m with MShutdown => 16 | _ => 1 end.
Definition wt_op (o : op) : nat := match o with OStop => 20 | OPause => 7 | OStart => 5 | _ => 1 end.
Definition wt_worker (w : worker) : nat := 2 * length (w_todo w) - (if w_holds w then 1 else 0).
Definition wt_stage (g : stage) : nat := match g with PLockStats => 4 | PLockContext => 3 | PReport => 2 | PUnlockContext => 1 | PUnlockStats => 0 end.
Definition wt_runner (fd : bool) (r : runner) : nat :=
  match r with
  | RStartBarrier => 15 | RPrint First g => 10 + wt_stage g | RStartBarrier2 => 9 | RLoop => 8 | RPrint Last g => 3 + wt_stage g
  | RShutdownBarrier => 2 | RDone => 1 | RSleep => if fd then 15 else 0 | RCheck => 14 | RPrint Again g => 9 + wt_stage g
  end.
Fixpoint sumn (l : list nat) : nat := match l with [] => 0 | n :: l' => n + sumn l' end%nat.
Definition wt (s : sys) : nat :=
  (sumn (map wt_micro (fst (s_main s))) + sumn (map wt_op (snd (s_main s))) + sumn (map wt_worker (s_workers s)) + wt_runner (f_shutdown (s_shared s)) (s_runner s))%nat.
Definition woken (s s' : sys) : Prop := s_runner s = RSleep /\ s_runner s' <> RSleep.
Lemma sumn_upd i w w' ws : nth_error ws i = Some w -> (wt_worker w' < wt_worker w -> sumn (map wt_worker (upd_at i w' ws)) < sumn (map wt_worker ws))%nat.
Proof. revert i. induction ws as [|a ws IH]; intros [|i] E L; try discriminate; cbn [map sumn upd_at nth_error] in *; [injection E as ->; lia|]. specialize (IH i E L). lia. Qed.

Section Run.
Variables (v : level) (json : bool).
Set Default Proof Using "All".
Notation step := (step v json).
Lemma pause_weight : (sumn (map wt_micro (pause_steps v json)) <= 6)%nat.
Proof. unfold pause_steps. destruct v, json; cbn; lia. Qed.
Lemma wt_step s s' : step s s' ->
  (woken s s' /\ s' = mkSys (s_main s) RCheck (s_workers s) (s_shared s)) \/ (~ woken s s' /\ (wt s' < wt s)%nat).
Proof.
  intro S. unfold wt, woken. destruct S as [s s' M|s r' x' M|s i w w' x' NE M|ms os r ws x RR|ms os ws x].
  - right. unfold move_main in M. destruct (s_main s) as [[|m ms'] os'] eqn:EM; [destruct os' as [|o os']; [discriminate|]|].
    + destruct (begin_op v json o (s_shared s) _) as [[ms'' x'']|] eqn:B; [|discriminate]. injection M as <-. cbn [s_main s_runner s_workers s_shared fst snd map sumn]. split; [tauto|].
      enough (sumn (map wt_micro ms'') < wt_op o /\ f_shutdown x'' = f_shutdown (s_shared s))%nat as [A ->] by lia.
      pose proof pause_weight. destruct o; cbn [begin_op] in B; repeat (match type of B with context [if ?e then _ else _] => destruct e | context [match ?e with Some _ => _ | None => _ end] => destruct e end; try discriminate); injection B as <- <-; cbn [wt_op]; (split; [|reflexivity]); first [lia|cbn; lia].
    + destruct (move_micro m (s_shared s)) as [x''|] eqn:B; [|discriminate]. injection M as <-. cbn [s_main s_runner s_workers s_shared fst snd map sumn]. split; [tauto|].
      destruct m; cbn [move_micro] in B; try discriminate; repeat (match type of B with context [match ?e with Some _ => _ | None => _ end] => destruct e end; try discriminate); injection B as <-; cbn [set_stats set_context set_flags put f_shutdown wt_micro]; try lia.
      assert (wt_runner true (s_runner s) <= 15 + wt_runner (f_shutdown (s_shared s)) (s_runner s))%nat; [|lia]. destruct (s_runner s) as [|[| |] ?| | | | | |]; cbn; lia.
  - destruct (s_runner s) as [|p g| | | | | |] eqn:R; cbn [move_runner] in M; try discriminate; [destruct g|..];
      repeat (match type of M with context [match ?e with Some _ => _ | None => _ end] => destruct e end; try discriminate); injection M as <- <-;
      cbn [s_main s_runner s_workers s_shared fst snd map sumn set_stats set_context set_flags put f_shutdown].
    all: try (right; split; [intros [A B]; discriminate|]).
    1, 2, 4, 5: destruct p; cbn [wt_runner wt_stage after_print]; lia.
    + destruct (report_same v json [OLock; OUnlock] [] eq_refl (is_last p) (s_shared s)) as (_ & _ & _ & -> & _). destruct p; cbn [wt_runner wt_stage after_print]; lia.
    + destruct (f_shutdown (s_shared s)); cbn; lia.
    + left. split; [split; [reflexivity|discriminate]|reflexivity].
    + destruct (f_active (s_shared s)); cbn; lia.
  - right. unfold move_worker in M. split; [cbn; tauto|]. 
    enough (wt_worker w' < wt_worker w /\ f_shutdown x' = f_shutdown (s_shared s))%nat as [A F].
    { cbn [s_main s_runner s_workers s_shared fst snd]. rewrite F. pose proof (sumn_upd i w w' _ NE A). lia. }
    unfold wt_worker. destruct (w_holds w), (w_todo w) as [|n t] eqn:WD; try discriminate.
    + injection M as <- <-. cbn. split; [lia|reflexivity].
    + destruct (h_stats (s_shared s)); [discriminate|]. injection M as <- <-. cbn. split; [lia|reflexivity].
  - right. cbn. split; [destruct RR as [-> | ->]; intros [A B]; discriminate|]. destruct RR as [-> | ->]; cbn; lia.
  - right. cbn. split; [intros [A B]; discriminate|]. lia.
Qed.
Lemma wt_woken s : s_runner s = RSleep -> (wt (mkSys (s_main s) RCheck (s_workers s) (s_shared s)) = wt s + 14 - (if f_shutdown (s_shared s) then 15 else 0))%nat.
Proof. intro R. unfold wt. rewrite R. cbn. destruct (f_shutdown (s_shared s)); lia. Qed.
Lemma runs_weight k z s t : runs v json k z s t -> (k + wt t <= wt s + 15 * z)%nat.
Proof.
  induction 1 as [s|k z s s' t R IH RS ->|k z s s' t R IH S NW].
  - lia.
  - rewrite (wt_woken s' RS). lia.
  - destruct (wt_step _ _ S) as [[W _]|[_ L]]; [exfalso; apply NW, W|]. lia.
Qed.

Lemma runs_cat k z s t k' z' u : runs v json k z s t -> runs v json k' z' t u -> runs v json (k' + k) (z' + z) s u.
Proof.
  intros A B. induction B as [t|k' z' t t' u B IH RS ->|k' z' t t' u B IH S NW]; cbn [Nat.add].
  - exact A.
  - eapply runs_sleep; [apply IH, A|exact RS|reflexivity].
  - eapply runs_step; [apply IH, A|exact S|exact NW].
Qed.
Lemma runs_one s t : step s t -> ~ woken s t -> runs v json 1 0 s t.
Proof. intros S N. eapply runs_step; [apply runs_nil|exact S|exact N]. Qed.
Lemma runs_wake s : s_runner s = RSleep -> runs v json 1 1 s (mkSys (s_main s) RCheck (s_workers s) (s_shared s)).
Proof. intro R. eapply runs_sleep; [apply runs_nil|exact R|reflexivity]. Qed.

(* somebody can go on *)
Definition can_go (s : sys) : Prop := (exists s', step s s' /\ ~ woken s s') \/ (s_runner s = RSleep /\ f_shutdown (s_shared s) = true).
Lemma go_main s s' : move_main v json s = Some s' -> can_go s.
Proof.
  intro M. left. exists s'. split; [apply by_main, M|].
  enough (E : s_runner s' = s_runner s) by (intros [A B]; congruence). unfold move_main in M. destruct (s_main s) as [[|m ms'] os']; [destruct os' as [|o os']; [discriminate|]|].
  - destruct (begin_op v json o (s_shared s) _) as [[ms'' x'']|] eqn:B; [|discriminate]. injection M as <-. reflexivity.
  - destruct (move_micro m (s_shared s)) as [x''|] eqn:B; [|discriminate]. injection M as <-. reflexivity.
Qed.
Lemma go_runner s r x : s_runner s <> RSleep -> move_runner v json (s_runner s) (s_shared s) = Some (r, x) -> can_go s.
Proof. intros NS M. left. eexists. split; [apply by_runner, M|]. intros [A B]. contradiction. Qed.
Lemma go_worker s i w : nth_error (s_workers s) i = Some w -> w_todo w <> [] -> (w_holds w = true \/ h_stats (s_shared s) = None) -> can_go s.
Proof.
  intros NE T H. destruct (move_worker i w (s_shared s)) as [[w' x]|] eqn:M.
  - left. eexists. split; [eapply by_worker; eassumption|]. intros [A B]. contradiction.
  - exfalso. unfold move_worker in M. destruct (w_holds w), (w_todo w); try congruence. destruct H as [H|H]; [discriminate|]. rewrite H in M. discriminate.
Qed.
Lemma go_runner_free s p g : s_runner s = RPrint p g -> h_context (s_shared s) = None -> (g = PLockStats -> h_stats (s_shared s) = None) -> can_go s.
Proof.
  intros R C H. assert (M : exists r x, move_runner v json (s_runner s) (s_shared s) = Some (r, x)); [|destruct M as (r & x & M); refine (go_runner s r x _ M); rewrite R; discriminate].
  rewrite R. destruct g; cbn [move_runner]; [rewrite (H eq_refl)|rewrite C|..]; do 2 eexists; reflexivity.
Qed.
Lemma go_runner_ctx s : runner_ctx (s_runner s) = true -> can_go s.
Proof.
  intro C. destruct (s_runner s) as [|p g| | | | | |] eqn:R; try discriminate. destruct g; try discriminate;
  (eapply go_runner; [rewrite R; discriminate|rewrite R; reflexivity]).
Qed.
Lemma go_main_ctx s k : at_ (fst (s_main s)) k -> main_ctx k = true -> can_go s.
Proof.
  intros A C. destruct (s_main s) as [ms os] eqn:E. cbn in A.
  assert (M : exists s', move_main v json s = Some s'); [|destruct M as [s' M]; exact (go_main s s' M)].
  inversion A; subst; try discriminate. cbn in C. subst. match goal with P : pausing _ _ |- _ => inversion P; subst end; unfold move_main; rewrite E; cbn; eauto.
Qed.
Lemma nobody_stuck s : inv1 s -> ~ finished s -> can_go s.
Proof.
  intros (k & h & j & st & AT & CL & OR & STP & FI & JI & WT & HS & HC) NF.
  destruct (main_ctx k) eqn:MC; [exact (go_main_ctx s k AT MC)|]. destruct (runner_ctx (s_runner s)) eqn:RC; [exact (go_runner_ctx s RC)|].
  assert (C0 : h_context (s_shared s) = None).
  { destruct (h_context (s_shared s)) as [o|] eqn:E; [|reflexivity]. exfalso. destruct (HC o) as [Q _]. specialize (Q eq_refl). destruct o; cbn in Q; congruence. }
  assert (MAIN : (exists s', move_main v json s = Some s') -> can_go s) by (intros [s' M]; exact (go_main s s' M)).
  destruct (h_stats (s_shared s)) as [o|] eqn:HH.
  - destruct (HS o) as [Q _]. specialize (Q eq_refl). destruct o as [| |i]; cbn [owns] in Q.
    + apply MAIN. destruct (s_main s) as [ms os] eqn:E. cbn [fst snd] in *. inversion AT; subst; try discriminate Q; unfold move_main; rewrite E.
      * cbn [main_stats] in Q. subst h. destruct os as [|o os]; [discriminate OR|]. destruct o; cbn [orderly negb andb] in OR; try discriminate OR; cbn [begin_op];
        repeat match goal with |- context [if ?e then _ else _] => destruct e end; eauto.
      * cbn. eauto.
      * cbn. eauto.
      * match goal with P : pausing _ _ |- _ => inversion P; subst end; cbn; rewrite ?C0; eauto.
    + destruct (s_runner s) as [|p g| | | | | |] eqn:R; try discriminate. apply (go_runner_free s p g R C0). intros ->. discriminate.
    + destruct Q as (w & NE & WH). eapply go_worker; [exact NE|exact (WT _ _ NE WH)|left; exact WH].
  - assert (PR : forall p g, s_runner s = RPrint p g -> can_go s) by (intros p g R; apply (go_runner_free s p g R C0); auto).
    assert (MS : main_stats k h = false) by (destruct (main_stats k h) eqn:E; [|reflexivity]; destruct (HS Main) as [_ Q]; specialize (Q E); discriminate).
    assert (STEP : (exists s', step s s') -> s_runner s <> RSleep -> can_go s) by (intros [s' S] NS; left; exists s'; split; [exact S|intros [A B]; contradiction]).
    destruct (s_main s) as [ms os] eqn:E. cbn [fst snd] in *. destruct s as [m0 r ws x]. cbn [s_main s_runner s_workers s_shared] in *. subst m0. inversion AT; subst; try discriminate MS.
    + destruct os as [|o os]; [exfalso; apply NF; reflexivity|]. destruct (forallb idle ws) eqn:ID.
      * apply MAIN. unfold move_main. cbn [s_main s_shared s_workers]. rewrite ID. destruct o; cbn [begin_op]; rewrite ?HH; repeat match goal with |- context [if ?e then _ else _] => destruct e end; eauto.
      * destruct (existsb (fun w => negb (idle w)) ws) eqn:EX.
        -- apply existsb_exists in EX as (w & IN & NI). apply In_nth_error in IN as [i NE]. eapply (go_worker (mkSys ([], o :: os) r ws x) i w); [exact NE| |right; exact HH].
           unfold idle in NI. destruct (w_todo w); [discriminate|discriminate].
        -- exfalso. clear -ID EX. induction ws as [|w ws IH]; [discriminate|]. cbn in *. destruct (idle w); cbn in *; [auto|discriminate].
    + apply MAIN. unfold move_main. cbn. rewrite HH. eauto.
    + cbn [fits] in FI. destruct r; rewrite ?andb_false_r in FI; try discriminate FI. apply STEP; [|discriminate]. eexists. apply start_barrier. auto.
    + cbn [fits] in FI. destruct r; cbn [firsting] in FI; rewrite ?andb_false_r in FI; try discriminate FI; [exact (PR _ _ eq_refl)|]. apply STEP; [|discriminate]. eexists. apply start_barrier. auto.
    + apply MAIN. unfold move_main. cbn. rewrite HH. eauto.
    + apply MAIN. unfold move_main. cbn. eauto.
    + cbn [fits] in FI. destruct r; cbn [looping lasting] in FI; rewrite ?andb_false_r in FI; try discriminate FI.
      * exact (PR _ _ eq_refl).
      * eapply go_runner; [discriminate|reflexivity].
      * right. split; [reflexivity|]. cbn. destruct (f_start x), (f_shutdown x); try discriminate FI. reflexivity.
      * eapply go_runner; [discriminate|reflexivity].
      * apply STEP; [|discriminate]. eexists. apply shutdown_barrier.
    + apply MAIN. unfold move_main. cbn [s_main s_shared]. match goal with P : pausing _ _ |- _ => inversion P; subst end; cbn; rewrite ?C0; eauto.
Qed.

(* once stop has been called the thread does not go to sleep again *)
Definition awake (s : sys) : bool := f_shutdown (s_shared s) && match s_runner s with RSleep => false | _ => true end.
Lemma awake_step s s' : step s s' -> awake s = true -> awake s' = true.
Proof.
  unfold awake. intros S A. apply andb_prop in A as [F NS]. destruct S as [s s' M|s r' x' M|s i w w' x' NE M|ms os r ws x RR|ms os ws x]; cbn [s_shared s_runner] in *.
  - unfold move_main in M. destruct (s_main s) as [[|m ms'] os'] eqn:EM; [destruct os' as [|o os']; [discriminate|]|].
    + destruct (begin_op v json o (s_shared s) _) as [[ms'' x'']|] eqn:B; [|discriminate]. injection M as <-. cbn [s_shared s_runner]. rewrite NS, andb_true_r, <- F.
      destruct o; cbn [begin_op] in B; repeat (match type of B with context [if ?e then _ else _] => destruct e | context [match ?e with Some _ => _ | None => _ end] => destruct e end; try discriminate); injection B as <- <-; reflexivity.
    + destruct (move_micro m (s_shared s)) as [x''|] eqn:B; [|discriminate]. injection M as <-. cbn [s_shared s_runner]. rewrite NS, andb_true_r.
      destruct m; cbn [move_micro] in B; try discriminate; repeat (match type of B with context [match ?e with Some _ => _ | None => _ end] => destruct e end; try discriminate); injection B as <-; try exact F. reflexivity.
  - destruct (s_runner s) as [|p g| | | | | |] eqn:R; cbn [move_runner] in M; try discriminate; [destruct g|..];
      repeat (match type of M with context [match ?e with Some _ => _ | None => _ end] => destruct e end; try discriminate); injection M as <- <-; cbn [set_stats set_context f_shutdown]; try (rewrite F; reflexivity).
    + destruct (report_same v json [OLock; OUnlock] [] eq_refl (is_last p) (s_shared s)) as (_ & _ & _ & -> & _). rewrite F. reflexivity.
    + rewrite F. destruct p; reflexivity.
    + rewrite F. destruct (f_active (s_shared s)); reflexivity.
  - rewrite NS, andb_true_r, <- F. unfold move_worker in M. destruct (w_holds w), (w_todo w) as [|n t] eqn:WD; try discriminate.
    + injection M as <- <-. reflexivity.
    + destruct (h_stats (s_shared s)); [discriminate|]. injection M as <- <-. reflexivity.
  - rewrite F. destruct RR as [-> | ->]; reflexivity.
  - rewrite F. reflexivity.
Qed.
Lemma always_ends n : forall s, (wt s <= n)%nat -> inv1 s -> exists k z t, runs v json k z s t /\ finished t /\ (z <= if awake s then 0 else 1)%nat.
Proof.
  induction n as [|n IH]; intros s W I.
  all: assert (D : finished s \/ ~ finished s) by (unfold finished; destruct (s_main s) as [[|] [|]]; (left; reflexivity) || (right; discriminate)).
  all: destruct D as [F|NF]; [exists O, O, s; split; [apply runs_nil|split; [exact F|lia]]|].
  all: destruct (nobody_stuck s I NF) as [(s' & S & NW)|[RS FD]].
  - destruct (wt_step s s' S) as [[A _]|[_ L]]; [contradiction|lia].
  - pose proof (wt_woken s RS) as L. rewrite FD in L. unfold wt in W. rewrite RS, FD in W. cbn in W. lia.
  - destruct (wt_step s s' S) as [[A _]|[_ L]]; [contradiction|]. destruct (IH s') as (k & z & t & R & F & Z); [lia|eapply inv1_step; eassumption|].
    exists (k + 1)%nat, (z + 0)%nat, t. split; [apply (runs_cat 1 0 s s'); [apply runs_one; assumption|exact R]|]. split; [exact F|].
    destruct (awake s) eqn:AW; [rewrite (awake_step _ _ S AW) in Z; lia|]. destruct (awake s'); lia.
  - pose proof (wt_woken s RS) as L. rewrite FD in L. assert (15 <= wt s)%nat by (unfold wt; rewrite RS, FD; cbn; lia).
    set (s' := mkSys (s_main s) RCheck (s_workers s) (s_shared s)) in *. assert (S : step s s') by (apply by_runner; rewrite RS; reflexivity).
    destruct (IH s') as (k & z & t & R & F & Z); [lia|eapply inv1_step; eassumption|].
    exists (k + 1)%nat, (z + 1)%nat, t. split; [apply (runs_cat 1 1 s s'); [apply runs_wake, RS|exact R]|]. split; [exact F|].
    assert (A : awake s' = true) by (unfold awake, s'; cbn; rewrite FD; reflexivity). assert (A' : awake s = false) by (unfold awake; rewrite RS; apply andb_false_r). rewrite A in Z. rewrite A'. lia.
Qed.
End Run.

(* the reporting thread asleep, the mutexes free: what it does next *)
Lemma runs_runner v json k s r x u : s_runner s <> RSleep -> move_runner v json (s_runner s) (s_shared s) = Some (r, x) -> runs v json k 0 (mkSys (s_main s) r (s_workers s) x) u -> runs v json (k + 1) 0 s u.
Proof. intros NS M R. refine (runs_cat v json 1 0 s _ k 0 u _ R). apply runs_one; [apply by_runner, M|]. intros [A _]. contradiction. Qed.
Lemma runs_woken v json k s u : s_runner s = RSleep -> runs v json k 0 (mkSys (s_main s) RCheck (s_workers s) (s_shared s)) u -> runs v json (k + 1) 1 s u.
Proof. intros NS R. refine (runs_cat v json 1 1 s _ k 0 u _ R). apply runs_wake, NS. Qed.
Lemma next_report json os todos s : orderly_command os todos -> reach L2 json (begin_sys os todos) s -> s_runner s = RSleep -> h_stats (s_shared s) = None -> h_context (s_shared s) = None ->
  exists k s', runs L2 json k 1 s s' /\ s_main s' = s_main s /\ s_workers s' = s_workers s /\ s_runner s' = RLoop /\
    seen (s_shared s') = seen (s_shared s) ++ (if f_active (s_shared s) then [if json then EJson false (u_units (s_shared s)) else EProgress (u_units (s_shared s))] else []).
Proof.
  intros O R RS HS HC. destruct (inv2_reach L2 json _ _ O s R) as (us & CF & F & CH & A & FO & LA & VA & VF). rewrite RS in *. cbn in CF, VF. rewrite CF in CH.
  assert (NE : us <> []) by (apply VF; reflexivity). destruct us as [|u0 us]; [contradiction|]. clear VF NE VA FO LA F A R. rewrite andb_true_r in CH.
  destruct s as [mn r ws [hs hc fs fd fa u ch cf cl sn]]. cbn [s_main s_runner s_workers s_shared h_stats h_context f_active u_units c_header c_finish seen] in *. subst.
  destruct fa.
  - eexists. eexists. split.
    + eapply runs_woken; [reflexivity|].
      eapply runs_runner; [discriminate|reflexivity|].
      eapply runs_runner; [discriminate|reflexivity|].
      eapply runs_runner; [discriminate|reflexivity|].
      eapply runs_runner; [discriminate|reflexivity|].
      eapply runs_runner; [discriminate|reflexivity|].
      eapply runs_runner; [discriminate|reflexivity|]. apply runs_nil.
    + cbn. destruct json; repeat split; reflexivity.
  - eexists. eexists. split.
    + eapply runs_woken; [reflexivity|].
      eapply runs_runner; [discriminate|reflexivity|]. apply runs_nil.
    + cbn. rewrite app_nil_r. repeat split; reflexivity.
Qed.

(* pause keeps reports out while the counters are locked *)
Definition quiet (es : list event) : Prop := exists a e, es = a ++ [e] /\ (e = ECr \/ exists t, e = EText t).
Lemma app_last {A} (a b : list A) x y : a ++ [x] = b ++ [y] -> a = b /\ x = y.
Proof. apply app_inj_tail. Qed.
Lemma undisturbed_more es : undisturbed es -> forall e, (forall t, e = EText t -> quiet es) -> undisturbed (es ++ [e]).
Proof.
  intros U e Q a t b E. destruct b as [|y b _] using rev_ind.
  - apply app_last in E as [-> E]. destruct (Q t E) as (a' & e' & -> & K). exists a', e'. auto.
  - rewrite app_comm_cons, app_assoc in E. apply app_last in E as [-> _]. eapply U. reflexivity.
Qed.
Lemma undisturbed_reports es new : undisturbed es -> (forall t, ~ In (EText t) new) -> undisturbed (es ++ new).
Proof.
  revert es. induction new as [|e new IH]; intros es U N; [rewrite app_nil_r; exact U|].
  replace (es ++ e :: new) with ((es ++ [e]) ++ new) by (rewrite <- app_assoc; reflexivity). apply IH.
  - apply undisturbed_more; [exact U|]. intros t ->. exfalso. apply (N t). left. reflexivity.
  - intros t I. apply (N t). right. exact I.
Qed.
Section Pause.
Variables (v : level) (os : list op) (todos : list (list N)).
Hypothesis loud : v <> L0.
Hypothesis ord : orderly_command (OStart :: os ++ [OStop]) todos.
Hypothesis pol : polite false false os = true.
Set Default Proof Using "All".
Notation reached := (reach v false (begin_sys (OStart :: os ++ [OStop]) todos)).
Inductive wiping : list micro -> Prop :=
| wi1 : wiping [MLockContext; MUnlockContext; MLockContext; MErase; MUnlockContext; MCr]
| wi2 : wiping [MUnlockContext; MLockContext; MErase; MUnlockContext; MCr]
| wi3 : wiping [MLockContext; MErase; MUnlockContext; MCr]
| wi4 : wiping [MErase; MUnlockContext; MCr]
| wi5 : wiping [MUnlockContext; MCr]
| wi6 : wiping [MCr].
Inductive starting : list micro -> Prop :=
| sg1 : starting [MLockStats; MUnlockStats; MStartBarrier; MStartBarrier]
| sg2 : starting [MUnlockStats; MStartBarrier; MStartBarrier]
| sg3 : starting [MStartBarrier; MStartBarrier]
| sg4 : starting [MStartBarrier].
Definition calm (ms : list micro) (rest : list op) (x : shared) : Prop :=
  (ms = [] /\ rest = OStart :: os ++ [OStop] /\ f_start x = false /\ f_shutdown x = false /\ f_active x = true) \/
  (starting ms /\ rest = os ++ [OStop] /\ f_start x = true /\ f_shutdown x = false /\ f_active x = true) \/
  (exists os' h, rest = os' ++ [OStop] /\ f_start x = true /\ f_shutdown x = false /\ (h = true -> h_stats x = Some Main) /\
     ((ms = [] /\ exists p, polite h p os' = true /\ f_active x = negb p /\ (p = true -> h = true /\ quiet (seen x))) \/
      (wiping ms /\ h = true /\ polite true true os' = true /\ f_active x = false))) \/
  rest = [].
Definition inv4 (s : sys) : Prop := undisturbed (seen (s_shared s)) /\ calm (fst (s_main s)) (snd (s_main s)) (s_shared s).
(* steps of other threads *)
Lemma calm_other ms rest x x' : calm ms rest x -> f_start x' = f_start x -> f_shutdown x' = f_shutdown x -> f_active x' = f_active x ->
  (h_stats x = Some Main -> h_stats x' = Some Main /\ seen x' = seen x) -> calm ms rest x'.
Proof.
  intros C E1 E2 E3 H. unfold calm in *. rewrite E1, E2, E3. destruct C as [C|[C|[C|C]]]; [auto|auto| |auto].
  right; right; left. destruct C as (os' & h & R & F1 & F2 & HM & B). exists os', h. split; [exact R|]. split; [exact F1|]. split; [exact F2|]. split; [intro K; apply H, HM, K|].
  destruct B as [(M & p & P & A & Q)|B]; [left|right; exact B]. split; [exact M|]. exists p. split; [exact P|]. split; [exact A|]. intro K. destruct (Q K) as [K1 K2]. split; [exact K1|].
  destruct (H (HM K1)) as [_ ->]. exact K2.
Qed.
Lemma quiet_snoc es e : e = ECr \/ (exists t, e = EText t) -> quiet (es ++ [e]).
Proof. intro K. exists es, e. auto. Qed.
Lemma inv4_step s s' : reached s -> inv4 s -> step v false s s' -> inv4 s'.
Proof.
  intros RE [U C] S. pose proof (inv1_reach v false _ _ ord s RE) as (k & h0 & j & st & AT & CL & OR & STP & FI & JI & WT & HS & HC).
  destruct S as [s s' M|s r' x' M|s i w w' x' NE M|ms rest r ws x RR|ms rest ws x]; unfold inv4; cbn [s_main s_shared fst snd] in *.
  - unfold move_main in M. destruct (s_main s) as [[|m ms'] rest] eqn:EM; [destruct rest as [|o rest]; [discriminate|]|]; cbn [fst snd] in *.
    + destruct C as [(_ & E & F1 & F2 & F3)|[(E & _)|[C|C]]]; [| inversion E | |discriminate].
      * injection E as -> ->. cbn [begin_op] in M. rewrite F1 in M. injection M as <-. cbn. split; [exact U|]. right; left. cbn. repeat split; try assumption. constructor.
      * destruct C as (os' & h & E & F1 & F2 & HM & [(_ & p & P & FA & Q)|(W & _)]); [|inversion W].
        destruct os' as [|o' os'].
        { injection E as -> ->. destruct (begin_op v false OStop (s_shared s) _) as [[ms'' x'']|] eqn:B; [|discriminate]. injection M as <-. cbn [s_main s_shared fst snd].
          cbn [begin_op] in B. rewrite F1, F2 in B. injection B as <- <-. split; [exact U|]. right; right; right. reflexivity. }
        cbn [app] in E. injection E as -> ->.
        assert (BODY : forall h' p' x', polite h' p' os' = true -> f_start x' = true -> f_shutdown x' = false -> (h' = true -> h_stats x' = Some Main) -> f_active x' = negb p' -> (p' = true -> h' = true /\ quiet (seen x')) -> calm [] (os' ++ [OStop]) x').
        { intros h' p' x' P' G1 G2 G3 G4 G5. right; right; left. exists os', h'. repeat split; try assumption. left. split; [reflexivity|]. exists p'. auto. }
        destruct o'; cbn [begin_op polite] in *; try discriminate P.
        -- (* pause *) rewrite F1, F2, FA in M. apply andb_prop in P as [P1 P]. apply andb_prop in P1 as [PH PP]. destruct h; [|discriminate PH]. destruct p; [discriminate PP|]. cbn [negb andb] in M. injection M as <-. cbn [s_main s_shared fst snd set_flags seen].
           split; [exact U|]. right; right; left. exists os', true. cbn. split; [reflexivity|]. split; [reflexivity|]. split; [reflexivity|]. split; [exact HM|]. right. split; [destruct v; [contradiction|constructor|constructor]|]. auto.
        -- (* resume *) apply andb_prop in P as [P1 P]. injection M as <-. cbn [s_main s_shared fst snd set_flags seen]. split; [exact U|]. apply (BODY h false); cbn; try assumption; try reflexivity. discriminate.
        -- (* lock *) destruct (h_stats (s_shared s)); [discriminate|]. injection M as <-. cbn [s_main s_shared fst snd set_stats seen]. split; [exact U|]. apply (BODY true p); cbn; try assumption; try reflexivity.
           intro K. destruct (Q K) as [K1 K2]. auto.
        -- (* unlock *) apply andb_prop in P as [PP P]. destruct p; [discriminate PP|]. injection M as <-. cbn [s_main s_shared fst snd set_stats seen]. split; [exact U|]. apply (BODY false false); cbn; try assumption; try discriminate.
        -- injection M as <-. cbn [s_main s_shared fst snd add_units seen]. split; [exact U|]. apply (BODY h p); cbn; assumption.
        -- (* print *) apply andb_prop in P as [PP P]. subst p. destruct (Q eq_refl) as [K1 K2]. injection M as <-. cbn [s_main s_shared fst snd put seen]. split; [apply undisturbed_more; [exact U|intros _ _; exact K2]|].
           apply (BODY h true); cbn; try assumption. intros _. split; [exact K1|]. apply quiet_snoc. eauto.
        -- destruct (forallb idle _); [|discriminate]. injection M as <-. cbn [s_main s_shared fst snd]. split; [exact U|]. apply (BODY h p); assumption.
    + destruct (move_micro m (s_shared s)) as [x''|] eqn:B; [|discriminate]. injection M as <-. cbn [s_main s_shared fst snd].
      assert (U' : undisturbed (seen x'')).
      { destruct m; cbn [move_micro] in B; try discriminate; repeat (match type of B with context [match ?e with Some _ => _ | None => _ end] => destruct e end; try discriminate); injection B as <-; try exact U; cbn; (apply undisturbed_more; [exact U|intros t E; discriminate]). }
      split; [exact U'|].
      destruct C as [(E & _)|[(E & R & F1 & F2 & F3)|[C|C]]]; [discriminate| | |right; right; right; exact C].
      * right; left. inversion E; subst; cbn [move_micro] in B; try discriminate.
        -- destruct (h_stats (s_shared s)); [discriminate|]. injection B as <-. cbn. repeat split; try assumption; constructor.
        -- injection B as <-. cbn. repeat split; try assumption; constructor.
      * right; right; left. destruct C as (os' & h & E & F1 & F2 & HM & [(D & _)|(W & -> & P & FA)]); [discriminate D|]. exists os', true. split; [exact E|].
        inversion W; subst; cbn [move_micro] in B; try (destruct (h_context (s_shared s)); [discriminate|]); injection B as <-; cbn; (split; [assumption|]; split; [assumption|]; split; [exact HM|]).
        1, 2, 3, 4, 5: right; repeat split; try assumption; constructor.
        left. split; [reflexivity|]. exists true. repeat split; try assumption. apply quiet_snoc. auto.
  - assert (E : f_start x' = f_start (s_shared s) /\ f_shutdown x' = f_shutdown (s_shared s) /\ f_active x' = f_active (s_shared s) /\ (h_stats (s_shared s) = Some Main -> h_stats x' = Some Main /\ seen x' = seen (s_shared s)) /\ undisturbed (seen x')).
    { destruct (s_runner s) as [|p g| | | | | |] eqn:R; cbn [move_runner] in M; try discriminate; [destruct g|..].
      - destruct (h_stats (s_shared s)) eqn:Q; [discriminate|]. injection M as <- <-. cbn. repeat split; try assumption; intros; discriminate.
      - destruct (h_context (s_shared s)) eqn:Q; [discriminate|]. injection M as <- <-. cbn. repeat split; try assumption.
      - injection M as <- <-. destruct (report_same v false _ _ ord (is_last p) (s_shared s)) as (E1 & E2 & E3 & E4 & E5 & E6). repeat split; try assumption.
        + congruence.
        + destruct (HS Runner) as [_ Q]. specialize (Q eq_refl). congruence.
        + unfold report. destruct (_ && _); [|exact U]. cbn. apply undisturbed_reports; [exact U|]. intros t I. destruct (c_header _), (is_last p); cbn in I; intuition discriminate.
      - injection M as <- <-. cbn. repeat split; try assumption.
      - injection M as <- <-. cbn. repeat split; try assumption. destruct (HS Runner) as [_ Q]. specialize (Q eq_refl). congruence.
      - injection M as <- <-. repeat split; auto.
      - injection M as <- <-. repeat split; auto.
      - injection M as <- <-. repeat split; auto. }
    destruct E as (E1 & E2 & E3 & E4 & E5). split; [exact E5|]. eapply calm_other; eassumption.
  - unfold move_worker in M. destruct (w_holds w) eqn:WH, (w_todo w) as [|n t] eqn:WD; try discriminate.
    + injection M as <- <-. split; [exact U|]. eapply calm_other; [exact C|reflexivity|reflexivity|reflexivity|]. cbn. intro Q. destruct (HS (Worker i)) as [_ K]. assert (h_stats (s_shared s) = Some (Worker i)) by (apply K; exists w; auto). congruence.
    + destruct (h_stats (s_shared s)) eqn:Q; [discriminate|]. injection M as <- <-. split; [exact U|]. eapply calm_other; [exact C|reflexivity|reflexivity|reflexivity|]. cbn. intro K. congruence.
  - split; [exact U|]. destruct C as [(E & _)|[(E & R & F1 & F2 & F3)|[C|C]]]; [discriminate| | |right; right; right; exact C].
    + inversion E; subst.
      * right; left. repeat split; try assumption. constructor.
      * right; right; left. exists os, false. repeat split; try assumption; [discriminate|]. left. split; [reflexivity|]. exists false. repeat split; try assumption; discriminate.
    + exfalso. destruct C as (os' & h & E & F1 & F2 & HM & [(D & _)|(W & _)]); [discriminate D|inversion W].
  - split; [exact U|]. destruct C as [(E & _)|[(E & _)|[C|C]]]; [discriminate|inversion E| |right; right; right; exact C].
    exfalso. destruct C as (os' & h & E & F1 & F2 & HM & [(D & _)|(W & _)]); [discriminate D|inversion W].
Qed.
Lemma inv4_reach s : reached s -> inv4 s.
Proof.
  induction 1; [|eapply inv4_step; eassumption]. split; [intros a t b E; destruct a; discriminate|]. left. cbn. auto.
Qed.
End Pause.

(* with --json *)
Definition plain_micro (m : micro) : bool := match m with MErase | MCr => false | _ => true end.
Definition json_or_text (e : event) : bool := match e with EJson _ _ | EText _ => true | _ => false end.
Lemma json_step v s s' : step v true s s' -> forallb plain_micro (fst (s_main s)) = true /\ forallb json_or_text (seen (s_shared s)) = true ->
  forallb plain_micro (fst (s_main s')) = true /\ forallb json_or_text (seen (s_shared s')) = true.
Proof.
  intros S [P J]. destruct S as [s s' M|s r' x' M|s i w w' x' NE M|ms os r ws x RR|ms os ws x]; cbn [s_main s_shared fst snd] in *.
  - unfold move_main in M. destruct (s_main s) as [[|m ms'] os'] eqn:EM; [destruct os' as [|o os']; [discriminate|]|]; cbn [fst snd] in *.
    + destruct (begin_op v true o (s_shared s) _) as [[ms'' x'']|] eqn:B; [|discriminate]. injection M as <-. cbn [s_main s_shared fst].
      destruct o; cbn [begin_op] in B; repeat (match type of B with context [if ?e then _ else _] => destruct e | context [match ?e with Some _ => _ | None => _ end] => destruct e end; try discriminate); injection B as <- <-; (split; [|cbn; try rewrite forallb_app, J; try exact J; reflexivity]); try reflexivity.
      unfold pause_steps. destruct v; reflexivity.
    + destruct (move_micro m (s_shared s)) as [x''|] eqn:B; [|discriminate]. injection M as <-. cbn [s_main s_shared fst forallb] in *. apply andb_prop in P as [P1 P]. split; [exact P|].
      destruct m; cbn [move_micro plain_micro] in *; try discriminate; repeat (match type of B with context [match ?e with Some _ => _ | None => _ end] => destruct e end; try discriminate); injection B as <-; exact J.
  - split; [exact P|]. destruct (s_runner s) as [|p g| | | | | |]; cbn [move_runner] in M; try discriminate; [destruct g|..];
      repeat (match type of M with context [match ?e with Some _ => _ | None => _ end] => destruct e end; try discriminate); injection M as <- <-; try exact J.
    unfold report. destruct (_ && _); [|exact J]. cbn. rewrite forallb_app, J. reflexivity.
  - split; [exact P|]. unfold move_worker in M. destruct (w_holds w), (w_todo w) as [|n t] eqn:WD; try discriminate.
    + injection M as <- <-. exact J.
    + destruct (h_stats (s_shared s)); [discriminate|]. injection M as <- <-. exact J.
  - split; [exact P|exact J].
  - split; [exact P|exact J].
Qed.
Lemma json_reach v os todos s : reach v true (begin_sys os todos) s -> forallb json_or_text (seen (s_shared s)) = true.
Proof.
  intro R. enough (A : forallb plain_micro (fst (s_main s)) = true /\ forallb json_or_text (seen (s_shared s)) = true) by apply A.
  induction R; [split; reflexivity|]. eapply json_step; eassumption.
Qed.

(* a schedule to compute with *)
Inductive pick := PkMain | PkRunner | PkWorker (i : nat) | PkBarrier.
Definition take_step (v : level) (json : bool) (p : pick) (s : sys) : option sys :=
  match p with
  | PkMain => move_main v json s
  | PkRunner => match move_runner v json (s_runner s) (s_shared s) with Some (r, x) => Some (mkSys (s_main s) r (s_workers s) x) | None => None end
  | PkWorker i => match nth_error (s_workers s) i with
                  | Some w => match move_worker i w (s_shared s) with Some (w', x) => Some (mkSys (s_main s) (s_runner s) (upd_at i w' (s_workers s)) x) | None => None end
                  | None => None
                  end
  | PkBarrier => match s_main s, s_runner s with
                 | (MStartBarrier :: ms, os), RStartBarrier => Some (mkSys (ms, os) (RPrint First PLockStats) (s_workers s) (s_shared s))
                 | (MStartBarrier :: ms, os), RStartBarrier2 => Some (mkSys (ms, os) RLoop (s_workers s) (s_shared s))
                 | (MShutdownBarrier :: ms, os), RShutdownBarrier => Some (mkSys (ms, os) RDone (s_workers s) (s_shared s))
                 | _, _ => None
                 end
  end.
Fixpoint take_steps (v : level) (json : bool) (ps : list pick) (s : sys) : option sys :=
  match ps with [] => Some s | p :: ps' => match take_step v json p s with Some s' => take_steps v json ps' s' | None => None end end.
Lemma take_step_ok v json p s s' : take_step v json p s = Some s' -> step v json s s'.
Proof.
  destruct p; cbn [take_step]; intro E.
  - apply by_main, E.
  - destruct (move_runner v json (s_runner s) (s_shared s)) as [[r x]|] eqn:M; [|discriminate]. injection E as <-. apply by_runner, M.
  - destruct (nth_error (s_workers s) i) as [w|] eqn:W; [|discriminate]. destruct (move_worker i w (s_shared s)) as [[w' x]|] eqn:M; [|discriminate]. injection E as <-. eapply by_worker; eassumption.
  - destruct s as [[ms os] r ws x]. cbn [s_main s_runner s_workers s_shared] in E. destruct ms as [|[] ms]; try discriminate; destruct r; try discriminate; injection E as <-.
    + apply (start_barrier v json ms os RStartBarrier). auto.
    + apply (start_barrier v json ms os RStartBarrier2). auto.
    + apply shutdown_barrier.
Qed.
Lemma take_steps_ok v json ps s0 s s' : reach v json s0 s -> take_steps v json ps s = Some s' -> reach v json s0 s'.
Proof.
  revert s. induction ps as [|p ps IH]; cbn [take_steps]; intros s R E; [injection E as <-; exact R|].
  destruct (take_step v json p s) as [t|] eqn:T; [|discriminate]. eapply IH; [|exact E]. eapply reach_step; [exact R|eapply take_step_ok, T].
Qed.
