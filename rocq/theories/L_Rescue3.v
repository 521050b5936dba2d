(* Rescuing: where a run starts, and what holds at every moment of any number of runs. *)
From Coq Require Import Permutation Sorted Relations.
From Verif Require Import M_Base M_Specs M_Crc M_Header M_Metadata M_Block M_Index M_Buffer M_Hex M_Ranges M_Scan M_Rescue
  S_Crc S_Meta S_Block S_Scan S_Repair S_Rescue
  L_Base L_File L_Crc L_Header L_Meta L_Block L_Block2 L_Index2 L_Scan L_Ref L_Ranges L_Log L_Rescue L_Rescue2.
Ltac Zify.zify_post_hook ::= idtac.

Lemma range_facts p f lo hi : 0 < lenN f -> lenN f < 18446744073709551616 -> rescue_range p f lo hi ->
  lo < hi <= lenN f /\
  fst (calc_required_len_and_seek_to_from_byte_range (rp_from p) (rp_to p) (rp_misalign p) 0 (Len (lenN f)) None) = hi - lo /\
  forall b, b < hi - lo -> b mod 128 = 0 ->
    snd (calc_required_len_and_seek_to_from_byte_range (rp_from p) (rp_to p) (rp_misalign p) b (Len (lenN f)) None) = lo + b.
Proof.
  intros H0 HL (len & E & ->).
  destruct (range_in_file _ _ _ _ None _ _ ltac:(unfold mult_of; lia) HL E) as (A & B & C & _). specialize (C H0).
  split; [lia|]. split; [rewrite E; cbn [fst]; lia|]. intros b Hb HM.
  assert (HL' : last_pos (Len (lenN f)) < 18446744073709551615) by (unfold last_pos; lia).
  pose proof (range_eq (rp_from p) (rp_to p) (rp_misalign p) 0 (Len (lenN f)) None ltac:(unfold mult_of; lia) HL') as X.
  pose proof (range_eq (rp_from p) (rp_to p) (rp_misalign p) b (Len (lenN f)) None ltac:(unfold mult_of; lia) HL') as Y.
  cbv zeta in X, Y. set (start := start_of (rp_from p) (rp_misalign p) (last_pos (Len (lenN f))) (mult_of None)) in *.
  destruct X as [SL X]. destruct Y as [_ Y]. rewrite Y. cbn [snd].
  assert (SM : rp_misalign p = false -> start mod 128 = 0).
  { intro M. unfold start, start_of. destruct (rp_from p); [|reflexivity]. rewrite M. change (mult_of None) with 128.
    apply (round_down_spec (N.min n (last_pos (Len (lenN f)))) 128). lia. }
  change (mult_of None) with 128 in *. unfold last_pos in *. cbv iota in SL.
  assert (LS : lo = start).
  { rewrite X in E. apply (f_equal snd) in E. cbn [snd] in E. rewrite N.add_0_r, u64_small in E by lia.
    destruct (rp_misalign p); [lia|]. rewrite round_down_multiple in E by (lia || apply SM; reflexivity). lia. }
  rewrite <- LS in *. rewrite u64_small by lia. destruct (rp_misalign p); [lia|].
  rewrite round_down_multiple; [lia|lia|]. rewrite <- N.add_mod_idemp_l, (SM eq_refl) by lia. exact HM.
Qed.
Lemma lands_mod f lo hi pos : lands f lo hi pos -> (pos - lo) mod 128 = 0.
Proof.
  intro L. induction L as [H|pos n L IH S HN]; [rewrite N.sub_diag; reflexivity|].
  pose proof (lands_ge f lo hi pos L). replace (pos + n - lo) with (pos - lo + n) by lia.
  rewrite <- N.add_mod_idemp_l, IH by lia. rewrite N.add_0_l. destruct S as (_ & _ & [(h & _ & ->)|[_ ->]]); [|reflexivity]. destruct (h_version h); reflexivity.
Qed.

Section Hist.
Variables (size : N) (p : rparam) (f : file) (lo hi : N).
Hypothesis HS : 1 <= size.
Hypothesis HB : bytes_ok f = true.
Hypothesis H0 : 0 < lenN f.
Hypothesis HL : lenN f < 18446744073709551616.
Hypothesis HR : rescue_range p f lo hi.
Notation req := (hi - lo).
Notation at_pos := (at_pos f lo hi).
Lemma HI : lo < hi <= lenN f. Proof using H0 HL HR. clear HS. apply (range_facts p f lo hi H0 HL HR). Qed.

Definition saved_below (w : dir) (c : N) : Prop := forall pos u b, to_rescue p f lo hi pos u b -> pos < c -> saved w u b.
Definition all_saved (w : dir) : Prop := saved_below w hi.
Lemma below_all w c : hi <= c -> saved_below w c -> all_saved w.
Proof using. clear HS H0 HL. intros HC H pos u b T HP. apply (H pos u b T). lia. Qed.
Lemma saved_grow w w' u b : (exists x, content w' (name_of u) = content w (name_of u) ++ x) -> saved w u b -> saved w' u b.
Proof using. intros (x & E) (a & c & E'). exists a, (c ++ x). rewrite E, E', <- !app_assoc. reflexivity. Qed.
Definition grows (w w' : dir) : Prop := forall n, exists x, content w' n = content w n ++ x.
Lemma grows_refl w : grows w w. Proof using. intro n. exists []. rewrite app_nil_r. reflexivity. Qed.
Lemma grows_trans a b c : grows a b -> grows b c -> grows a c.
Proof using. intros A B n. destruct (A n) as (x & E). destruct (B n) as (y & E'). exists (x ++ y). rewrite E', E, <- app_assoc. reflexivity. Qed.
Lemma below_grow w w' c : grows w w' -> saved_below w c -> saved_below w' c.
Proof using. intros G H pos u b T HP. eapply saved_grow; [apply G|]. apply (H pos u b T HP). Qed.

(* the counters s are safe to continue from *)
Definition safe (w : dir) (s : rstats) : Prop :=
  all_saved w \/ (rs_bytes s < req /\ at_pos (rs_bytes s) /\ saved_below w (lo + rs_bytes s)).
Definition log_ok (w : dir) (g : option (list N)) : Prop := forall s, read_log req g = ROk s -> safe w s.
Lemma safe_grow w w' s : grows w w' -> safe w s -> safe w' s.
Proof using. intros G [H|(A & B & C)]; [left; eapply below_grow; eassumption|]. right. split; [exact A|]. split; [exact B|]. eapply below_grow; eassumption. Qed.
Lemma at_start : at_pos 0.
Proof using H0 HL HR. clear HS. pose proof HI. split; [rewrite N.add_0_r; apply inv_start|]. split; [|lia]. intros _. rewrite N.add_0_r. apply lands_start. lia. Qed.
Lemma log_none w : log_ok w None.
Proof using H0 HL HR. clear HS.
  pose proof HI. intros s E. cbn [read_log] in E. apply ROk_inj in E. subst s. right. cbn [rs_bytes]. split; [lia|]. split; [apply at_start|].
  intros pos u b (h & (L & _) & _) HP. apply lands_ge in L. lia.
Qed.
Lemma restart_safe w s : at_pos (rs_bytes s) -> saved_below w (lo + rs_bytes s) -> safe w (restart req s).
Proof using H0 HL HR. clear HS.
  intros HP SB. pose proof HI. destruct (N.lt_ge_cases (rs_bytes s) req) as [Q|Q]; [|left; apply (below_all w (lo + rs_bytes s)); [lia|exact SB]].
  right. assert (E : rs_bytes (restart req s) = rs_bytes s).
  { unfold restart. cbn [rs_bytes]. unfold ensure_at_most. rewrite N.min_r by lia. unfold SBX_SCAN_BLOCK_SIZE. apply round_down_multiple; [lia|].
    destruct HP as (_ & L & _). specialize (L Q). apply lands_mod in L. rewrite N.add_comm, N.add_sub in L. exact L. }
  rewrite E. auto.
Qed.

(* what holds during a run that continues from a safe place *)
Definition run_ok (ev : option (N * event)) (failed : bool) (r : running) : Prop :=
  at_pos (rs_bytes (ru_stats r)) /\ saved_below (ru_dir r) (lo + rs_bytes (ru_stats r)) /\
  match ru_now r with
  | None => chain p f lo hi ev (ru_stats r) (ru_todo r) failed
  | Some (xs, s') => at_pos (rs_bytes s') /\ rs_bytes (ru_stats r) <= rs_bytes s' /\ saved_below (finish xs (ru_dir r)) (lo + rs_bytes s') /\ chain p f lo hi ev s' (ru_todo r) failed
  end.
Definition any_ok (ev : option (N * event)) (failed : bool) (w0 : dir) (r : running) : Prop :=
  grows w0 (ru_dir r) /\ log_ok (ru_dir r) (ru_log r) /\ (all_saved (ru_dir r) \/ run_ok ev failed r).
Lemma append_grows n d w : grows w (append_to n d w).
Proof using. intro m. rewrite content_append. eauto. Qed.
Lemma step_ok ev failed w0 r r' : rescue_step r r' -> any_ok ev failed w0 r -> any_ok ev failed w0 r'.
Proof using H0 HL HR. clear HS.
  intros ST (G & LG & AR). destruct ST as [w g s bs s' l order HO|w g s n d1 d2 t s' l|w g s n t s' l|w g s s' l|w g s now l k]; cbn [ru_dir ru_log ru_stats ru_now ru_todo] in *.
  - split; [exact G|]. split; [exact LG|]. destruct AR as [A|(P & SB & C)]; [left; exact A|right]. cbn [ru_dir ru_log ru_stats ru_now ru_todo] in *.
    split; [exact P|]. split; [exact SB|]. cbn [ru_now ru_todo ru_dir ru_stats]. destruct C as (lp & t & -> & HT & P' & LE & BT & CT & C).
    split; [exact P'|]. split; [exact LE|]. split; [|exact C]. intros pos u b T HP.
    destruct (N.lt_ge_cases pos (lo + rs_bytes s)) as [Q|Q].
    + eapply saved_grow; [apply finish_grows|]. apply (SB pos u b T Q).
    + change (finish (appends order (map snd lp ++ t)) w) with (write_buffer order (map snd lp ++ t) w).
      change u with (rb_uid (mkRblock u b)). change b with (rb_bytes (mkRblock u b)). apply (write_has order HO). apply in_app_iff. left.
      apply in_map_iff. exists (pos, mkRblock u b). split; [reflexivity|]. apply BT. split; [exact T|lia].
  - pose proof (append_grows n d1 w) as G1. split; [eapply grows_trans; eassumption|]. split; [intros s0 E; eapply safe_grow; [exact G1|apply LG, E]|].
    destruct AR as [A|(P & SB & P' & LE & SB' & C)]; [left; eapply below_grow; eassumption|right]. cbn [ru_dir ru_log ru_stats ru_now ru_todo] in *.
    split; [exact P|]. split; [eapply below_grow; eassumption|]. cbn [ru_now ru_todo ru_dir ru_stats]. split; [exact P'|]. split; [exact LE|]. split; [|exact C].
    intros pos u b T HP. destruct (SB' pos u b T HP) as (x & y & E). exists x, y. rewrite <- E.
    change (finish ((n, d2) :: t) (append_to n d1 w)) with (finish t (append_to n d2 (append_to n d1 w))).
    change (finish ((n, d1 ++ d2) :: t) w) with (finish t (append_to n (d1 ++ d2) w)). apply finish_ext. intro m.
    rewrite !content_append. destruct (eqbl m n); [rewrite app_assoc; reflexivity|rewrite !app_nil_r; reflexivity].
  - split; [exact G|]. split; [exact LG|]. destruct AR as [A|(P & SB & P' & LE & SB' & C)]; [left; exact A|right]. cbn [ru_dir ru_log ru_stats ru_now ru_todo] in *.
    split; [exact P|]. split; [exact SB|]. cbn [ru_now ru_todo ru_dir ru_stats]. split; [exact P'|]. split; [exact LE|]. split; [|exact C].
    intros pos u b T HP. destruct (SB' pos u b T HP) as (x & y & E). exists x, y. rewrite <- E.
    change (finish ((n, []) :: t) w) with (finish t (append_to n [] w)). apply finish_ext. intro m. rewrite content_append. destruct (eqbl m n); rewrite app_nil_r; reflexivity.
  - split; [exact G|]. split; [exact LG|]. destruct AR as [A|(P & SB & P' & LE & SB' & C)]; [left; exact A|right]. cbn [ru_dir ru_log ru_stats ru_now ru_todo] in *.
    split; [exact P'|]. split; [exact SB'|]. exact C.
  - split; [exact G|]. split.
    + intros s0 E. apply read_log_cut in E as [-> _]. destruct AR as [A|(P & SB & _)]; [left; exact A|]. apply restart_safe; assumption.
    + destruct AR as [A|A]; [left; exact A|right; exact A].
Qed.
Lemma runs_ok ev failed w0 r r' : runs r r' -> any_ok ev failed w0 r -> any_ok ev failed w0 r'.
Proof using H0 HL HR. clear HS. induction 1 as [|a b c ST R IH]; [auto|]. intro A. apply IH. eapply step_ok; eassumption. Qed.
Lemma start_eq g s rl at_ : rescue_start p f g = ROk (rl, s, at_) -> rl = req /\ read_log req g = ROk s /\ (rs_bytes s < req -> rs_bytes s mod 128 = 0 -> at_ = lo).
Proof using H0 HL HR. clear HS.
  unfold rescue_start. destruct (range_facts p f lo hi H0 HL HR) as (_ & E & SK). rewrite E. destruct (read_log req g) as [x|e|]; try discriminate.
  cbv zeta. intro Q. apply ROk_inj in Q. pose proof (f_equal (fun t => fst (fst t)) Q) as Q1. pose proof (f_equal (fun t => snd (fst t)) Q) as Q2. apply (f_equal snd) in Q. cbn [fst snd] in Q1, Q2. change (snd (?a, ?b)) with b in Q. subst rl x.
  split; [reflexivity|]. split; [reflexivity|]. intros A B. rewrite (SK _ A B) in Q. cbn [snd] in Q. lia.
Qed.
Lemma started_ok ev w0 w g r : started size p f ev w g r -> grows w0 w -> log_ok w g -> exists failed, any_ok ev failed w0 r /\ (failed = true -> is_error ev).
Proof using HS HB H0 HL HR.
  intros (rl & s & at_ & fuel & l & failed & ES & ER & ->) G LG. apply start_eq in ES as (-> & RL & SK). pose proof (LG s RL) as SF.
  destruct SF as [A|(Q & P & SB)].
  - exists false. split; [|discriminate]. split; [exact G|]. split; [exact LG|]. left. exact A.
  - assert (M : rs_bytes s mod 128 = 0).
    { destruct P as (_ & L & _). specialize (L Q). apply lands_mod in L. rewrite N.add_comm, N.add_sub in L. exact L. }
    rewrite (SK Q M) in ER. set (big := (fuel + S (N.to_nat (lenN f)))%nat).
    destruct (read_ok p f lo hi HB ltac:(apply HI) size ev HS big big s ltac:(unfold big; lia) ltac:(unfold big; lia) P) as (l' & failed' & E' & C & FE).
    rewrite (read_mono _ _ _ _ _ _ fuel big fuel big s _ ltac:(unfold big; lia) ltac:(unfold big; lia) ER) in E'.
    assert (X : l' = l /\ failed' = failed) by (inversion E'; auto). destruct X as [-> ->].
    exists failed. split; [|exact FE]. split; [exact G|]. split; [exact LG|]. right. split; [exact P|]. split; [exact SB|]. exact C.
Qed.
Theorem history_ok w0 w g : history size p f w0 w g -> grows w0 w /\ log_ok w g.
Proof using HS HB H0 HL HR.
  induction 1 as [|w g ev r r' H [G LG] ST R|w g H [G LG]].
  - split; [apply grows_refl|apply log_none].
  - destruct (started_ok ev w0 w g r ST G LG) as (failed & A & _). apply (runs_ok _ _ _ _ _ R) in A as (A & B & _). auto.
  - split; [exact G|apply log_none].
Qed.
Theorem finished_ok w0 w g r r' : history size p f w0 w g -> started size p f None w g r -> runs r r' -> finished r' -> all_saved (ru_dir r').
Proof using HS HB H0 HL HR.
  intros H ST R (FN & FT). destruct (history_ok w0 w g H) as (G & LG). destruct (started_ok None w0 w g r ST G LG) as (failed & A & FE).
  apply (runs_ok _ _ _ _ _ R) in A as (_ & _ & [A|(P & SB & C)]); [exact A|]. rewrite FN, FT in C. destruct C as [C|[C|(n & C & _)]].
  - destruct (FE C) as (n & e & C' & _). discriminate.
  - apply (below_all _ (lo + rs_bytes (ru_stats r'))); [pose proof HI; lia|exact SB].
  - discriminate.
Qed.
End Hist.

(* the outcome of a run is reached by steps *)
Lemma finish_steps g s s' l : forall xs w, runs (mkRunning w g s (Some (xs, s')) l) (mkRunning (finish xs w) g s' None l).
Proof.
  induction xs as [|[n d] xs IH]; intro w.
  - econstructor; [apply step_publish|]. constructor.
  - econstructor; [rewrite <- (app_nil_r d) at 1; apply step_write|]. econstructor; [apply step_close|]. apply (IH (append_to n d w)).
Qed.
Lemma runs_trans a b c : runs a b -> runs b c -> runs a c.
Proof. induction 1 as [|x y z S R IH]; [auto|]. intro Q. econstructor; [exact S|]. apply IH, Q. Qed.
Lemma write_steps order g : (forall k x, Permutation (order k x) x) -> forall l s w,
  let '(w', s') := write_buffers order l s w in runs (mkRunning w g s None l) (mkRunning w' g s' None []).
Proof.
  intro HO. induction l as [|[bs s1] l IH]; intros s w; cbn [write_buffers]; [constructor|].
  specialize (IH s1 (write_buffer (order (length l)) bs w)). destruct (write_buffers order l s1 _) as [w' s'].
  econstructor; [apply (step_take w g s bs s1 l (order (length l)) (HO _))|]. eapply runs_trans; [apply finish_steps|]. exact IH.
Qed.
