(* The threads of a command. *)
From Coq Require Import List Arith Bool Lia.
From Verif Require Import M_Pipeline S_Pipeline L_Pipeline L_Pipeline2.
Import ListNotations.
Local Open Scope nat_scope.

Lemma run_of_steps {M St} n cap f k s t : run_of (step M St n cap f) k s t <-> steps M St n cap f k s t.
Proof. split; induction 1; econstructor; eauto. Qed.
Lemma always_ends M St n cap f s t : shaped M St n s -> reaches M St n cap f s t -> stuck M St n cap f t -> always_ends_in (step M St n cap f) s t.
Proof.
  intros SH [k R] ST. exists k. intros m s' RM. apply run_of_steps in RM. destruct (all_orders M St n cap f m k s t s' SH R ST RM) as (j & -> & RJ).
  split; [lia|]. split.
  - intro L. inversion RJ; subst; [lia|eauto].
  - intro L. assert (j = 0) by lia. subst j. inversion RJ. reflexivity.
Qed.

Section Command.
Variables (E F T R W : Type).
Variable read : R -> F -> R * list T * F * bool * option E.
Variable worker : nat -> W -> F -> (W * F) + E.
Variable on_note : W -> T -> W + E.
Variable n : nat.
Variable cap : nat -> nat.
Notation msg := (message F T).
Notation ts := (tstate E R W).
Notation f := (thread_work E F T R W read worker on_note).
Notation deliver := (deliver msg ts cap f).
Notation deliver_all := (deliver_all msg ts cap f).
Notation source := (source msg ts cap f).
Notation through := (through E F W worker).
Notation noted := (noted E T W on_note).
Notation dead := (dead msg ts).
Definition workers (ws : list W) : list (stage msg ts) := map (fun w => (TWorker w None, None)) ws.
Definition bad (gs : list (stage msg ts)) : Prop := exists g, In g gs /\ dead g = true /\ error_of (fst g) <> None.

Lemma work_err i st m st' xs k : work msg ts f i st m = (st', xs, k) -> error_of st <> None -> error_of st' <> None.
Proof.
  unfold work. destruct m as [m|]; [|intro X; injection X as <- <- <-; auto].
  destruct (f i st m) as [[s1 ms] k1] eqn:EF. intro X. injection X as <- <- <-. revert EF. unfold thread_work.
  destruct i as [|i], st as [r run err|w err], m as [b|x]; try (intro X; injection X as <- <- <-; auto).
  - destruct run; [|intro X; injection X as <- <- <-; auto]. destruct (read r b) as [[[[r' ns] b'] run'] er]. intro X. injection X as <- <- <-. cbn. destruct err; [auto|congruence].
  - destruct (worker (S i) w b) as [[w' b']|e]; intro X; injection X as <- <- <-; cbn; [auto|discriminate].
  - destruct (on_note w x) as [w'|e]; intro X; injection X as <- <- <-; cbn; [auto|discriminate].
Qed.
Lemma bad_cons g gs : bad (g :: gs) <-> (dead g = true /\ error_of (fst g) <> None) \/ bad gs.
Proof.
  unfold bad. split.
  - intros (x & [<-|I0] & H); [left; exact H|right; eauto].
  - intros [H|(x & I0 & H)]; [exists g; split; [left; reflexivity|exact H]|exists x; split; [right; exact I0|exact H]].
Qed.
Lemma deliver_bad d : forall j gs q m gs' q', deliver d j gs q m = Some (gs', q') -> bad gs -> bad gs'.
Proof.
  induction d as [|d IH]; intros j gs q m gs' q' ED BD.
  - destruct gs as [|[st [junk|]] gs]; cbn [M_Pipeline.deliver] in ED; (destruct (_ <? _); [|discriminate]); try discriminate; injection ED as <- <-; [exact BD|].
    rewrite bad_cons in *. exact BD.
  - destruct gs as [|[st [junk|]] gs].
    + cbn [M_Pipeline.deliver] in ED. destruct (_ <? _); [|discriminate]. injection ED as <- <-. exact BD.
    + cbn [M_Pipeline.deliver] in ED. destruct (_ <? _); [|discriminate]. injection ED as <- <-. rewrite bad_cons in *. exact BD.
    + rewrite deliver_unfold in ED. destruct (_ <? _); [|discriminate]. destruct (work msg ts f j st m) as [[st' xs] k].
      destruct (deliver_all d (S j) xs gs q) as [[g2 q2]|] eqn:E2; [|discriminate]. injection ED as <- <-. rewrite bad_cons in *. right.
      destruct BD as [[BD _]|BD]; [discriminate|]. revert gs q BD E2. induction xs as [|x xs IHx]; intros gs q BD E2; cbn [M_Pipeline.deliver_all] in E2; [injection E2 as <- <-; exact BD|].
      destruct (deliver d (S j) gs q x) as [[g1 q1]|] eqn:E1; [|discriminate]. eapply IHx; [|exact E2]. eapply IH; eassumption.
Qed.
Lemma deliver_all_bad d j xs : forall gs q gs' q', deliver_all d j xs gs q = Some (gs', q') -> bad gs -> bad gs'.
Proof.
  induction xs as [|x xs IHx]; intros gs q gs' q' E2 BD; cbn [M_Pipeline.deliver_all] in E2; [injection E2 as <- <-; exact BD|].
  destruct (deliver d j gs q x) as [[g1 q1]|] eqn:E1; [|discriminate]. eapply IHx; [exact E2|]. eapply deliver_bad; eassumption.
Qed.
Lemma source_bad d : forall fuel st gs q st' gs' q', source fuel d st gs q = Some (st', gs', q') -> error_of st <> None \/ bad gs -> error_of st' <> None \/ bad gs'.
Proof.
  induction fuel as [|fuel IH]; intros st gs q st' gs' q' ES H; [discriminate|]. cbn [M_Pipeline.source] in ES. destruct q as [|m q]; [discriminate|].
  destruct (work msg ts f 0 st m) as [[st1 xs] k] eqn:EW. destruct (deliver_all d 1 xs gs q) as [[g1 q1]|] eqn:ED; [|discriminate].
  assert (H1 : error_of st1 <> None \/ bad g1) by (destruct H as [H|H]; [left; eapply work_err; eassumption|right; eapply deliver_all_bad; eassumption]).
  destruct k; [eapply IH; eassumption|]. injection ES as <- <- <-. exact H1.
Qed.
Lemma deliver_all_cons d j x xs gs q : deliver_all d j (x :: xs) gs q = match deliver d j gs q x with Some (g1, q1) => deliver_all d j xs g1 q1 | None => None end.
Proof. reflexivity. Qed.
Lemma deliver_buf : forall ws d j q b gs' q', 1 <= j -> deliver d j (workers ws) q (Some (Buf b)) = Some (gs', q') ->
  match through j ws b with Some (ws', b') => gs' = workers ws' /\ q' = q ++ [Some (Buf b')] | None => bad gs' end.
Proof.
  induction ws as [|w ws IH]; intros d j q b gs' q' J ED.
  - cbn [workers map] in ED. destruct d; cbn [M_Pipeline.deliver] in ED; (destruct (_ <? _); [|discriminate]); injection ED as <- <-; cbn; auto.
  - cbn [workers map] in ED. fold (workers ws) in ED. destruct d as [|d]; [cbn [M_Pipeline.deliver] in ED; destruct (_ <? _); discriminate|].
    rewrite deliver_unfold in ED. destruct (_ <? _); [|discriminate]. destruct j as [|j]; [lia|]. cbn [work thread_work S_Pipeline.through] in *.
    destruct (worker (S j) w b) as [[w' b']|e].
    + cbn [map app] in ED. rewrite deliver_all_cons in ED. destruct (deliver d (S (S j)) (workers ws) q (Some (Buf b'))) as [[g1 q1]|] eqn:E1; [|discriminate]. cbn [M_Pipeline.deliver_all] in ED.
      injection ED as <- <-. specialize (IH d (S (S j)) q b' g1 q1 ltac:(lia) E1). destruct (through (S (S j)) ws b') as [[ws2 b2]|].
      * destruct IH as [-> ->]. auto.
      * apply bad_cons. right. exact IH.
    + destruct (deliver_all d (S (S j)) (map Some [] ++ [None]) (workers ws) q) as [[g1 q1]|]; [|discriminate]. injection ED as <- <-. apply bad_cons. left. cbn. split; [reflexivity|discriminate].
Qed.
Lemma deliver_note w ws d q x gs' q' : deliver d 1 (workers (w :: ws)) q (Some (Note x)) = Some (gs', q') ->
  match on_note w x with inl w' => gs' = workers (w' :: ws) /\ q' = q | inr _ => bad gs' end.
Proof.
  cbn [workers map]. intro ED. destruct d as [|d]; [cbn [M_Pipeline.deliver] in ED; destruct (_ <? _); discriminate|]. rewrite deliver_unfold in ED. destruct (_ <? _); [|discriminate].
  cbn [work thread_work] in ED. destruct (on_note w x) as [w'|e].
  - cbn [map app M_Pipeline.deliver_all] in ED. injection ED as <- <-. auto.
  - destruct (deliver_all d 2 _ _ _) as [[g1 q1]|]; [|discriminate]. injection ED as <- <-. apply bad_cons. left. cbn. split; [reflexivity|discriminate].
Qed.
Lemma deliver_end : forall ws d j q gs' q', deliver d j (workers ws) q None = Some (gs', q') -> map fst gs' = map (fun w => TWorker w None) ws.
Proof.
  induction ws as [|w ws IH]; intros d j q gs' q' ED.
  - cbn [workers map] in ED. destruct d; cbn [M_Pipeline.deliver] in ED; (destruct (_ <? _); [|discriminate]); injection ED as <- <-; reflexivity.
  - cbn [workers map] in ED. fold (workers ws) in ED. destruct d as [|d]; [cbn [M_Pipeline.deliver] in ED; destruct (_ <? _); discriminate|].
    rewrite deliver_unfold in ED. destruct (_ <? _); [|discriminate]. cbn [work] in ED. rewrite deliver_all_cons in ED.
    destruct (deliver d (S j) (workers ws) q None) as [[g1 q1]|] eqn:E1; [|discriminate]. cbn [M_Pipeline.deliver_all] in ED. injection ED as <- <-. cbn [map fst]. f_equal. eapply IH, E1.
Qed.
(* notes, then the buffer *)
Lemma deliver_read : forall ns w ws d q b gs' q', deliver_all d 1 (map Some (map Note ns ++ [Buf b])) (workers (w :: ws)) q = Some (gs', q') ->
  match noted w ns with
  | Some w' => match through 1 (w' :: ws) b with Some (ws', b') => gs' = workers ws' /\ q' = q ++ [Some (Buf b')] | None => bad gs' end
  | None => bad gs'
  end.
Proof.
  induction ns as [|x ns IH]; intros w ws d q b gs' q' ED.
  - cbn [map app S_Pipeline.noted] in *. rewrite deliver_all_cons in ED. destruct (deliver d 1 (workers (w :: ws)) q (Some (Buf b))) as [[g1 q1]|] eqn:E1; [|discriminate].
    cbn [M_Pipeline.deliver_all] in ED. injection ED as <- <-. apply (deliver_buf (w :: ws) d 1 q b g1 q1 (le_n 1) E1).
  - cbn [map app S_Pipeline.noted] in *. rewrite deliver_all_cons in ED. destruct (deliver d 1 (workers (w :: ws)) q (Some (Note x))) as [[g1 q1]|] eqn:E1; [|discriminate].
    pose proof (deliver_note _ _ _ _ _ _ _ E1) as D. destruct (on_note w x) as [w'|e].
    + destruct D as [-> ->]. apply IH in ED. exact ED.
    + eapply deliver_all_bad; eassumption.
Qed.

(* ---- counting ---- *)
Variable left : R -> nat.
Hypothesis HL : forall r b r' ns b' run er, read r b = (r', ns, b', run, er) -> length ns + left r' <= left r.
Definition is_buf (m : msg) : bool := match m with Buf _ => true | Note _ => false end.
Definition extra (i : nat) (st : ts) : nat := match i, st with O, TReader r _ _ => left r | _, _ => 0 end.
Notation toks := (toks msg is_buf).
Notation notes := (notes msg is_buf).
Lemma toks_notes ns : toks (map Some (map Note ns)) = 0.
Proof. induction ns; cbn; auto. Qed.
Lemma notes_notes ns : notes (map Some (map Note ns)) = length ns.
Proof. induction ns; cbn; auto. Qed.
Lemma command_tame : tame msg ts n f is_buf extra.
Proof.
  intros i st m st' ms k _. unfold thread_work. destruct i as [|i], st as [r run err|w err], m as [b|x]; try (intro X; injection X as <- <- <-; cbn; lia).
  - destruct run; [|intro X; injection X as <- <- <-; cbn; lia]. destruct (read r b) as [[[[r' ns] b'] run'] er] eqn:ER. intro X. injection X as <- <- <-.
    rewrite map_app, toks_app, notes_app, toks_notes, notes_notes. cbn. specialize (HL _ _ _ _ _ _ _ ER). lia.
  - destruct (worker (S i) w b) as [[w' b']|e]; intro X; injection X as <- <- <-; cbn; lia.
  - destruct (on_note w x) as [w'|e]; intro X; injection X as <- <- <-; cbn; lia.
Qed.
Variables (B : nat) (r0 : R).
Definition room (i : nat) : nat := match i with O => left r0 | _ => 0 end.
Hypothesis HR : roomy n cap B room.
Hypothesis HB : 1 <= B.
Notation good := (good msg ts n is_buf extra B room).
Notation inv := (inv msg ts is_buf extra room).
Lemma toks_bufs bufs : toks (map Some (map Buf bufs)) = length bufs.
Proof. induction bufs; cbn; auto. Qed.
Lemma notes_bufs bufs : notes (map Some (map Buf bufs)) = 0.
Proof. induction bufs; cbn; auto. Qed.
Lemma ends_bufs bufs : ends msg (map Some (map Buf bufs)) = 0.
Proof. induction bufs; cbn; auto. Qed.
Lemma inv_init ws : forall j bufs e, e <= room (pred j) -> inv j (workers ws) (map Some (map Buf bufs)) [] e 1.
Proof.
  induction ws as [|w ws IH]; intros j bufs e HE; cbn [workers map L_Pipeline2.inv chan].
  - rewrite notes_bufs, ends_bufs. cbn. repeat split; lia.
  - cbn [ch_of snd L_Pipeline2.notes L_Pipeline2.ends]. split; [lia|]. split; [lia|]. apply IH. unfold extra. destruct j; lia.
Qed.
Lemma good_init ws bufs : n = S (length ws) -> length bufs = B -> good (length ws) (TReader r0 true None) (workers ws) (map Some (map Buf bufs)).
Proof.
  intros HN HLb. unfold L_Pipeline2.good. assert (LW : length (workers ws) = length ws) by apply map_length. rewrite LW, toks_bufs, HLb.
  split; [lia|]. split; [lia|]. split; [apply inv_init; cbn; lia|].
  assert (A : closed_or msg ts False (workers ws) (map Some (map Buf bufs))) by (clear; induction ws; cbn; auto).
  assert (G : gtoks msg ts is_buf (workers ws) = 0).
  { clear. induction ws as [|w ws IH]; cbn [workers map gtoks]; [reflexivity|]. unfold ch_of. cbn [snd L_Pipeline2.toks]. exact IH. }
  rewrite G. split; [exact A|]. split; [lia|reflexivity].
Qed.
Lemma init_shape r ws (bufs : list F) :
  command_init r ws bufs = mkSys (mkThread (TReader r true None) Ready :: map (th_of msg ts) (workers ws)) (map Some (map Buf bufs) :: map (ch_of msg ts) (workers ws)).
Proof.
  unfold command_init, init, workers. cbn [map tl]. rewrite !map_map. f_equal. 
Qed.
Lemma shaped_init r ws bufs : n = S (length ws) -> shaped msg ts n (command_init r ws bufs).
Proof. intro. unfold shaped, command_init, init. cbn. rewrite !map_length. lia. Qed.
Lemma source_to_end ws bufs fuel st' gs' q' : n = S (length ws) -> source fuel (length ws) (TReader r0 true None) (workers ws) (map Some (map Buf bufs)) = Some (st', gs', q') -> forallb dead gs' = true ->
  exists t, always_ends_in (step msg ts n cap f) (command_init r0 ws bufs) t /\ ended_with t (st' :: map fst gs').
Proof.
  intros HN ES D. destruct (source_ends msg ts n cap f (length ws) fuel _ _ _ _ _ _ ES ltac:(unfold workers; rewrite map_length; lia) D) as [RC ST].
  eexists. split; [apply always_ends; [apply shaped_init; exact HN| |exact ST]; rewrite init_shape; exact RC|reflexivity].
Qed.
(* the reader stops by itself: all threads end *)
Lemma command_ends ws bufs mu : n = S (length ws) -> length bufs = B ->
  (forall r b r' ns b' er, read r b = (r', ns, b', true, er) -> mu r' < mu r) ->
  exists t sts, always_ends_in (step msg ts n cap f) (command_init r0 ws bufs) t /\ ended_with t sts.
Proof.
  intros HN HLb HM. set (mu' := fun st : ts => match st with TReader r true _ => S (mu r) | _ => 0 end).
  destruct (source_fine msg ts n cap f is_buf extra B room command_tame HR HB ltac:(lia) (length ws) mu') with (fuel := S (S (mu r0))) (st := TReader r0 true (@None E) : ts) (gs := workers ws) (q := map Some (map (@Buf F T) bufs))
    as (st' & gs' & q' & ES & D).
  - intros st m st' ms. unfold thread_work. destruct st as [r run err|w err], m as [b|x]; try discriminate. destruct run; [|discriminate].
    destruct (read r b) as [[[[r' ns] b'] run'] er] eqn:ER. intro X. injection X as <- <-. cbn. destruct run'; [|lia]. specialize (HM _ _ _ _ _ _ ER). lia.
  - cbn. lia.
  - apply good_init; assumption.
  - destruct (source_to_end ws bufs _ _ _ _ HN ES D) as (t & A & C). eauto.
Qed.
Hypothesis HE : forall r b r' ns b' run e, read r b = (r', ns, b', run, Some e) -> run = false.
Lemma bad_end gs q : closed_or msg ts False gs q -> bad gs -> In None q.
Proof.
  induction gs as [|[st [j|]] gs IH]; cbn; intros C (g & I0 & D & ER); [destruct I0| |].
  - destruct C as [_ [[]|C]]. exact C.
  - destruct I0 as [<-|I0]; [discriminate|]. apply IH; [exact C|]. exists g. auto.
Qed.
Lemma follows d : forall fuel q r ws o, one_by_one E F T R W read worker on_note fuel q r ws = Some o -> ws <> [] -> good d (TReader r true None) (workers ws) (map Some (map Buf q)) ->
  exists fu st' gs' q', source fu d (TReader r true None) (workers ws) (map Some (map Buf q)) = Some (st', gs', q') /\ forallb dead gs' = true /\
    match o with
    | Fine r' ws' => st' = TReader r' false None /\ map fst gs' = map (fun w => TWorker w None) ws'
    | Failed => error_of st' <> None \/ bad gs'
    end.
Proof.
  assert (HN0 : forall st gs q, good d st gs q -> 1 <= n) by (intros st gs q (_ & X & _); lia).
  induction fuel as [|fuel IH]; intros q r ws o O NE G; [discriminate|]. destruct q as [|b q]; [discriminate|]. cbn [one_by_one] in O.
  pose proof (HN0 _ _ _ G) as HN1.
  destruct (read r b) as [[[[r' ns] b'] run'] er] eqn:ER.
  destruct (good_step msg ts n cap f is_buf extra B room command_tame HR HB HN1 d _ _ _ G) as (m & q' & st1 & xs & k & g1 & q1 & EQ & EW & ED & K).
  cbn [map] in EQ. injection EQ as <- <-. cbn [work thread_work] in EW. rewrite ER in EW. rewrite app_nil_r in EW. injection EW as <- <- <-. destruct K as [_ G1].
  destruct ws as [|w ws]; [congruence|]. pose proof (deliver_read _ _ _ _ _ _ _ _ ED) as DR. unfold noted_first in O.
  assert (ST : forall fu st' gs' q', source fu d (TReader r' run' er) g1 q1 = Some (st', gs', q') ->
            source (S fu) d (TReader r true None) (workers (w :: ws)) (map Some (map Buf (b :: q))) = Some (st', gs', q')).
  { intros fu st' gs' q' ES. cbn [M_Pipeline.source map work thread_work]. rewrite ER, app_nil_r, ED. exact ES. }
  assert (BAD : bad g1 -> o = Failed -> exists fu st' gs' q', source fu d (TReader r true None) (workers (w :: ws)) (map Some (map Buf (b :: q))) = Some (st', gs', q') /\ forallb dead gs' = true /\
     match o with Fine r' ws' => st' = TReader r' false None /\ map fst gs' = map (fun w => TWorker w None) ws' | Failed => error_of st' <> None \/ bad gs' end).
  { intros BD ->. destruct (source_fine_end msg ts n cap f is_buf extra B room command_tame HR HB HN1 d (S (before msg q1)) (TReader r' run' er) g1 q1 (Nat.lt_succ_diag_r _)) as (st' & gs' & q2 & ES & DD).
    - apply (bad_end g1); [apply G1|exact BD].
    - exact G1.
    - exists (S (S (before msg q1))), st', gs', q2. split; [apply ST; exact ES|]. split; [exact DD|]. eapply source_bad; [exact ES|]. right. exact BD. }
  destruct (noted w ns) as [w'|]; [|apply BAD; [exact DR|congruence]].
  destruct (through 1 (w' :: ws) b') as [[ws2 b2]|] eqn:ET; [|apply BAD; [exact DR|congruence]].
  destruct DR as [-> ->].
  assert (N2 : ws2 <> []).
  { cbn [S_Pipeline.through] in ET. destruct (worker 1 w' b') as [[w2 b3]|]; [|discriminate]. destruct (through 2 ws b3) as [[ws3 b4]|]; [|discriminate]. injection ET as <- <-. discriminate. }
  destruct er as [e|].
  - (* the reader failed *) injection O as <-. rewrite (HE _ _ _ _ _ _ _ ER) in *.
    destruct (good_step msg ts n cap f is_buf extra B room command_tame HR HB HN1 d _ _ _ G1) as (m & q' & st1 & xs & k & g2 & q2 & EQ & EW & ED2 & K).
    assert (KF : k = false /\ st1 = TReader r' false (Some e)).
    { destruct m as [[bb|x]|]; cbn [work thread_work] in EW; injection EW as <- _ <-; auto. }
    destruct KF as [-> ->]. exists 2, (TReader r' false (Some e)), g2, q2. split; [apply ST; cbn [M_Pipeline.source]; rewrite EQ, EW, ED2; reflexivity|]. split; [exact K|]. left. cbn. discriminate.
  - destruct run'.
    + (* goes on *) assert (EQ1 : map Some (map Buf q) ++ [Some (Buf b2)] = map Some (map (@Buf F T) (q ++ [b2]))) by (rewrite !map_app; reflexivity). rewrite EQ1 in *.
      destruct (IH _ _ _ _ O N2 G1) as (fu & st' & gs' & q2 & ES & DD & FIN). exists (S fu), st', gs', q2. split; [apply ST; exact ES|]. auto.
    + (* the reader is done *) injection O as <-.
      destruct (good_step msg ts n cap f is_buf extra B room command_tame HR HB HN1 d _ _ _ G1) as (m & q' & st1 & xs & k & g2 & q2 & EQ & EW & ED2 & K).
      assert (KF : k = false /\ st1 = TReader r' false None /\ xs = [None]).
      { destruct m as [[bb|x]|]; cbn [work thread_work] in EW; injection EW as <- <- <-; auto. }
      destruct KF as (-> & -> & ->). exists 2, (TReader r' false None), g2, q2. split; [apply ST; cbn [M_Pipeline.source]; rewrite EQ, EW, ED2; reflexivity|]. split; [exact K|]. split; [reflexivity|].
      rewrite deliver_all_cons in ED2. destruct (deliver d 1 (workers ws2) q' None) as [[g3 q3]|] eqn:E3; [|discriminate]. cbn [M_Pipeline.deliver_all] in ED2. injection ED2 as <- <-. eapply deliver_end, E3.
Qed.
Lemma command_outcome ws bufs fuel o : n = S (length ws) -> ws <> [] -> length bufs = B -> one_by_one E F T R W read worker on_note fuel bufs r0 ws = Some o ->
  exists t sts, always_ends_in (step msg ts n cap f) (command_init r0 ws bufs) t /\ ended_with t sts /\
    match o with
    | Fine r' ws' => sts = TReader r' false None :: map (fun w => TWorker w None) ws'
    | Failed => exists st, In st sts /\ error_of st <> None
    end.
Proof.
  intros HN NE HLb O. destruct (follows (length ws) fuel bufs r0 ws o O NE (good_init ws bufs HN HLb)) as (fu & st' & gs' & q' & ES & D & FIN).
  destruct (source_to_end ws bufs _ _ _ _ HN ES D) as (t & A & C). exists t, (st' :: map fst gs'). split; [exact A|]. split; [exact C|]. destruct o as [r' ws'|].
  - destruct FIN as [-> ->]. reflexivity.
  - destruct FIN as [H|(g & I0 & _ & H)]; [exists st'; split; [left; reflexivity|exact H]|]. exists (fst g). split; [right; apply in_map; exact I0|exact H].
Qed.
End Command.
