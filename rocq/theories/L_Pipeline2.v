(* Threads in a ring: with enough room in the channels the threads always end. *)
From Coq Require Import List Arith Bool Lia.
From Verif Require Import M_Pipeline L_Pipeline.
Import ListNotations.
Local Open Scope nat_scope.

Section Ends.
Variables (M St : Type) (n : nat) (cap : nat -> nat) (f : nat -> St -> M -> St * list M * bool).
Notation move := (move M St n cap f).
Notation step := (step M St n cap f).
Notation work := (work M St f).
Notation sys := (sys M St).
Notation deliver := (deliver M St cap f).
Notation deliver_all := (deliver_all M St cap f).
Notation source := (source M St cap f).
Notation stage := (stage M St).
Notation th_of := (th_of M St).
Notation ch_of := (ch_of M St).
Notation reaches := (reaches M St n cap f).
Notation steps := (steps M St n cap f).

(* ---- the schedule of the source ---- *)
Lemma source_steps d : forall fuel st gs q st' gs' q', source fuel d st gs q = Some (st', gs', q') -> 1 + length gs = n ->
  reaches (mkSys (mkThread st Ready :: map th_of gs) (q :: map ch_of gs)) (mkSys (mkThread st' AtBarrier :: map th_of gs') (q' :: map ch_of gs')).
Proof.
  induction fuel as [|fuel IH]; intros st gs q st' gs' q' E LN; [discriminate|]. cbn [M_Pipeline.source] in E. destruct q as [|m q]; [discriminate|].
  destruct (work 0 st m) as [[st1 xs] k] eqn:W. destruct (deliver_all d 1 xs gs q) as [[g1 q1]|] eqn:ED; [|discriminate].
  pose proof (deliver_all_length _ _ _ _ _ _ _ _ _ _ _ ED) as L1.
  eapply reaches_trans; [apply (reaches_move _ _ _ _ _ 0); apply move_effect; exists (mkThread st Ready), (mkThread st1 (Sending xs k)), (q :: map ch_of gs)|].
  - cbn. split; [reflexivity|]. split; [|reflexivity]. pose proof (e_recv M St n cap f 0 st m q ((m :: q) :: map ch_of gs) st1 xs k eq_refl W) as X. exact X.
  - cbn [s_threads upd].
    pose proof (send_one M St n cap f d (deliver_steps M St n cap f d) 0 xs gs q g1 q1 [] [] st1 k ED eq_refl eq_refl ltac:(lia)) as X. cbn [app] in X.
    eapply reaches_trans; [exact X|]. destruct k.
    + apply (IH st1 g1 q1 st' gs' q' E). lia.
    + injection E as <- <- <-. apply reaches_refl.
Qed.
Definition dead (g : stage) : bool := match snd g with Some _ => true | None => false end.
Lemma source_ends d fuel st gs q st' gs' q' : source fuel d st gs q = Some (st', gs', q') -> 1 + length gs = n -> forallb dead gs' = true ->
  let t := mkSys (map (fun x => mkThread x Done) (st' :: map fst gs')) (q' :: map ch_of gs') in
  reaches (mkSys (mkThread st Ready :: map th_of gs) (q :: map ch_of gs)) t /\ stuck M St n cap f t.
Proof.
  intros E LN D t. split.
  - eapply reaches_trans; [eapply source_steps; eassumption|]. exists 1. econstructor; [|constructor]. apply by_barrier. unfold release. cbn [s_threads forallb at_barrier t_phase andb].
    assert (A : forallb (at_barrier M St) (map th_of gs') = true).
    { clear -D. induction gs' as [|[x [j|]] g IH]; cbn in *; auto. }
    rewrite A. cbn [map t_state s_channels]. f_equal. unfold t. cbn [map]. f_equal. f_equal. clear -D. induction gs' as [|[x [j|]] g IH]; cbn in *; auto; [f_equal; auto|discriminate].
  - intros s' ST. inversion ST as [i s x MV|s x RL]; subst.
    + apply move_effect in MV as (a & b & c & N1 & EF & _). apply nth_error_In in N1. unfold t in N1. cbn [s_threads] in N1. apply in_map_iff in N1 as (y & <- & _). inversion EF.
    + unfold release, t in RL. cbn in RL. discriminate.
Qed.

(* ---- counting what is in the channels ---- *)
Variable tok : M -> bool.
Fixpoint toks (l : list (option M)) : nat := match l with [] => 0 | Some m :: l' => (if tok m then 1 else 0) + toks l' | None :: l' => toks l' end.
Fixpoint notes (l : list (option M)) : nat := match l with [] => 0 | Some m :: l' => (if tok m then 0 else 1) + notes l' | None :: l' => notes l' end.
Fixpoint ends (l : list (option M)) : nat := match l with [] => 0 | Some m :: l' => ends l' | None :: l' => S (ends l') end.
Lemma toks_app a b : toks (a ++ b) = toks a + toks b. Proof. induction a as [|[m|] a IH]; cbn; lia. Qed.
Lemma notes_app a b : notes (a ++ b) = notes a + notes b. Proof. induction a as [|[m|] a IH]; cbn; lia. Qed.
Lemma ends_app a b : ends (a ++ b) = ends a + ends b. Proof. induction a as [|[m|] a IH]; cbn; lia. Qed.
Lemma length_counts l : length l = toks l + notes l + ends l.
Proof. induction l as [|[m|] l IH]; cbn; [reflexivity| |lia]. destruct (tok m); lia. Qed.
Lemma ends_some ms : ends (map Some ms) = 0. Proof. induction ms; cbn; auto. Qed.

(* what each stage may do with a message *)
Variable extra : nat -> St -> nat.
Definition tame : Prop := forall i st m st' ms k, i < n -> f i st m = (st', ms, k) ->
  (if k : bool then toks (map Some ms) = toks [Some m] else toks (map Some ms) <= toks [Some m]) /\ notes (map Some ms) + extra i st' <= extra i st.
Variables (B : nat) (X : nat -> nat).
Definition roomy : Prop := forall i, i < n -> B + X i + 1 <= cap i.

Definition chan (gs : list stage) (q : list (option M)) : list (option M) := match gs with [] => q | g :: _ => ch_of g end.
(* pending messages P to the first stage; the sender may emit e more notes, and an end if al *)
Fixpoint inv (j : nat) (gs : list stage) (q : list (option M)) (P : list (option M)) (e al : nat) : Prop :=
  notes (chan gs q) + notes P + e <= X (pred j) /\ ends (chan gs q) + ends P + al <= 1 /\
  match gs with
  | [] => True
  | (st, None) :: gs' => inv (S j) gs' q [] (extra j st) 1
  | (st, Some _) :: gs' => inv (S j) gs' q [] 0 0
  end.
Fixpoint gtoks (gs : list stage) : nat := match gs with [] => 0 | g :: gs' => toks (ch_of g) + gtoks gs' end.
Definition live (gs : list stage) : bool := forallb (fun g => negb (dead g)) gs.
(* once a stage is dead all later ones are, and the end has come back *)
Fixpoint closed_or (over : Prop) (gs : list stage) (q : list (option M)) : Prop :=
  match gs with
  | [] => True
  | (_, None) :: gs' => closed_or over gs' q
  | (_, Some _) :: gs' => forallb dead gs' = true /\ (over \/ In None q)
  end.
Notation closed := (closed_or False).
Lemma inv_weaken j gs q P e al P' e' al' : inv j gs q P e al -> notes P' + e' <= notes P + e -> ends P' + al' <= ends P + al -> inv j gs q P' e' al'.
Proof. destruct gs as [|[st x] gs]; cbn [inv]; intros (A & C & D) H1 H2; (split; [lia|split; [lia|exact D]]). Qed.
Lemma inv_q_notes gs : forall j q P e al x, inv j gs (q ++ [x]) P e al -> inv j gs q P e al.
Proof.
  induction gs as [|[st y] gs IH]; intros j q P e al x; cbn [inv chan].
  - rewrite notes_app, ends_app. intros (A & C & _). repeat split; lia.
  - intros (A & C & D). split; [exact A|]. split; [exact C|]. destruct y; eapply IH; exact D.
Qed.
Lemma inv_q_pop gs : forall j q P e al x, inv j gs (x :: q) P e al -> inv j gs q P e al.
Proof.
  induction gs as [|[st y] gs IH]; intros j q P e al x; cbn [inv chan].
  - intros (A & C & _). destruct x; cbn [notes ends] in *; repeat split; lia.
  - intros (A & C & D). split; [exact A|]. split; [exact C|]. destruct y; eapply IH; exact D.
Qed.
Definition after (over : Prop) (gs : list stage) (q : list (option M)) (m : option M) (gs' : list stage) (q' : list (option M)) : Prop :=
  (forall x, In x q -> In x q') /\
  (live gs' = true -> live gs = true /\ toks q' = toks q + toks [m]) /\
  (m = None -> forallb dead gs' = true /\ (over \/ In None q')).
Hypothesis HT : tame.
Hypothesis HR : roomy.

Lemma work_counts j st m st' xs k : j < n -> work j st m = (st', xs, k) ->
  (if k : bool then toks xs = toks [m] /\ ends xs = 0 else toks xs <= toks [m] /\ ends xs = 1 /\ exists ys, xs = ys ++ [None]) /\
  notes xs + extra j st' <= extra j st /\ (m = None -> k = false).
Proof.
  intros HJ. unfold M_Pipeline.work. destruct m as [m|].
  - destruct (f j st m) as [[s1 ms] k1] eqn:E. intro Q. injection Q as <- <- <-. destruct (HT _ _ _ _ _ _ HJ E) as [A C].
    rewrite toks_app, ends_app, notes_app, ends_some. split; [|split; [destruct k1; cbn; lia|discriminate]].
    cbn [toks] in A. destruct k1; cbn [toks ends]; [lia|]. split; [lia|]. split; [lia|]. exists (map Some ms). reflexivity.
  - intro Q. injection Q as <- <- <-. cbn. split; [|split; [lia|auto]]. split; [lia|]. split; [lia|]. exists []. reflexivity.
Qed.
(* [other]: tokens elsewhere, fixed *)
Lemma deliver_fine over d : forall j gs q m P e al other, length gs <= d -> 1 <= j -> j + length gs = n ->
  inv j gs q (m :: P) e al -> closed_or over gs q -> toks [m] + gtoks gs + toks q + other <= B ->
  exists gs' q', deliver d j gs q m = Some (gs', q') /\ inv j gs' q' P e al /\ closed_or over gs' q' /\ gtoks gs' + toks q' + other <= B /\ after over gs q m gs' q'.
Proof.
  induction d as [|d IH]; intros j gs q m P e al other LD J1 JN IV CL TB.
  - destruct gs; [|cbn in LD; lia]. cbn [M_Pipeline.deliver inv chan gtoks] in *. destruct IV as (A & C & _). cbn [length] in JN.
    assert (RM := HR (pred j) ltac:(lia)). destruct (Nat.ltb_spec (length q) (cap (pred j))) as [H|H].
    + exists [], (q ++ [m]). split; [reflexivity|]. cbn [inv chan closed_or gtoks]. rewrite notes_app, ends_app, toks_app.
      replace (notes (m :: P)) with (notes [m] + notes P) in A by (symmetry; apply (notes_app [m] P)). replace (ends (m :: P)) with (ends [m] + ends P) in C by (symmetry; apply (ends_app [m] P)).
      split; [split; [lia|split; [lia|exact I]]|]. split; [exact I|]. split; [lia|]. unfold after. rewrite toks_app. split; [intros; apply in_or_app; auto|].
      split; [auto|]. intros ->. split; [reflexivity|right; apply in_or_app; right; left; reflexivity].
    + exfalso. rewrite (length_counts q) in H. destruct m as [m|]; cbn [notes ends toks] in *; [destruct (tok m)|]; lia.
  - destruct gs as [|[st [junk|]] gs].
    + (* as before *) cbn [M_Pipeline.deliver inv chan gtoks] in *. destruct IV as (A & C & _). cbn [length] in JN.
      assert (RM := HR (pred j) ltac:(lia)). destruct (Nat.ltb_spec (length q) (cap (pred j))) as [H|H].
      * exists [], (q ++ [m]). split; [reflexivity|]. cbn [inv chan closed_or gtoks]. rewrite notes_app, ends_app, toks_app.
        replace (notes (m :: P)) with (notes [m] + notes P) in A by (symmetry; apply (notes_app [m] P)). replace (ends (m :: P)) with (ends [m] + ends P) in C by (symmetry; apply (ends_app [m] P)).
        split; [split; [lia|split; [lia|exact I]]|]. split; [exact I|]. split; [lia|]. unfold after. rewrite toks_app. split; [intros; apply in_or_app; auto|].
        split; [auto|]. intros ->. split; [reflexivity|right; apply in_or_app; right; left; reflexivity].
      * exfalso. rewrite (length_counts q) in H. destruct m as [m|]; cbn [notes ends toks] in *; [destruct (tok m)|]; lia.
    + (* dead *) cbn [M_Pipeline.deliver inv chan gtoks closed_or] in *. unfold L_Pipeline.ch_of in *. cbn [snd] in *. destruct IV as (A & C & D). cbn [length] in JN.
      assert (RM := HR (pred j) ltac:(lia)). destruct (Nat.ltb_spec (length junk) (cap (pred j))) as [H|H].
      * exists ((st, Some (junk ++ [m])) :: gs), q. split; [reflexivity|]. cbn [inv chan closed_or gtoks]. unfold L_Pipeline.ch_of. cbn [snd]. rewrite notes_app, ends_app, toks_app.
        replace (notes (m :: P)) with (notes [m] + notes P) in A by (symmetry; apply (notes_app [m] P)). replace (ends (m :: P)) with (ends [m] + ends P) in C by (symmetry; apply (ends_app [m] P)).
        split; [split; [lia|split; [lia|exact D]]|]. split; [exact CL|]. split; [lia|]. split; [auto|]. split; [discriminate|]. intros ->. destruct CL as [C1 C2]. split; [exact C1|exact C2].
      * exfalso. rewrite (length_counts junk) in H. destruct m as [m|]; cbn [notes ends toks] in *; [destruct (tok m)|]; lia.
    + (* alive *) rewrite deliver_unfold. cbn [inv chan gtoks closed_or] in *. unfold L_Pipeline.ch_of in IV, TB. cbn [snd] in IV, TB. destruct IV as (A & C & D). cbn [length] in JN, LD.
      assert (RM := HR (pred j) ltac:(lia)). destruct (Nat.ltb_spec 0 (cap (pred j))) as [_|H]; [|lia].
      destruct (work j st m) as [[st' xs] k] eqn:W. destruct (work_counts j st m st' xs k ltac:(lia) W) as (WC & WN & WM).
      assert (XS : forall xs P2 e2 al2 gs q other, length gs <= d -> S j + length gs = n -> inv (S j) gs q (xs ++ P2) e2 al2 -> closed_or over gs q -> toks xs + gtoks gs + toks q + other <= B ->
        exists gs' q', deliver_all d (S j) xs gs q = Some (gs', q') /\ inv (S j) gs' q' P2 e2 al2 /\ closed_or over gs' q' /\ gtoks gs' + toks q' + other <= B /\
          (forall x, In x q -> In x q') /\ (live gs' = true -> live gs = true /\ toks q' = toks q + toks xs) /\ (forall ys, xs = ys ++ [None] -> forallb dead gs' = true /\ (over \/ In None q'))).
      { clear -IH J1. induction xs as [|x xs IHx]; intros P2 e2 al2 gs q other LD JN IV CL TB.
        - exists gs, q. split; [reflexivity|]. cbn [app toks] in *. split; [exact IV|]. split; [exact CL|]. split; [lia|]. split; [auto|]. split; [intros; split; [assumption|lia]|].
          intros ys E. destruct ys; discriminate.
        - cbn [app] in IV. replace (toks (x :: xs)) with (toks [x] + toks xs) in * by (symmetry; apply (toks_app [x] xs)).
          destruct (IH (S j) gs q x (xs ++ P2) e2 al2 (other + toks xs) LD ltac:(lia) JN IV CL ltac:(lia)) as (g1 & q1 & E1 & I1 & C1 & T1 & (AF1 & AF2 & AF3)).
          cbn [M_Pipeline.deliver_all]. rewrite E1. pose proof (deliver_length _ _ _ _ _ _ _ _ _ _ _ E1) as L1.
          destruct (IHx P2 e2 al2 g1 q1 other ltac:(lia) ltac:(lia) I1 C1 ltac:(lia)) as (g2 & q2 & E2 & I2 & C2 & T2 & A2 & B2 & D2).
          exists g2, q2. split; [exact E2|]. split; [exact I2|]. split; [exact C2|]. split; [exact T2|]. split; [auto|]. split.
          + intro LV. destruct (B2 LV) as [LV1 TQ]. destruct (AF2 LV1) as [LV0 TQ0]. split; [exact LV0|lia].
          + intros ys E. destruct ys as [|y ys].
            * injection E as -> ->. cbn in E2. injection E2 as <- <-. apply AF3. reflexivity.
            * injection E as -> ->. apply (D2 ys). reflexivity. }
      set (P2 := @nil (option M)). set (al2 := if k then 1 else 0).
      assert (IV2 : inv (S j) gs q (xs ++ P2) (if k then extra j st' else 0) al2).
      { unfold P2. rewrite app_nil_r. eapply inv_weaken; [exact D| |].
        - cbn [notes]. destruct k; lia.
        - cbn [ends]. unfold al2. destruct k; [destruct WC as [_ ->]; lia|destruct WC as (_ & -> & _); lia]. }
      assert (TX : toks xs <= toks [m]) by (destruct k; lia).
      destruct (XS xs P2 _ al2 gs q other ltac:(lia) ltac:(lia) IV2 CL ltac:(change (toks []) with 0 in TB; lia)) as (g2 & q2 & E2 & I2 & C2 & T2 & A2 & B2 & D2).
      rewrite E2. exists ((st', if k then None else Some []) :: g2), q2. split; [reflexivity|].
      replace (notes (m :: P)) with (notes [m] + notes P) in A by (symmetry; apply (notes_app [m] P)). replace (ends (m :: P)) with (ends [m] + ends P) in C by (symmetry; apply (ends_app [m] P)).
      destruct k.
      * cbn [inv chan closed_or gtoks]. unfold L_Pipeline.ch_of, P2, al2 in *. cbn [snd toks notes ends] in *.
        split; [split; [lia|split; [lia|exact I2]]|]. split; [exact C2|]. split; [lia|]. split; [exact A2|]. split.
        -- intro LV. change (live ((st', None) :: g2)) with (live g2) in LV. destruct (B2 LV) as [L1 L2]. split; [exact L1|]. destruct WC as [WC _]. rewrite L2, WC. reflexivity.
        -- intro Q. specialize (WM Q). discriminate.
      * destruct WC as (_ & _ & ys & ->). destruct (D2 ys eq_refl) as [DD DN]. cbn [inv chan closed_or gtoks]. unfold L_Pipeline.ch_of, P2, al2 in *. cbn [snd toks notes ends] in *.
        split; [split; [lia|split; [lia|exact I2]]|]. split; [split; [exact DD|exact DN]|]. split; [lia|]. split; [exact A2|]. split; [discriminate|]. intros _. split; [exact DD|exact DN].
Qed.
Lemma deliver_all_fine over d : forall xs P e al gs q other, length gs <= d -> 1 + length gs = n -> inv 1 gs q (xs ++ P) e al -> closed_or over gs q -> toks xs + gtoks gs + toks q + other <= B ->
  exists gs' q', deliver_all d 1 xs gs q = Some (gs', q') /\ inv 1 gs' q' P e al /\ closed_or over gs' q' /\ gtoks gs' + toks q' + other <= B /\
    (forall x, In x q -> In x q') /\ (live gs' = true -> live gs = true /\ toks q' = toks q + toks xs) /\ (forall ys, xs = ys ++ [None] -> forallb dead gs' = true /\ (over \/ In None q')).
Proof.
  induction xs as [|x xs IHx]; intros P2 e2 al2 gs q other LD JN IV CL TB.
  - exists gs, q. split; [reflexivity|]. cbn [app toks] in *. split; [exact IV|]. split; [exact CL|]. split; [lia|]. split; [auto|]. split; [intros; split; [assumption|lia]|].
    intros ys E. destruct ys; discriminate.
  - cbn [app] in IV. replace (toks (x :: xs)) with (toks [x] + toks xs) in * by (symmetry; apply (toks_app [x] xs)).
    destruct (deliver_fine over d 1 gs q x (xs ++ P2) e2 al2 (other + toks xs) LD ltac:(lia) JN IV CL ltac:(lia)) as (g1 & q1 & E1 & I1 & C1 & T1 & (AF1 & AF2 & AF3)).
    cbn [M_Pipeline.deliver_all]. rewrite E1. pose proof (deliver_length _ _ _ _ _ _ _ _ _ _ _ E1) as L1.
    destruct (IHx P2 e2 al2 g1 q1 other ltac:(lia) ltac:(lia) I1 C1 ltac:(lia)) as (g2 & q2 & E2 & I2 & C2 & T2 & A2 & B2 & D2).
    exists g2, q2. split; [exact E2|]. split; [exact I2|]. split; [exact C2|]. split; [exact T2|]. split; [auto|]. split.
    + intro LV. destruct (B2 LV) as [LV1 TQ]. destruct (AF2 LV1) as [LV0 TQ0]. split; [exact LV0|lia].
    + intros ys E. destruct ys as [|y ys].
      * injection E as -> ->. cbn in E2. injection E2 as <- <-. apply AF3. reflexivity.
      * injection E as -> ->. apply (D2 ys). reflexivity.
Qed.
Hypothesis HB : 1 <= B.
Hypothesis HN : 1 <= n.
Lemma closed_live gs q : closed gs q -> live gs = true \/ In None q.
Proof.
  induction gs as [|[st [j|]] gs IH]; cbn; auto. intros [_ [[]|C]]; auto.
Qed.
Lemma deliver_extends d : forall j gs q m gs' q', deliver d j gs q m = Some (gs', q') -> exists ext, q' = q ++ ext.
Proof using.
  induction d as [|d IH]; intros j gs q m gs' q' E.
  - destruct gs as [|[st [junk|]] gs]; cbn [M_Pipeline.deliver] in E; (destruct (_ <? _); [|discriminate]); [|exists []; rewrite app_nil_r; congruence|discriminate].
    injection E as <- <-. eexists. reflexivity.
  - destruct gs as [|[st [junk|]] gs].
    + cbn [M_Pipeline.deliver] in E. destruct (_ <? _); [|discriminate]. injection E as <- <-. eexists. reflexivity.
    + cbn [M_Pipeline.deliver] in E. destruct (_ <? _); [|discriminate]. injection E as <- <-. exists []. rewrite app_nil_r. reflexivity.
    + rewrite deliver_unfold in E. destruct (_ <? _); [|discriminate]. destruct (work j st m) as [[st' xs] k].
      destruct (deliver_all d (S j) xs gs q) as [[g2 q2]|] eqn:E2; [|discriminate]. injection E as <- <-.
      revert gs q E2. induction xs as [|x xs IHx]; intros gs q E2; cbn [M_Pipeline.deliver_all] in E2; [injection E2 as <- <-; exists []; rewrite app_nil_r; reflexivity|].
      destruct (deliver d (S j) gs q x) as [[g1 q1]|] eqn:E1; [|discriminate]. destruct (IH _ _ _ _ _ _ E1) as [e1 ->]. destruct (IHx _ _ E2) as [e2 ->].
      exists (e1 ++ e2). rewrite app_assoc. reflexivity.
Qed.
Lemma deliver_all_extends d j xs : forall gs q gs' q', deliver_all d j xs gs q = Some (gs', q') -> exists ext, q' = q ++ ext.
Proof using.
  induction xs as [|x xs IHx]; intros gs q gs' q' E2; cbn [M_Pipeline.deliver_all] in E2; [injection E2 as <- <-; exists []; rewrite app_nil_r; reflexivity|].
  destruct (deliver d j gs q x) as [[g1 q1]|] eqn:E1; [|discriminate]. destruct (deliver_extends _ _ _ _ _ _ _ E1) as [e1 ->]. destruct (IHx _ _ _ _ E2) as [e2 ->].
  exists (e1 ++ e2). rewrite app_assoc. reflexivity.
Qed.
Definition good (d : nat) (st : St) (gs : list stage) (q : list (option M)) : Prop :=
  length gs <= d /\ 1 + length gs = n /\ inv 1 gs q [] (extra 0 st) 1 /\ closed gs q /\ gtoks gs + toks q <= B /\ (live gs = true -> toks q = B).
Lemma good_step d st gs q : good d st gs q ->
  exists m q' st1 xs k gs1 q1, q = m :: q' /\ work 0 st m = (st1, xs, k) /\ deliver_all d 1 xs gs q' = Some (gs1, q1) /\
    (if k : bool then m <> None /\ good d st1 gs1 q1 else forallb dead gs1 = true).
Proof.
  intros (LD & LN & IV & CL & TB & TQ). destruct q as [|m q].
  { exfalso. destruct (closed_live _ _ CL) as [L|I0]; [specialize (TQ L); cbn in TQ; lia|destruct I0]. }
  destruct (work 0 st m) as [[st1 xs] k] eqn:W. destruct (work_counts 0 st m st1 xs k ltac:(lia) W) as (WC & WN & WM).
  replace (toks (m :: q)) with (toks [m] + toks q) in * by (symmetry; apply (toks_app [m] q)).
  assert (KM : k = true -> m <> None) by (intros -> Q; specialize (WM Q); discriminate).
  assert (CQ : closed_or (m = None) gs q).
  { clear -CL. induction gs as [|[s [j|]] gs IHg]; cbn in *; auto. destruct CL as [A [[]|[E|I1]]]; auto. }
  assert (GO : forall al, (if k then al = 1 else al = 0) -> exists gs' q', deliver_all d 1 xs gs q = Some (gs', q') /\ inv 1 gs' q' [] (extra 0 st1) al /\ closed_or (m = None) gs' q' /\ gtoks gs' + toks q' + 0 <= B /\
    (forall x, In x q -> In x q') /\ (live gs' = true -> live gs = true /\ toks q' = toks q + toks xs) /\ (forall ys, xs = ys ++ [None] -> forallb dead gs' = true /\ (m = None \/ In None q'))).
  { intros al HA. apply deliver_all_fine; [exact LD|exact LN| |exact CQ|].
    - rewrite app_nil_r. eapply inv_weaken; [apply (inv_q_pop gs 1 q [] (extra 0 st) 1 m IV)| |]; cbn [notes ends]; destruct k; subst al; lia.
    - destruct k; lia. }
  destruct k.
  - destruct (GO 1 eq_refl) as (g1 & q1 & E1 & I1 & C1 & T1 & A1 & B1 & D1).
    exists m, q, st1, xs, true, g1, q1. split; [reflexivity|]. split; [exact W|]. split; [exact E1|]. split; [auto|].
    pose proof (deliver_all_length _ _ _ _ _ _ _ _ _ _ _ E1) as L1. split; [lia|]. split; [lia|]. split; [exact I1|]. split; [|split; [lia|]].
    + clear -C1 KM. specialize (KM eq_refl). induction g1 as [|[s [j|]] g1 IHg]; cbn in *; auto. destruct C1 as [A [E|I1]]; [contradiction|auto].
    + intro LV. destruct (B1 LV) as [L2 T2]. rewrite T2. specialize (TQ L2). destruct WC as [WC _]. lia.
  - destruct WC as (WC & _ & ys & EX). destruct (GO 0 eq_refl) as (g1 & q1 & E1 & I1 & C1 & T1 & A1 & B1 & D1).
    exists m, q, st1, xs, false, g1, q1. split; [reflexivity|]. split; [exact W|]. split; [exact E1|]. apply (D1 ys EX).
Qed.
Lemma source_fine d mu : (forall st m st' ms, f 0 st m = (st', ms, true) -> mu st' < mu st) ->
  forall fuel st gs q, mu st < fuel -> good d st gs q -> exists st' gs' q', source fuel d st gs q = Some (st', gs', q') /\ forallb dead gs' = true.
Proof.
  intros HM. induction fuel as [|fuel IH]; intros st gs q MF G; [lia|]. destruct (good_step d st gs q G) as (m & q' & st1 & xs & k & g1 & q1 & -> & W & ED & K).
  cbn [M_Pipeline.source]. rewrite W, ED. destruct k; [|eauto]. destruct K as [NM G1]. apply IH; [|exact G1].
  destruct m as [m|]; [|contradiction]. unfold M_Pipeline.work in W. destruct (f 0 st m) as [[s2 ms] k2] eqn:EF. injection W as <- _ ->. specialize (HM _ _ _ _ EF). lia.
Qed.
(* with the end on its way back *)
Fixpoint before (q : list (option M)) : nat := match q with Some _ :: q' => S (before q') | _ => 0 end.
Lemma before_app q e : In None q -> before (q ++ e) = before q.
Proof using. induction q as [|[m|] q IH]; cbn; [intros []| |reflexivity]. intros [Q|I0]; [discriminate|]. rewrite IH by exact I0. reflexivity. Qed.
Lemma source_fine_end d : forall fuel st gs q, before q < fuel -> In None q -> good d st gs q -> exists st' gs' q', source fuel d st gs q = Some (st', gs', q') /\ forallb dead gs' = true.
Proof.
  induction fuel as [|fuel IH]; intros st gs q MF NQ G; [lia|]. destruct (good_step d st gs q G) as (m & q' & st1 & xs & k & g1 & q1 & -> & W & ED & K).
  cbn [M_Pipeline.source]. rewrite W, ED. destruct k; [|eauto]. destruct K as [NM G1]. destruct NQ as [Q|NQ]; [congruence|]. destruct (deliver_all_extends _ _ _ _ _ _ _ ED) as [ext ->].
  destruct m as [m|]; [|contradiction]. cbn [before] in MF. apply IH; [rewrite before_app by exact NQ; lia|apply in_or_app; left; exact NQ|exact G1].
Qed.
End Ends.
