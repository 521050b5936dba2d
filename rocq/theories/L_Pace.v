(* Lemmas for C35: exactly when standard input is encoded completely. *)
From Verif Require Import M_Base M_Specs M_Header M_Multihash M_Metadata M_Block M_Index M_FileUtils M_Buffer M_Ranges M_Encode
  S_Crc S_Meta S_Block S_Index S_Container S_Encode L_Base L_Encode L_Encode2 L_Encode3 L_Encode4 S_Pace.

Definition full (ps : list (list N)) : Prop := Forall (fun x => x <> []) ps.
Lemma lenN_pos (x : list N) : x <> [] -> 1 <= lenN x.
Proof. destruct x; [congruence|]. rewrite lenN_cons. lia. Qed.
(* the bytes one payload gets *)
Lemma read_fst : forall t ps n, fst (read_tries t ps n) = takeN n (concat (firstn t ps)).
Proof.
  induction t as [|t IH]; intros ps n; [cbn; rewrite take_nil; reflexivity|].
  destruct (N.eq_dec n 0) as [->|N0]; [rewrite read_zero, take_0; reflexivity|].
  destruct ps as [|x r]; [rewrite read_nothing; cbn; rewrite take_nil; reflexivity|]. cbn [firstn concat].
  rewrite take_app. destruct (N.lt_ge_cases n (lenN x)) as [L|L].
  - rewrite read_partial by lia. replace (n - lenN x) with 0 by lia. rewrite take_0, app_nil_r. reflexivity.
  - rewrite read_full by lia. cbn [fst]. rewrite IH, (take_all _ x) by exact L. reflexivity.
Qed.
(* the joints of what is left, if all n bytes came *)
Lemma joints_shift : forall ps a b, joints (a + b) ps = map (fun x => a + x) (joints b ps).
Proof.
  induction ps as [|x r IH]; intros a b; [reflexivity|]. destruct r as [|y r]; [reflexivity|].
  change (joints (a + b) (x :: y :: r)) with ((a + b + lenN x) :: joints (a + b + lenN x) (y :: r)). change (joints b (x :: y :: r)) with ((b + lenN x) :: joints (b + lenN x) (y :: r)).
  cbn [map]. rewrite <- N.add_assoc, IH. reflexivity.
Qed.
Lemma joints_cons x y r a : joints a (x :: y :: r) = (a + lenN x) :: joints (a + lenN x) (y :: r).
Proof. reflexivity. Qed.
Lemma joints_above : forall ps a, full ps -> forall x, In x (joints a ps) -> a < x.
Proof.
  induction ps as [|x r IH]; intros a F z I; [destruct I|]. destruct r as [|y r]; [destruct I|]. rewrite joints_cons in I. inversion F as [|? ? F1 F2]; subst.
  apply lenN_pos in F1. destruct I as [<-|I]; [lia|]. apply (IH _ F2) in I. lia.
Qed.
Lemma joints_below : forall ps a, full ps -> forall x, In x (joints a ps) -> x < a + lenN (concat ps).
Proof.
  induction ps as [|x r IH]; intros a F z I; [destruct I|]. destruct r as [|y r]; [destruct I|]. rewrite joints_cons in I. inversion F as [|? ? F1 F2]; subst. rewrite (concat_cons x), lenN_app.
  destruct I as [<-|I]; [inversion F2 as [|? ? F3 F4]; subst; rewrite concat_cons, lenN_app; apply lenN_pos in F3; lia|]. apply (IH _ F2) in I. lia.
Qed.
Lemma read_rest : forall t ps n, full ps -> n <= lenN (concat (firstn t ps)) ->
  full (snd (read_tries t ps n)) /\ joints n (snd (read_tries t ps n)) = filter (fun x => n <? x) (joints 0 ps).
Proof.
  assert (ALL : forall ps a n, full ps -> n <= a -> filter (fun x => n <? x) (joints a ps) = joints a ps).
  { intros ps a n F L.
    assert (X : forall l, (forall x, In x l -> n < x) -> filter (fun x => n <? x) l = l).
    { induction l as [|z l IHl]; intro Q; [reflexivity|]. cbn [filter]. destruct (N.ltb_spec n z) as [_|L']; [|specialize (Q z (or_introl eq_refl)); lia]. rewrite IHl; [reflexivity|]. intros x I. apply Q. right. exact I. }
    apply X. intros x I. apply (joints_above _ _ F) in I. lia. }
  assert (G : forall t ps n a, full ps -> n <= lenN (concat (firstn t ps)) ->
    full (snd (read_tries t ps n)) /\ joints (a + n) (snd (read_tries t ps n)) = filter (fun x => a + n <? x) (joints a ps)).
  { induction t as [|t IH]; intros ps n a F L.
    - change (lenN (concat (firstn 0 ps))) with 0 in L. replace n with 0 by lia. cbn [read_tries snd]. split; [exact F|]. rewrite N.add_0_r, ALL; [reflexivity|exact F|lia].
    - destruct (N.eq_dec n 0) as [->|N0]; [rewrite read_zero; cbn [snd]; split; [exact F|]; rewrite N.add_0_r, ALL; [reflexivity|exact F|lia]|].
      destruct ps as [|x r]; [change (lenN (concat (firstn (S t) []))) with 0 in L; lia|]. cbn [firstn concat] in L. rewrite lenN_app in L.
      pose proof F as F'. inversion F' as [|? ? F1 F2]; subst. destruct (N.lt_ge_cases n (lenN x)) as [LX|LX].
      + rewrite read_partial by lia. cbn [snd]. assert (F3 : full (dropN n x :: r)) by (constructor; [intro Z; apply (f_equal lenN) in Z; rewrite lenN_drop in Z; change (lenN (@nil N)) with 0 in Z; lia|exact F2]).
        split; [exact F3|]. destruct r as [|y r]; [reflexivity|]. rewrite !joints_cons, lenN_drop. cbn [filter]. destruct (N.ltb_spec (a + n) (a + lenN x)); [|lia].
        rewrite ALL; [|exact F2|lia]. replace (a + n + (lenN x - n)) with (a + lenN x) by lia. reflexivity.
      + rewrite read_full by lia. cbn [snd]. destruct (IH r (n - lenN x) (a + lenN x) F2 ltac:(lia)) as [I1 I2]. split; [exact I1|].
        replace (a + lenN x + (n - lenN x)) with (a + n) in I2 by lia. rewrite I2. destruct r as [|y r]; [reflexivity|]. rewrite joints_cons. cbn [filter]. destruct (N.ltb_spec (a + n) (a + lenN x)); [lia|]. reflexivity. }
  intros t ps n F L. exact (G t ps n 0 F L).
Qed.
(* how many joints lie below n *)
Lemma few_joints : forall t ps a n, full ps -> (n <= a + lenN (concat (firstn (S t) ps)) \/ a + lenN (concat ps) <= a + lenN (concat (firstn (S t) ps))) ->
  lenN (filter (fun x => x <? n) (joints a ps)) <= N.of_nat t.
Proof.
  induction t as [|t IH]; intros ps a n F L.
  - destruct ps as [|x r]; [exact (N.le_0_l _)|]. destruct r as [|y r]; [exact (N.le_0_l _)|]. inversion F as [|? ? F1 F2]; subst. rewrite joints_cons.
    cbn [firstn concat] in L. rewrite app_nil_r in L. destruct L as [L|L].
    + assert (X : forall l, (forall z, In z l -> n <= z) -> filter (fun x => x <? n) l = []).
      { induction l as [|z l IHl]; intro Q; [reflexivity|]. cbn [filter]. destruct (N.ltb_spec z n) as [L'|_]; [specialize (Q z (or_introl eq_refl)); lia|]. apply IHl. intros w I. apply Q. right. exact I. }
      rewrite X; [exact (N.le_0_l _)|]. intros z [<-|I]; [lia|]. apply (joints_above _ _ F2) in I. lia.
    + exfalso. rewrite !lenN_app in L. inversion F2 as [|? ? F3 _]; subst. apply lenN_pos in F3. cbn [concat] in L. lia.
  - destruct ps as [|x r]; [exact (N.le_0_l _)|]. destruct r as [|y r]; [exact (N.le_0_l _)|]. inversion F as [|? ? F1 F2]; subst. rewrite joints_cons.
    change (firstn (S (S t)) (x :: y :: r)) with (x :: firstn (S t) (y :: r)) in L. rewrite (concat_cons x) in L. rewrite (concat_cons x (y :: r)) in L. rewrite !lenN_app in L.
    specialize (IH (y :: r) (a + lenN x) n F2 ltac:(lia)). cbn [filter]. destruct (a + lenN x <? n); [rewrite lenN_cons|]; lia.
Qed.
Lemma many_joints : forall t ps a n, full ps -> a + lenN (concat (firstn t ps)) < n -> lenN (concat (firstn t ps)) < lenN (concat ps) ->
  N.of_nat t <= lenN (filter (fun x => x <? n) (joints a ps)).
Proof.
  induction t as [|t IH]; intros ps a n F L1 L2; [lia|].
  destruct ps as [|x r]; [cbn in L2; lia|]. cbn [firstn] in *. rewrite !concat_cons, !lenN_app in *. inversion F as [|? ? F1 F2]; subst.
  destruct r as [|y r]; [rewrite firstn_nil in L2; lia|]. rewrite joints_cons. cbn [filter]. destruct (N.ltb_spec (a + lenN x) n); [|lia]. rewrite lenN_cons.
  specialize (IH (y :: r) (a + lenN x) n F2 ltac:(lia) ltac:(lia)). lia.
Qed.
Lemma filter_filter {A} (f g : A -> bool) l : filter f (filter g l) = filter (fun x => g x && f x) l.
Proof. induction l as [|x l IH]; [reflexivity|]. cbn [filter]. destruct (g x); cbn [filter andb]; [destruct (f x); rewrite IH; reflexivity|exact IH]. Qed.
Lemma filter_same {A} (f g : A -> bool) l : (forall x, In x l -> f x = g x) -> filter f l = filter g l.
Proof. induction l as [|x l IH]; intro E; [reflexivity|]. cbn [filter]. rewrite (E x (or_introl eq_refl)), IH; [reflexivity|]. intros y I. apply E. right. exact I. Qed.
Lemma inside_first ds ps : full ps -> inside ds 0 ps = filter (fun x => x <? ds) (joints 0 ps).
Proof.
  intro F. unfold inside. apply filter_same. intros x I. apply (joints_above _ _ F) in I. rewrite N.mul_0_l, N.add_0_l, N.mul_1_l. destruct (N.ltb_spec 0 x); [reflexivity|lia].
Qed.
Lemma inside_later ds q ps ps' : full ps' -> joints ds ps' = filter (fun x => ds <? x) (joints 0 ps) -> lenN (inside ds q ps') = lenN (inside ds (q + 1) ps).
Proof.
  intros F J. unfold inside. rewrite <- (N.add_0_r ds) in J at 1. rewrite joints_shift in J.
  assert (E : filter (fun x => ((q + 1) * ds <? x) && (x <? (q + 1 + 1) * ds)) (joints 0 ps) = filter (fun x => ((q + 1) * ds <? x) && (x <? (q + 1 + 1) * ds)) (map (fun x => ds + x) (joints 0 ps'))).
  { rewrite J, filter_filter. apply filter_same. intros x _. destruct (N.ltb_spec ds x), (N.ltb_spec ((q + 1) * ds) x); try reflexivity. nia. }
  rewrite E. generalize (joints 0 ps'). induction l as [|z l IH]; [reflexivity|]. cbn [map filter].
  replace ((q + 1) * ds <? ds + z) with (q * ds <? z) by (destruct (N.ltb_spec (q * ds) z), (N.ltb_spec ((q + 1) * ds) (ds + z)); try reflexivity; nia).
  replace (ds + z <? (q + 1 + 1) * ds) with (z <? (q + 1) * ds) by (destruct (N.ltb_spec z ((q + 1) * ds)), (N.ltb_spec (ds + z) ((q + 1 + 1) * ds)); try reflexivity; nia).
  destruct ((q * ds <? z) && (z <? (q + 1) * ds)); [rewrite !lenN_cons, IH; reflexivity|exact IH].
Qed.
Lemma inside_beyond ds q ps : full ps -> lenN (concat ps) <= q * ds -> inside ds q ps = [].
Proof.
  intros F L. unfold inside. rewrite (filter_same _ (fun _ => false)); [induction (joints 0 ps); auto|].
  intros x I. apply (joints_below _ _ F) in I. destruct (N.ltb_spec (q * ds) x); [lia|reflexivity].
Qed.
Lemma reads_iff ds s data rest : 1 <= ds -> reads ds s data rest -> forall ps, s = SrcStdin ps -> full ps -> (rest = [] <-> at_most_five ds ps).
Proof.
  intros DS R. induction R as [s d s' RD LD|s d s' data rest RD LD R IH]; intros ps -> F.
  - cbn [src_read] in RD. pose proof (read_fst READ_RETRIES ps ds) as D. pose proof (src_read_ok (SrcStdin ps) ds) as OK. cbn [src_read] in OK. destruct (read_tries READ_RETRIES ps ds) as [d0 ps'] eqn:E.
    injection RD as -> <-. cbn [fst] in D. destruct OK as [_ OK]. cbn [src_bytes] in *.
    assert (DE : d = concat (firstn 5 ps)). { rewrite D in LD. rewrite lenN_take in LD. rewrite D. apply take_all. unfold READ_RETRIES in LD. lia. }
    assert (TOT : lenN (concat ps) = lenN d + lenN (concat ps')) by (rewrite OK, lenN_app; reflexivity).
    split.
    + intro Z. rewrite Z in TOT. change (lenN (@nil N)) with 0 in TOT. intro q. destruct (N.eq_dec q 0) as [->|NQ].
      * rewrite (inside_first _ _ F). apply (few_joints 4 ps 0 ds F). right. rewrite <- DE. lia.
      * rewrite inside_beyond; [exact (N.le_0_l _)|exact F|]. nia.
    + intro A. specialize (A 0). rewrite (inside_first _ _ F) in A. destruct (N.eq_dec (lenN (concat ps')) 0) as [Z|Z]; [apply lenN_0; exact Z|].
      exfalso. pose proof (many_joints 5 ps 0 ds F ltac:(rewrite <- DE; lia) ltac:(rewrite <- DE; lia)) as B. lia.
  - cbn [src_read] in RD. pose proof (read_fst READ_RETRIES ps ds) as D. destruct (read_rest READ_RETRIES ps ds F) as [RF RJ].
    { pose proof (read_fst READ_RETRIES ps ds) as D'. destruct (read_tries READ_RETRIES ps ds) as [d0 ps'] eqn:E. injection RD as -> _. cbn [fst] in D'. rewrite D', lenN_take in LD. lia. }
    destruct (read_tries READ_RETRIES ps ds) as [d0 ps'] eqn:E. injection RD as -> <-. cbn [fst snd] in *. rewrite (IH ps' eq_refl RF). split.
    + intros A q. destruct (N.eq_dec q 0) as [->|NQ].
      * rewrite (inside_first _ _ F). apply (few_joints 4 ps 0 ds F). left. rewrite D, lenN_take in LD. unfold READ_RETRIES in LD. lia.
      * replace q with (q - 1 + 1) by lia. rewrite <- (inside_later ds (q - 1) ps ps' RF RJ). apply A.
    + intros A q. rewrite (inside_later ds q ps ps' RF RJ). apply A.
Qed.
