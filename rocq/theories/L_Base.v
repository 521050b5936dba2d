(* Lemmas about the basic vocabulary. *)
From Verif Require Import M_Base.

Ltac zdm := Z.div_mod_to_equations.
Ltac Zify.zify_post_hook ::= Z.div_mod_to_equations.

Section ListN.
Context {A : Type}.
Implicit Types l : list A.

Lemma lenN_nil : lenN (@nil A) = 0. Proof. reflexivity. Qed.
Lemma lenN_cons x l : lenN (x :: l) = 1 + lenN l.
Proof. unfold lenN; cbn [length]; lia. Qed.
Lemma lenN_app l1 l2 : lenN (l1 ++ l2) = lenN l1 + lenN l2.
Proof. unfold lenN; rewrite app_length; lia. Qed.
Lemma lenN_take n l : lenN (takeN n l) = N.min n (lenN l).
Proof. unfold lenN, takeN; rewrite firstn_length; lia. Qed.
Lemma lenN_drop n l : lenN (dropN n l) = lenN l - n.
Proof. unfold lenN, dropN; rewrite skipn_length; lia. Qed.
Lemma lenN_slice p n l : lenN (sliceN p n l) = N.min n (lenN l - p).
Proof. unfold sliceN; rewrite lenN_take, lenN_drop; reflexivity. Qed.
Lemma lenN_rep n (a : A) : lenN (repN n a) = n.
Proof. unfold lenN, repN; rewrite repeat_length; lia. Qed.
Lemma lenN_rev l : lenN (rev l) = lenN l.
Proof. unfold lenN; rewrite rev_length; lia. Qed.
Lemma lenN_0 l : lenN l = 0 -> l = [].
Proof. destruct l; [reflexivity|]; rewrite lenN_cons; lia. Qed.

Lemma take_all n l : lenN l <= n -> takeN n l = l.
Proof. intro H; unfold takeN; apply firstn_all2; unfold lenN in H; lia. Qed.
Lemma drop_all n l : lenN l <= n -> dropN n l = [].
Proof. intro H; unfold dropN; apply skipn_all2; unfold lenN in H; lia. Qed.
Lemma take_0 l : takeN 0 l = []. Proof. reflexivity. Qed.
Lemma drop_0 l : dropN 0 l = l. Proof. reflexivity. Qed.
Lemma take_nil n : takeN n (@nil A) = [].
Proof. unfold takeN; apply firstn_nil. Qed.
Lemma drop_nil n : dropN n (@nil A) = [].
Proof. unfold dropN; apply skipn_nil. Qed.
Lemma take_drop n l : takeN n l ++ dropN n l = l.
Proof. unfold takeN, dropN; apply firstn_skipn. Qed.
Lemma take_app_exact n l1 l2 : n = lenN l1 -> takeN n (l1 ++ l2) = l1.
Proof. intros ->; unfold takeN, lenN; rewrite Nat2N.id, firstn_app, Nat.sub_diag, firstn_all;
       cbn [firstn]; apply app_nil_r. Qed.
Lemma drop_app_exact n l1 l2 : n = lenN l1 -> dropN n (l1 ++ l2) = l2.
Proof. intros ->; unfold dropN, lenN; rewrite Nat2N.id, skipn_app, Nat.sub_diag, skipn_all.
       reflexivity. Qed.
Lemma take_app n l1 l2 : takeN n (l1 ++ l2) = takeN n l1 ++ takeN (n - lenN l1) l2.
Proof. unfold takeN, lenN; rewrite firstn_app. do 3 f_equal. lia. Qed.
Lemma drop_app n l1 l2 : dropN n (l1 ++ l2) = dropN n l1 ++ dropN (n - lenN l1) l2.
Proof. unfold dropN, lenN; rewrite skipn_app. do 3 f_equal. lia. Qed.
Lemma take_take n m l : takeN n (takeN m l) = takeN (N.min n m) l.
Proof. unfold takeN; rewrite firstn_firstn; f_equal; lia. Qed.
Lemma drop_drop n m l : dropN n (dropN m l) = dropN (m + n) l.
Proof.
  unfold dropN. replace (N.to_nat (m + n)) with (N.to_nat m + N.to_nat n)%nat by lia.
  generalize (N.to_nat m) (N.to_nat n). intros a b. revert l.
  induction a as [|a IH]; intros l; [reflexivity|].
  destruct l as [|x l]; cbn [skipn Nat.add]; [apply skipn_nil|apply IH].
Qed.
Lemma drop_take n m l : dropN n (takeN m l) = takeN (m - n) (dropN n l).
Proof. unfold dropN, takeN; rewrite skipn_firstn_comm; f_equal; lia. Qed.
Lemma slice_app_l p n l1 l2 : p + n <= lenN l1 -> sliceN p n (l1 ++ l2) = sliceN p n l1.
Proof.
  intro H. unfold sliceN. rewrite drop_app, take_app, lenN_drop.
  replace (n - (lenN l1 - p)) with 0 by lia. rewrite take_0, app_nil_r. reflexivity.
Qed.
Lemma slice_app_r p n l1 l2 : lenN l1 <= p -> sliceN p n (l1 ++ l2) = sliceN (p - lenN l1) n l2.
Proof.
  intro H. unfold sliceN. rewrite drop_app, drop_all by lia. reflexivity.
Qed.
Lemma slice_all n l : lenN l <= n -> sliceN 0 n l = l.
Proof. intro H; unfold sliceN; rewrite drop_0; apply take_all; exact H. Qed.
Lemma slice_slice p n q m l : q + m <= n -> sliceN q m (sliceN p n l) = sliceN (p + q) m l.
Proof.
  intro H. unfold sliceN. rewrite drop_take, take_take, drop_drop. f_equal. lia.
Qed.
Lemma take_slice n l : takeN n l = sliceN 0 n l.
Proof. reflexivity. Qed.
Lemma slice_split p a b l : sliceN p (a + b) l = sliceN p a l ++ sliceN (p + a) b l.
Proof.
  unfold sliceN. rewrite <- (drop_drop a p l). set (t := dropN p l).
  rewrite <- (take_drop a (takeN (a + b) t)) at 1.
  rewrite take_take, drop_take. f_equal; f_equal; lia.
Qed.
Lemma rep_app n m (a : A) : repN (n + m) a = repN n a ++ repN m a.
Proof. unfold repN. replace (N.to_nat (n + m)) with (N.to_nat n + N.to_nat m)%nat by lia.
       apply repeat_app. Qed.
Lemma rep_0 (a : A) : repN 0 a = []. Proof. reflexivity. Qed.
Lemma rep_S n (a : A) : repN (1 + n) a = a :: repN n a.
Proof. unfold repN. replace (N.to_nat (1 + n)) with (S (N.to_nat n)) by lia. reflexivity. Qed.
Lemma take_rep n m (a : A) : takeN n (repN m a) = repN (N.min n m) a.
Proof.
  unfold takeN, repN. replace (N.to_nat (N.min n m)) with (Nat.min (N.to_nat n) (N.to_nat m)) by lia.
  generalize (N.to_nat n) (N.to_nat m). intros x y. revert y.
  induction x as [|x IH]; intros [|y]; cbn [firstn repeat Nat.min]; try reflexivity. f_equal; apply IH.
Qed.
Lemma drop_rep n m (a : A) : dropN n (repN m a) = repN (m - n) a.
Proof.
  unfold dropN, repN. replace (N.to_nat (m - n)) with (N.to_nat m - N.to_nat n)%nat by lia.
  generalize (N.to_nat n) (N.to_nat m). intros x y. revert y.
  induction x as [|x IH]; intros [|y]; cbn [skipn repeat Nat.sub]; try reflexivity. apply IH.
Qed.
Lemma take_add n m l : takeN (n + m) l = takeN n l ++ takeN m (dropN n l).
Proof.
  rewrite <- (take_drop n (takeN (n + m) l)) at 1. rewrite take_take, drop_take.
  f_equal; f_equal; lia.
Qed.
Lemma take_cons n x l : takeN (1 + n) (x :: l) = x :: takeN n l.
Proof. unfold takeN. replace (N.to_nat (1 + n)) with (S (N.to_nat n)) by lia. reflexivity. Qed.
Lemma drop_cons n x l : dropN (1 + n) (x :: l) = dropN n l.
Proof. unfold dropN. replace (N.to_nat (1 + n)) with (S (N.to_nat n)) by lia. reflexivity. Qed.

(* optional access *)
Definition nth_optN l (i : N) : option A := nth_error l (N.to_nat i).
Lemma nth_optN_None l i : nth_optN l i = None <-> lenN l <= i.
Proof. unfold nth_optN, lenN. rewrite nth_error_None. lia. Qed.
Lemma nth_optN_Some l i : i < lenN l -> exists a, nth_optN l i = Some a.
Proof.
  intro H. destruct (nth_optN l i) eqn:E; [eauto|]. apply nth_optN_None in E. lia.
Qed.
Lemma nth_optN_app1 l1 l2 i : i < lenN l1 -> nth_optN (l1 ++ l2) i = nth_optN l1 i.
Proof. unfold nth_optN, lenN; intro H. apply nth_error_app1. lia. Qed.
Lemma nth_optN_app2 l1 l2 i : lenN l1 <= i -> nth_optN (l1 ++ l2) i = nth_optN l2 (i - lenN l1).
Proof. unfold nth_optN, lenN; intro H. rewrite nth_error_app2 by lia. f_equal. lia. Qed.
Lemma nth_optN_take n l i : i < n -> nth_optN (takeN n l) i = nth_optN l i.
Proof.
  unfold nth_optN, takeN; intro H. assert (Hi : (N.to_nat i < N.to_nat n)%nat) by lia. clear H.
  revert Hi. generalize (N.to_nat i) (N.to_nat n). intros a b. revert b l.
  induction a as [|a IH]; intros [|b] l H; destruct l as [|x l]; cbn [firstn nth_error]; try lia; try reflexivity.
  apply IH; lia.
Qed.
Lemma nth_optN_drop n l i : nth_optN (dropN n l) i = nth_optN l (n + i).
Proof.
  unfold nth_optN, dropN. replace (N.to_nat (n + i)) with (N.to_nat n + N.to_nat i)%nat by lia.
  generalize (N.to_nat n) (N.to_nat i). intros a b. revert l.
  induction a as [|a IH]; intros l; [reflexivity|]. destruct l as [|x l]; cbn [skipn Nat.add nth_error].
  - destruct b; reflexivity.
  - apply IH.
Qed.
Lemma nth_optN_slice p n l i : i < n -> nth_optN (sliceN p n l) i = nth_optN l (p + i).
Proof. intro H. unfold sliceN. rewrite nth_optN_take by exact H. apply nth_optN_drop. Qed.
Lemma nth_optN_rep n (a : A) i : i < n -> nth_optN (repN n a) i = Some a.
Proof.
  unfold nth_optN, repN; intro H. apply nth_error_repeat. lia.
Qed.
Lemma list_ext l1 l2 : (forall i, nth_optN l1 i = nth_optN l2 i) -> l1 = l2.
Proof.
  intro H. assert (H' : forall k, nth_error l1 k = nth_error l2 k).
  { intro k. specialize (H (N.of_nat k)). unfold nth_optN in H. rewrite Nat2N.id in H. exact H. }
  clear H. revert l2 H'. induction l1 as [|x l1 IH]; intros [|y l2] H.
  - reflexivity.
  - specialize (H O); discriminate.
  - specialize (H O); discriminate.
  - pose proof (H O) as H0. injection H0 as ->. f_equal. apply IH. intro k. apply (H (S k)).
Qed.
End ListN.

Lemma lenN_map {A B} (f : A -> B) l : lenN (map f l) = lenN l.
Proof. unfold lenN; rewrite map_length; reflexivity. Qed.
Lemma map_take {A B} (f : A -> B) n l : map f (takeN n l) = takeN n (map f l).
Proof. unfold takeN. symmetry. apply firstn_map. Qed.
Lemma map_drop {A B} (f : A -> B) n l : map f (dropN n l) = dropN n (map f l).
Proof. unfold dropN. symmetry. apply skipn_map. Qed.
Lemma nth_optN_map {A B} (f : A -> B) l i : nth_optN (map f l) i = option_map f (nth_optN l i).
Proof. unfold nth_optN. apply nth_error_map. Qed.

Lemma nthN_opt l i : nthN l i = match nth_optN l i with Some x => x | None => 0 end.
Proof.
  unfold nthN, nth_optN. destruct (nth_error l (N.to_nat i)) eqn:E.
  - apply nth_error_nth with (d := 0) in E. exact E.
  - apply nth_error_None in E. apply nth_overflow. exact E.
Qed.

(* ranges *)
Lemma length_seqN lo n : length (seqN lo n) = n.
Proof. revert lo; induction n as [|n IH]; intro lo; cbn [seqN length]; [reflexivity|rewrite IH; reflexivity]. Qed.
Lemma In_seqN x lo n : In x (seqN lo n) <-> lo <= x < lo + N.of_nat n.
Proof.
  revert lo; induction n as [|n IH]; intro lo; cbn [seqN In]; [lia|]. rewrite IH. lia.
Qed.
Lemma lenN_range lo hi : lenN (rangeN lo hi) = hi - lo.
Proof. unfold lenN, rangeN; rewrite length_seqN; lia. Qed.
Lemma In_rangeN x lo hi : In x (rangeN lo hi) <-> lo <= x < hi.
Proof. unfold rangeN. rewrite In_seqN. lia. Qed.
Lemma seqN_app lo n m : seqN lo (n + m) = seqN lo n ++ seqN (lo + N.of_nat n) m.
Proof.
  revert lo; induction n as [|n IH]; intro lo; cbn [seqN Nat.add app].
  - f_equal; lia.
  - f_equal. rewrite IH. do 2 f_equal. lia.
Qed.
Lemma rangeN_split lo mid hi : lo <= mid <= hi -> rangeN lo hi = rangeN lo mid ++ rangeN mid hi.
Proof.
  intro H. unfold rangeN.
  replace (N.to_nat (hi - lo)) with (N.to_nat (mid - lo) + N.to_nat (hi - mid))%nat by lia.
  rewrite seqN_app. do 2 f_equal. lia.
Qed.
Lemma rangeN_nil lo hi : hi <= lo -> rangeN lo hi = [].
Proof. intro H. unfold rangeN. replace (N.to_nat (hi - lo)) with O by lia. reflexivity. Qed.
Lemma rangeN_cons lo hi : lo < hi -> rangeN lo hi = lo :: rangeN (lo + 1) hi.
Proof.
  intro H. unfold rangeN. replace (N.to_nat (hi - lo)) with (S (N.to_nat (hi - (lo + 1)))) by lia.
  reflexivity.
Qed.
Lemma rangeN_snoc lo hi : lo <= hi -> rangeN lo (hi + 1) = rangeN lo hi ++ [hi].
Proof.
  intro H. rewrite (rangeN_split lo hi) by lia. f_equal.
  rewrite rangeN_cons by lia. rewrite rangeN_nil by lia. reflexivity.
Qed.
Lemma nth_optN_range lo hi i : i < hi - lo -> nth_optN (rangeN lo hi) i = Some (lo + i).
Proof.
  intro H. unfold nth_optN, rangeN.
  assert (G : forall k n lo, (k < n)%nat -> nth_error (seqN lo n) k = Some (lo + N.of_nat k)).
  { induction k as [|k IH]; intros [|n] l Hk; cbn [seqN nth_error]; try lia.
    - f_equal; lia.
    - rewrite IH by lia. f_equal; lia. }
  rewrite G by lia. f_equal. lia.
Qed.
Lemma NoDup_seqN lo n : NoDup (seqN lo n).
Proof.
  revert lo; induction n as [|n IH]; intro lo; cbn [seqN]; constructor; [|apply IH].
  rewrite In_seqN. lia.
Qed.
Lemma NoDup_rangeN lo hi : NoDup (rangeN lo hi).
Proof. apply NoDup_seqN. Qed.

(* bytes *)
Lemma byte_ok_lt b : byte_ok b = true <-> b < 256.
Proof. unfold byte_ok. lia. Qed.
Lemma bytes_ok_app a b : bytes_ok (a ++ b) = bytes_ok a && bytes_ok b.
Proof. unfold bytes_ok. apply forallb_app. Qed.
Lemma bytes_ok_Forall l : bytes_ok l = true <-> Forall (fun b => b < 256) l.
Proof.
  unfold bytes_ok. rewrite forallb_forall, Forall_forall.
  split; intros H x Hx; specialize (H x Hx); apply byte_ok_lt; exact H.
Qed.
Lemma bytes_ok_incl a b : incl a b -> bytes_ok b = true -> bytes_ok a = true.
Proof.
  intros I H. apply bytes_ok_Forall. apply bytes_ok_Forall in H. rewrite Forall_forall in *.
  intros x Hx. apply H, I, Hx.
Qed.
Lemma In_take {A} n (l : list A) x : In x (takeN n l) -> In x l.
Proof. intro H. rewrite <- (take_drop n l). apply in_or_app; left; exact H. Qed.
Lemma In_drop {A} n (l : list A) x : In x (dropN n l) -> In x l.
Proof. intro H. rewrite <- (take_drop n l). apply in_or_app; right; exact H. Qed.
Lemma bytes_ok_take n l : bytes_ok l = true -> bytes_ok (takeN n l) = true.
Proof. apply bytes_ok_incl. intros x Hx. eapply In_take; eauto. Qed.
Lemma bytes_ok_drop n l : bytes_ok l = true -> bytes_ok (dropN n l) = true.
Proof. apply bytes_ok_incl. intros x Hx. eapply In_drop; eauto. Qed.
Lemma bytes_ok_slice p n l : bytes_ok l = true -> bytes_ok (sliceN p n l) = true.
Proof. intro H. unfold sliceN. apply bytes_ok_take, bytes_ok_drop, H. Qed.
Lemma bytes_ok_rep n b : b < 256 -> bytes_ok (repN n b) = true.
Proof.
  intro H. apply bytes_ok_Forall. rewrite Forall_forall. intros x Hx.
  unfold repN in Hx. apply repeat_spec in Hx. subst; exact H.
Qed.

Lemma eqbl_eq a b : eqbl a b = true <-> a = b.
Proof.
  revert b; induction a as [|x a IH]; intros [|y b]; cbn [eqbl]; try (split; congruence).
  rewrite andb_true_iff, N.eqb_eq, IH. split; [intros [-> ->]; reflexivity|intro H; injection H; auto].
Qed.
Lemma eqbl_refl a : eqbl a a = true.
Proof. apply eqbl_eq; reflexivity. Qed.
Lemma eqbl_neq a b : eqbl a b = false <-> a <> b.
Proof.
  split.
  - intros H E. apply eqbl_eq in E. congruence.
  - intro H. destruct (eqbl a b) eqn:E; [|reflexivity]. apply eqbl_eq in E. contradiction.
Qed.

(* big endian *)
Lemma length_be k x : length (be_bytes k x) = k.
Proof. induction k as [|k IH]; cbn [be_bytes length]; [reflexivity|rewrite IH; reflexivity]. Qed.
Lemma lenN_be k x : lenN (be_bytes k x) = N.of_nat k.
Proof. unfold lenN; rewrite length_be; reflexivity. Qed.
Lemma bytes_ok_be k x : bytes_ok (be_bytes k x) = true.
Proof.
  induction k as [|k IH]; cbn [be_bytes]; [reflexivity|]. unfold bytes_ok in *. cbn [forallb].
  rewrite IH, andb_true_r. apply byte_ok_lt. apply N.mod_lt. lia.
Qed.
Lemma be_fold_acc l a : fold_left (fun a b => a * 256 + b) l a = a * 256 ^ lenN l + be_val l.
Proof.
  unfold be_val. revert a. induction l as [|x l IH]; intro a; cbn [fold_left].
  - rewrite lenN_nil, N.pow_0_r. lia.
  - rewrite (IH (a * 256 + x)), (IH (0 * 256 + x)), lenN_cons, N.pow_add_r, N.pow_1_r. lia.
Qed.
Lemma be_val_app a b : be_val (a ++ b) = be_val a * 256 ^ lenN b + be_val b.
Proof. unfold be_val at 1. rewrite fold_left_app. fold (be_val a). apply be_fold_acc. Qed.
Lemma be_val_cons x l : be_val (x :: l) = x * 256 ^ lenN l + be_val l.
Proof. change (x :: l) with ([x] ++ l). rewrite be_val_app. unfold be_val at 1; cbn [fold_left]. lia. Qed.
Lemma be_val_lt l : bytes_ok l = true -> be_val l < 256 ^ lenN l.
Proof.
  intro H. apply bytes_ok_Forall in H. induction H as [|x l Hx Hl IH].
  - reflexivity.
  - rewrite be_val_cons, lenN_cons, N.pow_add_r, N.pow_1_r.
    assert (x * 256 ^ lenN l <= 255 * 256 ^ lenN l) by (apply N.mul_le_mono_r; lia). lia.
Qed.
Lemma be_val_be k x : be_val (be_bytes k x) = x mod 256 ^ N.of_nat k.
Proof.
  induction k as [|k IH]; cbn [be_bytes].
  - unfold be_val; cbn [fold_left]. change (N.of_nat 0) with 0. rewrite N.pow_0_r, N.mod_1_r. reflexivity.
  - rewrite be_val_cons, lenN_be, IH.
    replace (N.of_nat (S k)) with (N.of_nat k + 1) by lia.
    rewrite N.pow_add_r, N.pow_1_r.
    set (m := 256 ^ N.of_nat k). assert (Hm : m <> 0) by (apply N.pow_nonzero; lia).
    rewrite N.mod_mul_r by lia. lia.
Qed.
Lemma be_val_be_small k x : x < 256 ^ N.of_nat k -> be_val (be_bytes k x) = x.
Proof. intro H. rewrite be_val_be. apply N.mod_small; exact H. Qed.
Lemma be_bytes_be_val l : bytes_ok l = true -> be_bytes (length l) (be_val l) = l.
Proof.
  intro H. assert (G : forall l a, bytes_ok l = true -> be_bytes (length l) (a * 256 ^ lenN l + be_val l) = l).
  { clear. induction l as [|x l IH]; intros a H; [reflexivity|].
    cbn [length be_bytes]. unfold bytes_ok in H; cbn [forallb] in H.
    apply andb_true_iff in H as [Hx Hl]. apply byte_ok_lt in Hx.
    pose proof (be_val_lt l Hl) as Hlt.
    change (N.of_nat (length l)) with (lenN l).
    rewrite be_val_cons, lenN_cons, N.pow_add_r, N.pow_1_r.
    set (m := 256 ^ lenN l) in *. assert (Hm : m <> 0) by (apply N.pow_nonzero; lia).
    replace (a * (256 * m) + (x * m + be_val l)) with ((a * 256 + x) * m + be_val l) by lia.
    f_equal.
    - rewrite N.div_add_l by exact Hm. rewrite N.div_small by exact Hlt. rewrite N.add_0_r.
      rewrite N.add_comm, N.mod_add by lia. apply N.mod_small; exact Hx.
    - apply IH. exact Hl. }
  specialize (G l 0 H). rewrite N.mul_0_l, N.add_0_l in G. exact G.
Qed.
Lemma be_val_inj a b : bytes_ok a = true -> bytes_ok b = true -> length a = length b ->
  be_val a = be_val b -> a = b.
Proof.
  intros Ha Hb HL E. pose proof (be_bytes_be_val a Ha) as Ga. pose proof (be_bytes_be_val b Hb) as Gb.
  rewrite <- HL, <- E in Gb. congruence.
Qed.

(* sums of list splits *)
Lemma app_inj_len {A} (a b c d : list A) : lenN a = lenN c -> a ++ b = c ++ d -> a = c /\ b = d.
Proof.
  intros HL E. split.
  - rewrite <- (take_app_exact (lenN a) a b eq_refl), E. apply take_app_exact. exact HL.
  - rewrite <- (drop_app_exact (lenN a) a b eq_refl), E. apply drop_app_exact. exact HL.
Qed.

(* forallb over a range, to lift finite sweeps *)
Lemma forall_range (P : N -> bool) lo hi :
  forallb P (rangeN lo hi) = true -> forall x, lo <= x < hi -> P x = true.
Proof. intros H x Hx. rewrite forallb_forall in H. apply H, In_rangeN, Hx. Qed.

(* injectivity without simplification of the components *)
Lemma ROk_inj {A} (a b : A) : ROk a = ROk b -> a = b.
Proof. congruence. Qed.
Lemma Some_inj {A} (a b : A) : Some a = Some b -> a = b.
Proof. congruence. Qed.
Lemma pair_inj {A B} (a c : A) (b d : B) : (a, b) = (c, d) -> a = c /\ b = d.
Proof. intro H. inversion H. auto. Qed.
