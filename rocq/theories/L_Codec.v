(* Lemmas about GF(2^8), polynomials and the Reed-Solomon code. *)
From Verif Require Import M_Base M_Index M_Buffer M_Repair M_Codec S_Container S_Repair L_Base L_Buffer L_Repair2 L_Repair8 L_Guess.

(* ---- the field ---- *)
Lemma lxor_lt a b : a < 256 -> b < 256 -> N.lxor a b < 256.
Proof.
  intros A B. destruct (N.eq_dec (N.lxor a b) 0) as [->|NZ]; [lia|].
  apply N.log2_lt_pow2 with (b := 8); [lia|]. apply N.le_lt_trans with (N.max (N.log2 a) (N.log2 b)); [apply N.log2_lxor|].
  apply N.max_lub_lt; [destruct (N.eq_dec a 0) as [->|]|destruct (N.eq_dec b 0) as [->|]]; try (cbn; lia); apply N.log2_lt_pow2; try lia; assumption.
Qed.
Lemma xtime_lt a : a < 256 -> xtime a < 256.
Proof.
  intros A. assert (X : forallb (fun a => xtime a <? 256) (rangeN 0 256) = true) by reflexivity.
  rewrite forallb_forall in X. apply N.ltb_lt, X, In_rangeN. lia.
Qed.
Lemma gmul_bits_lt n : forall a b, a < 256 -> gmul_bits n a b < 256.
Proof.
  induction n as [|n IH]; intros a b A; cbn [gmul_bits]; [lia|]. apply lxor_lt; [destruct (N.odd b); lia|]. apply IH, xtime_lt, A.
Qed.
Lemma gmul_lt a b : a < 256 -> gmul a b < 256.
Proof. apply gmul_bits_lt. Qed.
Lemma lxor_swap a b c d : N.lxor (N.lxor a b) (N.lxor c d) = N.lxor (N.lxor a c) (N.lxor b d).
Proof. rewrite !N.lxor_assoc. f_equal. rewrite <- !N.lxor_assoc. f_equal. apply N.lxor_comm. Qed.
Lemma div2_lxor a b : N.div2 (N.lxor a b) = N.lxor (N.div2 a) (N.div2 b).
Proof. rewrite !N.div2_spec. apply N.shiftr_lxor. Qed.
Lemma odd_lxor a b : N.odd (N.lxor a b) = xorb (N.odd a) (N.odd b).
Proof. rewrite <- !N.bit0_odd. apply N.lxor_spec. Qed.
Lemma gmul_bits_lin_r n : forall a b c, gmul_bits n a (N.lxor b c) = N.lxor (gmul_bits n a b) (gmul_bits n a c).
Proof.
  induction n as [|n IH]; intros a b c; cbn [gmul_bits]; [reflexivity|]. rewrite odd_lxor, div2_lxor, IH, lxor_swap. f_equal.
  destruct (N.odd b), (N.odd c); cbn [xorb]; rewrite ?N.lxor_0_r, ?N.lxor_0_l, ?N.lxor_nilpotent; reflexivity.
Qed.
Lemma gmul_lin_r a b c : gmul a (N.lxor b c) = N.lxor (gmul a b) (gmul a c).
Proof. apply gmul_bits_lin_r. Qed.
(* bytes are sums of powers of two *)
Lemma byte_span (P : N -> Prop) : P 0 -> (forall a b, a < 256 -> b < 256 -> P a -> P b -> P (N.lxor a b)) ->
  (forall i, In i (rangeN 0 8) -> P (2 ^ i)) -> forall a, a < 256 -> P a.
Proof.
  intros Z ADD B a A.
  set (part := fun i => if N.testbit a i then 2 ^ i else 0).
  assert (E : a = fold_right N.lxor 0 (map part (rangeN 0 8))).
  { assert (X : forallb (fun a => a =? fold_right N.lxor 0 (map (fun i => if N.testbit a i then 2 ^ i else 0) (rangeN 0 8))) (rangeN 0 256) = true) by (vm_compute; reflexivity).
    rewrite forallb_forall in X. apply N.eqb_eq, X, In_rangeN. lia. }
  assert (L : forall i, In i (rangeN 0 8) -> part i < 256 /\ P (part i)).
  { intros i I. unfold part. destruct (N.testbit a i); [|split; [lia|exact Z]]. split; [|apply B, I]. apply In_rangeN in I.
    change 256 with (2 ^ 8). apply N.pow_lt_mono_r; lia. }
  clearbody part. rewrite E. clear E. generalize dependent (rangeN 0 8). intros l _ L.
  assert (R : fold_right N.lxor 0 (map part l) < 256 /\ P (fold_right N.lxor 0 (map part l))); [|apply R].
  induction l as [|i l IH]; cbn [map fold_right]; [split; [lia|exact Z]|]. destruct (L i ltac:(left; reflexivity)) as [L1 L2].
  destruct IH as [I1 I2]; [intros j J; apply L; right; exact J|]. split; [apply lxor_lt|apply ADD]; assumption.
Qed.
Lemma xtime_lin a b : a < 256 -> b < 256 -> xtime (N.lxor a b) = N.lxor (xtime a) (xtime b).
Proof.
  intros A B. unfold xtime.
  assert (D : 2 * N.lxor a b = N.lxor (2 * a) (2 * b)).
  { rewrite <- !N.double_spec. change N.double with (fun x => N.double x). cbv beta. rewrite !N.double_spec.
    replace (2 * N.lxor a b) with (N.shiftl (N.lxor a b) 1) by (rewrite N.shiftl_mul_pow2; lia). rewrite N.shiftl_lxor, !N.shiftl_mul_pow2.
    f_equal; lia. }
  assert (T : forall x, x < 512 -> (x <? 256) = negb (N.testbit x 8)).
  { intros x X. destruct (N.ltb_spec x 256) as [L|L].
    - destruct (N.testbit x 8) eqn:E; [|reflexivity]. exfalso. rewrite N.testbit_true in E. change (2 ^ 8) with 256 in E. rewrite N.div_small in E by lia. discriminate.
    - destruct (N.testbit x 8) eqn:E; [reflexivity|]. exfalso. rewrite N.testbit_false in E. change (2 ^ 8) with 256 in E.
      replace (x / 256) with 1 in E by (apply N.div_unique with (x - 256); lia). discriminate. }
  assert (LX : 2 * N.lxor a b < 512) by (pose proof (lxor_lt a b A B); lia).
  rewrite (T _ LX), (T (2 * a)), (T (2 * b)) by lia. rewrite D, N.lxor_spec.
  destruct (N.testbit (2 * a) 8), (N.testbit (2 * b) 8); cbn [xorb negb].
  - rewrite lxor_swap, N.lxor_nilpotent, N.lxor_0_r. reflexivity.
  - rewrite N.lxor_assoc, (N.lxor_comm (2 * b)), <- N.lxor_assoc. reflexivity.
  - rewrite N.lxor_assoc. reflexivity.
  - reflexivity.
Qed.
Lemma gmul_bits_lin_l n : forall a b c, a < 256 -> b < 256 -> gmul_bits n (N.lxor a b) c = N.lxor (gmul_bits n a c) (gmul_bits n b c).
Proof.
  induction n as [|n IH]; intros a b c A B; cbn [gmul_bits]; [reflexivity|]. rewrite xtime_lin, IH, lxor_swap by auto using xtime_lt. f_equal.
  destruct (N.odd c); reflexivity.
Qed.
Lemma gmul_lin_l a b c : a < 256 -> b < 256 -> gmul (N.lxor a b) c = N.lxor (gmul a c) (gmul b c).
Proof. apply gmul_bits_lin_l. Qed.
Lemma gmul_0_l b : gmul 0 b = 0.
Proof. unfold gmul. generalize 8%nat. intros n. revert b. induction n as [|n IH]; intros b; cbn [gmul_bits]; [reflexivity|]. change (xtime 0) with 0. rewrite IH. destruct (N.odd b); reflexivity. Qed.
Lemma gmul_0_r a : gmul a 0 = 0.
Proof. unfold gmul. generalize 8%nat. intros n. revert a. induction n as [|n IH]; intros a; cbn [gmul_bits]; [reflexivity|]. cbn [N.odd N.div2]. rewrite IH. reflexivity. Qed.
Lemma basis_all (g : N -> bool) : forallb g (map (N.pow 2) (rangeN 0 8)) = true -> forall i, In i (rangeN 0 8) -> g (2 ^ i) = true.
Proof. intros X i I. rewrite forallb_forall in X. apply X, in_map, I. Qed.
Lemma pow_byte i : In i (rangeN 0 8) -> 2 ^ i < 256.
Proof. intros I. apply In_rangeN in I. change 256 with (2 ^ 8). apply N.pow_lt_mono_r; lia. Qed.
Lemma gmul_comm a b : a < 256 -> b < 256 -> gmul a b = gmul b a.
Proof.
  intros A B. revert a A. apply byte_span.
  - rewrite gmul_0_l, gmul_0_r. reflexivity.
  - intros x y X Y EX EY. rewrite gmul_lin_l, gmul_lin_r, EX, EY by assumption. reflexivity.
  - intros i I. revert b B. apply byte_span.
    + rewrite gmul_0_l, gmul_0_r. reflexivity.
    + intros x y X Y EX EY. rewrite gmul_lin_l, gmul_lin_r, EX, EY by assumption. reflexivity.
    + apply (basis_all (fun a => forallb (fun b => gmul a b =? gmul b a) (map (N.pow 2) (rangeN 0 8)))) in I; [|vm_compute; reflexivity].
      intros j J. apply N.eqb_eq. rewrite forallb_forall in I. apply (I (2 ^ j)), in_map, J.
Qed.
Lemma gmul_assoc a b c : a < 256 -> b < 256 -> c < 256 -> gmul a (gmul b c) = gmul (gmul a b) c.
Proof.
  intros A B C. revert a A. apply byte_span.
  - rewrite !gmul_0_l. reflexivity.
  - intros x y X Y EX EY. rewrite !gmul_lin_l, EX, EY by auto using gmul_lt. reflexivity.
  - intros i I. pose proof (pow_byte i I) as PI. revert b B. apply byte_span.
    + rewrite gmul_0_l, !gmul_0_r, gmul_0_l. reflexivity.
    + intros x y X Y EX EY. rewrite gmul_lin_l, !gmul_lin_r, gmul_lin_l, EX, EY by auto using gmul_lt. reflexivity.
    + intros j J. revert c C. apply byte_span.
      * rewrite !gmul_0_r. reflexivity.
      * intros x y X Y EX EY. rewrite !gmul_lin_r, EX, EY. reflexivity.
      * apply (basis_all (fun a => forallb (fun b => forallb (fun c => gmul a (gmul b c) =? gmul (gmul a b) c) (map (N.pow 2) (rangeN 0 8))) (map (N.pow 2) (rangeN 0 8)))) in I; [|vm_compute; reflexivity].
        intros k K. apply N.eqb_eq. rewrite forallb_forall in I. specialize (I (2 ^ j) ltac:(apply in_map, J)). rewrite forallb_forall in I. apply (I (2 ^ k)), in_map, K.
Qed.
Lemma gmul_1_l a : a < 256 -> gmul 1 a = a.
Proof.
  intros A. assert (X : forallb (fun a => gmul 1 a =? a) (rangeN 0 256) = true) by (vm_compute; reflexivity).
  rewrite forallb_forall in X. apply N.eqb_eq, X, In_rangeN. lia.
Qed.
Lemma gmul_1_r a : a < 256 -> gmul a 1 = a.
Proof. intros A. rewrite gmul_comm by lia. apply gmul_1_l, A. Qed.
Lemma ginv_lt a : a < 256 -> ginv a < 256.
Proof.
  unfold ginv. generalize 7%nat. intros n. revert a. induction n as [|n IH]; intros a A; cbn [ginv_pow]; [lia|]. apply gmul_lt, gmul_lt, A.
Qed.
Lemma ginv_ok a : 0 < a < 256 -> gmul (ginv a) a = 1.
Proof.
  intros A. assert (X : forallb (fun a => gmul (ginv a) a =? 1) (rangeN 1 256) = true) by (vm_compute; reflexivity).
  rewrite forallb_forall in X. apply N.eqb_eq, X, In_rangeN. lia.
Qed.
Lemma gmul_zero a b : a < 256 -> b < 256 -> gmul a b = 0 -> a = 0 \/ b = 0.
Proof.
  intros A B E. destruct (N.eq_dec a 0) as [->|NZ]; [left; reflexivity|right].
  rewrite <- (gmul_1_l b B), <- (ginv_ok a) by lia. rewrite <- gmul_assoc, E by auto using ginv_lt. apply gmul_0_r.
Qed.
Lemma lxor_zero a b : N.lxor a b = 0 -> a = b.
Proof. apply N.lxor_eq. Qed.

(* ---- polynomials ---- *)
Definition poly (p : list N) : Prop := Forall (fun c => c < 256) p.
Lemma peval_lt p x : poly p -> x < 256 -> peval p x < 256.
Proof. intros P X. induction P as [|c p C P IH]; cbn [peval]; [lia|]. apply lxor_lt; [exact C|apply gmul_lt, X]. Qed.
Lemma padd_ok p : forall q, poly p -> poly q -> poly (padd p q).
Proof.
  induction p as [|a p IH]; intros q P Q; cbn [padd]; [exact Q|]. destruct q as [|b q]; [exact P|]. inversion P; inversion Q; subst.
  constructor; [apply lxor_lt; assumption|apply IH; assumption].
Qed.
Lemma pscale_ok c p : c < 256 -> poly (pscale c p).
Proof. intros C. unfold pscale. induction p; cbn [map]; constructor; [apply gmul_lt, C|exact IHp]. Qed.
Lemma padd_length p : forall q, length (padd p q) = Nat.max (length p) (length q).
Proof. induction p as [|a p IH]; intros q; cbn [padd length]; [lia|]. destruct q as [|b q]; cbn [length]; [lia|]. rewrite IH. lia. Qed.
Lemma peval_add p : forall q x, poly p -> poly q -> x < 256 -> peval (padd p q) x = N.lxor (peval p x) (peval q x).
Proof.
  induction p as [|a p IH]; intros q x P Q X; cbn [padd peval]; [symmetry; apply N.lxor_0_l|]. destruct q as [|b q]; cbn [peval]; [symmetry; apply N.lxor_0_r|].
  inversion P; inversion Q; subst. rewrite IH, gmul_lin_r by assumption. apply lxor_swap.
Qed.
Lemma peval_scale c p x : c < 256 -> poly p -> x < 256 -> peval (pscale c p) x = gmul c (peval p x).
Proof.
  intros C P X. unfold pscale. induction P as [|a p A P IH]; cbn [map peval]; [symmetry; apply gmul_0_r|].
  rewrite IH, gmul_lin_r. f_equal. pose proof (peval_lt p x P X). rewrite !gmul_assoc by assumption. f_equal. apply gmul_comm; assumption.
Qed.
Lemma vanish_ok l : Forall (fun r => r < 256) l -> poly (vanish l) /\ length (vanish l) = S (length l).
Proof.
  intros L. induction L as [|r l R L [IH1 IH2]]; cbn [vanish length]; [split; [repeat constructor|reflexivity]|]. split.
  - apply padd_ok; [constructor; [lia|exact IH1]|apply pscale_ok, R].
  - rewrite padd_length. unfold pscale. rewrite map_length. cbn [length]. lia.
Qed.
Lemma vanish_eval l x : Forall (fun r => r < 256) l -> x < 256 -> (peval (vanish l) x = 0 <-> In x l).
Proof.
  intros L X. induction L as [|r l R L IH]; cbn [vanish].
  - cbn [peval In]. rewrite gmul_0_r. split; [discriminate|tauto].
  - destruct (vanish_ok l L) as [V _]. rewrite peval_add, peval_scale by (try apply pscale_ok; try constructor; try assumption; lia).
    cbn [peval]. rewrite N.lxor_0_l, <- gmul_lin_l by assumption. pose proof (peval_lt _ x V X) as PL. cbn [In]. rewrite <- IH. split.
    + intros E. apply gmul_zero in E; [|apply lxor_lt; assumption|exact PL]. destruct E as [E|E]; [left; apply lxor_zero in E; congruence|right; exact E].
    + intros [->|E]; [rewrite N.lxor_nilpotent; apply gmul_0_l|rewrite E; apply gmul_0_r].
Qed.

Definition points (l : list (N * N)) : Prop := Forall (fun k => fst k < 256 /\ snd k < 256) l.
Lemma points_fst l : points l -> Forall (fun r => r < 256) (map fst l).
Proof. intros P. induction P as [|k l [K _] P IH]; cbn [map]; constructor; assumption. Qed.
Lemma interpolate_ok l : points l -> poly (interpolate l) /\ (length (interpolate l) <= length l)%nat.
Proof.
  intros P. induction P as [|[x y] l [X Y] P [IH1 IH2]]; cbn [interpolate]; [split; [constructor|reflexivity]|]. cbn [fst snd] in *.
  destruct (vanish_ok _ (points_fst l P)) as [V1 V2]. split.
  - apply padd_ok; [exact IH1|]. apply pscale_ok, gmul_lt, lxor_lt; [exact Y|apply peval_lt; assumption].
  - rewrite padd_length. unfold pscale. rewrite map_length, V2, map_length. cbn [length]. lia.
Qed.
Lemma interpolate_eval l : points l -> NoDup (map fst l) -> forall x y, In (x, y) l -> peval (interpolate l) x = y.
Proof.
  intros P ND. induction P as [|[x0 y0] l [X0 Y0] P IH]; intros x y I; [destruct I|]. cbn [map fst snd] in *. inversion ND as [|? ? NI ND']; subst.
  cbn [interpolate]. destruct (interpolate_ok l P) as [Q _]. destruct (vanish_ok _ (points_fst l P)) as [V _].
  assert (X : x < 256). { destruct I as [I|I]; [congruence|]. unfold points in P; rewrite Forall_forall in P. apply (P (x, y) I). }
  pose proof (peval_lt _ x0 Q X0) as L1. pose proof (peval_lt _ x0 V X0) as L2. pose proof (lxor_lt _ _ Y0 L1) as L3.
  rewrite peval_add, peval_scale; try assumption; [|apply gmul_lt, L3|apply pscale_ok, gmul_lt, L3]. destruct I as [I|I].
  - injection I as -> ->. assert (NZ : peval (vanish (map fst l)) x <> 0) by (rewrite vanish_eval; [exact NI|apply points_fst, P|exact X]).
    rewrite <- gmul_assoc, ginv_ok, gmul_1_r; try assumption; [|lia|apply ginv_lt, L2].
    rewrite N.lxor_comm, N.lxor_assoc, N.lxor_nilpotent. apply N.lxor_0_r.
  - rewrite (IH ND' x y I). assert (Z : peval (vanish (map fst l)) x = 0) by (apply vanish_eval; [apply points_fst, P|exact X|apply in_map_iff; exists (x, y); split; [reflexivity|exact I]]).
    rewrite Z, gmul_0_r. apply N.lxor_0_r.
Qed.

(* division by X - r *)
Fixpoint pdiv (r : N) (p : list N) : list N :=
  match p with
  | [] => []
  | c :: p' => match p' with [] => [] | _ => peval p' r :: pdiv r p' end
  end.
Lemma pdiv_ok r p : poly p -> r < 256 -> poly (pdiv r p) /\ length (pdiv r p) = pred (length p).
Proof.
  intros P R. induction P as [|c p C P [IH1 IH2]]; cbn [pdiv]; [split; [constructor|reflexivity]|].
  destruct p as [|c' p]; [split; [constructor|reflexivity]|]. split; [constructor; [apply peval_lt; assumption|exact IH1]|]. cbn [length pred] in *. rewrite IH2. reflexivity.
Qed.
Lemma pdiv_eval r p x : poly p -> r < 256 -> x < 256 -> peval p x = N.lxor (gmul (N.lxor x r) (peval (pdiv r p) x)) (peval p r).
Proof.
  intros P R X. induction P as [|c p C P IH]; [cbn [peval pdiv]; rewrite gmul_0_r; reflexivity|].
  destruct (pdiv_ok r p P R) as [D _]. pose proof (peval_lt _ x D X) as LD. pose proof (peval_lt _ x P X) as LP. pose proof (peval_lt _ r P R) as LR. pose proof (lxor_lt _ _ X R) as LX.
  destruct p as [|c' p]; [cbn [peval pdiv]; rewrite !gmul_0_r, N.lxor_0_l; reflexivity|].
  change (peval (c :: c' :: p) x) with (N.lxor c (gmul x (peval (c' :: p) x))). change (peval (c :: c' :: p) r) with (N.lxor c (gmul r (peval (c' :: p) r))).
  change (pdiv r (c :: c' :: p)) with (peval (c' :: p) r :: pdiv r (c' :: p)). remember (c' :: p) as p'.
  change (peval (peval p' r :: pdiv r p') x) with (N.lxor (peval p' r) (gmul x (peval (pdiv r p') x))).
  rewrite IH at 1. rewrite !(gmul_lin_r _ _ (peval p' r)), (gmul_lin_r _ (peval p' r)), (gmul_lin_l x r (peval p' r)) by assumption.
  assert (E : gmul (N.lxor x r) (gmul x (peval (pdiv r p') x)) = gmul x (gmul (N.lxor x r) (peval (pdiv r p') x))).
  { rewrite !gmul_assoc by assumption. f_equal. apply gmul_comm; assumption. }
  rewrite E. apply N.bits_inj. intros i. rewrite !N.lxor_spec.
  destruct (N.testbit c i), (N.testbit (gmul x (peval p' r)) i), (N.testbit (gmul r (peval p' r)) i), (N.testbit (gmul x (gmul (N.lxor x r) (peval (pdiv r p') x))) i); reflexivity.
Qed.
(* a polynomial of fewer coefficients than it has roots is zero *)
Lemma roots_all l : forall p, poly p -> Forall (fun r => r < 256) l -> NoDup l -> (length p <= length l)%nat ->
  (forall r, In r l -> peval p r = 0) -> forall x, x < 256 -> peval p x = 0.
Proof.
  induction l as [|r l IH]; intros p P L ND LE Z x X.
  - destruct p as [|c p]; [reflexivity|cbn [length] in LE; lia].
  - inversion L as [|? ? R L']; inversion ND as [|? ? NI ND']; subst. destruct (pdiv_ok r p P R) as [D1 D2].
    rewrite (pdiv_eval r p x) by assumption. rewrite (Z r) by (left; reflexivity). rewrite N.lxor_0_r.
    rewrite (IH (pdiv r p)); [apply gmul_0_r|exact D1|exact L'|exact ND'|rewrite D2; cbn [length] in LE; lia| |exact X].
    intros s S. assert (SL : s < 256) by (rewrite Forall_forall in L'; apply L', S).
    pose proof (pdiv_eval r p s P R SL) as E. rewrite (Z s ltac:(right; exact S)), (Z r ltac:(left; reflexivity)), N.lxor_0_r in E. symmetry in E.
    apply gmul_zero in E; [|apply lxor_lt; assumption|apply peval_lt; assumption]. destruct E as [E|E]; [|exact E].
    apply lxor_zero in E. subst s. contradiction.
Qed.
Lemma agree_all l p q : poly p -> poly q -> Forall (fun r => r < 256) l -> NoDup l -> (length p <= length l)%nat -> (length q <= length l)%nat ->
  (forall r, In r l -> peval p r = peval q r) -> forall x, x < 256 -> peval p x = peval q x.
Proof.
  intros P Q L ND LP LQ A x X. apply lxor_zero. rewrite <- peval_add by assumption.
  apply (roots_all l); [apply padd_ok; assumption|exact L|exact ND|rewrite padd_length; lia| |exact X].
  intros r R. assert (RL : r < 256) by (rewrite Forall_forall in L; apply L, R). rewrite peval_add by assumption. rewrite (A r R). apply N.lxor_nilpotent.
Qed.

(* ---- the code ---- *)
Lemma shard_len n known x : lenN (shard_at n known x) = n.
Proof. unfold shard_at. rewrite lenN_map, lenN_range. lia. Qed.
Definition shards (n : N) (known : list (N * list N)) : Prop :=
  Forall (fun k => fst k < 256 /\ lenN (snd k) = n /\ bytes_ok (snd k) = true) known.
Lemma nthN_byte l c : bytes_ok l = true -> nthN l c < 256.
Proof.
  intros B. unfold nthN. destruct (nth_in_or_default (N.to_nat c) l 0) as [I| ->]; [|lia]. apply bytes_ok_Forall in B. rewrite Forall_forall in B. apply B, I.
Qed.
Definition col (c : N) (known : list (N * list N)) : list (N * N) := map (fun k => (fst k, nthN (snd k) c)) known.
Lemma col_points n known c : shards n known -> points (col c known).
Proof. intros S. unfold col. induction S as [|k l (K1 & K2 & K3) S IH]; cbn [map]; constructor; [cbn [fst snd]; split; [exact K1|apply nthN_byte, K3]|exact IH]. Qed.
Lemma col_fst c known : map fst (col c known) = map fst known.
Proof. unfold col. rewrite map_map. reflexivity. Qed.
Lemma shard_bytes n known x : shards n known -> x < 256 -> bytes_ok (shard_at n known x) = true.
Proof.
  intros S X. apply bytes_ok_Forall. apply Forall_forall. intros y Y. unfold shard_at in Y. apply in_map_iff in Y as (c & <- & _).
  apply peval_lt; [apply (interpolate_ok (col c known)), (col_points n), S|exact X].
Qed.
Lemma shard_nth n known x c : c < n -> nthN (shard_at n known x) c = peval (interpolate (col c known)) x.
Proof. intros L. unfold shard_at. rewrite nthN_opt, nth_optN_map, nth_optN_range by lia. cbn [option_map]. rewrite N.add_0_l. reflexivity. Qed.
Lemma bytes_ext a b : lenN a = lenN b -> (forall c, c < lenN a -> nthN a c = nthN b c) -> a = b.
Proof.
  intros L E. apply (nth_ext a b 0 0); [unfold lenN in L; lia|]. intros i I. specialize (E (N.of_nat i)). unfold nthN in E. rewrite Nat2N.id in E. apply E. unfold lenN. lia.
Qed.
(* a known shard is found again *)
Lemma shard_known n known x s : shards n known -> NoDup (map fst known) -> In (x, s) known -> shard_at n known x = s.
Proof.
  intros S ND I. pose proof S as S'. unfold shards in S'. rewrite Forall_forall in S'. destruct (S' _ I) as (_ & L & _). cbn [snd] in L.
  apply bytes_ext; [rewrite shard_len; congruence|]. intros c C. rewrite shard_len in C. rewrite shard_nth by exact C.
  apply interpolate_eval; [apply (col_points n), S|rewrite col_fst; exact ND|]. unfold col. apply in_map_iff. exists (x, s). split; [reflexivity|exact I].
Qed.
(* shards of one code word give the same shards *)
Lemma shard_same n k1 k2 x : shards n k1 -> shards n k2 -> NoDup (map fst k2) -> (length k1 <= length k2)%nat ->
  (forall y s, In (y, s) k2 -> shard_at n k1 y = s) -> x < 256 -> shard_at n k1 x = shard_at n k2 x.
Proof.
  intros S1 S2 ND LE A X. apply bytes_ext; [rewrite !shard_len; reflexivity|]. intros c C. rewrite shard_len in C. rewrite !shard_nth by exact C.
  pose proof (col_points n k1 c S1) as P1. pose proof (col_points n k2 c S2) as P2. destruct (interpolate_ok _ P1) as [Q1 L1]. destruct (interpolate_ok _ P2) as [Q2 L2].
  pose proof (points_fst _ P2) as F2. rewrite col_fst in F2. assert (CL : forall k, length (col c k) = length k) by (intros; apply map_length). rewrite CL in L1, L2.
  apply (agree_all (map fst k2)); try assumption; [rewrite map_length; lia|rewrite map_length; exact L2|].
  intros r R. apply in_map_iff in R as ([y s] & <- & R). cbn [fst]. rewrite <- (shard_nth n k1) by exact C. rewrite (A y s R).
  symmetry. apply interpolate_eval; [exact P2|rewrite col_fst; exact ND|]. unfold col. apply in_map_iff. exists (y, s). split; [reflexivity|exact R].
Qed.

Lemma In_combine_range {A} (l : list A) hi i x : lenN l = hi -> (In (i, x) (combine (rangeN 0 hi) l) <-> getN l i = Some x).
Proof.
  intros L. split.
  - intros I. apply In_nth_error in I as (k & K). pose proof (getN_combine (rangeN 0 hi) l (N.of_nat k) i x) as G. unfold getN at 1 in G. rewrite Nat2N.id in G.
    apply G in K as [K1 K2]. pose proof (getN_lt _ _ _ K1) as LT. rewrite lenN_range in LT. rewrite getN_range in K1 by exact LT. injection K1 as K1. subst i. rewrite N.add_0_l. exact K2.
  - intros G. pose proof (getN_lt _ _ _ G) as LT. apply (nth_error_In _ (N.to_nat i)). apply (getN_combine (rangeN 0 hi) l i i x). split; [rewrite getN_range; [f_equal; lia|lia]|exact G].
Qed.
Lemma NoDup_app_l {A} (l m : list A) : NoDup (l ++ m) -> NoDup l.
Proof.
  induction l as [|a l IH]; cbn [app]; intros ND; [constructor|]. inversion ND as [|? ? NI ND']; subst. constructor; [|apply IH, ND']. intros I. apply NI, in_or_app. left. exact I.
Qed.
Lemma combine_fst {A B} (l : list A) : forall m : list B, length l = length m -> map fst (combine l m) = l.
Proof. induction l as [|a l IH]; intros [|b m] L; cbn [combine map length] in *; try lia; [reflexivity|]. f_equal. apply IH. lia. Qed.
Lemma combine_snd {A B} (l : list A) : forall m : list B, length l = length m -> map snd (combine l m) = m.
Proof. induction l as [|a l IH]; intros [|b m] L; cbn [combine map length] in *; try lia; [reflexivity|]. f_equal. apply IH. lia. Qed.
Lemma numbered_fst {A} (l : list A) hi : lenN l = hi -> map fst (combine (rangeN 0 hi) l) = rangeN 0 hi.
Proof. intros L. apply combine_fst. pose proof (lenN_range 0 hi) as R. unfold lenN in *. lia. Qed.
Lemma data_shards n d data : d <= 256 -> lenN data = d -> (forall x, In x data -> lenN x = n /\ bytes_ok x = true) -> shards n (combine (rangeN 0 d) data).
Proof.
  intros D L H. unfold shards. apply Forall_forall. intros [i x] I. cbn [fst snd]. apply (In_combine_range data d i x L) in I. pose proof (getN_lt _ _ _ I) as LT.
  split; [lia|]. apply H. unfold getN in I. apply nth_error_In in I. exact I.
Qed.
Lemma first_len {A} (l : list (list A)) n d : 1 <= d -> lenN l = d -> (forall x, In x l -> lenN x = n) -> lenN (nth 0 l []) = n.
Proof. intros D L H. destruct l as [|x l]; [rewrite lenN_nil in L; lia|]. apply H. left. reflexivity. Qed.

Lemma rs_encode_ok d p B : 1 <= d -> d + p <= 256 -> codec_ok rs_encode (Some (d, p, B)).
Proof.
  intros D DP n data L H. unfold rs_encode. cbv zeta. rewrite (first_len data n d) by (try assumption; intros; apply H; assumption).
  split; [rewrite lenN_map, lenN_range; lia|]. intros y Y. apply in_map_iff in Y as (x & <- & X). apply In_rangeN in X.
  split; [apply shard_len|]. apply shard_bytes; [apply data_shards; try assumption; lia|lia].
Qed.
(* every shard of a code word is the value of the polynomial through the data shards *)
Lemma rs_word n d p data i x : 1 <= d -> d + p <= 256 -> lenN data = d -> (forall x, In x data -> lenN x = n /\ bytes_ok x = true) ->
  getN (data ++ rs_encode d p data) i = Some x -> i < d + p /\ x = shard_at n (combine (rangeN 0 d) data) i.
Proof.
  intros D DP L H G. pose proof (data_shards n d data ltac:(lia) L H) as S. destruct (N.lt_ge_cases i d) as [LT|GE].
  - rewrite getN_app_l in G by lia. split; [lia|]. symmetry. apply shard_known; [exact S| |apply In_combine_range; assumption].
    rewrite numbered_fst by exact L. apply NoDup_rangeN.
  - rewrite getN_app_r in G by lia. rewrite L in G. unfold rs_encode in G. cbv zeta in G. rewrite (first_len data n d) in G by (try assumption; intros; apply H; assumption).
    rewrite getN_map in G. destruct (getN (rangeN d (d + p)) (i - d)) as [y|] eqn:E; [|discriminate]. pose proof (getN_lt _ _ _ E) as LT. rewrite lenN_range in LT.
    rewrite getN_range in E by exact LT. injection E as <-. injection G as <-. split; [lia|]. f_equal. lia.
Qed.
Lemma rs_reconstruct_ok d p : 1 <= d -> d + p <= 256 -> recon_ok rs_encode rs_reconstruct d p.
Proof.
  intros D DP n sh L H. unfold rs_reconstruct. cbv zeta.
  assert (LN : lenN (fst (nth 0 sh ([], false))) = n). { destruct sh as [|[x b] sh]; [rewrite lenN_nil in L; lia|]. apply (H x b). left. reflexivity. }
  rewrite LN. clear LN. set (numbered := combine (rangeN 0 (d + p)) sh).
  set (present := map (fun k : N * (list N * bool) => (fst k, fst (snd k))) (filter (fun k => snd (snd k)) numbered)).
  assert (IN : forall i x b, In (i, (x, b)) numbered <-> getN sh i = Some (x, b)) by (intros; apply In_combine_range, L).
  assert (IP : forall i x, In (i, x) present <-> getN sh i = Some (x, true)).
  { intros i x. unfold present. rewrite in_map_iff. split.
    - intros ([j [y b]] & E & I). cbn [fst snd] in E. injection E as -> ->. apply filter_In in I as [I T]. cbn [snd] in T. subst b. apply IN, I.
    - intros G. exists (i, (x, true)). split; [reflexivity|]. apply filter_In. split; [apply IN, G|reflexivity]. }
  assert (CP : lenN present = countN snd sh).
  { unfold present. rewrite lenN_map. change (countN (fun k : N * (list N * bool) => snd (snd k)) numbered = countN snd sh). rewrite <- (countN_map snd snd).
    f_equal. unfold numbered. apply combine_snd. pose proof (lenN_range 0 (d + p)) as R. unfold lenN in *. lia. }
  assert (NDP : NoDup (map fst present)).
  { unfold present. rewrite map_map. cbn [fst]. assert (NN : NoDup (map fst numbered)) by (unfold numbered; rewrite numbered_fst by exact L; apply NoDup_rangeN).
    revert NN. generalize numbered. clear. intros l ND. induction l as [|k l IH]; cbn [filter map] in *; [constructor|]. inversion ND as [|? ? NI ND']; subst.
    destruct (snd (snd k)); [|apply IH, ND']. cbn [map]. constructor; [|apply IH, ND']. intros I. apply NI. apply in_map_iff in I as (j & E & I). apply filter_In in I as [I _]. apply in_map_iff. exists j. split; assumption. }
  assert (SP : shards n present).
  { apply Forall_forall. intros [i x] I. apply IP in I. cbn [fst snd]. pose proof (getN_lt _ _ _ I) as LT. split; [lia|]. apply (H x true). unfold getN in I. apply nth_error_In in I. exact I. }
  rewrite CP. replace (countN snd sh <? d) with (negb (d <=? countN snd sh)) by (destruct (N.leb_spec d (countN snd sh)), (N.ltb_spec (countN snd sh) d); try reflexivity; lia).
  destruct (N.leb_spec d (countN snd sh)) as [C|C]; cbn [negb]; [|reflexivity]. set (known := takeN d present).
  assert (SK : shards n known) by (apply Forall_forall; intros k K; apply In_take in K; unfold shards in SP; rewrite Forall_forall in SP; apply SP, K).
  assert (LK : length known = N.to_nat d) by (pose proof (lenN_take d present) as T; rewrite CP in T; fold known in T; unfold lenN in T; lia).
  assert (NDK : NoDup (map fst known)).
  { unfold known. rewrite map_take. rewrite <- (take_drop d (map fst present)) in NDP. apply NoDup_app_l in NDP. exact NDP. }
  eexists. split; [reflexivity|].
  assert (GO : forall i y, getN (map (fun k : N * (list N * bool) => if snd (snd k) then fst (snd k) else shard_at n known (fst k)) numbered) i = Some y ->
    exists x b, getN sh i = Some (x, b) /\ y = if b then x else shard_at n known i).
  { intros i y G. rewrite getN_map in G. destruct (getN numbered i) as [[j [x b]]|] eqn:E; [|discriminate]. cbn [option_map fst snd] in G. injection G as <-.
    unfold numbered in E. apply getN_combine in E as [E1 E2]. pose proof (getN_lt _ _ _ E1) as LT. rewrite lenN_range in LT. rewrite getN_range in E1 by exact LT. injection E1 as <-.
    exists x, b. rewrite N.add_0_l. split; [exact E2|reflexivity]. }
  assert (LO : lenN (map (fun k : N * (list N * bool) => if snd (snd k) then fst (snd k) else shard_at n known (fst k)) numbered) = d + p).
  { rewrite lenN_map. unfold numbered. rewrite <- (lenN_map fst), numbered_fst, lenN_range by exact L. lia. }
  split; [exact LO|]. split; [|split].
  - intros y Y. apply In_nth_error in Y as (k & K). destruct (GO (N.of_nat k) y) as (x & b & G & ->); [unfold getN; rewrite Nat2N.id; exact K|].
    pose proof (getN_lt _ _ _ G) as LT. destruct b; [apply (H x true); unfold getN in G; apply nth_error_In in G; exact G|]. split; [apply shard_len|apply shard_bytes; [exact SK|lia]].
  - intros i x G. destruct (getN_in (map (fun k : N * (list N * bool) => if snd (snd k) then fst (snd k) else shard_at n known (fst k)) numbered) i) as (y & Y); [rewrite LO, <- L; apply (getN_lt _ _ _ G)|].
    rewrite Y. destruct (GO i y Y) as (x' & b & G' & ->). rewrite G in G'. injection G' as <- <-. reflexivity.
  - intros data LD HD A. pose proof (data_shards n d data ltac:(lia) LD HD) as SD. apply list_by_get.
    + rewrite LO, lenN_app, LD. destruct (rs_encode_ok d p 0 D DP n data LD HD) as [LE _]. rewrite LE. reflexivity.
    + intros i y Y. destruct (GO i y Y) as (x & b & G & ->). destruct b; [apply A, G|]. pose proof (getN_lt _ _ _ G) as LT. rewrite L in LT.
      destruct (getN_in (data ++ rs_encode d p data) i) as (w & W).
      { rewrite lenN_app, LD. destruct (rs_encode_ok d p 0 D DP n data LD HD) as [LE _]. rewrite LE. exact LT. }
      rewrite W. f_equal. destruct (rs_word n d p data i w D DP LD HD W) as [_ ->]. apply shard_same; try assumption; [|intros j s J|lia].
      * rewrite LK, combine_length. unfold lenN in LD. pose proof (lenN_range 0 d) as R. unfold lenN in R. lia.
      * apply In_take in J. apply IP in J. apply A in J. destruct (rs_word n d p data j s D DP LD HD J) as [_ E]. symmetry. exact E.
Qed.
