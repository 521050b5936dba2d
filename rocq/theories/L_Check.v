(* Lemmas about checking. *)
From Verif Require Import M_Base M_Specs M_Header M_Multihash M_Metadata M_Block M_Index M_FileUtils M_Buffer M_Ranges M_Encode M_Scan M_Loop M_Decode M_Content M_Check
  S_Crc S_Meta S_Block S_Index S_Container S_Decode S_Encode S_Content S_Repair S_Check
  L_Base L_File L_Header L_Block L_Ranges L_Scan L_Decode L_Repair6.
From Coq Require Import Lia.
Local Open Scope N_scope.

Definition state_eqb (a b : state) : bool :=
  match a, b with SMeta, SMeta | SData, SData | SBlank, SBlank | SBroken, SBroken => true | _, _ => false end.
Definition state_of (ref : block) (f : file) (pos : N) : state :=
  let d := sliceN pos (ver_to_block_size (b_version ref)) f in
  match accept ref d with
  | Some b => if is_meta b then SMeta else SData
  | None => if buffer_is_blank d then SBlank else SBroken
  end.
Definition bump (r : bool) (s : cstats) (x : state) : cstats :=
  match x with
  | SMeta => mkCstats (ck_meta s + 1) (ck_data s) (ck_failed s) (ck_blank s)
  | SData => mkCstats (ck_meta s) (ck_data s + 1) (ck_failed s) (ck_blank s)
  | SBroken => mkCstats (ck_meta s) (ck_data s) (ck_failed s + 1) (ck_blank s)
  | SBlank => if r then mkCstats (ck_meta s) (ck_data s) (ck_failed s + 1) (ck_blank s)
              else mkCstats (ck_meta s) (ck_data s) (ck_failed s) (ck_blank s + 1)
  end.

Lemma nthN_In l i : i < lenN l -> In (nthN l i) l.
Proof. unfold nthN, lenN. intro H. apply nth_In. lia. Qed.
Lemma In_nthN l x : In x l -> exists i, i < lenN l /\ nthN l i = x.
Proof. intro H. apply (In_nth _ _ 0) in H as (i & Hi & E). exists (N.of_nat i). unfold nthN, lenN. rewrite Nnat.Nat2N.id. split; [lia|exact E]. Qed.
Lemma blank_iff v f pos : pos + ver_to_block_size v <= lenN f -> buffer_is_blank (sliceN pos (ver_to_block_size v) f) = true <-> blank_at v f pos.
Proof.
  intro L. unfold buffer_is_blank, blank_at. rewrite forallb_forall. split.
  - intros A i Hi. symmetry. apply N.eqb_eq, A. assert (E : nthN (sliceN pos (ver_to_block_size v) f) i = nthN f (pos + i)) by (rewrite nthN_slice; destruct (N.ltb_spec i (ver_to_block_size v)); [reflexivity|lia]).
    rewrite <- E. apply nthN_In. rewrite lenN_slice. lia.
  - intros A x Hx. apply In_nthN in Hx as (i & Hi & <-). rewrite lenN_slice in Hi. rewrite nthN_slice. destruct (N.ltb_spec i (ver_to_block_size v)); [|lia].
    rewrite A by assumption. reflexivity.
Qed.
Lemma state_of_ok ref f pos : bytes_ok f = true -> pos + ver_to_block_size (b_version ref) <= lenN f ->
  forall s, state_of ref f pos = s <-> state_at (b_version ref) (b_uid ref) f pos s.
Proof.
  intros HB L s. unfold state_of. pose proof (accept_block_at ref f pos HB) as A.
  destruct (accept ref _) as [b|].
  - destruct A as (A & _ & _ & M). rewrite M. destruct (N.eqb_spec (b_seq_num b) 0) as [Z|Z].
    + rewrite Z in A. destruct s; cbn [state_at]; split; intro X; try discriminate; try reflexivity; eauto.
      * destruct X as (seq & pl & S1 & X). destruct (block_at_unique _ _ _ _ _ _ _ _ A X); lia.
      * exfalso. destruct X as [X _]. eapply X, A.
      * exfalso. destruct X as [X _]. eapply X, A.
    + destruct s; cbn [state_at]; split; intro X; try discriminate; try reflexivity.
      * destruct X as (pl & X). destruct (block_at_unique _ _ _ _ _ _ _ _ A X); lia.
      * exists (b_seq_num b). eexists. split; [lia|exact A].
      * exfalso. destruct X as [X _]. eapply X, A.
      * exfalso. destruct X as [X _]. eapply X, A.
  - pose proof (blank_iff (b_version ref) f pos L) as BI. destruct (buffer_is_blank _).
    + assert (B : blank_at (b_version ref) f pos) by (apply BI; reflexivity).
      destruct s; cbn [state_at]; split; intro X; try discriminate; try reflexivity; try (split; assumption).
      * exfalso. destruct X as (pl & X). eapply A, X.
      * exfalso. destruct X as (seq & pl & _ & X). eapply A, X.
      * exfalso. destruct X as (_ & X). auto.
    + assert (B : ~ blank_at (b_version ref) f pos) by (intro B; apply BI in B; discriminate).
      destruct s; cbn [state_at]; split; intro X; try discriminate; try reflexivity; try (split; assumption).
      * exfalso. destruct X as (pl & X). eapply A, X.
      * exfalso. destruct X as (seq & pl & _ & X). eapply A, X.
      * exfalso. destruct X as (_ & X). auto.
Qed.

Section Loop.
Variables (p : cparam) (ref : block) (f : file) (len lo : N).
Let bs := ver_to_block_size (b_version ref).
Let K := nvisit bs f lo len.
Let sts k := map (fun k => state_of ref f (lo + k * bs)) (rangeN k K).
Definition msgs (k : N) : list N :=
  if cp_report_blank p && cp_verbose p then map (fun k => k * bs) (filter (fun k => state_eqb SBlank (state_of ref f (lo + k * bs))) (rangeN k K)) else [].
Lemma check_loop_ok : forall n k s ps, (N.to_nat (K - k) < n)%nat -> k <= K ->
  check_loop n p ref f len lo (k * bs) s ps = ROk (fold_left (bump (cp_report_blank p)) (sts k) s, ps ++ msgs k).
Proof.
  assert (BP : 1 <= bs) by (pose proof (block_size_pos (b_version ref)); unfold bs; lia).
  induction n as [|n IH]; intros k s ps HN HK; [lia|]. cbn [check_loop]. cbv zeta.
  pose proof (visited_iff bs f lo len k BP) as V. fold K in V. unfold visited in V.
  destruct (N.leb_spec len (k * bs)) as [G|G].
  - assert (k = K) as -> by (revert V; generalize (k * bs) ((k + 1) * bs) G; intros; lia).
    unfold sts, msgs. rewrite rangeN_nil by lia. cbn [map fold_left filter]. destruct (_ && _); rewrite app_nil_r; reflexivity.
  - fold bs. rewrite short_read by exact BP. destruct (N.ltb_spec (lenN f) (lo + k * bs + bs)) as [G2|G2].
    + assert (k = K) as -> by (assert ((k + 1) * bs = k * bs + bs) as X by lia; rewrite X in V; revert V G G2; generalize (k * bs); intros; lia).
      unfold sts, msgs. rewrite rangeN_nil by lia. cbn [map fold_left filter]. destruct (_ && _); rewrite app_nil_r; reflexivity.
    + assert (KK : k < K) by (apply V; split; lia). unfold file_read.
      assert (LD : lenN (sliceN (lo + k * bs) bs f) = bs) by (rewrite lenN_slice; lia). rewrite LD.
      assert (E : k * bs + bs = (k + 1) * bs) by lia. rewrite E.
      unfold sts. rewrite (rangeN_cons k K) by exact KK. cbn [map fold_left]. fold (sts (k + 1)).
      assert (MS : msgs k = (if cp_report_blank p && cp_verbose p && state_eqb SBlank (state_of ref f (lo + k * bs)) then [k * bs] else []) ++ msgs (k + 1)).
      { unfold msgs. rewrite (rangeN_cons k K) by exact KK. cbn [filter]. destruct (cp_report_blank p && cp_verbose p); [|reflexivity]. cbn [andb].
        destruct (state_eqb _ _); reflexivity. }
      rewrite MS. clear MS.
      pose proof (accept_cases ref block_dummy (sliceN (lo + k * bs) bs f) ltac:(fold bs; lia)) as A.
      unfold state_of. fold bs. destruct (accept ref _) as [b|].
      * rewrite A. rewrite IH by lia. destruct (is_meta b); cbn [bump state_eqb]; rewrite andb_false_r; reflexivity.
      * destruct A as [e ->]. destruct (buffer_is_blank _).
        -- destruct (cp_report_blank p), (cp_verbose p); rewrite IH by lia; cbn [bump state_eqb andb]; rewrite <- ?app_assoc; reflexivity.
        -- rewrite IH by lia. cbn [bump state_eqb]. rewrite andb_false_r. reflexivity.
Qed.
Lemma fold_bump r l s : 
  fold_left (bump r) l s = mkCstats (ck_meta s + countN (state_eqb SMeta) l) (ck_data s + countN (state_eqb SData) l)
    (ck_failed s + countN (fun x => state_eqb SBroken x || (r && state_eqb SBlank x)) l) (ck_blank s + countN (fun x => negb r && state_eqb SBlank x) l).
Proof.
  revert s. induction l as [|x l IH]; intro s.
  - cbn. rewrite !N.add_0_r. destruct s; reflexivity.
  - cbn [fold_left]. rewrite IH, !countN_cons. destruct x, r; cbn [bump ck_meta ck_data ck_failed ck_blank state_eqb orb andb negb]; f_equal; lia.
Qed.
Lemma nvisit_fuel : lo <= lenN f -> (N.to_nat K < S (S (length f)))%nat.
Proof.
  intro L. assert (BP : 1 <= bs) by (pose proof (block_size_pos (b_version ref)); unfold bs; lia).
  assert (K <= lenN f). { unfold K, nvisit. etransitivity; [apply N.le_min_r|]. etransitivity; [apply N.div_le_upper_bound with (q := lenN f); nia|lia]. }
  unfold lenN in *. lia.
Qed.
Lemma check_blocks_ok : lo <= lenN f ->
  check_blocks p ref f len lo = ROk (fold_left (bump (cp_report_blank p)) (sts 0) no_cstats, msgs 0).
Proof. intro L. unfold check_blocks. change 0 with (0 * bs) at 1. rewrite check_loop_ok; [reflexivity|rewrite N.sub_0_r; apply nvisit_fuel, L|lia]. Qed.
Lemma countN_map {A B} (g : B -> bool) (h : A -> B) l : countN g (map h l) = countN (fun x => g (h x)) l.
Proof. unfold countN. induction l as [|a l IH]; [reflexivity|]. cbn [map filter]. destruct (g (h a)); rewrite ?lenN_cons; lia. Qed.
Lemma counts_ok : bytes_ok f = true ->
  check_counts (b_version ref) (b_uid ref) f lo len (cp_report_blank p) (fold_left (bump (cp_report_blank p)) (sts 0) no_cstats).
Proof.
  intro HB. assert (BP : 1 <= bs) by (pose proof (block_size_pos (b_version ref)); unfold bs; lia).
  rewrite fold_bump. unfold check_counts, sts, no_cstats. cbv zeta. cbn [ck_meta ck_data ck_failed ck_blank]. rewrite !N.add_0_l, !countN_map. fold bs.
  assert (SE : forall a b, state_eqb a b = true <-> b = a) by (intros [] []; cbn; split; congruence).
  assert (S : forall k s, visited bs f lo len k -> state_of ref f (lo + k * bs) = s <-> state_at (b_version ref) (b_uid ref) f (lo + k * bs) s).
  { intros k s [_ V]. apply state_of_ok; [exact HB|]. fold bs. lia. }
  split; [|split; [|split]]; (apply exactly_count; [apply NoDup_range|]); intro k; rewrite In_rangeN; fold K;
    pose proof (visited_iff bs f lo len k BP) as V; fold K in V.
  - rewrite SE. split; [intros [A B]; apply S in B; [|exact A]|intros [A B]; assert (A' : visited bs f lo len k) by (apply V; lia); apply S in B; [|exact A']]; split; try assumption. apply V in A; lia.
  - rewrite SE. split; [intros [A B]; apply S in B; [|exact A]|intros [A B]; assert (A' : visited bs f lo len k) by (apply V; lia); apply S in B; [|exact A']]; split; try assumption. apply V in A; lia.
  - rewrite orb_true_iff, andb_true_iff, !SE. split.
    + intros [[A B]|(R & A & B)]; apply S in B; try exact A; (split; [apply V in A; lia|auto]).
    + intros [A B]. assert (A' : visited bs f lo len k) by (apply V; lia). destruct B as [B|[R B]]; apply S in B; try exact A'; auto.
  - rewrite andb_true_iff, negb_true_iff, !SE. split.
    + intros (R & A & B); apply S in B; try exact A; (split; [apply V in A; lia|auto]).
    + intros (A & R & B). assert (A' : visited bs f lo len k) by (apply V; lia). apply S in B; try exact A'; auto.
Qed.
End Loop.
