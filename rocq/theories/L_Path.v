(* Lemmas about paths. *)
From Verif Require Import M_Base L_Base M_Path M_Cli S_Cli.

Lemma loc_eqb_eq a b : loc_eqb a b = true <-> a = b.
Proof.
  revert b. induction a as [|x a IH]; destruct b as [|y b]; cbn; try (split; congruence).
  rewrite andb_true_iff, eqbl_eq, IH. split; [intros [-> ->]; reflexivity|intro H; injection H; auto].
Qed.
Lemma loc_eqb_refl a : loc_eqb a a = true.
Proof. apply loc_eqb_eq. reflexivity. Qed.
Lemma loc_eqb_neq a b : loc_eqb a b = false <-> a <> b.
Proof. rewrite <- loc_eqb_eq. destruct (loc_eqb a b); split; congruence. Qed.
Lemma upd_same s l n : upd s l n l = Some n.
Proof. unfold upd. rewrite loc_eqb_refl. reflexivity. Qed.
Lemma upd_other s l n x : x <> l -> upd s l n x = s x.
Proof. intro H. unfold upd. apply loc_eqb_neq in H. rewrite H. reflexivity. Qed.

Lemma split_nonempty a : exists p ps, split_slash a = p :: ps.
Proof.
  induction a as [|c a (p & ps & E)]; [eexists _, _; reflexivity|]. cbn. rewrite E. destruct (c =? 47); eexists _, _; reflexivity.
Qed.
Lemma split_app a b : split_slash (a ++ 47 :: b) = split_slash a ++ split_slash b.
Proof.
  induction a as [|c a IH]; [reflexivity|]. cbn [app split_slash]. rewrite IH.
  destruct (split_nonempty a) as (p & ps & E). rewrite E. destruct (c =? 47); reflexivity.
Qed.
Lemma split_no n : ~ In 47 n -> split_slash n = [n].
Proof.
  induction n as [|c n IH]; [reflexivity|]. intro H. cbn. rewrite IH by (intro; apply H; right; assumption).
  destruct (N.eqb_spec c 47) as [->|]; [|reflexivity]. exfalso. apply H. left. reflexivity.
Qed.
(* the last piece *)
Lemma last_piece x : ~ In 47 x \/ exists a b, x = a ++ 47 :: b /\ ~ In 47 b.
Proof.
  induction x as [|c x IH]; [left; intros []|]. destruct IH as [H|(a & b & -> & H)].
  - destruct (N.eq_dec c 47) as [->|D]; [right; exists [], x; auto|left; intros [?|?]; auto].
  - right. exists (c :: a), b. auto.
Qed.
Lemma walk_app s l a b : walk s l (a ++ b) = match walk s l a with Some l' => walk s l' b | None => None end.
Proof. revert l. induction a as [|p a IH]; intro l; [reflexivity|]. cbn. destruct (is_dir_at s l); [apply IH|reflexivity]. Qed.
Lemma good_step l n : good_name n -> step_loc l n = l ++ [n].
Proof. intros (A & B & C & D). unfold step_loc. apply eqbl_neq in A, C, D. rewrite A, C, D. reflexivity. Qed.

Lemma components_app a b : ~ In 47 b -> a <> [] -> components (a ++ 47 :: b) = components a ++ piece_component false b.
Proof.
  intros H A. unfold components. rewrite split_app, (split_no b H). destruct (split_nonempty a) as (p & ps & ->). cbn [app].
  destruct a as [|c a]; [congruence|]. cbn [app]. rewrite map_app, concat_app. cbn [map concat]. rewrite app_nil_r, !app_assoc. reflexivity.
Qed.
Lemma components_root b : ~ In 47 b -> components (47 :: b) = RootDir :: piece_component false b.
Proof. intro H. unfold components. cbn [split_slash]. rewrite (split_no b H). cbn. rewrite app_nil_r. reflexivity. Qed.
Lemma components_one b : ~ In 47 b -> components b = piece_component true b.
Proof.
  intro H. unfold components. rewrite (split_no b H). cbn [map concat]. rewrite app_nil_r. destruct b as [|c b]; [reflexivity|].
  destruct (N.eq_dec c 47) as [->|D]; [exfalso; apply H; left; reflexivity|].
  destruct c as [|q]; [reflexivity|]. repeat (destruct q as [q|q|]; try reflexivity; try (exfalso; apply D; reflexivity)).
Qed.
Lemma piece_cases b : ~ In 47 b -> b = [] \/ b = [46] \/ b = [46; 46] \/ good_name b.
Proof.
  intro H. destruct (eqbl b []) eqn:A; [apply eqbl_eq in A; auto|]. destruct (eqbl b [46]) eqn:B; [apply eqbl_eq in B; auto|].
  destruct (eqbl b [46; 46]) eqn:C; [apply eqbl_eq in C; auto|]. apply eqbl_neq in A, B, C. right; right; right. repeat split; assumption.
Qed.
Lemma piece_good first b : good_name b -> piece_component first b = [Normal b].
Proof. intros (A & B & C & D). unfold piece_component. apply eqbl_neq in A, C, D. rewrite A, C, D. reflexivity. Qed.

(* the file name part, by the last piece *)
Lemma part_app a b : ~ In 47 b -> get_file_name_part_of_path (a ++ 47 :: b) =
  if eqbl b [] || eqbl b [46] then get_file_name_part_of_path a else if eqbl b [46; 46] then None else Some b.
Proof.
  intro H. unfold get_file_name_part_of_path. destruct a as [|c a].
  - cbn [app]. rewrite components_root by exact H. destruct (piece_cases b H) as [->|[->|[->|G]]]; try reflexivity.
    rewrite (piece_good _ _ G). cbn. destruct G as (A & B & C & D). apply eqbl_neq in A, C, D. rewrite A, C, D. reflexivity.
  - rewrite components_app by (try exact H; discriminate). rewrite rev_app_distr.
    destruct (piece_cases b H) as [->|[->|[->|G]]]; try reflexivity.
    rewrite (piece_good _ _ G). cbn [rev app]. destruct G as (A & B & C & D). apply eqbl_neq in A, C, D. rewrite A, C, D. reflexivity.
Qed.
Lemma part_one b : ~ In 47 b -> get_file_name_part_of_path b = if eqbl b [] || eqbl b [46] || eqbl b [46; 46] then None else Some b.
Proof.
  intro H. unfold get_file_name_part_of_path. rewrite components_one by exact H.
  destruct (piece_cases b H) as [->|[->|[->|G]]]; try reflexivity.
  rewrite (piece_good _ _ G). cbn. destruct G as (A & B & C & D). apply eqbl_neq in A, C, D. rewrite A, C, D. reflexivity.
Qed.
Lemma trail_app a b : trail a -> trail b -> trail (a ++ b).
Proof. induction 1; intro; cbn; [assumption|apply trail_slash; auto|apply trail_dot; auto]. Qed.
Lemma file_name_of_step a b n : (b = [] \/ b = [46]) -> file_name_of a n -> file_name_of (a ++ 47 :: b) n.
Proof.
  intros Hb (G & t & T & E). split; [exact G|]. exists (t ++ 47 :: b). split.
  { apply trail_app; [exact T|]. destruct Hb as [->| ->]; [apply trail_slash|apply trail_dot]; constructor. }
  destruct E as [->|(pre & ->)]; [left; apply app_assoc_reverse|right; exists pre; rewrite <- app_assoc; cbn [app]; rewrite <- app_assoc; reflexivity].
Qed.
Lemma part_sound_aux : forall k x n, (length x <= k)%nat -> get_file_name_part_of_path x = Some n -> file_name_of x n.
Proof.
  induction k as [|k IH]; intros x n L E.
  - destruct x; [discriminate|cbn in L; lia].
  - destruct (last_piece x) as [H|(a & b & -> & H)].
    + rewrite part_one in E by exact H. destruct (piece_cases x H) as [->|[->|[->|G]]]; try discriminate.
      assert (n = x). { pose proof G as (A & B & C & D). apply eqbl_neq in A, C, D. rewrite A, C, D in E. cbn in E. congruence. }
      subst. split; [exact G|]. exists []. split; [constructor|]. left. rewrite app_nil_r. reflexivity.
    + rewrite part_app in E by exact H. rewrite app_length in L. cbn in L. destruct (piece_cases b H) as [->|[->|[->|G]]]; cbn in E.
      * apply file_name_of_step; auto. apply IH; [lia|exact E].
      * apply file_name_of_step; auto. apply IH; [lia|exact E].
      * discriminate.
      * assert (n = b). { pose proof G as (A & B & C & D). apply eqbl_neq in A, C, D. rewrite A, C, D in E. cbn in E. congruence. }
        subst. split; [exact G|]. exists []. split; [constructor|]. right. exists a. rewrite app_nil_r. reflexivity.
Qed.
Lemma part_sound x n : get_file_name_part_of_path x = Some n -> file_name_of x n.
Proof. apply (part_sound_aux (length x)). lia. Qed.
(* a trail read from its end *)
Lemma trail_end t : trail t -> t = [] \/ exists t' b, trail t' /\ (b = [] \/ b = [46]) /\ t = t' ++ 47 :: b.
Proof.
  induction 1 as [|t T IH|t T IH]; [auto| |].
  - right. destruct IH as [->|(t' & b & T' & B & ->)]; [exists [], []; repeat split; auto; constructor|].
    exists (47 :: t'), b. repeat split; auto. constructor. exact T'.
  - right. destruct IH as [->|(t' & b & T' & B & ->)]; [exists [], [46]; repeat split; auto; constructor|].
    exists (47 :: 46 :: t'), b. repeat split; auto. apply trail_dot. exact T'.
Qed.
Lemma part_trail x : forall k t, (length t <= k)%nat -> trail t -> get_file_name_part_of_path (x ++ t) = get_file_name_part_of_path x.
Proof.
  induction k as [|k IH]; intros t L T.
  - destruct t; [rewrite app_nil_r; reflexivity|cbn in L; lia].
  - destruct (trail_end t T) as [->|(t' & b & T' & B & ->)]; [rewrite app_nil_r; reflexivity|].
    assert (NB : ~ In 47 b) by (destruct B as [->| ->]; cbn; intuition discriminate). rewrite app_assoc, part_app by exact NB.
    rewrite app_length in L. cbn in L. destruct B as [->| ->]; cbn; apply IH; try lia; exact T'.
Qed.
Lemma part_complete x n : file_name_of x n -> get_file_name_part_of_path x = Some n.
Proof.
  intros (G & t & T & E). pose proof G as (A & B & C & D). apply eqbl_neq in A, C, D.
  destruct E as [->|(pre & ->)].
  - rewrite (part_trail _ (length t)) by (auto; lia). rewrite part_one by exact B. rewrite A, C, D. reflexivity.
  - change (pre ++ 47 :: n ++ t) with (pre ++ (47 :: n) ++ t). rewrite app_assoc, (part_trail _ (length t)) by (auto; lia).
    rewrite part_app by exact B. rewrite A, C, D. reflexivity.
Qed.
Lemma part_iff x n : get_file_name_part_of_path x = Some n <-> file_name_of x n.
Proof. split; [apply part_sound|apply part_complete]. Qed.
Lemma part_good x n : get_file_name_part_of_path x = Some n -> good_name n.
Proof. intro H. apply part_sound in H. apply H. Qed.
