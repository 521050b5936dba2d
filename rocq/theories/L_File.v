(* Lemmas about files as byte lists. *)
From Verif Require Import M_Base L_Base.

Lemma nthN_app l1 l2 i :
  nthN (l1 ++ l2) i = if i <? lenN l1 then nthN l1 i else nthN l2 (i - lenN l1).
Proof.
  rewrite !nthN_opt. destruct (N.ltb_spec i (lenN l1)).
  - rewrite nth_optN_app1 by assumption; reflexivity.
  - rewrite nth_optN_app2 by assumption; reflexivity.
Qed.
Lemma nthN_out l i : lenN l <= i -> nthN l i = 0.
Proof. intro H. rewrite nthN_opt. apply nth_optN_None in H. rewrite H. reflexivity. Qed.
Lemma nthN_take n l i : nthN (takeN n l) i = if i <? n then nthN l i else 0.
Proof.
  destruct (N.ltb_spec i n).
  - rewrite !nthN_opt, nth_optN_take by assumption. reflexivity.
  - apply nthN_out. rewrite lenN_take. lia.
Qed.
Lemma nthN_drop n l i : nthN (dropN n l) i = nthN l (n + i).
Proof. rewrite !nthN_opt, nth_optN_drop. reflexivity. Qed.
Lemma nthN_slice p n l i : nthN (sliceN p n l) i = if i <? n then nthN l (p + i) else 0.
Proof. unfold sliceN. rewrite nthN_take, nthN_drop. reflexivity. Qed.
Lemma nthN_rep0 n i : nthN (repN n 0) i = 0.
Proof.
  destruct (N.lt_ge_cases i n) as [H|H].
  - rewrite nthN_opt, nth_optN_rep by assumption. reflexivity.
  - apply nthN_out. rewrite lenN_rep. exact H.
Qed.
Lemma nthN_rep n a i : nthN (repN n a) i = if i <? n then a else 0.
Proof.
  destruct (N.ltb_spec i n).
  - rewrite nthN_opt, nth_optN_rep by assumption. reflexivity.
  - apply nthN_out. rewrite lenN_rep. assumption.
Qed.
Lemma nthN_nil i : nthN [] i = 0.
Proof. apply nthN_out. rewrite lenN_nil. lia. Qed.

Lemma list_ext_N (a b : list N) :
  lenN a = lenN b -> (forall i, i < lenN a -> nthN a i = nthN b i) -> a = b.
Proof.
  intros HL H. apply list_ext. intro i. destruct (N.lt_ge_cases i (lenN a)) as [Hi|Hi].
  - specialize (H i Hi). rewrite !nthN_opt in H.
    destruct (nth_optN_Some a i Hi) as [x Hx]. rewrite HL in Hi.
    destruct (nth_optN_Some b i Hi) as [y Hy]. rewrite Hx, Hy in *. congruence.
  - assert (Hb : lenN b <= i) by lia. apply nth_optN_None in Hi, Hb. congruence.
Qed.

Lemma file_write_nil f pos : file_write f pos [] = f.
Proof. reflexivity. Qed.
Lemma file_write_unfold f pos d : d <> [] ->
  file_write f pos d = takeN pos f ++ repN (pos - lenN f) 0 ++ d ++ dropN (pos + lenN d) f.
Proof. destruct d; [congruence|reflexivity]. Qed.

Lemma lenN_file_write f pos d :
  lenN (file_write f pos d) = if lenN d =? 0 then lenN f else N.max (lenN f) (pos + lenN d).
Proof.
  destruct d as [|x d]; [reflexivity|].
  rewrite file_write_unfold by discriminate. rewrite !lenN_app, lenN_take, lenN_rep, lenN_drop.
  rewrite lenN_cons. destruct (N.eqb_spec (1 + lenN d) 0); lia.
Qed.
Lemma nthN_file_write f pos d i :
  nthN (file_write f pos d) i =
  if (pos <=? i) && (i <? pos + lenN d) then nthN d (i - pos) else nthN f i.
Proof.
  destruct d as [|x d].
  - rewrite file_write_nil, lenN_nil. destruct ((pos <=? i) && (i <? pos + 0)) eqn:E; [lia|reflexivity].
  - rewrite file_write_unfold by discriminate. set (D := x :: d).
    rewrite !nthN_app, nthN_take, lenN_take, lenN_rep, nthN_rep0, nthN_drop.
    destruct (N.leb_spec pos i) as [H1|H1]; cbn [andb].
    + destruct (N.ltb_spec i (N.min pos (lenN f))); [lia|].
      destruct (N.ltb_spec (i - N.min pos (lenN f)) (pos - lenN f)); [lia|].
      replace (i - N.min pos (lenN f) - (pos - lenN f)) with (i - pos) by lia.
      destruct (N.ltb_spec (i - pos) (lenN D)); destruct (N.ltb_spec i (pos + lenN D)); try lia.
      f_equal. lia.
    + destruct (N.ltb_spec i (N.min pos (lenN f))).
      * destruct (N.ltb_spec i pos); [reflexivity|lia].
      * destruct (N.ltb_spec (i - N.min pos (lenN f)) (pos - lenN f)); [|lia].
        rewrite nthN_out by lia. reflexivity.
Qed.
Lemma lenN_set_len f n : lenN (file_set_len f n) = n.
Proof. unfold file_set_len. rewrite lenN_app, lenN_take, lenN_rep. lia. Qed.
Lemma nthN_set_len f n i : nthN (file_set_len f n) i = if i <? n then nthN f i else 0.
Proof.
  unfold file_set_len. rewrite nthN_app, nthN_take, lenN_take, nthN_rep0.
  destruct (N.ltb_spec i n); destruct (N.ltb_spec i (N.min n (lenN f))); try lia; try reflexivity.
  rewrite nthN_out by lia. reflexivity.
Qed.

(* reading back what was written *)
Lemma read_write_same f pos d n : n = lenN d -> sliceN pos n (file_write f pos d) = d.
Proof.
  intros ->. destruct d as [|x d]; [unfold sliceN; reflexivity|].
  apply list_ext_N.
  - rewrite lenN_slice, lenN_file_write. rewrite lenN_cons. destruct (N.eqb_spec (1 + lenN d) 0); lia.
  - intros i Hi. rewrite lenN_slice in Hi. rewrite nthN_slice, nthN_file_write.
    destruct (N.ltb_spec i (lenN (x :: d))); [|lia].
    destruct (N.leb_spec pos (pos + i)); [|lia].
    destruct (N.ltb_spec (pos + i) (pos + lenN (x :: d))); [|lia].
    cbn [andb]. f_equal. lia.
Qed.
Lemma read_write_other f pos d p n :
  p + n <= lenN f ->
  p + n <= pos \/ pos + lenN d <= p ->
  sliceN p n (file_write f pos d) = sliceN p n f.
Proof.
  intros HL HD. apply list_ext_N.
  - rewrite !lenN_slice, lenN_file_write. destruct (N.eqb_spec (lenN d) 0); lia.
  - intros i Hi. rewrite lenN_slice in Hi. rewrite !nthN_slice, nthN_file_write.
    destruct (N.ltb_spec i n); [|reflexivity].
    destruct ((pos <=? p + i) && (p + i <? pos + lenN d)) eqn:E; [lia|reflexivity].
Qed.
