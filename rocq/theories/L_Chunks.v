(* The data blocks in the order of their numbers, and a reader that visits all blocks in that order. *)
From Verif Require Import M_Base M_Specs M_Crc M_Header M_Metadata M_Block M_Index M_FileUtils M_Buffer M_Ranges M_Scan M_Loop M_Decode
  S_Crc S_Meta S_Block S_Index S_Container S_Decode
  L_Base L_File L_Crc L_Header L_Meta L_Block L_Block2 L_Index L_Index2 L_Buffer L_Encode L_Container L_Loop L_Scan L_Decode.
Ltac Zify.zify_post_hook ::= idtac.

(* number of the block holding chunk j *)
Definition dseq (o : dpb) (j : N) : N :=
  match o with None => j + 1 | Some (d, p, _) => 1 + j / d * (d + p) + j mod d end.
Lemma dseq_chunk o j : dpb_ok o -> is_chunk o (dseq o j) j.
Proof.
  intro HO. unfold dseq, is_chunk. destruct o as [[[d p] B]|]; [|lia]. destruct HO as (D1 & P1 & _).
  exists (j / d), (j mod d). pose proof (N.mod_lt j d ltac:(lia)). pose proof (N.div_mod' j d). split; [assumption|]. split; [reflexivity|lia].
Qed.
Lemma chunk_dseq o seq j : dpb_ok o -> is_chunk o seq j -> seq = dseq o j.
Proof.
  intro HO. unfold dseq, is_chunk. destruct o as [[[d p] B]|]; [|lia]. destruct HO as (D1 & P1 & _). intros (s & k & K & -> & ->).
  destruct (dm_eq (s * d + k) d s k ltac:(lia) K) as [-> ->]. reflexivity.
Qed.
Lemma dseq_pos o j : 1 <= dseq o j.
Proof. unfold dseq. destruct o as [[[d p] B]|]; [generalize (j / d * (d + p)) (j mod d); intros|]; lia. Qed.
Lemma dseq_succ o j : dpb_ok o -> dseq o j < dseq o (j + 1).
Proof.
  intro HO. unfold dseq. destruct o as [[[d p] B]|]; [|lia]. destruct HO as (D1 & P1 & _).
  pose proof (N.mod_lt j d ltac:(lia)) as L. pose proof (N.div_mod' j d) as E. set (q := j / d) in *. set (r := j mod d) in *.
  destruct (N.eq_dec (r + 1) d) as [F|F].
  - destruct (dm_eq (j + 1) d (q + 1) 0 ltac:(lia) ltac:(lia)) as [-> ->]. nia.
  - destruct (dm_eq (j + 1) d q (r + 1) ltac:(lia) ltac:(lia)) as [-> ->]. lia.
Qed.
Lemma dseq_lt o i j : dpb_ok o -> i < j -> dseq o i < dseq o j.
Proof.
  intros HO. revert i. induction j as [|j IH] using N.peano_ind; intros i H; [lia|]. rewrite <- N.add_1_r in *.
  pose proof (dseq_succ o j HO). destruct (N.eq_dec i j) as [->|]; [assumption|]. specialize (IH i ltac:(lia)). lia.
Qed.
Lemma dseq_inj o i j : dpb_ok o -> dseq o i = dseq o j -> i = j.
Proof.
  intros HO E. destruct (N.lt_trichotomy i j) as [L|[L|L]]; [|exact L|]; apply (dseq_lt o) in L; try exact HO; lia.
Qed.
Lemma parity_iff o seq : dpb_ok o -> 1 <= seq -> (seq_num_is_parity_w_data_par_burst seq o = true <-> forall j, seq <> dseq o j).
Proof.
  intros HO H. unfold seq_num_is_parity_w_data_par_burst. destruct o as [[[d p] B]|] eqn:EO.
  - rewrite parity_mod by exact H. rewrite N.leb_le. pose proof HO as (D1 & P1 & _).
    pose proof (N.div_mod' (seq - 1) (d + p)) as DM. pose proof (N.mod_lt (seq - 1) (d + p) ltac:(lia)) as ML. split.
    + intros G j E. destruct (dseq_chunk _ j HO) as (s & k & K & E' & _). rewrite <- E in E'.
      destruct (dm_eq (seq - 1) (d + p) s k ltac:(lia) ltac:(lia)) as [_ X]. lia.
    + intros NO. apply N.le_ngt. intro G. apply (NO ((seq - 1) / (d + p) * d + (seq - 1) mod (d + p))). apply chunk_dseq; [exact HO|].
      exists ((seq - 1) / (d + p)), ((seq - 1) mod (d + p)). split; [exact G|]. split; [lia|reflexivity].
  - split; [discriminate|]. intro NO. exfalso. apply (NO (seq - 1)). cbn. lia.
Qed.
Lemma between_parity o seq j : dpb_ok o -> 1 <= seq -> (j = 0 \/ dseq o (j - 1) < seq) -> seq < dseq o j -> seq_num_is_parity_w_data_par_burst seq o = true.
Proof.
  intros HO H1 L U. apply parity_iff; [exact HO|exact H1|]. intros i E. subst seq.
  assert (A : i < j) by (apply N.nle_gt; intro G; destruct (N.eq_dec i j) as [->|]; [lia|]; pose proof (dseq_lt o j i HO ltac:(lia)); lia).
  destruct L as [->|L]; [lia|]. destruct (N.eq_dec i (j - 1)) as [->|]; [lia|]. pose proof (dseq_lt o i (j - 1) HO ltac:(lia)). lia.
Qed.
Lemma dseq_not_parity o j : dpb_ok o -> seq_num_is_parity_w_data_par_burst (dseq o j) o = false.
Proof.
  intro HO. apply not_true_is_false. rewrite parity_iff; [|exact HO|apply dseq_pos]. intro X. exact (X j eq_refl).
Qed.

(* a run over blocks 1, 2, ... that emits something for every chunk and ends at chunk K - 1 *)
Section Run.
Context {St X : Type}.
Variable o : dpb.
Hypothesis HO : dpb_ok o.
Variable fstep : St -> St * option X * bool.
Variable J : St -> N -> N -> Prop.
Variable Fin : St -> Prop.
Variable emit : N -> option X.
Variable K : N.
Hypothesis HPar : forall st seq j, J st seq j -> 1 <= seq -> j < K -> (j = 0 \/ dseq o (j - 1) < seq) -> seq < dseq o j ->
  exists st', fstep st = (st', None, false) /\ J st' (seq + 1) j.
Hypothesis HDat : forall st j, J st (dseq o j) j -> j + 1 < K -> exists st', fstep st = (st', emit j, false) /\ J st' (dseq o j + 1) (j + 1).
Hypothesis HEnd : forall st j, J st (dseq o j) j -> j + 1 = K -> exists st', fstep st = (st', emit j, true) /\ Fin st'.
Lemma frun_chunks : forall m seq j st, J st seq j -> 1 <= seq -> j < K -> (j = 0 \/ dseq o (j - 1) < seq) -> seq <= dseq o j ->
  m = N.to_nat (dseq o (K - 1) - seq) ->
  exists st', frun (fun _ => false) fstep (S m) st = Some (st', somes (map emit (rangeN j K))) /\ Fin st'.
Proof.
  induction m as [|m IH]; intros seq j st HJ H1 HK HL HU EM.
  - assert (E : seq = dseq o (K - 1) /\ j = K - 1).
    { assert (dseq o j <= dseq o (K - 1)) by (destruct (N.eq_dec j (K - 1)) as [->|]; [lia|]; pose proof (dseq_lt o j (K - 1) HO ltac:(lia)); lia).
      assert (seq = dseq o (K - 1)) by lia. split; [assumption|]. apply (dseq_inj o); [exact HO|]. lia. }
    destruct E as [-> ->]. destruct (HEnd _ _ HJ ltac:(lia)) as (st' & E & F). cbn [frun]. rewrite E.
    rewrite rangeN_cons by lia. rewrite rangeN_nil by lia. exists st'. split; [|exact F]. cbn [map]. unfold somes. cbn [flat_map]. destruct (emit (K - 1)); reflexivity.
  - destruct (N.eq_dec seq (dseq o j)) as [->|NE].
    + assert (HJK : j + 1 < K). { destruct (N.eq_dec (j + 1) K) as [<-|]; [|lia]. replace (j + 1 - 1) with j in EM by lia. lia. }
      destruct (HDat _ _ HJ HJK) as (st' & E & HJ').
      destruct (IH (dseq o j + 1) (j + 1) st') as (st2 & R & F); [exact HJ'|lia|lia|right; replace (j + 1 - 1) with j by lia; lia|pose proof (dseq_succ o j HO); lia|lia|].
      exists st2. split; [|exact F]. cbn [frun] in *. rewrite E. rewrite (rangeN_cons j) by lia. cbn [map]. unfold somes in *. cbn [flat_map].
      destruct (emit j); rewrite R; reflexivity.
    + destruct (HPar _ _ _ HJ H1 HK HL ltac:(lia)) as (st' & E & HJ').
      destruct (IH (seq + 1) j st') as (st2 & R & F); [exact HJ'|lia|lia|destruct HL; [left; assumption|right; lia]|lia|lia|].
      exists st2. split; [|exact F]. cbn [frun] in *. rewrite E. exact R.
Qed.
End Run.

(* lists of chunks put together *)
Lemma concat_chunks ds (F : N -> list N) total K : 1 <= ds -> (K - 1) * ds < total -> total <= K * ds -> (forall j, lenN (F j) = ds) ->
  let x := concat (map (fun j => takeN (total - j * ds) (F j)) (rangeN 0 K)) in
  lenN x = total /\ forall i, i < total -> nthN x i = nthN (F (i / ds)) (i mod ds).
Proof.
  intros DS L U HF x.
  assert (G : forall m lo, lo + N.of_nat m = K -> let y := concat (map (fun j => takeN (total - j * ds) (F j)) (rangeN lo K)) in
     lenN y = total - lo * ds /\ forall i, i < total - lo * ds -> nthN y i = nthN (F (lo + i / ds)) (i mod ds)).
  { induction m as [|m IH]; intros lo E y.
    - unfold y. rewrite rangeN_nil by lia. replace lo with K by lia. change (lenN (concat (map (fun j : N => takeN (total - j * ds) (F j)) []))) with 0. split; intros; lia.
    - unfold y. rewrite rangeN_cons by lia. cbn [map concat]. destruct (IH (lo + 1) ltac:(lia)) as [I1 I2]. cbv zeta in I1, I2.
      assert (A : (lo + 1) * ds = lo * ds + ds) by lia.
      assert (Z : lo * ds < total). { assert (lo * ds <= (K - 1) * ds) by (apply N.mul_le_mono_r; lia). lia. }
      split.
      + rewrite lenN_app, I1, lenN_take, HF. lia.
      + intros i Hi. rewrite nthN_app, lenN_take, HF. destruct (N.ltb_spec i (N.min (total - lo * ds) ds)) as [H|H].
        * rewrite N.div_small, N.mod_small, N.add_0_r by lia. rewrite nthN_take. destruct (N.ltb_spec i (total - lo * ds)); [reflexivity|lia].
        * assert (M : N.min (total - lo * ds) ds = ds) by lia. rewrite M in *. rewrite I2 by lia.
          assert (X : i / ds = (i - ds) / ds + 1 /\ i mod ds = (i - ds) mod ds).
          { pose proof (N.div_mod' (i - ds) ds) as DM. pose proof (N.mod_lt (i - ds) ds ltac:(lia)) as ML.
            destruct (dm_eq i ds ((i - ds) / ds + 1) ((i - ds) mod ds) ltac:(lia) ML) as [-> ->]. auto. }
          destruct X as [-> ->]. f_equal. f_equal. lia. }
  destruct (G (N.to_nat K) 0 ltac:(lia)) as [G1 G2]. cbv zeta in G1, G2. split; [unfold x; rewrite G1; lia|].
  intros i Hi. unfold x. rewrite G2 by lia. reflexivity.
Qed.
Lemma fold_concat {A} (h : A -> list N) ys w : fold_left (fun w s => w ++ h s) ys w = w ++ concat (map h ys).
Proof.
  revert w. induction ys as [|y ys IH]; intro w; cbn [fold_left map concat]; [symmetry; apply app_nil_r|]. rewrite IH, <- app_assoc. reflexivity.
Qed.
