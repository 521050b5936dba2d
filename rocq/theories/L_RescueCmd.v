(* Lemmas about the command rescue. *)
From Coq Require Import String Ascii Permutation.
From Verif Require Import M_Base M_Specs M_Header M_Multihash M_Metadata M_Block M_Index M_FileUtils M_Buffer M_Ranges M_Encode
  M_Scan M_Loop M_Decode M_Sort M_Repair M_Content M_Update M_Rescue M_Hex M_Json M_Path M_Cli M_RescueCmd
  S_Block S_Scan S_Repair S_Rescue S_Cli S_RescueCmd
  L_Base L_Header L_Block L_Block2 L_File L_Ref L_Path L_Cli L_Cli2 L_Rescue L_Rescue2 L_Rescue3 P_Options P_Rescue.
Ltac Zify.zify_post_hook ::= idtac.

(* ---- names ---- *)
Lemma digit_upper x : x < 16 -> 48 <= hex_digit true x <= 57 \/ 65 <= hex_digit true x <= 70.
Proof. intro H. unfold hex_digit. destruct (N.ltb_spec x 10); lia. Qed.
Lemma hex_named u : bytes_ok u = true -> lenN u = 6 -> hex_name (bytes_to_upper_hex_string u).
Proof.
  intros B L. unfold hex_name. rewrite <- (N.mul_1_l 12). change (1 * 12) with (2 * 6). rewrite <- L. clear L.
  induction u as [|b u IH]; [split; [reflexivity|constructor]|].
  unfold bytes_ok in B. cbn [forallb] in B. apply andb_true_iff in B as [B1 B2]. specialize (IH B2) as [L F].
  unfold byte_ok in B1. apply N.ltb_lt in B1.
  unfold bytes_to_upper_hex_string in *. cbn [map concat]. rewrite lenN_app, L. split.
  - unfold lenN. cbn [fmt_byte length]. lia.
  - apply Forall_app. split; [|exact F]. unfold fmt_byte. constructor; [|constructor; [|constructor] ]; apply digit_upper; [apply N.div_lt_upper_bound; lia|apply N.mod_lt; lia].
Qed.
Lemma hex_good n : hex_name n -> good_name n /\ ~ In 0 n.
Proof.
  intros [L F]. rewrite Forall_forall in F. repeat split.
  - intros ->. discriminate.
  - intro I. apply F in I. lia.
  - intros ->. discriminate.
  - intros ->. discriminate.
  - intro I. apply F in I. lia.
Qed.

(* ---- directories stay ---- *)
Definition dirs_same (s s' : fs) : Prop := forall x, s' x = Some NDir <-> s x = Some NDir.
Lemma dirs_refl s : dirs_same s s. Proof. intro x. tauto. Qed.
Lemma dirs_trans a b c : dirs_same a b -> dirs_same b c -> dirs_same a c. Proof. intros H K x. rewrite (K x). apply H. Qed.
Lemma dirs_upd s l c : s l <> Some NDir -> dirs_same s (upd s l (NFile c)).
Proof.
  intros H x. destruct (loc_eqb x l) eqn:E; [apply loc_eqb_eq in E; subst x; rewrite upd_same; split; [discriminate|contradiction]|].
  apply loc_eqb_neq in E. rewrite upd_other by exact E. tauto.
Qed.
Lemma is_dir_same s s' l : dirs_same s s' -> is_dir_at s' l = is_dir_at s l.
Proof. intro D. unfold is_dir_at. specialize (D l). destruct (s' l) as [[|]|], (s l) as [[|]|]; try reflexivity; exfalso; intuition congruence. Qed.
Lemma resolve_same s s' cwd p : dirs_same s s' -> resolve s' cwd p = resolve s cwd p.
Proof.
  intro D. unfold resolve. destruct (eqbl p [] || existsb (N.eqb 0) p); [reflexivity|]. generalize (match p with 47 :: _ => [] | _ => cwd end). generalize (split_slash p).
  intro ps. induction ps as [|x ps IH]; intro l; [reflexivity|]. cbn [walk]. rewrite (is_dir_same _ _ _ D). destruct (is_dir_at s l); [apply IH|reflexivity].
Qed.

(* ---- one write ---- *)
Section Writes.
Variables (E : env) (out : list N) (log : option (list N)) (s0 : fs) (d : loc).
Hypothesis RD : resolve s0 (v_cwd E) out = Some d.
Hypothesis DD : s0 d = Some NDir.
Definition is_log (x : loc) : Prop := exists path, log = Some path /\ resolve s0 (v_cwd E) path = Some x.
(* what may have happened since s0 *)
Definition grown (s : fs) : Prop := dirs_same s0 s /\
  forall x, s x = s0 x \/ (is_log x /\ s0 x <> Some NDir) \/ exists n, hex_name n /\ x = d ++ [n] /\ grew (s0 x) (s x).
Definition all_hex (l : list (list N * list N)) : Prop := forall n x, In (n, x) l -> hex_name n.

Lemma grown_refl : grown s0.
Proof. split; [apply dirs_refl|]. auto. Qed.
Lemma append_spec n x s s' : hex_name n -> dirs_same s0 s -> append_file E out n x s = Some s' ->
  v_can E (d ++ [n]) = true /\ s (d ++ [n]) <> Some NDir /\
  s' (d ++ [n]) = Some (NFile (match s (d ++ [n]) with Some (NFile c) => c | _ => [] end ++ x)) /\ same_but (d ++ [n]) s s'.
Proof.
  intros HX DS. pose proof (hex_good n HX) as [G Z]. unfold append_file.
  destruct (open_write s (v_cwd E) (v_can E) false (make_path [out; n])) as [[l s1]|] eqn:OW; [|discriminate]. intro A. injection A as <-.
  apply open_write_some in OW as (R & C & ND & ->). rewrite (resolve_same _ _ _ _ DS) in R. rewrite (resolve_child _ _ _ _ _ RD DD G) in R.
  apply zero_In in Z. rewrite Z in R. injection R as <-. rewrite !upd_same. split; [exact C|]. split; [exact ND|].
  split; [f_equal; f_equal; destruct (s (d ++ [n])) as [[c|]|]; reflexivity|]. intros y Y. rewrite !upd_other by exact Y. reflexivity.
Qed.
Lemma append_works n x s : hex_name n -> dirs_same s0 s -> v_can E (d ++ [n]) = true -> s0 (d ++ [n]) <> Some NDir -> exists s', append_file E out n x s = Some s'.
Proof.
  intros HX DS C ND. pose proof (hex_good n HX) as [G Z]. unfold append_file, open_write. rewrite (resolve_same _ _ _ _ DS), (resolve_child _ _ _ _ _ RD DD G).
  apply zero_In in Z. rewrite Z, C. cbn [negb]. destruct (s (d ++ [n])) as [[c|]|] eqn:S; [eexists; reflexivity| |eexists; reflexivity].
  exfalso. apply ND, DS. exact S.
Qed.
Lemma append_dirs n x s s' : hex_name n -> dirs_same s0 s -> append_file E out n x s = Some s' -> dirs_same s s'.
Proof.
  intros HX DS A. destruct (append_spec n x s s' HX DS A) as (_ & ND & S & SB). intro y. destruct (loc_eqb y (d ++ [n])) eqn:Q.
  - apply loc_eqb_eq in Q. subst y. rewrite S. split; [discriminate|contradiction].
  - apply loc_eqb_neq in Q. rewrite (SB y Q). tauto.
Qed.
Lemma append_grown n x s s' : hex_name n -> grown s -> append_file E out n x s = Some s' -> grown s'.
Proof.
  intros HX [DS G] A. destruct (append_spec n x s s' HX DS A) as (_ & ND & S & SB). split; [eapply dirs_trans; [exact DS|eapply append_dirs; eassumption]|].
  intro y. destruct (loc_eqb y (d ++ [n])) eqn:Q; [|apply loc_eqb_neq in Q; rewrite (SB y Q); apply G]. apply loc_eqb_eq in Q. subst y.
  destruct (G (d ++ [n])) as [H|[H|(n' & HX' & E' & H)]].
  - right; right. exists n. split; [exact HX|]. split; [reflexivity|]. rewrite S. rewrite H in *. destruct (s0 (d ++ [n])) as [[c|]|]; cbn [grew]; [eauto|contradiction|eauto].
  - auto.
  - right; right. exists n. split; [exact HX|]. split; [reflexivity|]. rewrite S. destruct (s0 (d ++ [n])) as [[c|]|]; cbn [grew] in *; [|contradiction|eauto].
    destruct H as (b & ->). rewrite <- app_assoc. eauto.
Qed.
Lemma log_spec st s : dirs_same s0 s -> match write_log E log st s with
  | (s', true) => s' = s /\ log <> None
  | (s', false) => (log = None /\ s' = s) \/ exists l, is_log l /\ s0 l <> Some NDir /\ s' l = Some (NFile (serialize st)) /\ same_but l s s'
  end.
Proof.
  intro DS. unfold write_log, is_log. destruct log as [path|]; [|left; split; reflexivity].
  destruct (open_write s (v_cwd E) (v_can E) true path) as [[l s1]|] eqn:OW; [|split; [reflexivity|discriminate]].
  apply open_write_some in OW as (R & C & ND & ->). rewrite (resolve_same _ _ _ _ DS) in R. right. exists l. split; [eauto|].
  split; [intro Q; apply ND, DS, Q|]. split; [apply upd_same|]. intros y Y. rewrite !upd_other by exact Y. reflexivity.
Qed.
Lemma log_dirs t st s err : dirs_same s0 s -> dirs_same s0 (fst (maybe_log E t log st s err)).
Proof.
  intro DS. unfold maybe_log. destruct t; [|exact DS]. pose proof (log_spec st s DS) as W. destruct (write_log E log st s) as [s' [|]]; cbn [fst].
  - destruct W as [-> _]. exact DS.
  - destruct W as [[_ ->]|(l & _ & ND & S & SB)]; [exact DS|]. intro y. destruct (loc_eqb y l) eqn:Q.
    + apply loc_eqb_eq in Q. subst y. rewrite S. split; [discriminate|contradiction].
    + apply loc_eqb_neq in Q. rewrite (SB y Q). apply DS.
Qed.
Lemma log_grown t st s err : grown s -> grown (fst (maybe_log E t log st s err)).
Proof.
  intros [DS G]. split; [apply log_dirs, DS|]. unfold maybe_log. destruct t; [|exact G]. pose proof (log_spec st s DS) as W. destruct (write_log E log st s) as [s' [|]]; cbn [fst].
  - destruct W as [-> _]. exact G.
  - destruct W as [[_ ->]|(l & IL & ND & S & SB)]; [exact G|]. intro y. destruct (loc_eqb y l) eqn:Q; [apply loc_eqb_eq in Q; subst y; auto|].
    apply loc_eqb_neq in Q. rewrite (SB y Q). apply G.
Qed.
Lemma log_err_none t st s err : log = None -> maybe_log E t log st s err = (s, err).
Proof. intro H. unfold maybe_log, write_log. rewrite H. destruct t; [rewrite orb_false_r|]; reflexivity. Qed.

Lemma appends_grown R st : forall l s err, all_hex l -> grown s -> grown (fst (fst (append_files E R out log st l s err))).
Proof.
  induction l as [|[n x] l IH]; intros s err A G; [exact G|]. cbn [append_files]. destruct (append_file E out n x s) as [s1|] eqn:AF; [|exact G].
  assert (G1 : grown s1) by (eapply append_grown; [eapply A; left; reflexivity|exact G|exact AF]).
  pose proof (log_grown (R (length l)) st s1 err G1) as G2. destruct (maybe_log E (R (length l)) log st s1 err) as [s2 err'].
  apply IH; [intros n' x' I; eapply A; right; exact I|exact G2].
Qed.
Definition uids6 (bs : list rblock) : Prop := forall b, In b bs -> bytes_ok (rb_uid b) = true /\ lenN (rb_uid b) = 6.
Lemma appends_hex order bs : (forall x, Permutation (order x) x) -> uids6 bs -> all_hex (appends order bs).
Proof.
  intros PM U n x I. unfold appends in I. apply in_map_iff in I as ([v k] & Q & I). injection Q as <- _.
  destruct (order_grouped order PM bs) as [_ G]. apply G in I as [-> I]. apply uid_part_in in I as (b & I & <-). apply hex_named; apply (U b I).
Qed.
Lemma writer_grown R : orders R -> forall l st s err, (forall bs st', In (bs, st') l -> uids6 bs) -> grown s -> grown (fst (fst (rescue_writer E R out log l st s err))).
Proof.
  intros PM. induction l as [|[bs st'] l IH]; intros st s err U G; [exact G|]. cbn [rescue_writer].
  set (xs := appends (re_order R (length l)) bs). assert (AH : all_hex xs) by (apply appends_hex; [apply PM|eapply U; left; reflexivity]).
  pose proof (log_grown (re_tick R (length l) (S (length xs))) st s err G) as G1. destruct (maybe_log E _ log st s err) as [s1 err1]. cbn [fst] in G1.
  destruct err1; [exact G1|]. pose proof (appends_grown (re_tick R (length l)) st xs s1 false AH G1) as G2.
  destruct (append_files E (re_tick R (length l)) out log st xs s1 false) as [[s2 err2] [|]]; cbn [fst] in G2; [|exact G2].
  apply IH; [intros b x I; eapply U; right; exact I|exact G2].
Qed.

(* ---- what the directory holds ---- *)
Definition view (s : fs) (w : dir) : Prop := forall n, hex_name n -> dir_of s d n = w n.
Hypothesis LE : forall n, hex_name n -> ~ is_log (d ++ [n]).
Lemma append_view n x s s' w : hex_name n -> dirs_same s0 s -> append_file E out n x s = Some s' -> view s w -> view s' (append_to n x w).
Proof.
  intros HX DS A V k HK. destruct (append_spec n x s s' HX DS A) as (_ & ND & S & SB). unfold append_to, dir_of. destruct (eqbl k n) eqn:Q.
  - apply eqbl_eq in Q. subst k. rewrite S, <- (V n HX). unfold dir_of. destruct (s (d ++ [n])) as [[c|]|]; reflexivity.
  - apply eqbl_neq in Q. rewrite SB; [apply V, HK|]. intro Y. apply app_inv_head in Y. congruence.
Qed.
Lemma log_view t st s err w : dirs_same s0 s -> view s w -> view (fst (maybe_log E t log st s err)) w.
Proof.
  intros DS V. unfold maybe_log. destruct t; [|exact V]. pose proof (log_spec st s DS) as W. destruct (write_log E log st s) as [s' [|]]; cbn [fst].
  - destruct W as [-> _]. exact V.
  - destruct W as [[_ ->]|(l & IL & ND & S & SB)]; [exact V|]. intros n HN. unfold dir_of. rewrite SB; [apply V, HN|]. intros <-. exact (LE n HN IL).
Qed.
Lemma appends_view R st : forall l s err w, all_hex l -> grown s -> view s w -> snd (append_files E R out log st l s err) = true ->
  view (fst (fst (append_files E R out log st l s err))) (fold_left (fun w '(n, x) => append_to n x w) l w).
Proof.
  induction l as [|[n x] l IH]; intros s err w A G V D; [exact V|]. cbn [append_files fold_left] in *. destruct (append_file E out n x s) as [s1|] eqn:AF; [|discriminate].
  assert (HX : hex_name n) by (eapply A; left; reflexivity). pose proof (append_grown n x s s1 HX G AF) as G1.
  pose proof (append_view n x s s1 w HX (proj1 G) AF V) as V1. pose proof (log_grown (R (length l)) st s1 err G1) as G2.
  pose proof (log_view (R (length l)) st s1 err _ (proj1 G1) V1) as V2. destruct (maybe_log E (R (length l)) log st s1 err) as [s2 err']. cbn [fst] in *.
  apply IH; [intros n' x' I; eapply A; right; exact I|exact G2|exact V2|exact D].
Qed.
Lemma writer_view R : orders R -> forall l st s err w, (forall bs st', In (bs, st') l -> uids6 bs) -> grown s -> view s w ->
  snd (rescue_writer E R out log l st s err) = true ->
  view (fst (fst (rescue_writer E R out log l st s err))) (fst (write_buffers (re_order R) l st w)).
Proof.
  intros PM. induction l as [|[bs st'] l IH]; intros st s err w U G V D; [exact V|]. cbn [rescue_writer write_buffers] in *.
  set (xs := appends (re_order R (length l)) bs) in *. assert (AH : all_hex xs) by (apply appends_hex; [apply PM|eapply U; left; reflexivity]).
  pose proof (log_grown (re_tick R (length l) (S (length xs))) st s err G) as G1.
  pose proof (log_view (re_tick R (length l) (S (length xs))) st s err w (proj1 G) V) as V1. destruct (maybe_log E _ log st s err) as [s1 err1]. cbn [fst] in G1, V1.
  destruct err1; [discriminate|]. pose proof (appends_grown (re_tick R (length l)) st xs s1 false AH G1) as G2.
  pose proof (appends_view (re_tick R (length l)) st xs s1 false w AH G1 V1) as V2.
  destruct (append_files E (re_tick R (length l)) out log st xs s1 false) as [[s2 err2] [|]]; cbn [fst snd] in *; [|discriminate].
  apply IH; [intros b x I; eapply U; right; exact I|exact G2|apply V2; reflexivity|exact D].
Qed.
(* without a log, writing succeeds *)
Hypothesis DW : dir_writable E s0 d.
Lemma appends_done R st : log = None -> forall l s err, all_hex l -> grown s -> snd (append_files E R out log st l s err) = true /\ snd (fst (append_files E R out log st l s err)) = err.
Proof.
  intro LN. induction l as [|[n x] l IH]; intros s err A G; [split; reflexivity|]. cbn [append_files]. assert (HX : hex_name n) by (eapply A; left; reflexivity).
  destruct (DW n HX) as [C ND]. destruct (append_works n x s HX (proj1 G) C ND) as (s1 & AF). rewrite AF, (log_err_none _ _ _ _ LN).
  apply IH; [intros n' x' I; eapply A; right; exact I|]. eapply append_grown; eassumption.
Qed.
Lemma writer_done R : orders R -> log = None -> forall l st s, (forall bs st', In (bs, st') l -> uids6 bs) -> grown s -> snd (rescue_writer E R out log l st s false) = true.
Proof.
  intros PM LN. induction l as [|[bs st'] l IH]; intros st s U G; [reflexivity|]. cbn [rescue_writer]. rewrite (log_err_none _ _ _ _ LN).
  set (xs := appends (re_order R (length l)) bs). assert (AH : all_hex xs) by (apply appends_hex; [apply PM|eapply U; left; reflexivity]).
  destruct (appends_done (re_tick R (length l)) st LN xs s false AH G) as [D X]. pose proof (appends_grown (re_tick R (length l)) st xs s false AH G) as G2.
  destruct (append_files E (re_tick R (length l)) out log st xs s false) as [[s2 err2] dn]; cbn [fst snd] in *. subst dn err2. apply IH; [intros b x I; eapply U; right; exact I|exact G2].
Qed.
End Writes.

(* ---- the UIDs are six bytes ---- *)
Lemma parsed_uid buf h : bytes_ok buf = true -> header_from_bytes buf = ROk h -> bytes_ok (h_uid h) = true /\ lenN (h_uid h) = 6.
Proof.
  intros B P. apply (header_from_bytes_inv _ _ B) in P as (_ & _ & P). apply header_ok_spec in P as (_ & L & U & _). auto.
Qed.
Lemma torn_uids f pos e : bytes_ok f = true -> uids6 (torn_slot f pos e).
Proof.
  intros B b I. destruct e as [|junk|junk]; cbn [torn_slot] in I; [contradiction|destruct I as [<-|[]]; split; reflexivity|].
  destruct (sync_from_buffer_header_only block_dummy (file_read f pos SBX_SCAN_BLOCK_SIZE)) as [k| |] eqn:S; [|contradiction|contradiction]. destruct I as [<-|[]]. cbn [rb_uid].
  unfold sync_from_buffer_header_only in S. destruct (lenN _ <? SBX_HEADER_SIZE); [discriminate|].
  destruct (header_from_bytes (takeN SBX_HEADER_SIZE (file_read f pos SBX_SCAN_BLOCK_SIZE))) as [h| |] eqn:P; [|discriminate|discriminate].
  apply parsed_uid in P; [|unfold takeN; apply bytes_ok_take, bytes_ok_slice, B]. cbn zeta in S.
  rewrite switch_canon in S. apply ROk_inj in S. subst k. exact P.
Qed.
Lemma uids6_app a b : uids6 a -> uids6 b -> uids6 (a ++ b).
Proof. intros A B x I. apply in_app_or in I as [I|I]; auto. Qed.
Lemma fill_uids size p f req at_ ev : bytes_ok f = true -> forall fuel slots s x, uids6 slots ->
  fill_buffer fuel size p f req at_ ev slots s = Some (ROk x) -> uids6 (fst (fst x)).
Proof.
  intro HB. assert (K : forall A B : Type, forall a b : A, Some (@ROk A a) = Some (ROk b) -> a = b) by (intros; congruence).
  induction fuel as [|fuel IH]; intros slots s x U; cbn [fill_buffer]; (destruct (lenN slots =? size); [intro Q; apply (K _ unit) in Q; subst x; exact U|]);
    set (due := match ev with Some (n, e) => if n <=? rs_bytes s then Some e else None | None => None end);
    (destruct due as [[|junk|junk]|]; [intro Q; apply (K _ unit) in Q; subst x; exact U|..]);
    (destruct (req <=? rs_bytes s); [intro Q; apply (K _ unit) in Q; subst x; exact U|]);
    try (intro Q; apply (K _ unit) in Q; subst x; apply uids6_app; [exact U|apply torn_uids, HB]); [discriminate|].
  destruct (lazy_spec f (at_ + rs_bytes s) HB) as (r & -> & L). destruct (lz_block r) as [b|] eqn:LB; [|apply IH, U].
  apply IH. destruct (picked p b); [|exact U]. apply uids6_app; [exact U|]. intros y [<-|[]]. cbn [rb_uid]. destruct (lz_eof r); [destruct L as (_ & _ & L); congruence|].
  destruct L as (_ & _ & h & pl & W & ->). destruct W as (HO & _). apply header_ok_spec in HO as (_ & A & B & _). auto.
Qed.
Lemma read_uids size p f req at_ ev fuel : bytes_ok f = true -> forall n s l failed,
  read_buffers n fuel size p f req at_ ev s = Some (ROk (l, failed)) -> forall bs st, In (bs, st) l -> uids6 bs.
Proof.
  intro HB. induction n as [|n IH]; intros s l failed; cbn [read_buffers]; [discriminate|].
  destruct (fill_buffer fuel size p f req at_ ev [] s) as [[[[slots s'] x]|e|]|] eqn:F; [|discriminate..].
  apply (fill_uids _ _ _ _ _ _ HB) in F; [|intros ? []]. cbn [fst] in F.
  destruct x; [|intros Q bs st I; injection Q as <- _; destruct I as [I|[]]; injection I as <- _; exact F..].
  destruct (read_buffers n fuel size p f req at_ ev s') as [[[l' e']|e|]|] eqn:R; intro Q; try discriminate. injection Q as <- <-.
  intros bs st [I|I]; [injection I as <- _; exact F|eapply IH; eassumption].
Qed.

Lemma writer_stats E R out log : forall l st s err order w, snd (rescue_writer E R out log l st s err) = true ->
  snd (fst (rescue_writer E R out log l st s err)) = snd (write_buffers order l st w).
Proof.
  induction l as [|[bs st'] l IH]; intros st s err order w D; [reflexivity|]. cbn [rescue_writer write_buffers] in *.
  destruct (maybe_log E _ log st s err) as [s1 err1]. destruct err1; [discriminate|].
  destruct (append_files E _ out log st _ s1 false) as [[s2 err2] [|]]; [|discriminate]. apply IH. exact D.
Qed.
