(* Rescuing: reading into buffers, grouping and writing. *)
From Coq Require Import Permutation Sorted Relations.
From Verif Require Import M_Base M_Specs M_Crc M_Header M_Metadata M_Block M_Index M_Buffer M_Hex M_Ranges M_Scan M_Rescue
  S_Crc S_Meta S_Block S_Scan S_Repair S_Rescue
  L_Base L_File L_Crc L_Header L_Meta L_Block L_Block2 L_Index2 L_Scan L_Ref L_Ranges L_Log.
Ltac Zify.zify_post_hook ::= idtac.

Lemma lazy_eof_len f pos r : bytes_ok f = true -> read_block_lazily f pos = ROk r -> lz_eof r = true -> lz_len r = lenN f - pos.
Proof.
  intro HB. unfold read_block_lazily, file_read, SBX_SCAN_BLOCK_SIZE. set (b1 := sliceN pos 128 f).
  assert (L1 : lenN b1 = N.min 128 (lenN f - pos)) by apply lenN_slice.
  destruct (N.ltb_spec (lenN b1) 128) as [H|H].
  { intro E. apply ROk_inj in E. subst r. cbn [lz_len]. lia. }
  destruct (sync_from_buffer_header_only block_dummy b1) as [b|e|]; [|intro E; apply ROk_inj in E; subst r; discriminate|discriminate].
  set (bs := ver_to_block_size (b_version b)). pose proof (block_size_pos (b_version b)) as BS. fold bs in BS.
  assert (L2 : lenN (sliceN (pos + 128) (bs - 128) f) = N.min (bs - 128) (lenN f - (pos + 128))) by apply lenN_slice.
  destruct (N.ltb_spec (lenN b1 + lenN (sliceN (pos + 128) (bs - 128) f)) bs) as [HS|HS].
  - intro E. apply ROk_inj in E. subst r. cbn [lz_len]. lia.
  - destruct (sync_from_buffer _ _ _ _); intro E; try discriminate; apply ROk_inj in E; subst r; discriminate.
Qed.
Lemma exactly_snoc (P Q : N -> Prop) n x : exactly P n -> ~ P x -> (forall i, Q i <-> P i \/ i = x) -> exactly Q (n + 1).
Proof.
  intros (l & ND & I & L) NX E. exists (x :: l). split; [constructor; [rewrite I; exact NX|exact ND]|]. split; [|rewrite lenN_cons; lia].
  intro i. cbn [In]. rewrite E, I. intuition congruence.
Qed.
Lemma exactly_same (P Q : N -> Prop) n : exactly P n -> (forall i, Q i <-> P i) -> exactly Q n.
Proof. intros (l & ND & I & L) E. exists l. split; [exact ND|]. split; [intro i; rewrite E; apply I|exact L]. Qed.
Lemma sorted_snoc l x : StronglySorted N.lt l -> (forall y, In y l -> y < x) -> StronglySorted N.lt (l ++ [x]).
Proof.
  induction 1 as [|a l S IH F]; intro H; cbn [app].
  - repeat constructor.
  - constructor; [apply IH; intros; apply H; right; assumption|]. apply Forall_app. split; [exact F|]. repeat constructor. apply H. left. reflexivity.
Qed.
Lemma picked_ok p h pl : picked p (block_of h pl) = true <-> wanted p h.
Proof.
  unfold picked, wanted. rewrite (type_of_block []), andb_true_iff.
  assert (A : (match rp_type p with Some t => block_type_eqb (if h_seq_num h =? 0 then TMeta else TData) t | None => true end) = true <->
              match rp_type p with Some t => of_type t h | None => True end).
  { destruct (rp_type p) as [[|]|]; [| |split; auto]; unfold of_type; destruct (N.eqb_spec (h_seq_num h) 0); cbn; split; try discriminate; try lia; auto. }
  assert (B : (match rp_uid p with Some u => eqbl (b_uid (block_of h pl)) u | None => true end) = true <->
              match rp_uid p with Some u => h_uid h = u | None => True end).
  { destruct (rp_uid p) as [u|]; [|split; auto]. change (b_uid (block_of h pl)) with (h_uid h). split; [apply eqbl_eq|intros ->; apply eqbl_refl]. }
  rewrite A, B. reflexivity.
Qed.

Section Read.
Variables (p : rparam) (f : file) (lo hi : N).
Hypothesis HB : bytes_ok f = true.
Hypothesis HI : hi <= lenN f.
Notation req := (hi - lo).
(* the blocks to rescue from position a up to c, with their positions *)
Definition between (a c : N) (l : list (N * rblock)) : Prop :=
  StronglySorted N.lt (map fst l) /\
  forall pos u b, In (pos, mkRblock u b) l <-> to_rescue p f lo hi pos u b /\ a <= pos < c.
(* the reader is at a position of the scan, or has passed the end *)
Definition at_pos (b : N) : Prop := Inv f lo hi (lo + b) /\ (b < req -> lands f lo hi (lo + b)) /\ lo + b <= lenN f.
Definition counted (a c : N) (s0 s : rstats) : Prop :=
  exists m d, rs_meta s = rs_meta s0 + m /\ rs_data s = rs_data s0 + d /\
    exactly (fun pos => a <= pos < c /\ exists h, block_found f lo hi pos h /\ h_seq_num h = 0) m /\
    exactly (fun pos => a <= pos < c /\ exists h, block_found f lo hi pos h /\ 1 <= h_seq_num h) d.
Lemma between_nil a : between a a [].
Proof using. clear HB HI. split; [constructor|]. intros pos u b. split; [intros []|]. intros [_ H]. lia. Qed.
Lemma counted_nil a s : counted a a s s.
Proof using. clear HB HI.
  exists 0, 0. split; [lia|]. split; [lia|].
  split; exists []; (split; [constructor|]); (split; [|reflexivity]); intro i; (split; [intros []|intros [H _]; lia]).
Qed.
(* no landing strictly between *)
Lemma between_same a c c' l : between a c l -> c <= c' -> (forall pos u b, to_rescue p f lo hi pos u b -> c <= pos < c' -> False) -> between a c' l.
Proof using. clear HB HI.
  intros [S I] HC HN. split; [exact S|]. intros pos u b. rewrite I. split; intros [A B]; (split; [exact A|]).
  - lia.
  - destruct (N.lt_ge_cases pos c) as [H|H]; [lia|]. exfalso. apply (HN pos u b A). lia.
Qed.
Lemma between_snoc a c c' l u0 b0 : between a c l -> a <= c < c' -> to_rescue p f lo hi c u0 b0 ->
  (forall pos u b, to_rescue p f lo hi pos u b -> c <= pos < c' -> pos = c) -> between a c' (l ++ [(c, mkRblock u0 b0)]).
Proof using. clear HB HI.
  intros [S I] HC HT HN. split.
  - rewrite map_app. apply sorted_snoc; [exact S|]. intros y Hy. apply in_map_iff in Hy as ([y' [u b]] & <- & Hy). apply I in Hy. cbn [fst]. lia.
  - intros pos u b. rewrite in_app_iff, I. cbn [In]. split.
    + intros [[A B]|[A|[]]]; [split; [exact A|lia]|]. inversion A; subst. split; [exact HT|lia].
    + intros [A B]. destruct (N.lt_ge_cases pos c) as [H|H]; [left; split; [exact A|lia]|]. right. left.
      assert (pos = c) by (apply (HN pos u b A); lia). subst pos.
      destruct A as (h & (_ & pl & W) & _ & -> & ->). destruct HT as (h' & (_ & pl' & W') & _ & -> & ->).
      destruct (any_block_fun f c h pl h' pl' W W') as [-> _]. reflexivity.
Qed.
Lemma counted_same a c c' s0 s b : counted a c s0 s -> c <= c' -> (forall pos h, block_found f lo hi pos h -> c <= pos < c' -> False) ->
  counted a c' s0 (mkRstats b (rs_meta s) (rs_data s)).
Proof using. clear HB HI.
  intros (m & d & A & B & C & D) HC HN. exists m, d. cbn [rs_meta rs_data]. split; [exact A|]. split; [exact B|].
  split; [eapply exactly_same; [exact C|]|eapply exactly_same; [exact D|]]; intro i; (split; intros (H & h & X & Y); (split; [|eauto])); try lia;
  (destruct (N.lt_ge_cases i c) as [Q|Q]; [lia|]; exfalso; apply (HN i h X); lia).
Qed.
Lemma counted_block a c c' s0 s h pl len : counted a c s0 s -> a <= c < c' -> lands f lo hi c -> any_block_at f c h pl ->
  (forall pos h, block_found f lo hi pos h -> c <= pos < c' -> pos = c) -> counted a c' s0 (count_block (block_of h pl) len s).
Proof using. clear HB HI.
  intros (m & d & A & B & C & D) HC HL W HN. unfold count_block. rewrite (type_of_block f).
  assert (FN : forall h', block_found f lo hi c h' -> h' = h).
  { intros h' (_ & pl' & W'). apply (any_block_fun f c h' pl' h pl W' W). }
  assert (F : block_found f lo hi c h) by (split; [exact HL|exists pl; exact W]).
  destruct (N.eqb_spec (h_seq_num h) 0) as [Z|Z]; [exists (m + 1), d|exists m, (d + 1)]; cbn [rs_meta rs_data];
    (split; [lia|]); (split; [lia|]); split.
  - eapply exactly_snoc; [exact C|intros [Q _]; apply (N.lt_irrefl c), Q|]. intro i. split.
    + intros (Q & h' & X & Y). destruct (N.lt_ge_cases i c) as [Q1|Q1]; [left; split; [lia|eauto]|right; apply (HN i h' X); lia].
    + intros [(Q & h' & X & Y)| ->]; (split; [lia|eauto]).
  - eapply exactly_same; [exact D|]. intro i. split; intros (Q & h' & X & Y); (split; [|eauto]); [|lia].
    destruct (N.lt_ge_cases i c) as [Q1|Q1]; [lia|]. exfalso. assert (i = c) by (apply (HN i h' X); lia). subst i. rewrite (FN _ X) in Y. lia.
  - eapply exactly_same; [exact C|]. intro i. split; intros (Q & h' & X & Y); (split; [|eauto]); [|lia].
    destruct (N.lt_ge_cases i c) as [Q1|Q1]; [lia|]. exfalso. assert (i = c) by (apply (HN i h' X); lia). subst i. rewrite (FN _ X) in Y. lia.
  - eapply exactly_snoc; [exact D|intros [Q _]; apply (N.lt_irrefl c), Q|]. intro i. split.
    + intros (Q & h' & X & Y). destruct (N.lt_ge_cases i c) as [Q1|Q1]; [left; split; [lia|eauto]|right; apply (HN i h' X); lia].
    + intros [(Q & h' & X & Y)| ->]; (split; [lia|]); [eauto|]. exists h. split; [exact F|lia].
Qed.
(* one read *)
Lemma read_one b : at_pos b -> b < req -> exists r, read_block_lazily f (lo + b) = ROk r /\ 1 <= lz_len r /\ at_pos (b + lz_len r) /\
  (forall pos, lands f lo hi pos -> lo + b <= pos < lo + (b + lz_len r) -> pos = lo + b) /\
  match lz_block r with
  | Some x => exists h pl, any_block_at f (lo + b) h pl /\ x = block_of h pl
  | None => forall h pl, ~ any_block_at f (lo + b) h pl
  end.
Proof.
  intros (I & L & C) HBR. specialize (L HBR). destruct (lazy_spec f (lo + b) HB) as (r & E & H). exists r. split; [exact E|].
  destruct (lz_eof r) eqn:EO.
  - destruct H as (H1 & H2 & H3). rewrite H3. pose proof (lazy_eof_len f (lo + b) r HB E EO) as LE.
    pose proof (lands_ge f lo hi (lo + b) L) as G.
    assert (A : forall q, lands f lo hi q -> q <= lo + b) by (intros q Q; apply (inv_end f lo hi (lo + b) q I ltac:(lia) H1 Q)).
    split; [lia|]. split; [|split; [|exact H2]].
    + split; [|split; [lia|lia]]. intros q m Q HQ S. destruct S as (S & _). lia.
    + intros pos Q HP. specialize (A pos Q). lia.
  - destruct H as (S & H128 & HBk). split; [lia|].
    assert (NX : forall pos, lands f lo hi pos -> lo + b <= pos < lo + (b + lz_len r) -> pos = lo + b).
    { intros pos Q HP. pose proof (inv_before f lo hi HB (lo + b) (lz_len r) pos I ltac:(lia) S Q ltac:(lia)). lia. }
    split; [|split; [exact NX|exact HBk]].
    split; [|split].
    + rewrite N.add_assoc. apply inv_next; [exact HB|exact I|lia|exact S].
    + intro HQ. rewrite N.add_assoc. apply (lands_next f lo hi); [exact L|exact S|lia].
    + destruct S. lia.
Qed.

(* what stays in the buffer when reading fails *)
Definition torn (ev : option (N * event)) (s : rstats) (x : filled) (t : list rblock) : Prop :=
  match x with
  | Failed => exists n e, ev = Some (n, e) /\ e <> Stopped /\ n <= rs_bytes s /\ t = torn_slot f (lo + rs_bytes s) e
  | _ => t = []
  end.
Definition ended (ev : option (N * event)) (s : rstats) : Prop :=
  req <= rs_bytes s \/ exists n, ev = Some (n, Stopped) /\ n <= rs_bytes s.
Lemma fill_ok size ev a s0 : forall fuel l s, lenN f - (lo + rs_bytes s) < N.of_nat fuel ->
  at_pos (rs_bytes s) -> a <= lo + rs_bytes s -> between a (lo + rs_bytes s) l -> counted a (lo + rs_bytes s) s0 s ->
  exists l' t s' x, fill_buffer fuel size p f req lo ev (map snd l) s = Some (ROk (map snd l' ++ t, s', x)) /\ torn ev s' x t /\
    rs_bytes s <= rs_bytes s' /\ at_pos (rs_bytes s') /\ between a (lo + rs_bytes s') l' /\ counted a (lo + rs_bytes s') s0 s' /\
    (x = Full -> lenN l' = size) /\ (x = Ended -> ended ev s') /\ (lenN l <= size -> lenN l' <= size) /\
    (rs_bytes s' = rs_bytes s -> l' = l).
Proof.
  induction fuel as [|fuel IH]; intros l s HF HP HA BT CT; [lia|]. cbn [fill_buffer].
  assert (LM : lenN (map snd l) = lenN l) by (unfold lenN; rewrite map_length; reflexivity).
  destruct (N.eqb_spec (lenN (map snd l)) size) as [HS|HS].
  { exists l, [], s, Full. rewrite app_nil_r. split; [reflexivity|]. split; [reflexivity|].
    split; [lia|]; do 3 (split; [assumption|]). split; [intros _; lia|]. split; [discriminate|]. split; [auto|reflexivity]. }
  set (due := match ev with Some (n, e) => if n <=? rs_bytes s then Some e else None | None => None end).
  assert (DUE : match due with Some e => exists n, ev = Some (n, e) /\ n <= rs_bytes s | None => True end).
  { unfold due. destruct ev as [[n e]|]; [|exact I]. destruct (N.leb_spec n (rs_bytes s)); [|exact I]. eauto. }
  assert (END : forall (e : option event), due = e -> (ended ev s) -> exists l' t s' x, Some (ROk (map snd l, s, Ended)) = Some (ROk (map snd l' ++ t, s', x)) /\ torn ev s' x t /\
    rs_bytes s <= rs_bytes s' /\ at_pos (rs_bytes s') /\ between a (lo + rs_bytes s') l' /\ counted a (lo + rs_bytes s') s0 s' /\
    (x = Full -> lenN l' = size) /\ (x = Ended -> ended ev s') /\ (lenN l <= size -> lenN l' <= size) /\ (rs_bytes s' = rs_bytes s -> l' = l)).
  { intros e _ ED. exists l, [], s, Ended. rewrite app_nil_r. split; [reflexivity|]. split; [reflexivity|].
    split; [lia|]; do 3 (split; [assumption|]). split; [discriminate|]. split; [intros _; exact ED|]. split; [auto|reflexivity]. }
  assert (FAIL : forall e, due = Some e -> e <> Stopped -> exists l' t s' x, Some (ROk (map snd l ++ torn_slot f (lo + rs_bytes s) e, s, Failed)) = Some (ROk (map snd l' ++ t, s', x)) /\ torn ev s' x t /\
    rs_bytes s <= rs_bytes s' /\ at_pos (rs_bytes s') /\ between a (lo + rs_bytes s') l' /\ counted a (lo + rs_bytes s') s0 s' /\
    (x = Full -> lenN l' = size) /\ (x = Ended -> ended ev s') /\ (lenN l <= size -> lenN l' <= size) /\ (rs_bytes s' = rs_bytes s -> l' = l)).
  { intros e ED NE. rewrite ED in DUE. destruct DUE as (n & EV & HN). exists l, (torn_slot f (lo + rs_bytes s) e), s, Failed. split; [reflexivity|].
    split; [exists n, e; auto|]. split; [lia|]; do 3 (split; [assumption|]). split; [discriminate|]. split; [discriminate|]. split; [auto|reflexivity]. }
  destruct due as [[|j|j]|] eqn:ED.
  - apply (END (Some Stopped) eq_refl). right. destruct DUE as (n & X & Y). exists n. auto.
  - destruct (N.leb_spec req (rs_bytes s)) as [HQ|HQ]; [apply (END _ eq_refl); left; exact HQ|apply (FAIL _ eq_refl); discriminate].
  - destruct (N.leb_spec req (rs_bytes s)) as [HQ|HQ]; [apply (END _ eq_refl); left; exact HQ|apply (FAIL _ eq_refl); discriminate].
  - destruct (N.leb_spec req (rs_bytes s)) as [HQ|HQ]; [apply (END _ eq_refl); left; exact HQ|]. clear END FAIL.
    destruct (read_one (rs_bytes s) HP HQ) as (r & ER & HL & HP' & NX & HBk). rewrite ER.
    assert (LN : lands f lo hi (lo + rs_bytes s)) by (apply HP, HQ).
    assert (NT : forall pos u b, to_rescue p f lo hi pos u b -> lo + rs_bytes s <= pos < lo + (rs_bytes s + lz_len r) -> pos = lo + rs_bytes s).
    { intros pos u b (h & (X & _) & _). apply NX, X. }
    assert (NF : forall pos h, block_found f lo hi pos h -> lo + rs_bytes s <= pos < lo + (rs_bytes s + lz_len r) -> pos = lo + rs_bytes s).
    { intros pos h (X & _). apply NX, X. }
    destruct (lz_block r) as [x|].
    + destruct HBk as (h & pl & W & ->).
      set (s1 := count_block (block_of h pl) (lz_len r) s).
      assert (B1 : rs_bytes s1 = rs_bytes s + lz_len r) by (unfold s1, count_block; destruct (block_type_of _); reflexivity).
      change (b_version (block_of h pl)) with (h_version h). change (b_uid (block_of h pl)) with (h_uid h). unfold file_read.
      set (nb := mkRblock (h_uid h) (sliceN (lo + rs_bytes s) (ver_to_block_size (h_version h)) f)).
      assert (F : block_found f lo hi (lo + rs_bytes s) h) by (split; [exact LN|exists pl; exact W]).
      assert (X : exists l1, (if picked p (block_of h pl) then map snd l ++ [nb] else map snd l) = map snd l1 /\ between a (lo + rs_bytes s1) l1 /\ lenN l1 <= lenN l + 1).
      { destruct (picked p (block_of h pl)) eqn:EP.
        - exists (l ++ [(lo + rs_bytes s, nb)]). split; [rewrite map_app; reflexivity|]. split; [|rewrite lenN_app, lenN_cons, lenN_nil; lia]. rewrite B1.
          apply between_snoc; [exact BT|lia| |exact NT]. exists h. apply picked_ok in EP. split; [exact F|]. split; [exact EP|]. split; reflexivity.
        - exists l. split; [reflexivity|]. split; [|lia]. rewrite B1. apply (between_same a (lo + rs_bytes s)); [exact BT|lia|].
          intros pos u b TR HPos. pose proof (NT pos u b TR HPos). subst pos. destruct TR as (h' & (_ & pl' & W') & WT & _).
          destruct (any_block_fun f _ _ _ _ _ W W') as [<- _]. apply picked_ok with (pl := pl) in WT. congruence. }
      destruct X as (l1 & E1 & BT1 & LL). rewrite E1. fold s1.
      destruct (IH l1 s1) as (l' & t & s' & y & EF & R1 & R2 & R3 & R4 & R5 & R6 & R7 & R8 & R9).
      * rewrite B1. lia.
      * rewrite B1. exact HP'.
      * rewrite B1. lia.
      * exact BT1.
      * rewrite B1. apply (counted_block a (lo + rs_bytes s)); [exact CT|lia|exact LN|exact W|exact NF].
      * exists l', t, s', y. split; [exact EF|]. split; [exact R1|]. split; [lia|]. repeat (split; [assumption|]). split; [intro; apply R8; lia|]. intro; lia.
    + set (s1 := mkRstats (rs_bytes s + lz_len r) (rs_meta s) (rs_data s)).
      assert (B1 : rs_bytes s1 = rs_bytes s + lz_len r) by reflexivity.
      destruct (IH l s1) as (l' & t & s' & y & EF & R1 & R2 & R3 & R4 & R5 & R6 & R7 & R8 & R9).
      * rewrite B1. lia.
      * rewrite B1. exact HP'.
      * rewrite B1. lia.
      * rewrite B1. apply (between_same a (lo + rs_bytes s)); [exact BT|lia|]. intros pos u b TR HPos. pose proof (NT pos u b TR HPos). subst pos.
        destruct TR as (h' & (_ & pl' & W') & _). exact (HBk _ _ W').
      * rewrite B1. apply (counted_same a (lo + rs_bytes s)); [exact CT|lia|]. intros pos h FB HPos. pose proof (NF pos h FB HPos). subst pos.
        destruct FB as (_ & pl' & W'). exact (HBk _ _ W').
      * exists l', t, s', y. split; [exact EF|]. split; [exact R1|]. split; [lia|]. repeat (split; [assumption|]). intro; lia.
Qed.
End Read.
