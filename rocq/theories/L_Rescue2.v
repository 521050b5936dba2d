(* Rescuing: the buffers in turn, grouping and writing, interruption. *)
From Coq Require Import Permutation Sorted Relations.
From Verif Require Import M_Base M_Specs M_Crc M_Header M_Metadata M_Block M_Index M_Buffer M_Hex M_Ranges M_Scan M_Rescue
  S_Crc S_Meta S_Block S_Scan S_Repair S_Rescue
  L_Base L_File L_Crc L_Header L_Meta L_Block L_Block2 L_Index2 L_Scan L_Ref L_Ranges L_Log L_Rescue.
Ltac Zify.zify_post_hook ::= idtac.

(* ---- enough fuel ---- *)
Lemma fill_mono size p f req at_ ev : forall fuel fuel' slots s x, (fuel <= fuel')%nat ->
  fill_buffer fuel size p f req at_ ev slots s = Some x -> fill_buffer fuel' size p f req at_ ev slots s = Some x.
Proof.
  induction fuel as [|k IH]; intros fuel' slots s x HF E; (destruct fuel' as [|k']; [try lia|]); cbn [fill_buffer] in *; try exact E.
  - destruct (lenN slots =? size); [exact E|]. destruct (match ev with Some _ => _ | None => _ end) as [[| |]|]; try exact E; destruct (req <=? rs_bytes s); try exact E. discriminate.
  - destruct (lenN slots =? size); [exact E|]. destruct (match ev with Some _ => _ | None => _ end) as [[| |]|]; try exact E; destruct (req <=? rs_bytes s); try exact E.
    destruct (read_block_lazily _ _) as [r|e|]; try exact E. destruct (lz_block r); (apply IH; [lia|exact E]).
Qed.
Lemma read_mono size p f req at_ ev : forall n n' fuel fuel' s x, (n <= n')%nat -> (fuel <= fuel')%nat ->
  read_buffers n fuel size p f req at_ ev s = Some x -> read_buffers n' fuel' size p f req at_ ev s = Some x.
Proof.
  induction n as [|n IH]; intros n' fuel fuel' s x HN HF E; [discriminate|]. destruct n' as [|n']; [lia|]. cbn [read_buffers] in *.
  destruct (fill_buffer fuel size p f req at_ ev [] s) as [[[[slots s'] y]|e|]|] eqn:EF; try discriminate;
    rewrite (fill_mono _ _ _ _ _ _ _ _ _ _ _ HF EF); [|exact E|exact E].
  destruct y; [|exact E|exact E].
  destruct (read_buffers n fuel size p f req at_ ev s') as [y|] eqn:ER; [|discriminate].
  rewrite (IH n' fuel fuel' s' y ltac:(lia) HF ER). exact E.
Qed.

Section Chain.
Variables (p : rparam) (f : file) (lo hi : N).
Hypothesis HB : bytes_ok f = true.
Hypothesis HI : hi <= lenN f.
Notation req := (hi - lo).
Notation between := (between p f lo hi).
Notation at_pos := (at_pos f lo hi).
Notation counted := (counted f lo hi).
Fixpoint chain (ev : option (N * event)) (s : rstats) (l : list (list rblock * rstats)) (failed : bool) : Prop :=
  match l with
  | [] => failed = true \/ ended lo hi ev s
  | (bs, s') :: l' => exists lp t, bs = map snd lp ++ t /\ (t <> [] -> failed = true) /\ at_pos (rs_bytes s') /\ rs_bytes s <= rs_bytes s' /\
      between (lo + rs_bytes s) (lo + rs_bytes s') lp /\ counted (lo + rs_bytes s) (lo + rs_bytes s') s s' /\ chain ev s' l' failed
  end.
Definition is_error (ev : option (N * event)) : Prop := exists n e, ev = Some (n, e) /\ e <> Stopped.
Lemma read_ok size ev : 1 <= size -> forall n fuel s, lenN f - (lo + rs_bytes s) < N.of_nat n -> lenN f - (lo + rs_bytes s) < N.of_nat fuel -> at_pos (rs_bytes s) ->
  exists l failed, read_buffers n fuel size p f req lo ev s = Some (ROk (l, failed)) /\ chain ev s l failed /\ (failed = true -> is_error ev).
Proof.
  intro HS. induction n as [|n IH]; intros fuel s HN HF HP; [lia|]. cbn [read_buffers].
  destruct (fill_ok p f lo hi HB HI size ev (lo + rs_bytes s) s fuel [] s HF HP (N.le_refl _) (between_nil p f lo hi _) (counted_nil f lo hi _ _))
    as (l' & t & s' & x & E & T & R2 & R3 & R4 & R5 & R6 & R7 & R8 & R9).
  change (map snd (@nil (N * rblock))) with (@nil rblock) in E. rewrite E. destruct x.
  - assert (LT : rs_bytes s < rs_bytes s').
    { destruct (N.eq_dec (rs_bytes s') (rs_bytes s)) as [Q|Q]; [|lia]. specialize (R6 eq_refl). rewrite (R9 Q), lenN_nil in R6. lia. }
    destruct R3 as (R3a & R3b & R3c).
    destruct (IH fuel s' ltac:(lia) ltac:(lia) ltac:(split; [exact R3a|split; [exact R3b|exact R3c]])) as (l & failed & E2 & C & FE).
    rewrite E2. exists ((map snd l' ++ t, s') :: l), failed. split; [reflexivity|]. split; [|exact FE].
    exists l', t. split; [reflexivity|]. cbn [torn] in T. split; [intro Q; contradiction|]. split; [split; [exact R3a|split; [exact R3b|exact R3c]]|]. auto.
  - exists [(map snd l' ++ t, s')], false. split; [reflexivity|]. split; [|discriminate]. cbn [torn] in T.
    exists l', t. split; [reflexivity|]. split; [intro Q; contradiction|]. repeat (split; [assumption|]). right. apply R7. reflexivity.
  - exists [(map snd l' ++ t, s')], true. split; [reflexivity|]. destruct T as (m & e & EV & NE & _). split; [|intros _; exists m, e; auto].
    exists l', t. split; [reflexivity|]. split; [reflexivity|]. repeat (split; [assumption|]). left. reflexivity.
Qed.
Lemma read_done size ev at_ n fuel s : 1 <= size -> req <= rs_bytes s ->
  read_buffers (S n) (S fuel) size p f req at_ ev s = Some (ROk ([([], s)], false)).
Proof using. clear HB HI.
  intros HS HR. cbn [read_buffers fill_buffer]. rewrite lenN_nil. destruct (N.eqb_spec 0 size); [lia|].
  destruct (N.leb_spec req (rs_bytes s)); [|lia]. destruct (match ev with Some _ => _ | None => _ end) as [[| |]|]; reflexivity.
Qed.
Lemma sorted_app l l' : StronglySorted N.lt l -> StronglySorted N.lt l' -> (forall x y, In x l -> In y l' -> x < y) -> StronglySorted N.lt (l ++ l').
Proof using. clear HB HI.
  induction 1 as [|a l S IH F]; intros S' H; [exact S'|]. cbn [app]. constructor.
  - apply IH; [exact S'|]. intros x y Hx Hy. apply H; [right; exact Hx|exact Hy].
  - apply Forall_app. split; [exact F|]. apply Forall_forall. intros y Hy. apply H; [left; reflexivity|exact Hy].
Qed.
Lemma between_app a b c l l' : a <= b <= c -> between a b l -> between b c l' -> between a c (l ++ l').
Proof using. clear HB HI.
  intros HC [S I] [S' I']. split.
  - rewrite map_app. apply sorted_app; [exact S|exact S'|]. intros x y Hx Hy.
    apply in_map_iff in Hx as ([x' [u d]] & <- & Hx). apply in_map_iff in Hy as ([y' [u' d']] & <- & Hy). apply I in Hx. apply I' in Hy. cbn [fst]. lia.
  - intros pos u d. rewrite in_app_iff, I, I'. split.
    + intros [[A B]|[A B]]; (split; [exact A|lia]).
    + intros [A B]. destruct (N.lt_ge_cases pos b) as [Q|Q]; [left|right]; (split; [exact A|lia]).
Qed.
Lemma exactly_plus (P Q R : N -> Prop) a b : exactly P a -> exactly Q b -> (forall k, P k -> ~ Q k) -> (forall k, R k <-> P k \/ Q k) -> exactly R (a + b).
Proof using. clear HB HI.
  intros (l & N1 & I1 & <-) (l' & N2 & I2 & <-) D E. exists (l ++ l'). split; [|split; [|apply lenN_app]].
  - assert (D' : forall x, In x l -> ~ In x l') by (intros x A B; apply (D x); [apply I1, A|apply I2, B]). clear - N1 N2 D'.
    induction l as [|a l IH]; [exact N2|]. cbn [app]. apply NoDup_cons_iff in N1 as [N0 N1]. constructor.
    + rewrite in_app_iff. intros [H|H]; [exact (N0 H)|]. apply (D' a); [left; reflexivity|exact H].
    + apply IH; [exact N1|]. intros x Hx. apply D'. right. exact Hx.
  - intro i. rewrite in_app_iff, I1, I2, E. reflexivity.
Qed.
Lemma counted_app a b c s0 s1 s2 : a <= b <= c -> counted a b s0 s1 -> counted b c s1 s2 -> counted a c s0 s2.
Proof using. clear HB HI.
  intros HC (m & d & M & D & EM & ED) (m' & d' & M' & D' & EM' & ED'). exists (m + m'), (d + d'). split; [lia|]. split; [lia|].
  split; [eapply exactly_plus; [exact EM|exact EM'| |]|eapply exactly_plus; [exact ED|exact ED'| |]]; intro k; try (intros [X _] [Y _]; lia).
  - split; [intros (X & Y); destruct (N.lt_ge_cases k b); [left|right]; (split; [lia|exact Y])|intros [[X Y]|[X Y]]; (split; [lia|exact Y])].
  - split; [intros (X & Y); destruct (N.lt_ge_cases k b); [left|right]; (split; [lia|exact Y])|intros [[X Y]|[X Y]]; (split; [lia|exact Y])].
Qed.
(* all buffers of an undisturbed run *)
Lemma chain_flat ev : forall l s, chain ev s l false -> exists L, concat (map fst l) = map snd L /\
  let s' := fold_left (fun _ x => snd x) l s in
  rs_bytes s <= rs_bytes s' /\ between (lo + rs_bytes s) (lo + rs_bytes s') L /\ counted (lo + rs_bytes s) (lo + rs_bytes s') s s' /\ ended lo hi ev s'.
Proof using. clear HB HI.
  induction l as [|[bs s1] l IH]; intros s C.
  - destruct C as [C|C]; [discriminate|]. exists []. split; [reflexivity|]. cbv zeta. cbn [fold_left]. split; [lia|]. split; [apply between_nil|]. split; [apply counted_nil|exact C].
  - destruct C as (lp & t & -> & HT & HP & HL & BT & CT & C). assert (t = []) by (destruct t; [reflexivity|]; discriminate HT; discriminate). subst t. rewrite app_nil_r.
    destruct (IH s1 C) as (L & E & R). cbv zeta in *. cbn [fold_left snd map fst concat]. rewrite E, <- map_app. exists (lp ++ L). split; [reflexivity|].
    destruct R as (R1 & R2 & R3 & R4). split; [lia|]. split; [eapply between_app; [|exact BT|exact R2]; lia|]. split; [eapply counted_app; [|exact CT|exact R3]; lia|exact R4].
Qed.
End Chain.

(* ---- grouping and writing ---- *)
Definition uid_part (u : list N) (bs : list rblock) : list (list N) := map rb_bytes (filter (fun b => eqbl (rb_uid b) u) bs).
Lemma uid_part_app u a b : uid_part u (a ++ b) = uid_part u a ++ uid_part u b.
Proof. unfold uid_part. rewrite filter_app, map_app. reflexivity. Qed.
Definition grouped (m : list (list N * list (list N))) (bs : list rblock) : Prop :=
  NoDup (map fst m) /\ forall u l, In (u, l) m <-> l = uid_part u bs /\ l <> [].
Lemma push_keys m b : map fst (push_uid m b) = if existsb (fun u => eqbl u (rb_uid b)) (map fst m) then map fst m else map fst m ++ [rb_uid b].
Proof.
  induction m as [|[u l] m IH]; [reflexivity|]. cbn [push_uid map fst existsb]. destruct (eqbl u (rb_uid b)); [reflexivity|].
  cbn [map fst orb]. rewrite IH. destruct (existsb _ _); reflexivity.
Qed.
Lemma push_in m b u l : NoDup (map fst m) -> In (u, l) (push_uid m b) <->
  (u <> rb_uid b /\ In (u, l) m) \/ (u = rb_uid b /\ ((exists l0, In (u, l0) m /\ l = l0 ++ [rb_bytes b]) \/ (~ In u (map fst m) /\ l = [rb_bytes b]))).
Proof.
  induction m as [|[v k] m IH]; intro ND; cbn [push_uid map fst In] in *.
  - split.
    + intros [E|[]]. inversion E; subst. right. split; [reflexivity|]. right. auto.
    + intros [[_ []]|[-> [(l0 & [] & _)|[_ ->]]]]. left. reflexivity.
  - apply NoDup_cons_iff in ND as [N0 ND]. destruct (eqbl v (rb_uid b)) eqn:EV.
    + apply eqbl_eq in EV. subst v. cbn [In]. split.
      * intros [E|HI].
        -- inversion E; subst. right. split; [reflexivity|]. left. exists k. auto.
        -- left. split; [|right; exact HI]. intros ->. apply N0. apply in_map_iff. exists (rb_uid b, l). auto.
      * intros [[NE [E|HI]]|[-> [(l0 & [E|HI] & ->)|[NI ->]]]].
        -- inversion E; subst. contradiction.
        -- right. exact HI.
        -- inversion E; subst. left. reflexivity.
        -- exfalso. apply N0, in_map_iff. exists (rb_uid b, l0). auto.
        -- exfalso. apply NI. left. reflexivity.
    + assert (NV : v <> rb_uid b) by (intros ->; rewrite eqbl_refl in EV; discriminate). cbn [In]. rewrite (IH ND). split.
      * intros [E|[[A B]|[A [(l0 & B & C)|[B C]]]]].
        -- inversion E; subst. left. auto.
        -- left. auto.
        -- right. split; [exact A|]. left. exists l0. auto.
        -- right. split; [exact A|]. right. split; [|exact C]. intros [E|E]; [subst; contradiction|exact (B E)].
      * intros [[A [E|B]]|[A [(l0 & [E|B] & C)|[B C]]]].
        -- left. exact E.
        -- right. left. auto.
        -- inversion E; subst. contradiction.
        -- right. right. split; [exact A|]. left. exists l0. auto.
        -- right. right. split; [exact A|]. right. split; [|exact C]. intro Q. apply B. right. exact Q.
Qed.
Lemma grouped_push m bs b : grouped m bs -> grouped (push_uid m b) (bs ++ [b]).
Proof.
  intros [ND I]. assert (EX : existsb (fun u => eqbl u (rb_uid b)) (map fst m) = true <-> In (rb_uid b) (map fst m)).
  { rewrite existsb_exists. split; [intros (x & Hx & E); apply eqbl_eq in E; subst; exact Hx|intro H; exists (rb_uid b); split; [exact H|apply eqbl_refl]]. }
  assert (PK : forall u, In u (map fst m) <-> uid_part u bs <> []).
  { intro u. rewrite in_map_iff. split; [intros ([u' l] & <- & H); apply I in H as [-> H]; exact H|]. intro H. exists (u, uid_part u bs). split; [reflexivity|]. apply I. auto. }
  split.
  - rewrite push_keys. destruct (existsb _ _) eqn:E; [exact ND|]. apply (NoDup_Add (a := rb_uid b) (l := map fst m)).
    + rewrite <- (app_nil_r (map fst m)) at 1. apply Add_app.
    + split; [exact ND|]. intro H. apply EX in H. congruence.
  - intros u l. rewrite (push_in _ _ _ _ ND), uid_part_app.
    assert (E1 : uid_part u [b] = if eqbl (rb_uid b) u then [rb_bytes b] else []) by (unfold uid_part; cbn [filter]; destruct (eqbl _ _); reflexivity).
    rewrite E1. destruct (eqbl (rb_uid b) u) eqn:EB.
    + apply eqbl_eq in EB. subst u. split.
      * intros [[NE _]|[_ [(l0 & H & ->)|[H ->]]]]; [contradiction| |].
        -- apply I in H as [-> H]. split; [reflexivity|]. destruct (uid_part _ bs); discriminate.
        -- split; [|discriminate]. destruct (uid_part (rb_uid b) bs) eqn:Q; [reflexivity|]. exfalso. apply H, PK. rewrite Q. discriminate.
      * intros [-> _]. right. split; [reflexivity|]. destruct (uid_part (rb_uid b) bs) as [|x y] eqn:Q.
        -- right. split; [|reflexivity]. intro H. apply PK in H. contradiction.
        -- left. exists (uid_part (rb_uid b) bs). rewrite Q. split; [|reflexivity]. apply I. rewrite Q. split; [reflexivity|discriminate].
    + rewrite app_nil_r, I. split.
      * intros [[_ H]|[-> _]]; [exact H|]. rewrite eqbl_refl in EB. discriminate.
      * intro H. left. split; [|exact H]. intros ->. rewrite eqbl_refl in EB. discriminate.
Qed.
Lemma group_ok bs : grouped (group_by_uid bs) bs.
Proof.
  unfold group_by_uid. rewrite <- (rev_involutive bs). induction (rev bs) as [|b r IH].
  - split; [constructor|]. intros u l. split; [intros []|]. intros [-> H]. contradiction.
  - cbn [rev]. rewrite fold_left_app. cbn [fold_left]. apply grouped_push, IH.
Qed.

Definition finish (xs : list (list N * list N)) (w : dir) : dir := fold_left (fun w '(n, d) => append_to n d w) xs w.
Lemma append_same n d w : append_to n d w n = Some (content w n ++ d).
Proof. unfold append_to, content. rewrite eqbl_refl. destruct (w n); reflexivity. Qed.
Lemma append_other n m d w : m <> n -> append_to n d w m = w m.
Proof. intro H. unfold append_to. destruct (eqbl m n) eqn:E; [apply eqbl_eq in E; contradiction|reflexivity]. Qed.
Lemma content_append n m d w : content (append_to n d w) m = content w m ++ (if eqbl m n then d else []).
Proof.
  destruct (eqbl m n) eqn:E.
  - apply eqbl_eq in E. subst m. unfold content at 1. rewrite append_same. reflexivity.
  - unfold content, append_to. rewrite E. rewrite app_nil_r. reflexivity.
Qed.
Lemma finish_other xs : forall w n, ~ In n (map fst xs) -> finish xs w n = w n.
Proof.
  induction xs as [|[m d] xs IH]; intros w n H; [reflexivity|]. unfold finish in *. cbn [fold_left]. rewrite IH by (intro Q; apply H; right; exact Q).
  apply append_other. intros ->. apply H. left. reflexivity.
Qed.
Lemma finish_in xs : forall w n d, NoDup (map fst xs) -> In (n, d) xs -> finish xs w n = Some (content w n ++ d).
Proof.
  induction xs as [|[m e] xs IH]; intros w n d ND HI; [contradiction|]. cbn [map fst] in ND. apply NoDup_cons_iff in ND as [N0 ND].
  change (finish ((m, e) :: xs) w) with (finish xs (append_to m e w)). destruct HI as [E|HI].
  - inversion E; subst. rewrite finish_other by exact N0. apply append_same.
  - rewrite (IH _ n d ND HI). f_equal. f_equal. unfold content. rewrite append_other; [reflexivity|].
    intros ->. apply N0, in_map_iff. exists (m, d). auto.
Qed.
Lemma finish_grows xs : forall w n, exists x, content (finish xs w) n = content w n ++ x.
Proof.
  induction xs as [|[m d] xs IH]; intros w n; [exists []; rewrite app_nil_r; reflexivity|].
  change (finish ((m, d) :: xs) w) with (finish xs (append_to m d w)). destruct (IH (append_to m d w) n) as (x & E). rewrite E, content_append, <- app_assoc. eauto.
Qed.
Lemma finish_has xs : forall w n d, In (n, d) xs -> exists a b, content (finish xs w) n = a ++ d ++ b.
Proof.
  induction xs as [|[m e] xs IH]; intros w n d HI; [contradiction|]. change (finish ((m, e) :: xs) w) with (finish xs (append_to m e w)).
  destruct HI as [E|HI]; [|apply IH, HI]. inversion E; subst. destruct (finish_grows xs (append_to n d w) n) as (x & EX).
  rewrite EX, content_append, eqbl_refl, <- app_assoc. eauto.
Qed.
Lemma finish_ext xs : forall w w', (forall n, content w n = content w' n) -> forall n, content (finish xs w) n = content (finish xs w') n.
Proof.
  induction xs as [|[m d] xs IH]; intros w w' H n; [apply H|]. change (finish ((m, d) :: xs) w) with (finish xs (append_to m d w)).
  change (finish ((m, d) :: xs) w') with (finish xs (append_to m d w')). apply IH. intro k. rewrite !content_append, H. reflexivity.
Qed.
Section Write.
Variable order : list (list N * list (list N)) -> list (list N * list (list N)).
Hypothesis HO : forall x, Permutation (order x) x.
Lemma order_grouped bs : grouped (order (group_by_uid bs)) bs.
Proof.
  destruct (group_ok bs) as [ND I]. pose proof (HO (group_by_uid bs)) as P. split.
  - eapply Permutation_NoDup; [|exact ND]. apply Permutation_map, Permutation_sym, P.
  - intros u l. rewrite <- I. split; apply Permutation_in; [exact P|apply Permutation_sym, P].
Qed.
Lemma write_has bs w b : In b bs -> saved (write_buffer order bs w) (rb_uid b) (rb_bytes b).
Proof.
  intro HB. destruct (order_grouped bs) as [ND I]. assert (IN : In (rb_bytes b) (uid_part (rb_uid b) bs)).
  { unfold uid_part. apply in_map_iff. exists b. split; [reflexivity|]. apply filter_In. split; [exact HB|apply eqbl_refl]. }
  assert (X : In (rb_uid b, uid_part (rb_uid b) bs) (order (group_by_uid bs))).
  { apply I. split; [reflexivity|]. intro Q. rewrite Q in IN. contradiction. }
  unfold saved, write_buffer. fold (finish (appends order bs) w).
  destruct (finish_has (appends order bs) w (name_of (rb_uid b)) (concat (uid_part (rb_uid b) bs))) as (x & y & E).
  { unfold appends, name_of. apply in_map_iff. exists (rb_uid b, uid_part (rb_uid b) bs). auto. }
  apply in_split in IN as (l1 & l2 & EI). rewrite EI, concat_app in E. cbn [concat] in E.
  exists (x ++ concat l1), (concat l2 ++ y). rewrite E, <- !app_assoc. reflexivity.
Qed.
Definition uids_ok (bs : list rblock) : Prop := forall b, In b bs -> bytes_ok (rb_uid b) = true.
Lemma hex_inj a b : bytes_ok a = true -> bytes_ok b = true -> name_of a = name_of b -> a = b.
Proof.
  intros HA HB E. unfold name_of in E. pose proof (hex_roundtrip true a HA) as X. pose proof (hex_roundtrip true b HB) as Y.
  unfold bytes_to_upper_hex_string in E. rewrite E, Y in X. apply ROk_inj in X. congruence.
Qed.
Lemma uid_part_in u bs : uid_part u bs <> [] -> exists b, In b bs /\ rb_uid b = u.
Proof.
  unfold uid_part. intro H. destruct (filter _ bs) as [|b l] eqn:E; [contradiction|]. exists b.
  assert (X : In b (filter (fun b => eqbl (rb_uid b) u) bs)) by (rewrite E; left; reflexivity).
  apply filter_In in X as [A B]. split; [exact A|apply eqbl_eq, B].
Qed.
Lemma names_nodup bs : uids_ok bs -> NoDup (map fst (appends order bs)).
Proof.
  intro UO. destruct (order_grouped bs) as [ND I]. unfold appends.
  assert (U : forall u l, In (u, l) (order (group_by_uid bs)) -> bytes_ok u = true).
  { intros u l H. apply I in H as [-> H]. apply uid_part_in in H as (b & Hb & <-). apply UO, Hb. }
  clear I. induction (order (group_by_uid bs)) as [|[u l] m IH]; [constructor|]. cbn [map fst] in *. apply NoDup_cons_iff in ND as [N0 ND]. constructor.
  - intro H. apply N0. apply in_map_iff in H as ([n d] & E & H). apply in_map_iff in H as ([v k] & E' & H). inversion E'; subst. cbn [fst] in E.
    assert (v = u). { apply hex_inj; [apply (U v k); right; exact H|apply (U u l); left; reflexivity|exact E]. } subst v. apply in_map_iff. exists (u, k). auto.
  - apply IH; [exact ND|]. intros v k H. apply (U v k). right. exact H.
Qed.
Lemma write_content bs w u : uids_ok bs -> bytes_ok u = true ->
  content (write_buffer order bs w) (name_of u) = content w (name_of u) ++ concat (uid_part u bs).
Proof.
  intros UO HU. destruct (order_grouped bs) as [ND I]. unfold write_buffer. fold (finish (appends order bs) w).
  destruct (uid_part u bs) as [|x l] eqn:EU.
  - cbn [concat]. rewrite app_nil_r. unfold content. rewrite finish_other; [reflexivity|]. intro H. unfold appends in H.
    apply in_map_iff in H as ([n d] & E & H). apply in_map_iff in H as ([v k] & E' & H). inversion E'; subst. cbn [fst] in E.
    apply I in H as [-> H]. pose proof (uid_part_in _ _ H) as (b & Hb & <-).
    rewrite (hex_inj _ _ (UO b Hb) HU E) in H. contradiction.
  - unfold content at 1. rewrite (finish_in _ _ _ (concat (uid_part u bs)) (names_nodup bs UO)); [rewrite EU; reflexivity|].
    unfold appends. apply in_map_iff. exists (u, uid_part u bs). split; [reflexivity|]. apply I. rewrite EU. split; [reflexivity|discriminate].
Qed.
Lemma write_other bs w n : (forall b, In b bs -> n <> name_of (rb_uid b)) -> write_buffer order bs w n = w n.
Proof.
  intro H. destruct (order_grouped bs) as [ND I]. unfold write_buffer. fold (finish (appends order bs) w). apply finish_other. intro Q. unfold appends in Q.
  apply in_map_iff in Q as ([m d] & E & Q). apply in_map_iff in Q as ([v k] & E' & Q). inversion E'; subst. cbn [fst] in *.
  apply I in Q as [-> Q]. apply uid_part_in in Q as (b & Hb & <-). exact (H b Hb eq_refl).
Qed.
End Write.

Lemma writes_ok order : (forall k x, Permutation (order k x) x) -> forall l s w, let bs := concat (map fst l) in let '(w', s') := write_buffers order l s w in
  s' = fold_left (fun _ x => snd x) l s /\
  (uids_ok bs -> forall u, bytes_ok u = true -> content w' (name_of u) = content w (name_of u) ++ concat (uid_part u bs)) /\
  (forall n, (forall b, In b bs -> n <> name_of (rb_uid b)) -> w' n = w n).
Proof.
  intro HO. induction l as [|[bs s1] l IH]; intros s w; cbv zeta.
  - cbn [write_buffers]. split; [reflexivity|]. split; [intros _ u _; cbn; rewrite app_nil_r; reflexivity|reflexivity].
  - cbn [write_buffers map fst concat fold_left snd]. specialize (IH s1 (write_buffer (order (length l)) bs w)). cbv zeta in IH.
    destruct (write_buffers order l s1 _) as [w' s']. destruct IH as (E & C & O). split; [exact E|]. split.
    + intros UO u HU. rewrite (C ltac:(intros b Hb; apply UO; apply in_app_iff; right; exact Hb) u HU).
      rewrite (write_content _ (HO _) bs w u ltac:(intros b Hb; apply UO; apply in_app_iff; left; exact Hb) HU).
      rewrite uid_part_app, concat_app, app_assoc. reflexivity.
    + intros n H. rewrite O by (intros b Hb; apply H; apply in_app_iff; right; exact Hb).
      apply (write_other _ (HO _)). intros b Hb. apply H, in_app_iff. left. exact Hb.
Qed.
