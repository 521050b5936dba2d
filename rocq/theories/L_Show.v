(* Lemmas on show: the blocks listed, and what the calls stand for. *)
From Coq Require Import String Sorted.
From Verif Require Import M_Base M_Specs M_Header M_Multihash M_Metadata M_Block M_Index M_Buffer M_Ranges M_Scan M_Decode M_Hex M_Rescue M_Json M_Show
  S_Meta S_Block S_Scan S_Json S_Show L_Base L_File L_Header L_Meta L_Block L_Ranges L_Ref L_Log L_Json.
Ltac Zify.zify_post_hook ::= idtac.

Fixpoint block_calls (cal : calendar) (i : N) (l : list (N * block)) : list call :=
  match l with [] => [] | (pos, b) :: l' => show_block cal i pos b ++ block_calls cal (i + 1) l' end.

Lemma reads_as_block h pl b : reads_as h pl b <-> b = block_of h pl.
Proof.
  unfold reads_as, block_of. split.
  - intros [<- E]. destruct b as [h d]. cbn [b_header b_data] in *. f_equal. rewrite E. destruct (N.eqb_spec (h_seq_num h) 0), (N.ltb_spec (h_seq_num h) 1); try reflexivity; lia.
  - intros ->. cbn [b_header b_data]. split; [reflexivity|]. destruct (N.eqb_spec (h_seq_num h) 0), (N.ltb_spec (h_seq_num h) 1); try reflexivity; lia.
Qed.
Lemma is_meta_block h pl : is_meta (block_of h pl) = (h_seq_num h =? 0).
Proof. unfold is_meta, block_of. cbn [b_data]. destruct (N.eqb_spec (h_seq_num h) 0), (N.ltb_spec (h_seq_num h) 1); try reflexivity; lia. Qed.

Section Listing.
Variables (p : sparam) (f : file) (lo req : N).
Hypothesis HB : bytes_ok f = true.
Notation hi := (lo + req).
Fixpoint listing (n : nat) (bytes : N) : list (N * block) :=
  match n with
  | O => []
  | S n' =>
      if req <=? bytes then []
      else match read_block_lazily f (lo + bytes) with
           | ROk r =>
               if lz_eof r then []
               else match lz_block r with
                    | Some b => if is_meta b && uid_wanted p b then [(lo + bytes, b)] else []
                    | None => []
                    end ++ listing n' (bytes + lz_len r)
           | _ => []
           end
  end.
Lemma show_loop_listing cal : forall n bytes i, lenN f - (lo + bytes) < N.of_nat n ->
  show_loop n cal (fun _ => None) p f lo req bytes i = ROk (block_calls cal i (if sp_all p then listing n bytes else firstn 1 (listing n bytes)), None).
Proof.
  induction n as [|n IH]; intros bytes i HN; [lia|]. cbn [show_loop listing]. destruct (N.leb_spec req bytes) as [H|H]; [destruct (sp_all p); reflexivity|].
  destruct (lazy_spec f (lo + bytes) HB) as (r & -> & R). cbn [rbind]. destruct (lz_eof r); [destruct (sp_all p); reflexivity|].
  destruct R as (SK & L128 & _). assert (HN' : lenN f - (lo + (bytes + lz_len r)) < N.of_nat n) by (destruct SK; lia).
  destruct (lz_block r) as [b|]; [|apply IH, HN']. destruct (is_meta b && uid_wanted p b); [|apply IH, HN'].
  destruct (sp_all p) eqn:A.
  - rewrite IH by exact HN'. cbn [rbind app block_calls]. rewrite (N.add_comm bytes lo). reflexivity.
  - cbn [app firstn block_calls]. rewrite app_nil_r, (N.add_comm bytes lo). reflexivity.
Qed.
Lemma uid_wanted_ok h pl : uid_wanted p (block_of h pl) = true <-> match sp_uid p with Some u => h_uid h = u | None => True end.
Proof.
  unfold uid_wanted. destruct (sp_uid p) as [u|]; [|split; auto]. change (b_uid (block_of h pl)) with (h_uid h). split; [apply eqbl_eq|intros ->; apply eqbl_refl].
Qed.
Lemma listing_ok : forall n bytes, lenN f - (lo + bytes) < N.of_nat n -> Inv f lo hi (lo + bytes) -> (bytes < req -> lands f lo hi (lo + bytes)) ->
  StronglySorted N.lt (map fst (listing n bytes)) /\
  forall pos b, In (pos, b) (listing n bytes) <-> to_show p f lo hi pos b /\ lo + bytes <= pos.
Proof.
  induction n as [|n IH]; intros bytes HN I HL; [lia|]. cbn [listing]. destruct (N.leb_spec req bytes) as [H|H].
  { split; [constructor|]. intros pos b. split; [intros []|]. intros ((h & pl & L & _) & Q). apply lands_ge in L. lia. }
  specialize (HL H). destruct (lazy_spec f (lo + bytes) HB) as (r & -> & R). destruct (lz_eof r).
  { destruct R as (R1 & R2 & _). split; [constructor|]. intros pos b. split; [intros []|]. intros ((h & pl & L & A & _) & Q).
    pose proof (inv_end f lo hi (lo + bytes) pos I ltac:(lia) R1 L) as Q'. assert (pos = lo + bytes) by lia. subst pos. exact (R2 h pl A). }
  destruct R as (SK & L128 & RB).
  assert (HN' : lenN f - (lo + (bytes + lz_len r)) < N.of_nat n) by (destruct SK; lia).
  destruct (IH (bytes + lz_len r) HN') as [SS IN].
  { rewrite N.add_assoc. apply inv_next; [exact HB|exact I|lia|exact SK]. }
  { intro HQ. rewrite N.add_assoc. apply (lands_next f lo hi); [exact HL|exact SK|lia]. }
  assert (NX : forall pos, lands f lo hi pos -> lo + bytes <= pos -> pos = lo + bytes \/ lo + (bytes + lz_len r) <= pos).
  { intros pos L Q. destruct (N.lt_ge_cases pos (lo + bytes + lz_len r)) as [Q'|Q']; [left|right; lia].
    pose proof (inv_before f lo hi HB (lo + bytes) (lz_len r) pos I ltac:(lia) SK L Q'). lia. }
  assert (LOW : forall pos b, In (pos, b) (listing n (bytes + lz_len r)) -> lo + bytes < pos) by (intros pos b Q; apply IN in Q; lia).
  assert (NO : ~ (exists b, to_show p f lo hi (lo + bytes) b) -> StronglySorted N.lt (map fst (listing n (bytes + lz_len r))) /\
    forall pos b, In (pos, b) (listing n (bytes + lz_len r)) <-> to_show p f lo hi pos b /\ lo + bytes <= pos).
  { intro N0. split; [exact SS|]. intros pos b. rewrite IN. split; [intros [T Q]; split; [exact T|lia]|]. intros [T Q]. split; [exact T|].
    destruct T as (h & pl & L & T). destruct (NX pos L Q) as [->|Q']; [|exact Q']. exfalso. apply N0. exists b, h, pl. split; [exact L|exact T]. }
  destruct (lz_block r) as [b0|].
  - destruct RB as (h & pl & A & ->). destruct (is_meta (block_of h pl) && uid_wanted p (block_of h pl)) eqn:W.
    + apply Bool.andb_true_iff in W as [W1 W2]. rewrite is_meta_block, N.eqb_eq in W1. rewrite uid_wanted_ok in W2.
      assert (T : to_show p f lo hi (lo + bytes) (block_of h pl)) by (exists h, pl; split; [exact HL|]; split; [exact A|]; split; [exact W1|]; split; [exact W2|apply reads_as_block; reflexivity]).
      cbn [app map fst]. split.
      * constructor; [exact SS|]. apply Forall_forall. intros x X. apply in_map_iff in X as ([pos b] & <- & X). cbn [fst]. eapply LOW, X.
      * intros pos b. cbn [In]. rewrite IN. split.
        -- intros [E|[T' Q]]; [injection E as <- <-; split; [exact T|lia]|split; [exact T'|lia]].
        -- intros [T' Q]. destruct T' as (h' & pl' & L' & A' & T'). destruct (NX pos L' Q) as [->|Q'].
           ++ left. destruct (any_block_fun f _ _ _ _ _ A A') as [<- <-]. f_equal. symmetry. apply reads_as_block, T'.
           ++ right. split; [|exact Q']. exists h', pl'. split; [exact L'|]. split; [exact A'|exact T'].
    + cbn [app]. apply NO. intros (b & h' & pl' & L' & A' & S0 & U & _). destruct (any_block_fun f _ _ _ _ _ A A') as [<- <-].
      rewrite is_meta_block, (proj2 (N.eqb_eq _ _) S0), (proj2 (uid_wanted_ok h pl) U) in W. discriminate.
  - cbn [app]. apply NO. intros (b & h' & pl' & L' & A' & _). exact (RB h' pl' A').
Qed.
End Listing.

(* two lists sorted by position with the same members *)
Lemma sorted_same (l l' : list (N * block)) : StronglySorted N.lt (map fst l) -> StronglySorted N.lt (map fst l') -> (forall x, In x l <-> In x l') -> l = l'.
Proof.
  revert l'. induction l as [|x l IH]; intros [|y l'] S S' E; [reflexivity| | |].
  - destruct (proj2 (E y)); left; reflexivity.
  - destruct (proj1 (E x)); left; reflexivity.
  - cbn [map] in S, S'. inversion S as [|? ? S1 F1]. inversion S' as [|? ? S2 F2]. subst. rewrite Forall_forall in F1, F2.
    assert (X : x = y).
    { destruct (proj1 (E x) (or_introl eq_refl)) as [|I]; [congruence|]. destruct (proj2 (E y) (or_introl eq_refl)) as [|I']; [congruence|].
      apply (in_map fst) in I. apply (in_map fst) in I'. specialize (F2 _ I). specialize (F1 _ I'). lia. }
    subst y. f_equal. apply IH; try assumption. intro z. specialize (E z). cbn [In] in E. split; intro I.
    + destruct (proj1 E (or_intror I)) as [<-|I']; [|exact I']. apply (in_map fst) in I. specialize (F1 _ I). lia.
    + destruct (proj2 E (or_intror I)) as [<-|I']; [|exact I']. apply (in_map fst) in I. specialize (F2 _ I). lia.
Qed.
Lemma to_show_all_unique p f lo hi l l' : to_show_all p f lo hi l -> to_show_all p f lo hi l' -> l = l'.
Proof. intros [S E] [S' E']. apply sorted_same; [exact S|exact S'|]. intros [pos b]. rewrite E, E'. reflexivity. Qed.
Lemma listing_shown p f lo req : bytes_ok f = true -> lenN f < 18446744073709551616 ->
  calc_required_len_and_seek_to_from_byte_range (sp_from p) (sp_to p) (sp_misalign p) 0 (Len (lenN f)) None = (req, lo) ->
  to_show_all p f lo (lo + req) (listing p f lo req (S (length f)) 0).
Proof.
  intros HB HL E. assert (HF : lenN f - (lo + 0) < N.of_nat (S (length f))) by (unfold lenN; lia).
  destruct (range_in_file _ _ _ _ None _ _ ltac:(unfold mult_of; lia) HL E) as (A & B & _).
  destruct (listing_ok p f lo req HB (S (length f)) 0 HF) as [SS IN].
  - rewrite N.add_0_r. apply inv_start.
  - intro. rewrite N.add_0_r. constructor. lia.
  - split; [exact SS|]. intros pos b. rewrite IN. split; [intros [X _]; exact X|]. intro X. split; [exact X|].
    destruct X as (h & pl & LD & _). apply lands_ge in LD. lia.
Qed.
Lemma show_list cal p f lo hi : bytes_ok f = true -> lenN f < 18446744073709551616 -> show_range p f lo hi ->
  exists l, blocks_shown p f lo hi l /\ (forall l', blocks_shown p f lo hi l' -> l' = l) /\
    let '(req, lo') := calc_required_len_and_seek_to_from_byte_range (sp_from p) (sp_to p) (sp_misalign p) 0 (Len (lenN f)) None in
    show_loop (S (length f)) cal (fun _ => None) p f lo' req 0 0 = ROk (block_calls cal 0 l, None).
Proof.
  intros HB HL (req & E & ->). rewrite E. pose (L := listing p f lo req (S (length f)) 0).
  assert (HF : lenN f - (lo + 0) < N.of_nat (S (length f))) by (unfold lenN; lia).
  pose proof (listing_shown p f lo req HB HL E) as T. fold L in T.
  exists (if sp_all p then L else firstn 1 L). split; [exists L; auto|]. split.
  - intros l' (L' & T' & ->). rewrite (to_show_all_unique _ _ _ _ _ _ T' T). reflexivity.
  - apply show_loop_listing; [exact HB|exact HF].
Qed.

(* ---- the fields ---- *)
Definition pchar (c : N) : Prop := 32 <= c <= 126 /\ c <> 92.
Lemma dec_chars n : Forall pchar (dec n).
Proof.
  destruct (dec_ok n) as (D & _). unfold digits in D. eapply Forall_impl; [|exact D]. intros c H. unfold is_digit in H. unfold pchar. lia.
Qed.
Lemma dec_cons n : exists c t, dec n = c :: t /\ is_digit c = true.
Proof.
  destruct (dec_ok n) as (D & _ & NE). unfold digits in D. destruct (dec n) as [|c t]; [contradiction|]. inversion D. exists c, t. auto.
Qed.
Lemma last_in (l : list N) d : l <> [] -> In (last l d) l.
Proof. induction l as [|a [|b l] IH]; intro H; [contradiction|left; reflexivity|right; apply IH; discriminate]. Qed.
Lemma last_app_ne (a b : list N) d : b <> [] -> last (a ++ b) d = last b d.
Proof.
  intro H. induction a as [|x a IH]; [reflexivity|]. cbn [app last]. destruct (a ++ b) eqn:E; [|exact IH]. apply app_eq_nil in E as [_ E]. contradiction.
Qed.
Lemma dec_plain n : plain (dec n).
Proof.
  destruct (dec_ok n) as (D & _ & NE). unfold digits in D. split; [exact NE|]. split; [apply dec_chars|].
  rewrite Forall_forall in D. split.
  - destruct (dec n) as [|c t]; [contradiction|]. specialize (D c (or_introl eq_refl)). cbn [hd]. unfold is_digit in D. lia.
  - specialize (D _ (last_in _ 0 NE)). unfold is_digit in D. lia.
Qed.
Lemma null_plain : plain (str "null").
Proof. split; [discriminate|]. split; [repeat (apply Forall_cons; [cbn; lia|]); apply Forall_nil|]. split; discriminate. Qed.
Lemma hex_char up b : b < 16 -> pchar (hex_digit up b) /\ hex_digit up b <> 32.
Proof. intro H. unfold hex_digit, pchar. destruct (N.ltb_spec b 10), up; lia. Qed.
Lemma hex_chars up l : bytes_ok l = true -> Forall (fun c => pchar c /\ c <> 32) (concat (map (fmt_byte up) l)).
Proof.
  intro H. induction l as [|b l IH]; [constructor|]. cbn [bytes_ok forallb] in H. apply Bool.andb_true_iff in H as [H1 H2]. apply N.ltb_lt in H1.
  cbn [map concat fmt_byte app]. constructor; [apply hex_char, N.div_lt_upper_bound; lia|]. constructor; [apply hex_char, N.mod_lt; lia|]. apply IH, H2.
Qed.
Lemma hex_plain up l : bytes_ok l = true -> l <> [] -> plain (concat (map (fmt_byte up) l)).
Proof.
  intros H NE. pose proof (hex_chars up l H) as C. assert (NC : concat (map (fmt_byte up) l) <> []) by (destruct l; [contradiction|discriminate]).
  split; [exact NC|]. split; [eapply Forall_impl; [|exact C]; intros c [Q _]; exact Q|]. rewrite Forall_forall in C. split.
  - destruct (concat _) as [|c t]; [contradiction|]. apply (C c). left. reflexivity.
  - apply C, last_in, NC.
Qed.
Lemma not_numeral_hd c v : is_digit c = false -> c <> 43 -> ~ numeral (c :: v).
Proof.
  intros D P (d & [E|E] & _ & F & _).
  - subst d. cbn [forallb] in F. rewrite D in F. discriminate.
  - injection E as -> _. contradiction.
Qed.
Lemma not_numeral_in c v : is_digit c = false -> c <> 43 -> In c v -> ~ numeral v.
Proof.
  intros D P I (d & [E|E] & _ & F & _); subst v; rewrite forallb_forall in F.
  - rewrite (F c I) in D. discriminate.
  - destruct I as [I|I]; [congruence|]. rewrite (F c I) in D. discriminate.
Qed.
(* a text that contains a space is shown as a string *)
Lemma shown_space v : In 32 v -> shown false v (JStr v).
Proof.
  intro I. apply sh_str; try (intros ->; cbn in I; intuition discriminate). apply (not_numeral_in 32); [reflexivity|discriminate|exact I].
Qed.
Definition block_items (cal : calendar) (count pos : N) (b : block) : list item :=
  [FieldItem false (str "Metadata block number : " ++ dec count);
   FieldItem false (str "Found at byte          : " ++ dec pos);
   FieldItem true (str "File UID               : " ++ bytes_to_upper_hex_string (b_uid b));
   FieldItem false (str "File name              : " ++ or_null (fun x => x) (get_FNM b));
   FieldItem false (str "SBX container name     : " ++ or_null (fun x => x) (get_SNM b));
   FieldItem false (str "SBX container version  : " ++ dec (ver_to_usize (b_version b)));
   FieldItem false (str "RS data shard count    : " ++ if ver_uses_rs (b_version b) then or_null dec (opt_RSD b) else str "null");
   FieldItem false (str "RS parity shard count  : " ++ if ver_uses_rs (b_version b) then or_null dec (opt_RSP b) else str "null");
   FieldItem false (str "File size              : " ++ or_null dec (get_FSZ b));
   FieldItem false (str "File modification time : " ++ or_null (show_time cal) (get_FDT b));
   FieldItem false (str "SBX encoding time      : " ++ or_null (show_time cal) (get_SDT b));
   FieldItem false (str "Hash                   : " ++ or_null (fun h => hash_type_to_string (fst h) ++ str " - " ++ bytes_to_lower_hex_string (snd h)) (get_HSH b))].
Lemma show_block_items cal i pos b : show_block cal i pos b = calls (GroupItem None Curly (block_items cal i pos b)).
Proof. reflexivity. Qed.

Definition fine (force : bool) (v : list N) (j : json) : Prop := plain v /\ shown force v j.
Lemma fine_dec n : n < 18446744073709551616 -> fine false (dec n) (num n).
Proof. intro H. split; [apply dec_plain|apply sh_num, H]. Qed.
Lemma fine_opt {A} (g : A -> list N) (k : A -> json) o : (forall x, o = Some x -> fine false (g x) (k x)) -> fine false (or_null g o) (opt k o).
Proof. intro H. destruct o as [x|]; [apply H; reflexivity|]. split; [apply null_plain|apply sh_null]. Qed.
Lemma two_ok n : fmt_02 n = two n.
Proof.
  unfold fmt_02, two. destruct (N.ltb_spec n 10) as [H|H]; [|reflexivity].
  assert (E : exists k, (k < 10)%nat /\ n = N.of_nat k) by (exists (N.to_nat n); lia). destruct E as (k & HK & ->).
  do 10 (destruct k as [|k]; [reflexivity|]). lia.
Qed.
Lemma year_ok y : fmt_int y = if (0 <=? y)%Z then dec (Z.to_N y) else str "-" ++ dec (Z.to_N (- y)).
Proof.
  unfold fmt_int. destruct (Z.leb_spec 0 y), (Z.ltb_spec y 0); try lia.
  - cbn [app]. f_equal. lia.
  - f_equal. f_equal. lia.
Qed.
Lemma date_time_ok cal x m : i64_secs_to_date_time_string cal x m = option_map date_time (cal m x).
Proof.
  unfold i64_secs_to_date_time_string. destruct (cal m x) as [[[[[[year month] day] hour] minute] second]|]; [|reflexivity].
  cbn [option_map date_time]. rewrite year_ok, !two_ok. reflexivity.
Qed.
Ltac chars := repeat (apply Forall_cons; [unfold pchar; cbn; lia|]); apply Forall_nil.
Lemma two_chars n : Forall pchar (two n).
Proof. rewrite <- two_ok. unfold fmt_02. apply Forall_app. split; [destruct (n <? 10); chars|apply dec_chars]. Qed.
Lemma date_time_chars d : Forall pchar (date_time d) /\ exists c t, date_time d = c :: t /\ (is_digit c = true \/ c = 45).
Proof.
  destruct d as [[[[[year month] day] hour] minute] second]. cbn [date_time]. split.
  - repeat (apply Forall_app; split); try apply two_chars; try chars. destruct (0 <=? year)%Z; [apply dec_chars|apply Forall_app; split; [chars|apply dec_chars]].
  - destruct (0 <=? year)%Z.
    + destruct (dec_cons (Z.to_N year)) as (c & t & -> & D). cbn [app]. eauto.
    + cbn [app]. eexists _, _. split; [reflexivity|]. right. reflexivity.
Qed.
Lemma fine_time cal x : fine false (show_time cal x) (time_json cal x).
Proof.
  unfold show_time, time_json. rewrite !date_time_ok. destruct (cal UTC x) as [u|], (cal Local x) as [l|]; cbn [option_map];
    try (split; [split; [discriminate|split; [chars|split; discriminate]]|apply shown_space; cbn; tauto]).
  destruct (date_time_chars u) as [CU (c & t & E & D)]. destruct (date_time_chars l) as [CL _]. split.
  - split; [rewrite E; discriminate|]. split.
    { repeat (apply Forall_app; split); try assumption; chars. }
    split.
    + rewrite E. cbn [app hd]. destruct D as [D| ->]; [|discriminate]. intros ->. discriminate D.
    + rewrite !app_assoc. rewrite last_app_ne by discriminate. discriminate.
  - apply shown_space. apply in_or_app. right. apply in_or_app. left. cbn. tauto.
Qed.
Lemma hash_name_ok t : hash_type_to_string t = hash_name t.
Proof. destruct t; reflexivity. Qed.
Lemma fine_hash h : lenN (snd h) = hash_len (fst h) /\ bytes_ok (snd h) = true ->
  fine false (hash_type_to_string (fst h) ++ str " - " ++ bytes_to_lower_hex_string (snd h)) (hash_json h).
Proof.
  unfold hash_json. rewrite <- (hash_name_ok (fst h)). destruct h as [ht d]. cbn [fst snd]. intros [L B]. assert (NE : d <> []) by (intros ->; destruct ht; discriminate L).
  destruct (hex_plain false d B NE) as (N1 & C1 & _ & L1). change (concat (map (fmt_byte false) d)) with (bytes_to_lower_hex_string d) in *.
  split.
  - split; [destruct ht; discriminate|]. split; [apply Forall_app; split; [destruct ht; chars|apply Forall_app; split; [chars|exact C1]]|].
    split; [destruct ht; discriminate|]. rewrite app_assoc, last_app_ne by exact N1. exact L1.
  - apply shown_space. apply in_or_app. right. left. reflexivity.
Qed.

Ltac is_word := split; [repeat (apply Forall_cons; [cbn; lia|]); apply Forall_nil|discriminate].
Definition block_fine (b : block) : Prop :=
  fine true (bytes_to_upper_hex_string (b_uid b)) (JStr (bytes_to_upper_hex_string (b_uid b))) /\
  (forall x, get_FNM b = Some x -> fine false x (JStr x)) /\ (forall x, get_SNM b = Some x -> fine false x (JStr x)) /\
  (forall x, opt_RSD b = Some x -> x < 18446744073709551616) /\ (forall x, opt_RSP b = Some x -> x < 18446744073709551616) /\
  (forall x, get_FSZ b = Some x -> x < 18446744073709551616) /\
  (forall h, get_HSH b = Some h -> lenN (snd h) = hash_len (fst h) /\ bytes_ok (snd h) = true).
Lemma fine_field force words key n m v j : spelled words key -> fine force v j -> member (FieldItem force (key ++ repN n 32 ++ str ":" ++ repN m 32 ++ v)) (camel words) j.
Proof. intros S [P H]. apply m_field; assumption. Qed.
Lemma spell2 a b : word (str a) -> word (str b) -> spelled [str a; str b] (str a ++ [32] ++ str b).
Proof. intros A B. apply (sp_more _ _ 1); [exact A|lia|apply sp_one, B]. Qed.
Lemma spell3 a b c : word (str a) -> word (str b) -> word (str c) -> spelled [str a; str b; str c] (str a ++ [32] ++ str b ++ [32] ++ str c).
Proof. intros A B C. apply (sp_more _ _ 1); [exact A|lia|apply spell2; assumption]. Qed.
Lemma spell4 a b c d : word (str a) -> word (str b) -> word (str c) -> word (str d) ->
  spelled [str a; str b; str c; str d] (str a ++ [32] ++ str b ++ [32] ++ str c ++ [32] ++ str d).
Proof. intros A B C D. apply (sp_more _ _ 1); [exact A|lia|apply spell3; assumption]. Qed.
Lemma block_members cal i pos b : i < 18446744073709551616 -> pos < 18446744073709551616 -> block_fine b ->
  contents Curly (block_items cal i pos b) (block_json cal i (pos, b)).
Proof.
  intros HI HP (U & FN & SN & RD & RP & FS & HS). unfold block_json, block_items. cbn [fst snd]. apply c_object.
  assert (OD : forall o, (forall x, o = Some x -> x < 18446744073709551616) -> fine false (or_null dec o) (opt num o)) by (intros o H; apply fine_opt; intros x E; apply fine_dec, H, E).
  assert (ON : forall o, (forall x, o = Some x -> fine false x (JStr x)) -> fine false (or_null (fun x => x) o) (opt JStr o)) by (intros o H; apply fine_opt; exact H).
  assert (VB : ver_to_usize (b_version b) < 18446744073709551616) by (destruct (b_version b); reflexivity).
  repeat (apply ms_cons || apply ms_nil).
  - apply (fine_field false [str "Metadata"; str "block"; str "number"] (str "Metadata block number") 1 1 (dec i) (num i)); [apply (spell3 "Metadata" "block" "number"); is_word|apply fine_dec, HI].
  - apply (fine_field false [str "Found"; str "at"; str "byte"] (str "Found at byte") 10 1 (dec pos) (num pos)); [apply (spell3 "Found" "at" "byte"); is_word|apply fine_dec, HP].
  - apply (fine_field true [str "File"; str "UID"] (str "File UID") 15 1); [apply (spell2 "File" "UID"); is_word|exact U].
  - apply (fine_field false [str "File"; str "name"] (str "File name") 14 1); [apply (spell2 "File" "name"); is_word|apply ON, FN].
  - apply (fine_field false [str "SBX"; str "container"; str "name"] (str "SBX container name") 5 1); [apply (spell3 "SBX" "container" "name"); is_word|apply ON, SN].
  - apply (fine_field false [str "SBX"; str "container"; str "version"] (str "SBX container version") 2 1); [apply (spell3 "SBX" "container" "version"); is_word|apply fine_dec, VB].
  - apply (fine_field false [str "RS"; str "data"; str "shard"; str "count"] (str "RS data shard count") 4 1); [apply (spell4 "RS" "data" "shard" "count"); is_word|].
    destruct (ver_uses_rs (b_version b)); [apply OD, RD|apply (OD None); discriminate].
  - apply (fine_field false [str "RS"; str "parity"; str "shard"; str "count"] (str "RS parity shard count") 2 1); [apply (spell4 "RS" "parity" "shard" "count"); is_word|].
    destruct (ver_uses_rs (b_version b)); [apply OD, RP|apply (OD None); discriminate].
  - apply (fine_field false [str "File"; str "size"] (str "File size") 14 1); [apply (spell2 "File" "size"); is_word|apply OD, FS].
  - apply (fine_field false [str "File"; str "modification"; str "time"] (str "File modification time") 1 1); [apply (spell3 "File" "modification" "time"); is_word|].
    apply fine_opt. intros x _. apply fine_time.
  - apply (fine_field false [str "SBX"; str "encoding"; str "time"] (str "SBX encoding time") 6 1); [apply (spell3 "SBX" "encoding" "time"); is_word|].
    apply fine_opt. intros x _. apply fine_time.
  - apply (fine_field false [str "Hash"] (str "Hash") 19 1); [apply sp_one; is_word|]. apply fine_opt. intros h E. apply fine_hash, HS, E.
Qed.
(* the blocks of a file are fine if their names are *)
Lemma to_show_fine p f lo hi pos b : bytes_ok f = true -> to_show p f lo hi pos b -> plain_name (get_FNM b) -> plain_name (get_SNM b) -> block_fine b.
Proof.
  intros HB (h & pl & _ & (HO & LP & TK & _) & _ & _ & R) N1 N2. apply reads_as_block in R. subst b.
  assert (BP : bytes_ok pl = true).
  { assert (X : bytes_ok (takeN (ver_to_block_size (h_version h)) (dropN pos f)) = true) by (apply bytes_ok_take, bytes_ok_drop, HB). rewrite TK in X.
    rewrite bytes_ok_app in X. apply Bool.andb_true_iff in X. apply X. }
  apply header_ok_spec in HO. 
  pose proof (from_bytes_fields_ok pl BP) as FO. rewrite Forall_forall in FO.
  assert (GM : forall i m, block_get_meta (block_of h pl) i = Some m -> field_ok m).
  { intros i m E. unfold block_get_meta, block_of in E. cbn [b_data] in E. destruct (h_seq_num h <? 1); [|discriminate]. apply FO.
    apply get_first_with in E as (pre & post & -> & _). apply in_or_app. right. left. reflexivity. }
  split; [|split; [|split; [|split; [|split; [|split]]]]].
  - split; [|apply sh_quoted]. apply hex_plain; [apply HO|]. intro E. destruct HO as (_ & L & _). unfold b_uid, block_of in E. cbn [b_header] in E. rewrite E in L. discriminate L.
  - intros x E. rewrite E in N1. exact N1.
  - intros x E. rewrite E in N2. exact N2.
  - intros x E. unfold opt_RSD in E. destruct (block_get_meta _ IRSD) as [[]|] eqn:M; try discriminate E. injection E as <-. apply GM in M. cbn [field_ok] in M. lia.
  - intros x E. unfold opt_RSP in E. destruct (block_get_meta _ IRSP) as [[]|] eqn:M; try discriminate E. injection E as <-. apply GM in M. cbn [field_ok] in M. lia.
  - intros x E. unfold get_FSZ in E. destruct (block_get_meta _ IFSZ) as [[]|] eqn:M; try discriminate E. injection E as <-. apply GM in M. cbn [field_ok] in M. exact M.
  - intros x E. unfold get_HSH in E. destruct (block_get_meta _ IHSH) as [[]|] eqn:M; try discriminate E. injection E as <-. apply GM in M. destruct h0 as [ht d]. exact M.
Qed.
Fixpoint blocks_items (cal : calendar) (i : N) (l : list (N * block)) : list item :=
  match l with [] => [] | (pos, b) :: l' => GroupItem None Curly (block_items cal i pos b) :: blocks_items cal (i + 1) l' end.
Lemma block_calls_items cal : forall l i, block_calls cal i l = flat_map calls (blocks_items cal i l).
Proof. induction l as [|[pos b] l IH]; intro i; [reflexivity|]. cbn [block_calls blocks_items flat_map]. rewrite IH, show_block_items. reflexivity. Qed.
Lemma blocks_elements cal : forall l i, i + lenN l <= 18446744073709551616 -> (forall pos b, In (pos, b) l -> pos < 18446744073709551616 /\ block_fine b) ->
  elements (blocks_items cal i l) (blocks_json cal i l).
Proof.
  induction l as [|[pos b] l IH]; intros i HI H; [apply es_nil|]. cbn [blocks_items blocks_json]. rewrite lenN_cons in HI. destruct (H pos b (or_introl eq_refl)) as [HP BF]. apply es_cons.
  - apply block_members; [lia|exact HP|exact BF].
  - apply IH; [lia|]. intros pos' b' I. apply H. right. exact I.
Qed.
(* there are no more blocks than positions *)
Lemma sorted_len (l : list N) b : StronglySorted N.lt l -> (forall x, In x l -> x < b) -> lenN l <= b.
Proof.
  intros S H. assert (A : forall a, (forall x, In x l -> a <= x) -> l = [] \/ a + lenN l <= b).
  { induction S as [|x l S IH F]; intros a G; [left; reflexivity|right]. rewrite lenN_cons. rewrite Forall_forall in F.
    pose proof (G x (or_introl eq_refl)). pose proof (H x (or_introl eq_refl)).
    destruct (IH (fun y Y => H y (or_intror Y)) (x + 1)) as [->|Q]; [intros y Y; specialize (F y Y); lia|change (lenN (@nil N)) with 0; lia|lia]. }
  destruct (A 0 (fun x _ => N.le_0_l x)) as [->|Q]; [apply N.le_0_l|lia].
Qed.
Lemma shown_sublist p f lo hi l : blocks_shown p f lo hi l -> StronglySorted N.lt (map fst l) /\ forall pos b, In (pos, b) l -> to_show p f lo hi pos b.
Proof.
  intros (L & (S & T) & ->). destruct (sp_all p); [split; [exact S|intros pos b; apply T]|]. destruct L as [|[pos b] L]; [split; [constructor|intros ? ? []]|]. cbn [firstn]. split.
  - cbn [map fst]. constructor; constructor.
  - intros pos' b' [E|[]]. apply T. left. exact E.
Qed.
Lemma blocks_contents cal p f lo hi l : bytes_ok f = true -> lenN f < 18446744073709551616 -> hi <= lenN f \/ lenN f = 0 /\ hi <= 1 ->
  blocks_shown p f lo hi l -> plain_names l -> contents Square (blocks_items cal 0 l) (JArr (blocks_json cal 0 l)).
Proof.
  intros HB HL HH BS PN. destruct (shown_sublist _ _ _ _ _ BS) as [S T]. unfold plain_names in PN. rewrite Forall_forall in PN.
  assert (P : forall pos b, In (pos, b) l -> pos < 18446744073709551615).
  { intros pos b I. apply T in I as (h & pl & L & _). apply lands_ge in L. lia. }
  apply c_array, blocks_elements.
  - rewrite N.add_0_l. rewrite <- (lenN_map fst). apply N.le_trans with 18446744073709551615; [|lia]. apply sorted_len; [exact S|].
    intros x I. apply in_map_iff in I as ([pos b] & <- & I). eapply P, I.
  - intros pos b I. destruct (PN _ I) as [N1 N2]. split; [specialize (P _ _ I); lia|]. eapply to_show_fine; [exact HB|apply T, I|exact N1|exact N2].
Qed.
