(* Lemmas on calc: tolerance, JSON, counts. *)
From Coq Require Import String Ascii.
From Verif Require Import M_Base M_Specs M_Header M_Multihash M_Metadata M_Block M_Index M_FileUtils M_Buffer M_Ranges M_Encode M_Scan M_Loop M_Decode M_Repair M_Rescue M_Json M_Show M_Path M_Cli M_Calc
  S_Meta S_Block S_Index S_Container S_Scan S_Decode S_Encode S_Repair S_Json S_Show S_Calc
  L_Base L_File L_Index L_Index2 L_Log L_Json L_Json2 L_Show P_Json P_Show.
Ltac Zify.zify_post_hook ::= idtac.

(* ---- tolerance ---- *)
Lemma tl_burst_max d p B : tl_burst (calc_tolerance d p B) = N.max B 1.
Proof. unfold calc_tolerance. destruct (N.eqb_spec B 0); cbn [tl_burst]; lia. Qed.
Lemma tl_count_par d p B : tl_count (calc_tolerance d p B) = p.
Proof. unfold calc_tolerance. destruct (B =? 0); reflexivity. Qed.
Lemma tl_super_div d p B seq : 1 <= d -> (seq - 1) / tl_super (calc_tolerance d p B) = set_of d p seq / N.max B 1.
Proof.
  intro D. unfold calc_tolerance, set_of. destruct (N.eqb_spec B 0) as [->|Z]; cbn [tl_super].
  - change (N.max 0 1) with 1. rewrite N.div_1_r. reflexivity.
  - rewrite N.div_div by lia. replace (N.max B 1) with B by lia. reflexivity.
Qed.
Lemma tl_longest_mul d p B : tl_longest (calc_tolerance d p B) = p * N.max B 1.
Proof. unfold calc_tolerance. destruct (N.eqb_spec B 0) as [->|Z]; cbn [tl_longest]; [change (N.max 0 1) with 1; lia|]. replace (N.max B 1) with B by lia. reflexivity. Qed.

Lemma per_set d p B n bursts : 1 <= d ->
  let t := calc_tolerance d p B in
  (forall k, at_most (tl_count t) (tl_super t) (tl_burst t) (Some (d, p, B)) n bursts k) ->
  forall k l, NoDup l ->
    (forall s, In s l -> 1 <= s <= n /\ set_of d p s = k /\ hitb (tl_burst t) bursts (calc_data_block_write_index s (Some true) (Some (d, p, B))) = true) ->
    lenN l <= p.
Proof.
  intros D t AM k l ND HL. set (w := fun s => calc_data_block_write_index s (Some true) (Some (d, p, B))) in *.
  assert (TB : tl_burst t = N.max B 1) by apply tl_burst_max. rewrite TB in *.
  set (g := fun s => match find (fun b => (b <=? w s) && (w s <? b + N.max B 1)) bursts with Some b => b | None => 0 end).
  assert (G : forall s, In s l -> In (g s) bursts /\ g s <= w s < g s + N.max B 1).
  { intros s I. destruct (HL s I) as (_ & _ & H). unfold g. fold (w s) in H. unfold hitb in H.
    destruct (find _ bursts) as [b|] eqn:F.
    - apply find_some in F as [F1 F2]. apply andb_true_iff in F2. rewrite N.leb_le, N.ltb_lt in F2. auto.
    - exfalso. apply existsb_exists in H as (x & X1 & X2). pose proof (find_none _ _ F x X1) as X3. cbn beta in X3. congruence. }
  assert (AP : forall s1 s2, In s1 l -> In s2 l -> s1 < s2 -> g s1 <> g s2).
  { intros s1 s2 I1 I2 LT E. destruct (HL s1 I1) as (A1 & S1 & _), (HL s2 I2) as (A2 & S2 & _).
    pose proof (same_set_apart (Some true) d p B s1 s2 D ltac:(lia) LT ltac:(congruence)) as X. fold (w s1) (w s2) in X.
    destruct (G s1 I1) as (_ & G1), (G s2 I2) as (_ & G2). lia. }
  specialize (AM (k / N.max B 1) (map g l)). rewrite (tl_count_par d p B : tl_count t = p) in AM. unfold lenN in AM. rewrite map_length in AM. apply AM.
  - clear AM. induction ND as [|s l NI ND IH]; [constructor|]. cbn [map]. constructor.
    + intro I. apply in_map_iff in I as (s' & E & I). assert (NE : s' <> s) by (intros ->; contradiction).
      destruct (N.lt_total s s') as [C|[C|C]]; [apply (AP s s'); auto with datatypes|congruence|apply (AP s' s); auto with datatypes].
    + apply IH; intros; [apply HL|apply G|apply AP]; auto with datatypes.
  - intros b I. apply in_map_iff in I as (s & <- & I). destruct (G s I) as (G1 & G2), (HL s I) as (A & S & _). split; [exact G1|]. exists s. split; [exact A|].
    split; [rewrite (tl_super_div d p B s D : (s - 1) / tl_super t = _), S; reflexivity|exact G2].
Qed.
Lemma single_burst p L s i : 1 <= L -> hit (p * L) [s] i <-> hit L (map (fun j => s + j * L) (rangeN 0 p)) i.
Proof.
  intro HL. split.
  - intros (x & [<-|[]] & A). exists (s + (i - s) / L * L). split.
    + apply in_map_iff. exists ((i - s) / L). split; [reflexivity|]. apply In_rangeN. split; [apply N.le_0_l|]. apply N.div_lt_upper_bound; lia.
    + pose proof (N.div_mod (i - s) L ltac:(lia)). pose proof (N.mod_lt (i - s) L ltac:(lia)). nia.
  - intros (x & I & A). apply in_map_iff in I as (j & <- & I). apply In_rangeN in I. exists s. split; [left; reflexivity|]. nia.
Qed.

(* ---- JSON: keys may be indented ---- *)
Lemma split_lead a ws key n m val : spelled ws key -> plain val ->
  split_key_val_pair (repN a 32 ++ key ++ repN n 32 ++ str ":" ++ repN m 32 ++ val) = ROk (key, val).
Proof.
  intros S (NV & CV & V1 & V2). destruct (spelled_chars ws key S) as (CK & NK & K1 & K2).
  set (s := repN a 32 ++ key ++ _).
  assert (SP : forall n (P : N -> Prop), P 32 -> Forall P (repN n 32)) by (intros; apply Forall_forall; intros x I; apply In_repN in I; subst; assumption).
  assert (AK : ascii_only key) by (eapply Forall_impl; [|exact CK]; cbn; intros; lia).
  assert (AV : ascii_only val) by (eapply Forall_impl; [|exact CV]; cbn; intros; lia).
  assert (AS : ascii_only s). { unfold s, ascii_only. repeat (apply Forall_app; split); try assumption; try (apply SP; lia). repeat constructor. }
  assert (ES : s = (repN a 32 ++ key ++ repN n 32) ++ 58 :: (repN m 32 ++ val)) by (unfold s; rewrite <- !app_assoc; reflexivity).
  clearbody s. unfold split_key_val_pair. rewrite chars_ascii by assumption.
  assert (EF : find_char 58 s 0 = Some (0 + lenN (repN a 32 ++ key ++ repN n 32))).
  { rewrite ES. apply find_char_app. apply Forall_app. split; [apply SP; lia|]. apply Forall_app. split; [eapply Forall_impl; [|exact CK]; cbn; intros; lia|apply SP; lia]. }
  rewrite EF.
  rewrite N.add_0_l. remember (lenN (repN a 32 ++ key ++ repN n 32)) as p eqn:EP.
  assert (LS : lenN s = p + 1 + lenN (repN m 32 ++ val)) by (rewrite ES, lenN_app, lenN_cons; lia).
  rewrite !slice_ascii by (assumption || lia). rewrite N.sub_0_r.
  assert (E0 : sliceN 0 p s = repN a 32 ++ key ++ repN n 32).
  { rewrite ES. rewrite slice_app_l by lia. apply slice_all. rewrite EP. apply N.le_refl. }
  rewrite E0.
  cbn [rbind]. rewrite strip_ok; [| apply Forall_app; split; [apply SP; lia|]; apply Forall_app; split; [assumption|apply SP; lia] | apply SP; left; reflexivity | apply SP; left; reflexivity | assumption | change (str " ") with [32]; intros [X|[]]; congruence | change (str " ") with [32]; intros [X|[]]; congruence].
  cbn [rbind].
  replace (sliceN (p + 1) (lenN s - (p + 1)) s) with (repN m 32 ++ val ++ []).
  2:{ rewrite app_nil_r. rewrite ES at 2. rewrite slice_app_r by lia. rewrite <- EP. replace (p + 1 - p) with 1 by lia.
      replace (58 :: repN m 32 ++ val) with ([58] ++ (repN m 32 ++ val)) by reflexivity. rewrite slice_app_r by (rewrite lenN_cons, lenN_nil; lia).
      replace (1 - lenN [58]) with 0 by reflexivity. symmetry. apply slice_all. rewrite LS. apply N.eq_le_incl. clear. lia. }
  rewrite strip_ok; [reflexivity| |apply SP; left; reflexivity|apply Forall_nil|assumption|change (str " ") with [32]; intros [X|[]]; congruence|change (str " ") with [32]; intros [X|[]]; congruence].
  rewrite app_nil_r. apply Forall_app; split; [apply SP; lia|assumption].
Qed.
(* a call that does the same as another *)
Definition same_call (c c' : call) : Prop := forall st, do_call c st = do_call c' st.
Lemma same_calls cs cs' : Forall2 same_call cs cs' -> forall st, do_calls cs st = do_calls cs' st.
Proof. induction 1 as [|c c' cs cs' H HS IH]; intro st; [reflexivity|]. cbn [do_calls]. rewrite H. destruct (do_call c' st) as [[t st']| |]; cbn [rbind]; [rewrite IH|..]; reflexivity. Qed.
Lemma lead_call a ws key n m val : spelled ws key -> plain val ->
  same_call (Field false (repN a 32 ++ key ++ repN n 32 ++ str ":" ++ repN m 32 ++ val)) (Field false (key ++ repN n 32 ++ str ":" ++ repN m 32 ++ val)).
Proof. intros S V st. cbn [do_call]. rewrite (split_lead a ws key n m val S V), (split_ok ws key n m val S V). reflexivity. Qed.
Fixpoint build (r : list (list N * N)) (w : list N) : list N := match r with [] => w | (x, n) :: r' => x ++ repN n 32 ++ build r' w end.
Lemma build_spelled r w : Forall (fun x => word (fst x) /\ 1 <= snd x) r -> word w -> spelled (map fst r ++ [w]) (build r w).
Proof. intros F W. induction F as [|[x n] r (A & B) F IH]; cbn [map app build fst snd] in *; [apply sp_one, W|]. apply sp_more; assumption. Qed.
(* one field: indentation, words with gaps, gap before the colon, value *)
Definition fld (a : N) (r : list (list N * N)) (w : list N) (n : N) (val : list N) : list N := repN a 32 ++ build r w ++ repN n 32 ++ str ":" ++ repN 1 32 ++ val.
Lemma fld_ok a r w n val j : Forall (fun x => word (fst x) /\ 1 <= snd x) r -> word w -> fine false val j ->
  same_call (Field false (fld a r w n val)) (Field false (fld 0 r w n val)) /\ member (FieldItem false (fld 0 r w n val)) (camel (map fst r ++ [w])) j.
Proof.
  intros F W (P & S). pose proof (build_spelled r w F W) as SP. split; [exact (lead_call a _ _ n 1 val SP P)|]. exact (m_field false _ _ n 1 val j SP P S).
Qed.
Ltac words := repeat (apply Forall_cons; [split; [is_word|cbn; lia]|]); apply Forall_nil.
Lemma null_fine : fine false (str "null") JNull. Proof. split; [apply null_plain|apply sh_null]. Qed.
Definition fields_ok (cs : list call) (ms : list (list N * json)) : Prop :=
  exists l, Forall2 same_call cs (flat_map calls l) /\ members l ms.
Lemma fields_nil : fields_ok [] [].
Proof. exists []. split; constructor. Qed.
Lemma fields_cons a r w n val j k cs ms : Forall (fun x => word (fst x) /\ 1 <= snd x) r -> word w -> fine false val j -> k = camel (map fst r ++ [w]) ->
  fields_ok cs ms -> fields_ok (Field false (fld a r w n val) :: cs) ((k, j) :: ms).
Proof.
  intros F W V -> (l & S & M). destruct (fld_ok a r w n val j F W V) as (A & B). exists (FieldItem false (fld 0 r w n val) :: l). split; [|constructor; assumption].
  cbn [flat_map calls app]. constructor; assumption.
Qed.
Lemma same_refl c : same_call c c. Proof. intro st. reflexivity. Qed.
Lemma Forall2_same cs : Forall2 same_call cs cs. Proof. induction cs; constructor; [apply same_refl|assumption]. Qed.

Definition small64 (n : N) : Prop := n < 18446744073709551616.
Ltac one a r w n v := refine (fields_cons a r w n v _ _ _ _ _ _ _ _ _); [words|is_word|first [apply fine_dec; assumption|apply null_fine]|reflexivity|].
Lemma calc_fields_rs v meta data parity total d p B size csize :
  small64 (ver_to_usize v) -> small64 (ver_to_block_size v) -> small64 (ver_to_data_size v) -> small64 meta -> small64 data -> small64 parity -> small64 total ->
  small64 d -> small64 p -> small64 B -> small64 size -> small64 csize ->
  fields_ok
   [Field false (str "    SBX container version        : " ++ dec (ver_to_usize v));
    Field false (str "    SBX container block size     : " ++ dec (ver_to_block_size v));
    Field false (str "    SBX container data  size     : " ++ dec (ver_to_data_size v));
    Field false (str "    Metadata    block count      : " ++ dec meta);
    Field false (str "    Data only   block count      : " ++ dec data);
    Field false (str "    Data parity block count      : " ++ dec parity);
    Field false (str "    Total       block count      : " ++ dec total);
    Field false (str "    RS data   shard count        : " ++ dec d);
    Field false (str "    RS parity shard count        : " ++ dec p);
    Field false (str "    Burst error resistance level : " ++ dec B);
    Field false (str "    File size                    : " ++ dec size);
    Field false (str "    SBX container size           : " ++ dec csize)]
   [(str "sbxContainerVersion", num (ver_to_usize v)); (str "sbxContainerBlockSize", num (ver_to_block_size v)); (str "sbxContainerDataSize", num (ver_to_data_size v));
    (str "metadataBlockCount", num meta); (str "dataOnlyBlockCount", num data); (str "dataParityBlockCount", num parity);
    (str "totalBlockCount", num total); (str "rsDataShardCount", num d); (str "rsParityShardCount", num p); (str "burstErrorResistanceLevel", num B);
    (str "fileSize", num size); (str "sbxContainerSize", num csize)].
Proof.
  intros.
  one 4 [(str "SBX", 1); (str "container", 1)] (str "version") 8 (dec (ver_to_usize v)).
  one 4 [(str "SBX", 1); (str "container", 1); (str "block", 1)] (str "size") 5 (dec (ver_to_block_size v)).
  one 4 [(str "SBX", 1); (str "container", 1); (str "data", 2)] (str "size") 5 (dec (ver_to_data_size v)).
  one 4 [(str "Metadata", 4); (str "block", 1)] (str "count") 6 (dec meta).
  one 4 [(str "Data", 1); (str "only", 3); (str "block", 1)] (str "count") 6 (dec data).
  one 4 [(str "Data", 1); (str "parity", 1); (str "block", 1)] (str "count") 6 (dec parity).
  one 4 [(str "Total", 7); (str "block", 1)] (str "count") 6 (dec total).
  one 4 [(str "RS", 1); (str "data", 3); (str "shard", 1)] (str "count") 8 (dec d).
  one 4 [(str "RS", 1); (str "parity", 1); (str "shard", 1)] (str "count") 8 (dec p).
  one 4 [(str "Burst", 1); (str "error", 1); (str "resistance", 1)] (str "level") 1 (dec B).
  one 4 [(str "File", 1)] (str "size") 20 (dec size).
  one 4 [(str "SBX", 1); (str "container", 1)] (str "size") 11 (dec csize).
  apply fields_nil.
Qed.
Lemma calc_fields_plain v meta data total size csize :
  small64 (ver_to_usize v) -> small64 (ver_to_block_size v) -> small64 (ver_to_data_size v) -> small64 meta -> small64 data -> small64 total ->
  small64 size -> small64 csize ->
  fields_ok
   [Field false (str "    SBX container version        : " ++ dec (ver_to_usize v));
    Field false (str "    SBX container block size     : " ++ dec (ver_to_block_size v));
    Field false (str "    SBX container data  size     : " ++ dec (ver_to_data_size v));
    Field false (str "    Metadata block count         : " ++ dec meta);
    Field false (str "    Data     block count         : " ++ dec data);
    Field false (str "    Total    block count         : " ++ dec total);
    Field false (str "    RS data   shard count        : " ++ str "null");
    Field false (str "    RS parity shard count        : " ++ str "null");
    Field false (str "    Burst error resistance level : " ++ str "null");
    Field false (str "    File size                    : " ++ dec size);
    Field false (str "    SBX container size           : " ++ dec csize)]
   [(str "sbxContainerVersion", num (ver_to_usize v)); (str "sbxContainerBlockSize", num (ver_to_block_size v)); (str "sbxContainerDataSize", num (ver_to_data_size v));
    (str "metadataBlockCount", num meta); (str "dataBlockCount", num data); (str "totalBlockCount", num total);
    (str "rsDataShardCount", JNull); (str "rsParityShardCount", JNull); (str "burstErrorResistanceLevel", JNull);
    (str "fileSize", num size); (str "sbxContainerSize", num csize)].
Proof.
  intros.
  one 4 [(str "SBX", 1); (str "container", 1)] (str "version") 8 (dec (ver_to_usize v)).
  one 4 [(str "SBX", 1); (str "container", 1); (str "block", 1)] (str "size") 5 (dec (ver_to_block_size v)).
  one 4 [(str "SBX", 1); (str "container", 1); (str "data", 2)] (str "size") 5 (dec (ver_to_data_size v)).
  one 4 [(str "Metadata", 1); (str "block", 1)] (str "count") 9 (dec meta).
  one 4 [(str "Data", 5); (str "block", 1)] (str "count") 9 (dec data).
  one 4 [(str "Total", 4); (str "block", 1)] (str "count") 9 (dec total).
  one 4 [(str "RS", 1); (str "data", 3); (str "shard", 1)] (str "count") 8 (str "null").
  one 4 [(str "RS", 1); (str "parity", 1); (str "shard", 1)] (str "count") 8 (str "null").
  one 4 [(str "Burst", 1); (str "error", 1); (str "resistance", 1)] (str "level") 1 (str "null").
  one 4 [(str "File", 1)] (str "size") 20 (dec size).
  one 4 [(str "SBX", 1); (str "container", 1)] (str "size") 11 (dec csize).
  apply fields_nil.
Qed.
Lemma calc_means cs ms : fields_ok cs ms ->
  means ([Open None Curly; Open (Some (str "stats")) Curly] ++ cs ++ [Close; Field false (str "error : null"); Close]) (JObj [(str "stats", JObj ms); (str "error", JNull)]).
Proof.
  intros (l & S & M). destruct (means_items [GroupItem (Some (str "stats")) Curly l; FieldItem false (str "error : null")] [(str "stats", JObj ms); (str "error", JNull)]) as (t & E & J).
  { apply ms_cons; [apply (m_group [str "stats"]); [apply sp_one; is_word|apply c_object; exact M]|apply ms_cons; [apply error_null|apply ms_nil]]. }
  exists t. split; [|exact J]. rewrite <- E. apply same_calls. cbn [flat_map calls app]. constructor; [apply same_refl|]. constructor; [apply same_refl|].
  rewrite <- !app_assoc. apply Forall2_app; [exact S|]. apply Forall2_same.
Qed.
Lemma calc_prints r : (cr_dpb r <> None <-> ver_uses_rs (cr_ver r) = true) ->
  match cr_dpb r with Some (d, p, B) => small64 d /\ small64 p /\ small64 B | None => True end ->
  small64 (cr_meta r) -> small64 (cr_data r) -> small64 (cr_parity r) -> small64 (cr_total r) -> small64 (cr_file_size r) -> small64 (cr_size r) ->
  means (calc_calls r) (calc_json r).
Proof.
  intros UR DB H1 H2 H3 H4 H5 H6.
  assert (V1 : small64 (ver_to_usize (cr_ver r))) by (destruct (cr_ver r); reflexivity).
  assert (V2 : small64 (ver_to_block_size (cr_ver r))) by (destruct (cr_ver r); reflexivity).
  assert (V3 : small64 (ver_to_data_size (cr_ver r))) by (destruct (cr_ver r); reflexivity).
  unfold calc_json, calc_calls. destruct (cr_dpb r) as [[[d p] B]|].
  - destruct DB as (D1 & D2 & D3). rewrite (proj1 UR) by discriminate. cbn zeta. exact (calc_means _ _ (calc_fields_rs (cr_ver r) _ _ _ _ d p B _ _ V1 V2 V3 H1 H2 H3 H4 D1 D2 D3 H5 H6)).
  - destruct (ver_uses_rs (cr_ver r)); [exfalso; apply (proj2 UR); reflexivity|]. cbn zeta. exact (calc_means _ _ (calc_fields_plain (cr_ver r) _ _ _ _ _ V1 V2 V3 H1 H2 H4 H5 H6)).
Qed.
