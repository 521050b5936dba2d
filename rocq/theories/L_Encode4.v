(* encode_file as a whole. *)
From Verif Require Import M_Base M_Specs M_Crc M_Header M_Multihash M_Metadata M_Block M_Index M_FileUtils M_Buffer M_Ranges M_Encode
  S_Crc S_Meta S_Block S_Index S_Container S_Encode
  L_Base L_File L_Crc L_Header L_Meta L_Block L_Index L_Index2 L_Buffer L_Lot L_Encode L_Container L_Encode2 L_Encode3.
Ltac Zify.zify_post_hook ::= idtac.

(* ---- metadata blocks ---- *)
Lemma take_sealed v uid ms crc pl buf : lenN uid = 6 -> lenN pl = ver_to_block_size v - 16 -> ver_to_block_size v <= lenN buf ->
  takeN (ver_to_block_size v) (put_at (put_at buf 16 pl) 0 (header_to_bytes (b_header (set_crc (mkBlock (header_new v uid 0) (DMeta ms)) crc))))
  = SBX_SIGNATURE ++ [ver_to_usize v] ++ be_bytes 2 crc ++ uid ++ be_bytes 4 0 ++ pl.
Proof.
  intros HU LP LB. pose proof (block_size_pos v) as BP.
  change (b_header (set_crc (mkBlock (header_new v uid 0) (DMeta ms)) crc)) with (mkHeader v crc uid 0).
  transitivity (header_to_bytes (mkHeader v crc uid 0) ++ pl).
  2: { unfold header_to_bytes. cbn [h_version h_crc h_uid h_seq_num]. rewrite <- !app_assoc. unfold u8. rewrite N.mod_small by apply ver_usize_lt. reflexivity. }
  assert (L16 : lenN (header_to_bytes (mkHeader v crc uid 0)) = 16) by (apply lenN_header_to_bytes; exact HU).
  assert (L1 : lenN (put_at buf 16 pl) = lenN buf) by (rewrite lenN_put_at by lia; reflexivity).
  apply list_ext_N.
  - rewrite lenN_take, lenN_put_at, L1, lenN_app by lia. lia.
  - intros i Hi. rewrite lenN_take, lenN_put_at, L1 in Hi by lia. rewrite nthN_take. destruct (N.ltb_spec i (ver_to_block_size v)); [|lia].
    rewrite nthN_put_at by lia. rewrite nthN_app, L16.
    destruct (N.ltb_spec i 16); destruct (N.leb_spec 0 i); try lia; destruct (N.ltb_spec i (0 + 16)); try lia; cbn [andb]; [f_equal; lia|].
    rewrite nthN_put_at by lia. destruct (N.leb_spec 16 i); [|lia]. destruct (N.ltb_spec i (16 + lenN pl)); [|lia]. reflexivity.
Qed.
Lemma meta_block_ok v uid ms : lenN uid = 6 -> bytes_ok uid = true -> Forall field_ok ms -> shards_ok ms -> map canon_field ms = ms ->
  let b := mkBlock (header_new v uid 0) (DMeta ms) in
  if ver_to_block_size v - 16 <? fields_size ms then sync_to_buffer b None (repN SBX_LARGEST_BLOCK_SIZE 0) = RErr TooMuchMetadata
  else exists b' buf, sync_to_buffer b None (repN SBX_LARGEST_BLOCK_SIZE 0) = ROk (b', buf) /\ meta_block v uid ms (takeN (ver_to_block_size v) buf) /\
         meta_plain v uid ms (takeN (ver_to_block_size v) buf).
Proof.
  intros HU HB HF HS HC b. pose proof (block_size_pos v) as BP.
  assert (L0 : lenN (repN SBX_LARGEST_BLOCK_SIZE 0) = 4096) by (rewrite lenN_rep; reflexivity).
  assert (HOK : header_ok (b_header b) = true) by (apply header_ok_spec; cbn; repeat split; try assumption; lia).
  assert (BOK : block_ok b) by (split; [exact HOK|]; cbn; auto).
  pose proof (sync_to_meta b None (repN SBX_LARGEST_BLOCK_SIZE 0) ms eq_refl eq_refl HF) as SM.
  change (b_version b) with v in SM. specialize (SM ltac:(lia)).
  destruct (N.ltb_spec (ver_to_block_size v - 16) (fields_size ms)) as [L|L]; [exact SM|].
  cbv zeta in SM. match type of SM with _ = ROk (?x, ?y) => set (b' := x) in SM; set (buf := y) in SM end.
  exists b', buf. split; [exact SM|].
  assert (BZ : bytes_ok (repN SBX_LARGEST_BLOCK_SIZE 0) = true) by (apply bytes_ok_rep; lia).
  destruct (block_roundtrip b None (repN SBX_LARGEST_BLOCK_SIZE 0) b' buf BOK BZ ltac:(discriminate) SM) as (R1 & _ & _ & r & R2 & R3 & R4 & R5 & R6).
  assert (BB : bytes_ok buf = true).
  { unfold buf. apply bytes_ok_put_at; [apply bytes_ok_put_at; [exact BZ|]|].
    - rewrite bytes_ok_app, fields_bytes_ok by exact HF. apply bytes_ok_rep. lia.
    - apply bytes_ok_header. exact HB. }
  split.
  2: { eexists. split; [rewrite metas_to_bytes_eq by exact HF; destruct (N.ltb_spec (ver_to_block_size v - 16) (fields_size ms)); [lia|reflexivity]|].
       unfold buf. set (pl := fields_bytes ms ++ repN _ 26).
       assert (LP : lenN pl = ver_to_block_size v - 16) by (unfold pl; rewrite lenN_app, fields_bytes_len, lenN_rep by exact HF; lia).
       exists (crc_of v uid 0 pl). split.
       - apply crc_is_remainder; [pose proof (ver_usize_lt v); lia|]. unfold pl. rewrite !bytes_ok_app, HB, bytes_ok_be, fields_bytes_ok, bytes_ok_rep by (try exact HF; lia). reflexivity.
       - apply (take_sealed v uid ms (crc_of v uid 0 pl) pl); [exact HU|exact LP|rewrite L0; lia]. }
  split; [rewrite lenN_take, R1, L0; lia|]. split; [apply bytes_ok_take, BB|].
  exists r. cbn [b_data b] in R6. rewrite HC in R6. split; [|auto].
  intro b0. apply sync_from_ok. split; [|split; reflexivity].
  specialize (R2 block_dummy). fold (parse buf) in R2. apply parse_ok_iff in R2; [|exact BB]. destruct R2 as (h & pl & (W1 & W2 & W3 & W4) & ER).
  apply parse_ok_iff; [apply bytes_ok_take, BB|]. exists h, pl. split; [|exact ER].
  assert (EV : h_version h = v) by (subst r; exact R3). split; [exact W1|]. split; [exact W2|]. split; [|exact W4].
  rewrite EV in *. rewrite take_take, N.min_id. exact W3.
Qed.

(* ---- paced sources ---- *)
Definition paced_from (ds : N) (ps : list (list N)) : Prop :=
  match ps with [] => True | x :: r => (r = [] \/ 1 <= lenN x) /\ well_paced ds r end.
Definition paced (ds : N) (s : source) : Prop := match s with SrcFile _ => True | SrcStdin ps => paced_from ds ps end.
Lemma well_paced_cons ds x r : well_paced ds (x :: r) <-> (r <> [] -> ds <= 4 * lenN x) /\ well_paced ds r.
Proof.
  unfold well_paced. split.
  - intro H. split; [intro; apply (H [] x r); auto|]. intros pre y post -> HP. apply (H (x :: pre) y post); auto.
  - intros [H1 H2] pre y post E HP. destruct pre as [|z pre]; cbn [app] in E; injection E as -> ->; [apply H1, HP|]. eapply H2; [reflexivity|exact HP].
Qed.
Lemma well_paced_from ds ps : 1 <= ds -> well_paced ds ps -> paced_from ds ps.
Proof.
  intros DS H. destruct ps as [|x r]; [exact I|]. apply well_paced_cons in H as [H1 H2]. split; [|exact H2].
  destruct r; [left; reflexivity|right]. specialize (H1 ltac:(discriminate)). lia.
Qed.
Lemma read_nothing t n : read_tries t [] n = ([], []).
Proof.
  revert n. induction t as [|t IH]; intro n; cbn [read_tries]; [reflexivity|]. destruct (n =? 0); [reflexivity|].
  cbn [os_read]. rewrite IH. reflexivity.
Qed.
Lemma read_zero t ps : read_tries t ps 0 = ([], ps).
Proof. destruct t; reflexivity. Qed.
Lemma read_partial t x r n : 1 <= n -> n < lenN x -> read_tries (S t) (x :: r) n = (takeN n x, dropN n x :: r).
Proof.
  intros H1 H2. cbn [read_tries os_read]. destruct (N.eqb_spec n 0); [lia|]. destruct (N.leb_spec (lenN x) n); [lia|].
  rewrite lenN_take, N.min_l, N.sub_diag by lia. rewrite read_zero. rewrite app_nil_r. reflexivity.
Qed.
Lemma read_full t x r n : 1 <= n -> lenN x <= n -> read_tries (S t) (x :: r) n = (x ++ fst (read_tries t r (n - lenN x)), snd (read_tries t r (n - lenN x))).
Proof.
  intros H1 H2. cbn [read_tries os_read]. destruct (N.eqb_spec n 0); [lia|]. destruct (N.leb_spec (lenN x) n); [|lia].
  destruct (read_tries t r (n - lenN x)). reflexivity.
Qed.
Lemma read_paced_a ds : 1 <= ds -> forall t ps n, well_paced ds ps -> 4 * n <= N.of_nat t * ds ->
  exists ps', read_tries t ps n = (takeN n (concat ps), ps') /\ paced_from ds ps'.
Proof.
  intro DS. induction t as [|t IH]; intros ps n HW HN.
  - assert (n = 0) by lia. subst n. exists ps. split; [reflexivity|]. apply well_paced_from; assumption.
  - destruct (N.eq_dec n 0) as [->|N0]; [rewrite read_zero; exists ps; split; [reflexivity|apply well_paced_from; assumption]|].
    destruct ps as [|x r]; [rewrite read_nothing; exists []; cbn [concat]; rewrite take_nil; split; [reflexivity|exact I]|].
    apply well_paced_cons in HW as [HW1 HW2]. cbn [concat]. destruct (N.lt_ge_cases n (lenN x)) as [L|L].
    + rewrite read_partial by lia. exists (dropN n x :: r). rewrite take_app. replace (n - lenN x) with 0 by lia. rewrite take_0, app_nil_r.
      split; [reflexivity|]. split; [right; rewrite lenN_drop; lia|exact HW2].
    + rewrite read_full by lia. rewrite take_app, take_all by exact L. destruct r as [|y r'].
      * rewrite read_nothing. exists []. cbn [concat fst snd]. rewrite take_nil. split; [reflexivity|exact I].
      * destruct (IH (y :: r') (n - lenN x) HW2) as (ps' & E & HP); [specialize (HW1 ltac:(discriminate)); lia|].
        exists ps'. rewrite E. auto.
Qed.
Lemma read_paced ds s : 1 <= ds -> paced ds s -> let '(d, s') := src_read s ds in d = takeN ds (src_bytes s) /\ paced ds s'.
Proof.
  intros DS HP. destruct s as [r|ps]; cbn [src_read]; [split; [reflexivity|exact I]|].
  cbn [src_bytes paced] in *. assert (X : exists ps', read_tries READ_RETRIES ps ds = (takeN ds (concat ps), ps') /\ paced_from ds ps').
  { destruct ps as [|x r]; [rewrite read_nothing; exists []; cbn [concat]; rewrite take_nil; split; [reflexivity|exact I]|].
    destruct HP as [HP1 HP2]. cbn [concat]. unfold READ_RETRIES. destruct (N.lt_ge_cases ds (lenN x)) as [L|L].
    + rewrite read_partial by lia. exists (dropN ds x :: r). rewrite take_app. replace (ds - lenN x) with 0 by lia. rewrite take_0, app_nil_r.
      split; [reflexivity|]. split; [right; rewrite lenN_drop; lia|exact HP2].
    + rewrite read_full by lia. rewrite take_app, take_all by exact L. destruct HP1 as [->|HP1].
      * rewrite read_nothing. exists []. cbn [concat fst snd]. rewrite take_nil. split; [reflexivity|exact I].
      * destruct (read_paced_a ds DS 4 r (ds - lenN x) HP2) as (ps' & E & HP); [change (N.of_nat 4) with 4; lia|].
        exists ps'. rewrite E. auto. }
  destruct X as (ps' & -> & X). auto.
Qed.

(* ---- the body of encode_file; [announced] is the length checked and recorded at first, [required_len] the one the reader stops at ---- *)
Definition enc_main (H : hash_fn) (rs : codec) (cpus : N) (p : eparam) (announced required_len : option N) (src : source) : result eoutcome :=
  do! max <- ver_to_max_data_file_size (e_ver p) (e_dpb p);
  let no_stats := mkEstats 0 0 0 0 in
  if match announced with Some r => max <? r | None => false end
  then ROk (mkEoutcome [] true no_stats None 0)
  else
    if negb (hash_supported (e_hash p)) then RPanic else
    match (if meta_on p then write_meta_blocks H p announced None [] else ROk []) with
    | RPanic => RPanic
    | RErr _ => ROk (mkEoutcome [] true no_stats None 0)
    | ROk f0 =>
        let stats0 := if meta_on p
                      then mkEstats (lenN (calc_meta_block_all_write_pos_s (e_ver p) (e_dpb p))) 0 0 0
                      else no_stats in
        do! last_seq <- ver_to_last_data_seq_num_exc_parity (e_ver p) (e_dpb p);
        let c := enc_cfg p cpus in
        let fuel := S (S (source_size src)) in
        do! (st, stats, f1) <- enc_loop c rs required_len last_seq fuel fuel (dbuf_new_multi c)
                                 (mkEstate src 0 0 false [] false) stats0 f0;
        if es_err st then ROk (mkEoutcome f1 true stats None 0)
        else
          let n := data_bytes_encoded (e_ver p) stats in
          let size := calc_container_size (e_ver p) (Some (meta_on p)) (e_dpb p) n in
          if meta_on p then
            let h := finish_hash H (e_hash p) (es_hashed st) in
            match write_meta_blocks H p (Some n) (Some h) f1 with
            | RPanic => RPanic
            | RErr _ => ROk (mkEoutcome f1 true stats None 0)
            | ROk f2 => do! size <- size; ROk (mkEoutcome f2 false stats (Some h) size)
            end
          else do! size <- size; ROk (mkEoutcome f1 false stats None size)
    end.
Lemma encode_file_eq H rs cpus p input : encode_file H rs cpus p input =
  match input with
  | SrcFile content => enc_main H rs cpus p (Some (fst (asked p content))) (Some (fst (asked p content))) (SrcFile (dropN (snd (asked p content)) content))
  | SrcStdin _ => enc_main H rs cpus p None None input
  end.
Proof. destruct input as [content|ps]; [|reflexivity]. unfold encode_file, asked. destruct (calc_required_len_and_seek_to_from_byte_range _ _ _ _ _ _). reflexivity. Qed.

(* lots after the last used one add nothing *)
Lemma flat_map_nil {A B} (l : list A) : flat_map (fun _ => @nil B) l = [].
Proof. induction l; auto. Qed.
Lemma lotx_past c xs K j : lenN xs <= K * dws c -> K <= j -> lotx c xs j = [].
Proof. intros L1 L2. unfold lotx, sliceN. rewrite drop_all; [apply take_nil|]. assert (K * dws c <= j * dws c) by (apply N.mul_le_mono_r; exact L2). lia. Qed.
Lemma blocks_past c rs xs K K' : lenN xs <= K * dws c -> K <= K' -> blocks c rs 1 xs 0 K' = blocks c rs 1 xs 0 K.
Proof.
  intros L1 L2. unfold blocks. rewrite (rangeN_split 0 K K') by lia. rewrite flat_map_app.
  rewrite (flat_map_eq_in _ (fun _ => []) (rangeN K K')).
  - rewrite flat_map_nil. apply app_nil_r.
  - intros j Hj. apply In_rangeN in Hj. rewrite (lotx_past c xs K j) by lia. reflexivity.
Qed.
Lemma stats_past c rs s xs K K' : lenN xs <= K * dws c -> K <= K' -> add_stats c rs s xs 0 K' = add_stats c rs s xs 0 K.
Proof.
  intros L1 L2. unfold add_stats. rewrite (rangeN_split 0 K K') by lia. rewrite !map_app, !sumN_app.
  assert (X : forall F : N -> N, (forall j, K <= j -> F j = 0) -> sumN (map F (rangeN K K')) = 0).
  { intros F HF. rewrite (sumN_ext F (fun _ => 0)); [|intros x Hx; apply In_rangeN in Hx; apply HF; lia].
    induction (rangeN K K'); [reflexivity|]. unfold sumN in *. cbn [map fold_right]. rewrite N.add_0_l. assumption. }
  rewrite !X, !N.add_0_r; [reflexivity| | |]; intros j Hj; unfold lot_par, lot_pb, lot_data; rewrite (lotx_past c xs K j) by assumption;
    reflexivity.
Qed.

Section Main.
Variable H : hash_fn.
Variable rs : codec.
Variable p : eparam.
Hypothesis OK : enc_ok H rs 1 p.
Hypothesis FITS : meta_fits H p.
Let v := e_ver p.
Let o := e_dpb p.
Let ds := ver_to_data_size v.
Let bs := ver_to_block_size v.
Let c := enc_cfg p 1.

Definition fsz_fields (n : option N) : list metadata := match n with Some x => [FSZ x] | None => [] end.
Definition fields (n : option N) (data : list N) : list metadata :=
  (match e_in_name p with Some n => [FNM n] | None => [] end)
  ++ [SNM (e_out_name p)] ++ fsz_fields n
  ++ (match e_fdt p with Some t => [FDT t] | None => [] end)
  ++ [SDT (e_sdt p); HSH (canon_hash (e_hash p), H (canon_hash (e_hash p)) data)]
  ++ (match e_dpb p with Some (d, par, _) => [RSD d; RSP par] | None => [] end).
Lemma canon_ctx t : ctx_hash_type t = canon_hash t. Proof. destruct t; reflexivity. Qed.
Lemma pack_eq n hash data : match hash with Some h => h = finish_hash H (e_hash p) data | None => data = [] end ->
  pack_metadata H p n hash = fields n data.
Proof.
  intro E. destruct OK as (_ & _ & O1 & O2 & _). unfold pack_metadata, fields, fsz_fields. rewrite O2.
  assert (EH : match hash with Some h => h | None => finish_hash H (e_hash p) [] end = (canon_hash (e_hash p), H (canon_hash (e_hash p)) data)).
  { rewrite <- canon_ctx. destruct hash; subst; reflexivity. }
  rewrite EH. assert (ED : (if match e_dpb p with Some _ => true | None => false end then match e_dpb p with Some (d, par, _) => [RSD (u8 d); RSP (u8 par)] | None => [] end else []) =
    match e_dpb p with Some (d, par, _) => [RSD d; RSP par] | None => [] end).
  { unfold dpb_ok in O1. destruct (e_dpb p) as [[[d q] B]|]; [|reflexivity]. unfold u8. rewrite !N.mod_small by lia. reflexivity. }
  rewrite ED. reflexivity.
Qed.
Lemma fields_recorded data : fields (Some (lenN data)) data = recorded H p data.
Proof. unfold fields, recorded, fsz_fields. cbn [app]. reflexivity. Qed.
Lemma fields_size_app a b : fields_size (a ++ b) = fields_size a + fields_size b.
Proof. induction a as [|x a IH]; [reflexivity|]. cbn [app]. unfold fields_size in *. cbn [fold_right]. lia. Qed.
Lemma fields_size_le n data : fields_size (fields n data) <= fields_size (recorded H p []).
Proof.
  unfold fields, recorded, fsz_fields. rewrite !fields_size_app.
  change [SNM (e_out_name p); FSZ (lenN (@nil N))] with ([SNM (e_out_name p)] ++ [FSZ (lenN (@nil N))]). rewrite !fields_size_app.
  assert (X : fields_size (match n with Some x => [FSZ x] | None => [] end) <= fields_size [FSZ (lenN (@nil N))]) by (destruct n; vm_compute; discriminate).
  assert (Y : fields_size [SDT (e_sdt p); HSH (canon_hash (e_hash p), H (canon_hash (e_hash p)) data)] = fields_size [SDT (e_sdt p); HSH (canon_hash (e_hash p), H (canon_hash (e_hash p)) [])]) by reflexivity.
  rewrite Y. clear - X. lia.
Qed.
Lemma fields_good n data : match n with Some x => x < 2 ^ 64 | None => True end ->
  Forall field_ok (fields n data) /\ shards_ok (fields n data) /\ map canon_field (fields n data) = fields n data.
Proof.
  intro HN. destruct OK as (U1 & U2 & O1 & O2 & O3 & O4 & O5 & O6 & O7 & O8 & O9 & O10 & O11).
  unfold fields, fsz_fields. split; [|split].
  - apply Forall_app; split; [|apply Forall_app; split; [|apply Forall_app; split; [|apply Forall_app; split; [|apply Forall_app; split]]]].
    + destruct (e_in_name p); repeat constructor; apply O5.
    + repeat constructor; apply O6.
    + destruct n; repeat constructor; exact HN.
    + destruct (e_fdt p); repeat constructor; apply O7.
    + constructor; [exact O8|]. constructor; [|constructor]. cbn [field_ok]. apply O10.
    + unfold dpb_ok in O1. destruct (e_dpb p) as [[[d q] B]|]; repeat constructor; lia.
  - intros d q. unfold dpb_ok in O1. destruct (e_in_name p), n, (e_fdt p), (e_dpb p) as [[[d' q'] B]|]; cbn; intros E1 E2; try discriminate;
      injection E1 as <-; injection E2 as <-; lia.
  - assert (EH : canon_hash (canon_hash (e_hash p)) = canon_hash (e_hash p)) by (destruct (e_hash p); reflexivity).
    destruct (e_in_name p), n, (e_fdt p), (e_dpb p) as [[[d' q'] B]|]; cbn [map app canon_field]; rewrite EH; reflexivity.
Qed.
Lemma write_meta_ok n hash data f : meta_on p = true -> match n with Some x => x < 2 ^ 64 | None => True end ->
  match hash with Some h => h = finish_hash H (e_hash p) data | None => data = [] end ->
  exists mb, write_meta_blocks H p n hash f = ROk (write_metas v o mb f) /\ meta_block v (e_uid p) (fields n data) mb /\ meta_plain v (e_uid p) (fields n data) mb.
Proof.
  intros MO HN HH. unfold write_meta_blocks. rewrite (pack_eq n hash data HH). destruct (fields_good n data HN) as (F1 & F2 & F3).
  destruct OK as (U1 & U2 & _). pose proof (meta_block_ok v (e_uid p) _ U1 U2 F1 F2 F3) as MB. cbv zeta in MB.
  pose proof (fields_size_le n data) as FL. specialize (FITS MO). fold v in FITS.
  destruct (N.ltb_spec (ver_to_block_size v - 16) (fields_size (fields n data))); [lia|].
  destruct MB as (b' & buf & E & MB). fold v. rewrite E. cbn [rbind]. exists (takeN (ver_to_block_size v) buf). split; [reflexivity|exact MB].
Qed.

Lemma init_queue cpus : 1 <= cpus <= 37000 -> queue_ok (enc_cfg p cpus) 0 (dbuf_new_multi (enc_cfg p cpus)).
Proof.
  intro HC. set (c' := enc_cfg p cpus). destruct OK as (U1 & U2 & O1 & _). unfold queue_ok. unfold dbuf_new_multi. rewrite lenN_map, lenN_range.
  split; [reflexivity|]. intros j Hj. exists (dbuf_new c' j). split; [|split].
  - unfold getN. rewrite nth_error_map. pose proof (nth_optN_range 0 (c_bufs c') j) as X. unfold nth_optN in X. rewrite X by lia. rewrite N.add_0_l. reflexivity.
  - apply rep_new; [|apply fresh_new].
    unfold cfg_ok, dws, lot_size, c', enc_cfg, LOT_COUNT_PER_CPU, DEFAULT_SINGLE_LOT_SIZE; cbn [c_in c_dpb c_lots]. unfold dpb_ok in O1. destruct (e_dpb p) as [[[d q] B]|]; lia.
  - intro HL. cbn [dbuf_new d_start]. f_equal. unfold slots_per_buffer. rewrite N.add_0_l in *. unfold u32, U32_MAX in *.
    rewrite !N.mod_small; [reflexivity| |]; rewrite ?N.mod_small; lia.
Qed.

Definition src_ok (s : source) : Prop := bytes_ok (src_bytes s) = true /\ lenN (src_bytes s) < 18446744073709551616.

Lemma main_ok announced required_len src mx : src_ok src ->
  match announced with Some r => r < 18446744073709551616 /\ r <= mx | None => True end ->
  match required_len with Some r => r < 18446744073709551616 /\ r <= mx | None => True end ->
  ver_to_max_data_file_size v o = ROk mx ->
  exists r data rest k, (forall cpus, 1 <= cpus <= 37000 -> enc_main H rs cpus p announced required_len src = r) /\
    src_bytes src = data ++ rest /\ is_ceil_div (lenN data) ds k /\
    (k = 0 \/ match required_len with Some r => (k - 1) * ds < r | None => True end) /\
    lenN data <= mx /\
    ((exists out, r = ROk out /\ eo_err out = true /\ lenN data = mx /\ rest <> [] /\ required_len = None)
     \/ ((match required_len with Some r => r <= k * ds /\ lenN data = k * ds | None => False end \/ ((paced ds src -> rest = []) /\ reads ds src data rest)) /\
         (forall n, block_count v o (lenN data) n -> n < U32_MAX ->
          exists out, r = ROk out /\ encoded H rs p data out))).
Proof.
  intros [SB SL] HA HR HMX. pose proof OK as (U1 & U2 & O1 & O2 & O3 & O4 & O5 & O6 & O7 & O8 & O9 & O10 & O11).
  assert (DS : 1 <= ds) by (destruct (data_size_pos v); assumption).
  assert (VO : ver_ok v o) by exact O2.
  pose proof (max_size_eq v o O1 VO) as MXE. rewrite HMX in MXE. apply ROk_inj in MXE.
  set (M := max_chunks o). assert (EM : mx = M * ds).
  { rewrite MXE. unfold M, max_chunks. destruct o as [[[d q] B]|]; reflexivity. }
  set (st0 := mkEstate src 0 0 false [] false).
  assert (MP : 1 <= M).
  { unfold M, max_chunks. unfold o. unfold dpb_ok in O1. destruct (e_dpb p) as [[[d q] B]|]; [|unfold U32_MAX; lia].
    destruct (sets_pos d q) as [S1 _]; [lia|lia|]. nia. }
  destruct (frun_ok c O1 required_len (paced ds) (fun s => read_paced ds s DS) (S (source_size src)) st0 0) as (st' & ys & rest & R1 & R2 & R3 & R4 & R5 & R6 & R7 & R8).
  { unfold at_chunk, st0. cbn [es_seq es_last es_bytes es_err]. fold M.
    split; [unfold seq_of; destruct (c_dpb c) as [[[d q] B]|]; [|reflexivity]|].
    - destruct d; reflexivity.
    - split; [destruct (N.eqb_spec 0 (max_chunks (c_dpb c))) as [E|]; [exfalso; change (c_dpb c) with o in E; fold M in E; lia|reflexivity]|].
      repeat split; lia. }
  { cbn [st0 es_src]. unfold source_size, src_bytes, lenN. destruct src; lia. }
  cbn [st0 es_src es_hashed app] in R3, R5. rewrite N.add_0_l in *. change (c_dpb c) with o in *. fold M in R4, R7.
  change (ver_to_data_size (c_ver c)) with ds in *.
  set (data := concat ys) in *. exists (enc_main H rs 1 p announced required_len src), data, rest, (lenN ys).
  assert (CD : is_ceil_div (lenN data) ds (lenN ys)) by (apply chunked_len; assumption).
  assert (LD : lenN data <= mx). { destruct CD as [C1 _]. assert (lenN ys * ds <= M * ds) by (apply N.mul_le_mono_r; exact R4). lia. }
  assert (BD : bytes_ok data = true). { rewrite R5, bytes_ok_app in SB. apply andb_true_iff in SB. apply SB. }
  assert (HN32 : nblocks c ys <= U32_MAX).
  { apply (size_limit_exact v o mx (lenN data) (nblocks c ys) O1 VO HMX); [apply (nblocks_ok c O1 ys)|exact LD]. }
  assert (CUID : lenN (c_uid c) = 6 /\ bytes_ok (c_uid c) = true) by (split; assumption).
  assert (FI : fits c ys) by (apply (fits_iff c rs eq_refl CUID O1 O9 ys R2); exact HN32).
  assert (LS : lot_size c <= 256). { unfold lot_size, c, enc_cfg; cbn [c_in c_dpb]. unfold DEFAULT_SINGLE_LOT_SIZE. unfold dpb_ok in O1. destruct (e_dpb p) as [[[d q] B]|]; lia. }
  assert (DW : 1 <= dws c). { unfold dws, lot_size, c, enc_cfg; cbn [c_in c_dpb]. unfold DEFAULT_SINGLE_LOT_SIZE. unfold dpb_ok in O1. destruct (e_dpb p) as [[[d q] B]|]; lia. }
  set (K := lenN ys). assert (HK : lenN ys <= K * dws c) by (unfold K; rewrite <- (N.mul_1_r (lenN ys)) at 1; apply N.mul_le_mono_l; exact DW).
  assert (MAIN : forall cpus stats f, 1 <= cpus <= 37000 ->
    enc_loop (enc_cfg p cpus) rs required_len (last_of o) (S (S (source_size src))) (S (S (source_size src))) (dbuf_new_multi (enc_cfg p cpus)) st0 stats f
    = ROk (st', add_stats c rs stats ys 0 K, wr c f (blocks c rs 1 ys 0 K))).
  { intros cpus stats f HCP. set (c' := enc_cfg p cpus).
    pose proof (enc_loop_ok c' rs eq_refl eq_refl eq_refl CUID O1 O9) as EL.
    assert (C1 : 1 <= c_lots c') by (unfold c', enc_cfg; cbn [c_lots]; unfold LOT_COUNT_PER_CPU; lia).
    assert (C2 : N.even (c_lots c') = true). { unfold c', enc_cfg; cbn [c_lots]; unfold LOT_COUNT_PER_CPU. rewrite N.even_mul. apply orb_true_r. }
    assert (C4 : c_lots c' * lot_size c' * c_bufs c' < 4294967296).
    { unfold c' at 1 3, enc_cfg; cbn [c_lots c_bufs]; unfold LOT_COUNT_PER_CPU, ENC_BUFFERS. change (lot_size c') with (lot_size c).
      assert (cpus * 50 * lot_size c <= 37000 * 50 * 256) by (apply N.mul_le_mono; lia). lia. }
    specialize (EL C1 C2 ltac:(cbn; unfold ENC_BUFFERS; lia) C4 required_len (last_of o) (last_facts o O1)).
    specialize (EL (S (S (source_size src))) (S (S (source_size src))) (S (source_size src)) 0 st0 stats f (dbuf_new_multi c') [] ys st' R1 ltac:(lia) ltac:(lia)).
    cbn [app] in EL. rewrite !N.mul_0_l in EL. destruct EL as (m & M1 & M2 & EL); [reflexivity|apply init_queue, HCP| |exact FI|].
    - split; [exact SB|]. right. cbn [st0 es_seq]. split.
      + pose proof (last_facts o O1) as LF. unfold last_of in *. unfold o in *. unfold dpb_ok in O1. destruct (e_dpb p) as [[[d q] B]|]; [|unfold U32_MAX; lia].
        destruct LF as [_ (x & X1 & X2)]. rewrite X1. lia.
      + unfold c', enc_cfg; cbn [c_dpb]. unfold dpb_ok in O1. destruct (e_dpb p) as [[[d q] B]|]; [|exact I]. rewrite N.mod_0_l by lia. lia.
    - rewrite EL. assert (HM : lenN ys <= m * c_lots c' * dws c) by (rewrite <- N.mul_assoc; exact M2).
      change (add_stats c') with (add_stats c). change (wr c') with (wr c). change (blocks c') with (blocks c).
      destruct (N.le_ge_cases K (m * c_lots c')) as [L|L].
      + rewrite (blocks_past c rs ys K), (stats_past c rs stats ys K) by assumption. reflexivity.
      + rewrite (blocks_past c rs ys _ K HM L), (stats_past c rs stats ys _ K HM L). reflexivity. }
  assert (MD : exists f0 m0, (if meta_on p then write_meta_blocks H p announced None [] else ROk []) = ROk f0 /\ f0 = (if meta_on p then write_metas v o m0 [] else []) /\ lenN m0 = bs).
  { case_eq (meta_on p); intro MO.
    - destruct (write_meta_ok announced None [] [] MO) as (mb & E & MB); [destruct announced; [apply HA|exact I]|reflexivity|].
      exists (write_metas v o mb []), mb. split; [exact E|]. split; [reflexivity|apply MB].
    - exists [], (repN bs 0). split; [reflexivity|]. split; [reflexivity|apply lenN_rep]. }
  destruct MD as (f0 & m0 & E0 & EF0 & LM0).
  assert (RM : match announced with Some r => mx <? r | None => false end = false) by (destruct announced; [apply N.ltb_ge; apply HA|reflexivity]).
  split.
  { intros cpus HCP. unfold enc_main. fold v o. rewrite HMX. cbn [rbind]. rewrite RM, O4, E0. cbn [negb]. rewrite (last_seq_eq v o O1 VO). cbn [rbind]. cbv zeta. fold st0.
    rewrite !MAIN by lia. reflexivity. }
  split; [exact R5|]. split; [exact CD|]. split; [destruct R6 as [->|R6]; [left; reflexivity|right; exact R6]|]. split; [exact LD|].
  unfold enc_main. fold v o. rewrite HMX. cbn [rbind].
  rewrite RM, O4, E0. cbn [negb]. rewrite (last_seq_eq v o O1 VO). cbn [rbind]. cbv zeta. fold st0.
  rewrite !MAIN by lia. cbn [rbind].
  set (stats0 := if meta_on p then mkEstats (lenN (calc_meta_block_all_write_pos_s v o)) 0 0 0 else mkEstats 0 0 0 0).
  case_eq (es_err st'); intro EE.
  { left. eexists. split; [reflexivity|]. split; [reflexivity|]. destruct (R7 EE) as (X1 & X2 & X3 & X4).
    split; [rewrite X2, X1; lia|]. split; [exact X3|]. destruct required_len as [r|]; [|reflexivity]. exfalso. lia. }
  right. split.
  { destruct (R8 EE) as [[X1 X2]|X]; [left; destruct required_len; [split; assumption|exact X1]|right; exact X]. }
  intros n HBC HN.
  assert (EN : n = nblocks c ys). { apply block_count_iff in HBC; [|exact O1]. rewrite HBC. reflexivity. }
  pose proof (lots_bytes c CUID ys R2 BD K HK) as LB. change (ver_to_data_size (c_ver c)) with ds in LB. fold data in LB.
  assert (DBE : data_bytes_encoded v (add_stats c rs stats0 ys 0 K) = lenN data).
  { unfold data_bytes_encoded, add_stats. cbn [st_data st_padbytes]. fold ds. unfold stats0.
    destruct (meta_on p); cbn [st_data st_padbytes]; rewrite !N.add_0_l, LB; lia. }
  rewrite DBE.
  destruct (container_size_ok v (Some (meta_on p)) o (lenN data) n O1 HBC HN O3) as (sz & SZ & SE). rewrite SZ. cbn [rbind].
  assert (CME : c_dpb c <> None -> c_meta c = true).
  { unfold c, enc_cfg; cbn [c_dpb c_meta]. unfold meta_on. intro X. destruct (e_dpb p) as [x|]; [|congruence]. destruct (e_ver p); try discriminate O2; reflexivity. }
  assert (HASH : es_hashed st' = data) by exact R3. rewrite HASH.
  assert (FIN : forall f2 m1 hash, lenN m1 = bs ->
     f2 = (if meta_on p then write_metas v o m1 (wr c f0 (blocks c rs 1 ys 0 K)) else wr c f0 (blocks c rs 1 ys 0 K)) ->
     (meta_on p = true -> meta_block v (e_uid p) (recorded H p data) m1 /\ meta_plain v (e_uid p) (recorded H p data) m1) ->
     hash = (if meta_on p then Some (canon_hash (e_hash p), H (canon_hash (e_hash p)) data) else None) ->
     encoded H rs p data (mkEoutcome f2 false (add_stats c rs stats0 ys 0 K) hash sz)).
  { intros f2 m1 hash L1 EF2 HM1 HH.
    pose proof (container_ok c rs eq_refl CUID O1 O9 CME ys R2 BD HN32 K HK m0 m1 LM0 L1) as CK. cbv zeta in CK.
    change (c_meta c) with (meta_on p) in CK. change (c_ver c) with v in CK. change (c_dpb c) with o in CK. change (c_uid c) with (e_uid p) in CK.
    rewrite EF0 in EF2. 
    assert (IC : is_container v (e_uid p) (meta_on p) o rs m1 data f2) by (rewrite EF2; exact CK).
    split; [reflexivity|]. split; [exists m1; split; [exact IC|exact HM1]|]. split; [exact HH|]. cbn [eo_size eo_file eo_stats]. split.
    - apply (is_end_uniq bs (written (Some (meta_on p)) o n)); [exact SE|].
      destruct IC as (n' & B1 & _ & _ & _ & B5 & B6).
      assert (n' = n). { apply block_count_iff in B1; [|exact O1]. apply block_count_iff in HBC; [|exact O1]. congruence. }
      subst n'. split.
      + intros i Hi. specialize (B5 i Hi). fold bs in B5. lia.
      + destruct B6 as [B6|(i & Hi & B6)]; [left; split; [exact B6|]|right; exists i; split; [exact Hi|rewrite B6; fold bs; lia]].
        intros i Hi. specialize (B5 i Hi). rewrite B6 in B5. pose proof (bs_pos v).  fold v in B5. nia.
    - split.
      + unfold add_stats, stats0. cbn [st_meta]. destruct (meta_on p); cbn [st_meta]; [|reflexivity].
        destruct (meta_positions v o) as [MPs _]. rewrite MPs. reflexivity.
      + split; [exact DBE|]. exists n. split; [exact HBC|]. pose proof (lots_counts c rs eq_refl CUID O1 O9 ys R2 BD K HK) as LC.
        change (c_dpb c) with (e_dpb p) in LC. rewrite <- EN in LC.
        assert (S0 : st_data stats0 = 0 /\ st_parity stats0 = 0) by (unfold stats0; destruct (meta_on p); split; reflexivity). destruct S0 as [S01 S02].
        unfold add_stats. cbn [st_data st_parity]. rewrite S01, S02, !N.add_0_l. exact LC. }
  case_eq (meta_on p); intro MO.
  - destruct (write_meta_ok (Some (lenN data)) (Some (finish_hash H (e_hash p) data)) data (wr c f0 (blocks c rs 1 ys 0 K)) MO) as (m1 & E1 & MB1).
    { rewrite R5, lenN_app in SL. lia. } { reflexivity. }
    rewrite E1. eexists. split; [reflexivity|]. apply FIN with (m1 := m1).
    + apply MB1.
    + rewrite MO. reflexivity.
    + intros _. rewrite <- fields_recorded. exact MB1.
    + rewrite MO. unfold finish_hash. rewrite canon_ctx. reflexivity.
  - eexists. split; [reflexivity|]. apply FIN with (m1 := m0); try assumption; try (rewrite MO; reflexivity). congruence.
Qed.
End Main.

(* ---- statements about encode_file ---- *)
Lemma enc_ok_any H rs c1 c2 p : enc_ok H rs c1 p -> 1 <= c2 <= 37000 -> enc_ok H rs c2 p.
Proof. unfold enc_ok. tauto. Qed.
Lemma sub64_ok a b : b <= a -> a < 18446744073709551616 -> sub64 a b = a - b.
Proof. intros H1 H2. unfold sub64, u64. replace (a + 18446744073709551616 - b) with (a - b + 1 * 18446744073709551616) by lia. rewrite N.mod_add by lia. apply N.mod_small. lia. Qed.
Lemma asked_range p content : range_ok p content -> lenN content < 18446744073709551616 ->
  asked p content = (N.min (range_hi p content) (lenN content) - range_lo p, range_lo p).
Proof.
  unfold range_ok, range_lo, range_hi, asked, calc_required_len_and_seek_to_from_byte_range, ensure_at_most, ensure_at_least.
  intros (H1 & H2 & H3) HL. set (L := lenN content) in *.
  destruct (N.eqb_spec L 0) as [E|E]; [lia|].
  set (from := match e_from p with Some n => n | None => 0 end) in *.
  assert (EF : match e_from p with Some n => N.min n (L - 1) | None => 0 end = from) by (unfold from in *; destruct (e_from p); lia).
  rewrite EF. unfold u64 at 2. rewrite N.add_0_r. rewrite (N.mod_small from) by lia.
  rewrite (N.min_l from) by lia. f_equal.
  set (ti := match e_to p with Some (Inc n) => N.min (N.max n from) (L - 1) | Some (Exc n) => N.min (N.max (sub64 n 1) from) (L - 1) | None => L - 1 end).
  assert (X : from <= ti /\ ti + 1 = N.min (match e_to p with Some (Inc n) => n + 1 | Some (Exc n) => n | None => L end) L).
  { unfold ti. destruct (e_to p) as [[n|n]|]; [lia| |lia]. rewrite (sub64_ok n 1) by lia. lia. }
  destruct X as [X1 X2]. rewrite sub64_ok by lia. unfold u64. rewrite N.mod_small; lia.
Qed.
Lemma asked_whole p content : e_from p = None -> e_to p = None -> lenN content < 18446744073709551616 ->
  asked p content = (N.max 1 (lenN content), 0).
Proof.
  intros E1 E2 HL. unfold asked, calc_required_len_and_seek_to_from_byte_range, ensure_at_most. rewrite E1, E2.
  destruct (N.eqb_spec (lenN content) 0) as [E|E].
  - rewrite E. reflexivity.
  - rewrite sub64_ok by lia. unfold u64. rewrite N.add_0_r, (N.mod_small 0), N.min_0_l by lia. rewrite N.mod_small by lia. f_equal; lia.
Qed.

Lemma block_count_ceil v o a b n k : dpb_ok o -> is_ceil_div a (ver_to_data_size v) k -> is_ceil_div b (ver_to_data_size v) k ->
  block_count v o a n -> block_count v o b n.
Proof.
  intros DO HA HB. destruct (data_size_pos v) as [DS _]. rewrite !block_count_iff by exact DO.
  assert (E : (a + (ver_to_data_size v - 1)) / ver_to_data_size v = (b + (ver_to_data_size v - 1)) / ver_to_data_size v)
    by (rewrite <- (ceil_uniq _ _ k DS HA), <- (ceil_uniq _ _ k DS HB); reflexivity).
  intros ->. unfold calc_data_block_count_exc_burst_gaps, calc_data_only_and_parity_block_count_exc_burst_gaps. cbv zeta. rewrite E. reflexivity.
Qed.

Section Whole.
Variable H : hash_fn.
Variable rs : codec.
Variable p : eparam.
Variable cpus : N.
Hypothesis OK : enc_ok H rs cpus p.
Hypothesis FITS : meta_fits H p.
Let v := e_ver p.
Let o := e_dpb p.
Let ds := ver_to_data_size v.

Lemma OK1 : enc_ok H rs 1 p.
Proof. apply (enc_ok_any H rs cpus 1 p OK). lia. Qed.
Lemma CP : 1 <= cpus <= 37000.
Proof. destruct OK as (_ & _ & _ & _ & _ & _ & _ & _ & _ & _ & _ & _ & C). exact C. Qed.
Lemma DSP : 1 <= ds.
Proof. destruct (data_size_pos v). assumption. Qed.

Lemma encode_part content mx n : input_ok (SrcFile content) -> ver_to_max_data_file_size v o = ROk mx ->
  let '(r, seek) := asked p content in
  r < 18446744073709551616 -> r <= mx -> block_count v o (N.min r (lenN content - seek)) n -> n < U32_MAX ->
  exists out data rest, encode_file H rs cpus p (SrcFile content) = ROk out /\ encoded H rs p data out /\
    dropN seek content = data ++ rest /\ N.min r (lenN content - seek) <= lenN data /\ lenN data < r + ds /\
    (forall q, r <= q * ds -> lenN data <= q * ds) /\ (rest = [] \/ exists q, lenN data = q * ds).
Proof.
  intros [IB IL] HMX. rewrite encode_file_eq. destruct (asked p content) as [r seek] eqn:EA. cbn [fst snd]. intros HR HRM HBC HN.
  pose proof DSP as DS. destruct OK as (_ & _ & O1 & _).
  destruct (main_ok H rs p OK1 FITS (Some r) (Some r) (SrcFile (dropN seek content)) mx) as (res & data & rest & k & RE & D1 & D2 & D3 & D4 & D5).
  { split; [apply bytes_ok_drop, IB|]. cbn [src_bytes]. rewrite lenN_drop. lia. } { auto. } { auto. } { exact HMX. }
  fold v ds in D2, D3, D5. cbn [src_bytes] in D1. pose proof (f_equal (@lenN _) D1) as LE. rewrite lenN_drop, lenN_app in LE.
  assert (K1 : k = 0 \/ (k - 1) * ds < r) by exact D3. destruct D2 as [D21 D22].
  destruct D5 as [(out & _ & _ & _ & _ & X)|[X1 X2]]; [discriminate X|].
  assert (DD : N.min r (lenN content - seek) <= lenN data).
  { destruct X1 as [[X3 X4]|[X3 _]]; [lia|]. rewrite (X3 I) in LE. change (lenN (@nil N)) with 0 in LE. lia. }
  assert (KK : forall q, r <= q * ds -> lenN data <= q * ds).
  { intros q Hq. destruct K1 as [->|K1]; [lia|]. assert (k <= q); [|nia]. assert (k - 1 < q) by (apply (N.mul_lt_mono_pos_r ds); lia). lia. }
  destruct (X2 n) as (out & E1 & E2); [|exact HN|].
  - apply (block_count_ceil v o _ (lenN data) n k O1) in HBC; [exact HBC| |split; assumption].
    split.
    + assert (lenN data <= k * ds) by exact D21. fold ds. destruct X1 as [[X3 X4]|[X3 _]]; [lia|]. rewrite (X3 I) in LE. change (lenN (@nil N)) with 0 in LE. lia.
    + fold ds. intros m Hm. destruct K1 as [->|K1]; [lia|]. destruct (N.le_ge_cases r (lenN content - seek)) as [L|L].
      * rewrite N.min_l in Hm by exact L. assert (k - 1 < m) by (apply (N.mul_lt_mono_pos_r ds); lia). lia.
      * rewrite N.min_r in Hm by exact L. apply D22. lia.
  - exists out, data, rest. rewrite RE by exact CP. split; [exact E1|]. split; [exact E2|]. split; [exact D1|]. split; [exact DD|]. split; [|split; [exact KK|destruct X1 as [[_ X4]|[X3 _]]; [right; exists k; exact X4|left; exact (X3 I)]]].
    destruct K1 as [->|K1]; [lia|]. destruct (N.eq_dec k 0) as [->|K0]; [lia|]. assert (k * ds = (k - 1) * ds + ds) by nia. lia.
Qed.

Theorem encode_range content mx n : input_ok (SrcFile content) -> range_ok p content ->
  ver_to_max_data_file_size v o = ROk mx -> lenN (wanted p content) <= mx ->
  block_count v o (lenN (wanted p content)) n -> n < U32_MAX ->
  exists out extra, encode_file H rs cpus p (SrcFile content) = ROk out /\
    encoded H rs p (wanted p content ++ extra) out /\
    extra = takeN ((ds - lenN (wanted p content) mod ds) mod ds) (dropN (range_hi p content) content).
Proof.
  intros IO RO HMX HL HBC HN. pose proof IO as [IB IL]. pose proof DSP as DS.
  pose proof (encode_part content mx n IO HMX) as E. rewrite (asked_range p content RO IL) in E.
  set (r := N.min (range_hi p content) (lenN content) - range_lo p) in *. destruct RO as (R1 & R2 & R3).
  assert (LW : lenN (wanted p content) = r). { unfold wanted. rewrite lenN_drop, lenN_take. reflexivity. }
  assert (EW : wanted p content = takeN r (dropN (range_lo p) content)).
  { unfold wanted. rewrite drop_take. destruct (N.le_ge_cases (range_hi p content) (lenN content)) as [L|L].
    - unfold r. rewrite N.min_l by exact L. reflexivity.
    - rewrite !take_all; [reflexivity| |]; rewrite lenN_drop; lia. }
  rewrite LW in *. replace (N.min r (lenN content - range_lo p)) with r in E by lia.
  destruct (E ltac:(lia) HL HBC HN) as (out & data & rest & E1 & E2 & E3 & E4 & E5 & E6 & E7).
  assert (ED : data = wanted p content ++ dropN r data).
  { rewrite EW, E3, take_app. replace (r - lenN data) with 0 by lia. rewrite take_0, app_nil_r. symmetry. apply take_drop. }
  exists out, (dropN r data). rewrite <- ED. split; [exact E1|]. split; [exact E2|].
  set (pad := (ds - r mod ds) mod ds).
  assert (PAD : exists q, r + pad = q * ds /\ pad < ds).
  { unfold pad. pose proof (N.div_mod r ds ltac:(lia)) as DM. pose proof (N.mod_lt r ds ltac:(lia)) as ML. destruct (N.eq_dec (r mod ds) 0) as [Z|Z].
    - rewrite Z, N.sub_0_r, N.mod_same by lia. exists (r / ds). lia.
    - rewrite N.mod_small by lia. exists (r / ds + 1). lia. }
  destruct PAD as (q & PQ & PL).
  assert (LD : lenN data <= r + pad) by (rewrite PQ; apply E6; lia).
  pose proof (f_equal (@lenN _) E3) as LE. rewrite lenN_drop, lenN_app in LE.
  destruct (N.le_ge_cases (lenN content) (range_hi p content)) as [L|L].
  - rewrite (drop_all _ content) by exact L. rewrite take_nil. apply drop_all. unfold r in *. rewrite N.min_r in * by exact L. lia.
  - assert (RE : dropN (range_hi p content) content = dropN r data ++ rest).
    { replace (range_hi p content) with (range_lo p + r) by (unfold r; lia). rewrite <- drop_drop, E3. rewrite drop_app. replace (r - lenN data) with 0 by lia. now rewrite drop_0. }
    rewrite RE. destruct E7 as [->|[k E7]].
    + rewrite app_nil_r. symmetry. apply take_all. rewrite lenN_drop. lia.
    + assert (lenN data = r + pad).
      { clear - E4 LD PQ PL E7. clearbody r pad. destruct (N.lt_trichotomy k q) as [C|[C|C]]; [exfalso|subst k; lia|exfalso].
        - assert ((k + 1) * ds <= q * ds) by (apply N.mul_le_mono_r; lia). lia.
        - assert ((q + 1) * ds <= k * ds) by (apply N.mul_le_mono_r; lia). pose proof DSP. lia. }
      rewrite take_app, lenN_drop. replace (pad - (lenN data - r)) with 0 by lia. rewrite take_0, app_nil_r. symmetry. apply take_all. rewrite lenN_drop. lia.
Qed.

Theorem encode_whole content mx n : input_ok (SrcFile content) -> e_from p = None -> e_to p = None ->
  ver_to_max_data_file_size v o = ROk mx -> lenN content <= mx -> block_count v o (lenN content) n -> n < U32_MAX ->
  exists out, encode_file H rs cpus p (SrcFile content) = ROk out /\ encoded H rs p content out.
Proof.
  intros IO EF ET HMX HL HBC HN. pose proof IO as [IB IL]. destruct (N.eq_dec (lenN content) 0) as [L0|L0].
  - apply lenN_0 in L0. subst content. pose proof (encode_part [] mx n IO HMX) as E. rewrite (asked_whole p [] EF ET IL) in E. change (N.max 1 (lenN (@nil N))) with 1 in E.
    destruct E as (out & data & rest & E1 & E2 & E3 & _); [lia| |exact HBC|exact HN|].
    + destruct OK as (_ & _ & O1 & O2 & _). pose proof (max_size_eq v o O1 O2) as MX. rewrite HMX in MX. apply ROk_inj in MX. subst mx.
      pose proof DSP as DS. fold ds. unfold o. unfold dpb_ok in O1. destruct (e_dpb p) as [[[d q] B]|]; [|unfold U32_MAX; lia].
      destruct (sets_pos d q) as [S1 _]; [lia|lia|]. assert (1 <= U32_MAX / (d + q) * d) by nia. nia.
    + exists out. split; [exact E1|]. destruct data; [exact E2|discriminate E3].
  - assert (RO : range_ok p content) by (unfold range_ok, range_lo, range_hi; rewrite EF, ET; repeat split; lia).
    assert (EW : wanted p content = content). { unfold wanted, range_lo, range_hi. rewrite EF, ET, take_all by lia. reflexivity. }
    destruct (encode_range content mx n IO RO HMX) as (out & extra & E1 & E2 & E3); rewrite ?EW; try assumption.
    exists out. split; [exact E1|]. rewrite EW in E2. rewrite E3 in E2. rewrite (drop_all _ content), take_nil, app_nil_r in E2 by (unfold range_hi; rewrite ET; lia). exact E2.
Qed.

Theorem encode_too_large content mx : ver_to_max_data_file_size v o = ROk mx -> mx < fst (asked p content) ->
  exists out, encode_file H rs cpus p (SrcFile content) = ROk out /\ eo_err out = true /\ eo_file out = [].
Proof.
  intros HMX HL. rewrite encode_file_eq. unfold enc_main. fold v o. rewrite HMX. cbn [rbind].
  destruct (N.ltb_spec mx (fst (asked p content))); [|lia]. eexists. split; [reflexivity|]. split; reflexivity.
Qed.

Theorem encode_stdin script mx : input_ok (SrcStdin script) -> ver_to_max_data_file_size v o = ROk mx ->
  exists data rest, concat script = data ++ rest /\ lenN data <= mx /\
   (well_paced ds script -> data = takeN mx (concat script)) /\
   ((exists out, encode_file H rs cpus p (SrcStdin script) = ROk out /\ eo_err out = true /\ lenN data = mx /\ rest <> []) \/
    ((well_paced ds script -> rest = []) /\
     forall n, block_count v o (lenN data) n -> n < U32_MAX ->
       exists out, encode_file H rs cpus p (SrcStdin script) = ROk out /\ encoded H rs p data out)).
Proof.
  intros [IB IL] HMX. rewrite encode_file_eq.
  destruct (main_ok H rs p OK1 FITS None None (SrcStdin script) mx) as (res & data & rest & k & RE & D1 & D2 & D3 & D4 & D5); [split; assumption|exact I|exact I|exact HMX|].
  fold v ds in D5. rewrite RE by exact CP. cbn [src_bytes] in D1. exists data, rest. split; [exact D1|]. split; [exact D4|].
  destruct D5 as [(out & X1 & X2 & X3 & X4 & _)|[[[]|[X1 _]] X2]].
  - split; [|left; exists out; auto]. intros _. rewrite D1, take_app, X3, N.sub_diag, take_0, app_nil_r, take_all by lia. reflexivity.
  - assert (W : well_paced ds script -> rest = []) by (intro W; apply X1; apply well_paced_from; [apply DSP|exact W]).
    split; [|right; split; [exact W|exact X2]]. intro WP. rewrite D1, (W WP), app_nil_r, take_all by exact D4. reflexivity.
Qed.
(* what is encoded of standard input *)
Theorem encode_stdin_reads script mx : input_ok (SrcStdin script) -> ver_to_max_data_file_size v o = ROk mx ->
  exists data rest, concat script = data ++ rest /\ lenN data <= mx /\
   ((exists out, encode_file H rs cpus p (SrcStdin script) = ROk out /\ eo_err out = true /\ lenN data = mx /\ rest <> []) \/
    (reads ds (SrcStdin script) data rest /\
     forall n, block_count v o (lenN data) n -> n < U32_MAX ->
       exists out, encode_file H rs cpus p (SrcStdin script) = ROk out /\ encoded H rs p data out)).
Proof.
  intros [IB IL] HMX. rewrite encode_file_eq.
  destruct (main_ok H rs p OK1 FITS None None (SrcStdin script) mx) as (res & data & rest & k & RE & D1 & D2 & D3 & D4 & D5); [split; assumption|exact I|exact I|exact HMX|].
  fold v ds in D5. rewrite RE by exact CP. cbn [src_bytes] in D1. exists data, rest. split; [exact D1|]. split; [exact D4|].
  destruct D5 as [(out & X1 & X2 & X3 & X4 & _)|[[[]|[_ X1]] X2]]; [left; exists out; auto|right; split; [exact X1|exact X2]].
Qed.
End Whole.

Theorem encode_cpus H rs p c1 c2 input : enc_ok H rs c1 p -> 1 <= c2 <= 37000 -> input_ok input ->
  match input with SrcFile content => range_ok p content \/ (e_from p = None /\ e_to p = None) | SrcStdin _ => True end ->
  meta_fits H p -> encode_file H rs c1 p input = encode_file H rs c2 p input.
Proof.
  intros OK C2 IO HR MF. pose proof (OK1 H rs p c1 OK) as OK1. pose proof (CP H rs p c1 OK) as C1. rewrite !encode_file_eq.
  destruct OK as (_ & _ & O1 & O2 & _). pose proof (max_size_eq _ _ O1 O2) as HMX. set (mx := match e_dpb p with Some _ => _ | None => _ end) in HMX.
  destruct input as [content|script].
  - assert (AR : fst (asked p content) < 18446744073709551616).
    { destruct IO as [_ IL]. destruct HR as [HR|[E1 E2]]; [rewrite (asked_range p content HR IL)|rewrite (asked_whole p content E1 E2 IL)]; cbn [fst]; lia. }
    destruct (N.lt_ge_cases mx (fst (asked p content))) as [L|L].
    + unfold enc_main. rewrite HMX. cbn [rbind]. destruct (N.ltb_spec mx (fst (asked p content))); [reflexivity|lia].
    + destruct (main_ok H rs p OK1 MF (Some (fst (asked p content))) (Some (fst (asked p content))) (SrcFile (dropN (snd (asked p content)) content)) mx) as (res & _ & _ & _ & RE & _).
      * destruct IO as [IB IL]. split; [apply bytes_ok_drop, IB|]. cbn [src_bytes]. rewrite lenN_drop. lia.
      * auto.
      * auto.
      * exact HMX.
      * rewrite !RE by assumption. reflexivity.
  - destruct (main_ok H rs p OK1 MF None None (SrcStdin script) mx IO I I HMX) as (res & _ & _ & _ & RE & _). rewrite !RE by assumption. reflexivity.
Qed.

Theorem encode_meta_too_big H rs cpus p content mx : enc_ok H rs cpus p -> meta_on p = true ->
  ver_to_block_size (e_ver p) - 16 < fields_size (recorded H p []) ->
  range_ok p content \/ (e_from p = None /\ e_to p = None) -> input_ok (SrcFile content) ->
  ver_to_max_data_file_size (e_ver p) (e_dpb p) = ROk mx ->
  exists out, encode_file H rs cpus p (SrcFile content) = ROk out /\ eo_err out = true /\ eo_file out = [].
Proof.
  intros OK MO FB HR [IB IL] HMX. pose proof (OK1 H rs p cpus OK) as OKK. rewrite encode_file_eq.
  assert (AR : fst (asked p content) < 18446744073709551616).
  { destruct HR as [HR|[E1 E2]]; [rewrite (asked_range p content HR IL)|rewrite (asked_whole p content E1 E2 IL)]; cbn [fst]; lia. }
  set (r := fst (asked p content)) in *. set (src := SrcFile _). unfold enc_main. rewrite HMX. cbn [rbind].
  destruct (mx <? r); [eexists; split; [reflexivity|split; reflexivity]|].
  pose proof OK as (U1 & U2 & O1 & O2 & O3 & O4 & _). rewrite O4, MO. cbn [negb].
  destruct (fields_good H rs p OKK (Some r) [] AR) as (F1 & F2 & F3).
  pose proof (meta_block_ok (e_ver p) (e_uid p) _ U1 U2 F1 F2 F3) as MB. cbv zeta in MB.
  assert (FE : fields_size (fields H p (Some r) []) = fields_size (recorded H p [])).
  { unfold fields, recorded, fsz_fields. rewrite !(fields_size_app p).
    change [SNM (e_out_name p); FSZ (lenN (@nil N))] with ([SNM (e_out_name p)] ++ [FSZ (lenN (@nil N))]). rewrite !(fields_size_app p).
    change (fields_size [FSZ r]) with (fields_size [FSZ (lenN (@nil N))]). lia. }
  rewrite FE in MB. destruct (N.ltb_spec (ver_to_block_size (e_ver p) - 16) (fields_size (recorded H p []))); [|lia].
  unfold write_meta_blocks. rewrite (pack_eq H rs p OKK (Some r) None []) by reflexivity. rewrite MB. cbn [rbind].
  eexists. split; [reflexivity|split; reflexivity].
Qed.
