(* Lemmas about options. *)
From Coq Require Import String Ascii.
From Verif Require Import M_Base M_Specs M_Header M_Multihash M_Metadata M_Block M_Index M_FileUtils M_Buffer M_Ranges M_Encode
  M_Scan M_Loop M_Decode M_Sort M_Rescue M_Hex M_Json M_Path M_Cli S_Index S_Encode S_Cli L_Base L_Path L_Cli.

(* ---- numbers ---- *)
Lemma dec_value_acc d : forall a, fold_left (fun a c => a * 10 + (c - 48)) d a = a * 10 ^ lenN d + value d.
Proof.
  induction d as [|c d IH]; intro a; [cbn [fold_left value]; rewrite lenN_nil, N.pow_0_r; lia|]. cbn [fold_left value]. rewrite IH, lenN_cons.
  replace (1 + lenN d) with (N.succ (lenN d)) by lia. rewrite N.pow_succ_r'. lia.
Qed.
Lemma dec_value_value d : dec_value d = value d.
Proof. unfold dec_value. rewrite dec_value_acc. lia. Qed.
Lemma digits_iff d : forallb is_digit d = true <-> Forall (fun c => 48 <= c <= 57) d.
Proof.
  rewrite forallb_forall, Forall_forall. split; intros H x I; specialize (H x I); unfold is_digit in *.
  - apply andb_true_iff in H. destruct H as [A B]. apply N.leb_le in A, B. lia.
  - apply andb_true_iff. split; apply N.leb_le; lia.
Qed.
Definition unsign (s : list N) : list N := match s with 43 :: t => t | _ => s end.
Lemma unsign_plus d : unsign (43 :: d) = d.
Proof. reflexivity. Qed.
Lemma unsign_digits d : Forall (fun c => 48 <= c <= 57) d -> unsign d = d.
Proof.
  intro F. destruct d as [|c d]; [reflexivity|]. inversion F as [|? ? X _]; subst. assert (D : c <> 43) by lia. unfold unsign.
  destruct c as [|q]; [reflexivity|]. repeat (destruct q as [q|q|]; try reflexivity; try (exfalso; apply D; reflexivity)).
Qed.
Lemma unsign_cases s : s = unsign s \/ s = 43 :: unsign s.
Proof.
  destruct s as [|c s]; [auto|]. destruct (N.eq_dec c 43) as [->|D]; [auto|]. left. unfold unsign.
  destruct c as [|q]; [reflexivity|]. repeat (destruct q as [q|q|]; try reflexivity; try (exfalso; apply D; reflexivity)).
Qed.
Lemma parse_unsigned_eq s : parse_unsigned s = match unsign s with [] => None | _ => if forallb is_digit (unsign s) then parse_u64 (unsign s) else None end.
Proof. reflexivity. Qed.
Lemma parse_number x n : parse_unsigned x = Some n <-> is_number x n.
Proof.
  rewrite parse_unsigned_eq. split.
  - destruct (unsign x) as [|c d] eqn:U; [discriminate|]. destruct (forallb is_digit (c :: d)) eqn:D; [|discriminate]. unfold parse_u64. cbv zeta.
    destruct (N.ltb_spec (dec_value (c :: d)) 18446744073709551616) as [L|]; [|discriminate]. intro H. injection H as <-. exists (c :: d).
    split; [rewrite <- U; apply unsign_cases|]. split; [discriminate|]. split; [apply digits_iff; exact D|]. rewrite <- dec_value_value. auto.
  - intros (d & X & ND & D & V & L). assert (U : unsign x = d) by (destruct X as [->| ->]; [apply unsign_digits; exact D|reflexivity]).
    rewrite U. destruct d as [|c d]; [congruence|]. apply digits_iff in D. rewrite D. unfold parse_u64. cbv zeta. rewrite dec_value_value, V.
    apply N.ltb_lt in L. rewrite L. reflexivity.
Qed.
Lemma number_iff m a o : get_number m a = Go o <-> number_option m a o.
Proof.
  unfold get_number, number_option. destruct (value_of m a) as [x|].
  - destruct (parse_unsigned x) as [n|] eqn:P.
    + split; [intro H; injection H as <-; apply parse_number; exact P|destruct o; [|tauto]; intro H; apply parse_number in H; congruence].
    + split; [discriminate|destruct o; [|tauto]; intro H; apply parse_number in H; congruence].
  - split; [intro H; injection H as <-; exact Logic.I|destruct o; [tauto|reflexivity]].
Qed.
Lemma range_iff m i e o : get_range_end m i e = Go o <-> range_option m i e o.
Proof.
  unfold get_range_end, range_option. destruct (value_of m i) as [x|], (value_of m e) as [y|]; try (split; [discriminate|destruct o as [[]|]; tauto]).
  - destruct (parse_unsigned x) as [n|] eqn:P.
    + split; [intro H; injection H as <-; apply parse_number; exact P|destruct o as [[k|k]|]; try tauto; intro H; apply parse_number in H; congruence].
    + split; [discriminate|destruct o as [[k|k]|]; try tauto; intro H; apply parse_number in H; congruence].
  - destruct (parse_unsigned y) as [n|] eqn:P.
    + split; [intro H; injection H as <-; apply parse_number; exact P|destruct o as [[k|k]|]; try tauto; intro H; apply parse_number in H; congruence].
    + split; [discriminate|destruct o as [[k|k]|]; try tauto; intro H; apply parse_number in H; congruence].
  - split; [intro H; injection H as <-; exact Logic.I|destruct o as [[]|]; try tauto; reflexivity].
Qed.

(* ---- names of versions and hashes: tables ---- *)
Fixpoint assoc {A} (x : list N) (t : list (list N * A)) : option A :=
  match t with [] => None | (k, a) :: t' => if eqbl x k then Some a else assoc x t' end.
Lemma assoc_in {A} x (t : list (list N * A)) a : NoDup (map fst t) -> (assoc x t = Some a <-> In (x, a) t).
Proof.
  induction t as [|[k b] t IH]; cbn; [intros _; split; [discriminate|tauto]|]. intro ND. inversion ND as [|? ? NI ND']; subst. specialize (IH ND').
  destruct (eqbl x k) eqn:E.
  - apply eqbl_eq in E. subst k. split; [intro H; injection H as <-; auto|]. intros [H|H]; [congruence|]. exfalso. apply NI. change x with (fst (x, a)). apply in_map. exact H.
  - apply eqbl_neq in E. rewrite IH. split; [auto|]. intros [H|H]; [congruence|exact H].
Qed.
Lemma nodup_dec (l : list (list N)) : (fix go l := match l with [] => true | x :: t => negb (existsb (eqbl x) t) && go t end) l = true -> NoDup l.
Proof.
  induction l as [|x l IH]; [constructor|]. intro H. apply andb_true_iff in H. destruct H as [A B]. constructor; [|apply IH; exact B].
  intro I. apply negb_true_iff in A. assert (X : existsb (eqbl x) l = true) by (apply existsb_exists; exists x; split; [exact I|apply eqbl_refl]). congruence.
Qed.
Lemma version_iff x v : string_to_ver x = Some v <-> In (x, v) versions.
Proof.
  rewrite <- assoc_in by (apply nodup_dec; reflexivity). unfold string_to_ver, versions. cbn [assoc]. tauto.
Qed.
Lemma hash_iff x h : string_to_hash_type x = Some h <-> In (map lower x, h) hashes.
Proof.
  rewrite <- assoc_in by (apply nodup_dec; vm_compute; reflexivity). unfold string_to_hash_type, hashes. cbn [assoc]. cbv zeta.
  destruct (eqbl _ (str "sha1")); [tauto|]. destruct (eqbl _ (str "sha2-256")); [tauto|]. cbn [orb]. destruct (eqbl _ (str "sha256")); [tauto|].
  destruct (eqbl _ (str "sha2-512-512")); [tauto|]. cbn [orb]. tauto.
Qed.

(* ---- hex ---- *)
Lemma hex_char_iff c n : hex_char_to_value c = ROk n <-> hex_value c n.
Proof.
  unfold hex_char_to_value, hex_value.
  destruct (N.leb_spec 48 c), (N.leb_spec c 57), (N.leb_spec 65 c), (N.leb_spec c 70), (N.leb_spec 97 c), (N.leb_spec c 102); cbn [andb];
    (split; [intro X; try discriminate; apply ROk_inj in X; lia|intro X; try (f_equal; lia); exfalso; lia]).
Qed.
Lemma hex_valid c : is_valid_hex_char c = true <-> exists n, hex_value c n.
Proof.
  unfold is_valid_hex_char, hex_value. rewrite !orb_true_iff, !andb_true_iff, !N.leb_le. split.
  - intros [[H|H]|H]; eexists; [left|right; left|right; right]; split; try reflexivity; exact H.
  - intros (n & [H|[H|H]]); tauto.
Qed.
Lemma hex_value_lt c n : hex_value c n -> n < 16.
Proof. unfold hex_value. lia. Qed.
Lemma hex_pairs_iff s : forall t, lenN s mod 2 = 0 -> forallb is_valid_hex_char s = true -> (hex_pairs s = ROk t <-> hex_bytes s t).
Proof.
  assert (X : forall k s t, (length s <= k)%nat -> lenN s mod 2 = 0 -> forallb is_valid_hex_char s = true -> (hex_pairs s = ROk t <-> hex_bytes s t)).
  2:{ intros t. apply (X (length s)). lia. }
  clear s. induction k as [|k IH]; intros s t L M V.
  - destruct s; [|cbn in L; lia]. cbn. split; [intro H; apply ROk_inj in H; subst; constructor|intro H; inversion H; reflexivity].
  - destruct s as [|a [|b s]]; [cbn; split; [intro H; apply ROk_inj in H; subst; constructor|intro H; inversion H; reflexivity]|discriminate|].
    cbn [forallb] in V. apply andb_true_iff in V. destruct V as [VA V]. apply andb_true_iff in V. destruct V as [VB V]. apply hex_valid in VA, VB.
    destruct VA as (x & HA), VB as (y & HB). pose proof (hex_value_lt _ _ HA) as LA. pose proof (hex_value_lt _ _ HB) as LB.
    assert (M' : lenN s mod 2 = 0).
    { rewrite !lenN_cons in M. replace (1 + (1 + lenN s)) with (lenN s + 1 * 2) in M by lia. rewrite N.mod_add in M by lia. exact M. }
    assert (IHs := fun t => IH s t ltac:(cbn in L; lia) M' V). cbn [hex_pairs]. apply hex_char_iff in HA as HA', HB as HB'. rewrite HA', HB'. cbn [rbind].
    assert (U : u8 (u8 (x * 16) + y) = 16 * x + y) by (unfold u8; rewrite (N.mod_small (x * 16)) by lia; rewrite N.mod_small by lia; lia). rewrite U.
    split.
    + intro H. apply rbind_ok in H. destruct H as (r & HR & H). apply ROk_inj in H. subst t. constructor; auto. apply IHs. exact HR.
    + intro H. inversion H as [|a' b' x' y' s' t' HX HY HS]; subst. apply IHs in HS. rewrite HS. cbn [rbind].
      apply hex_char_iff in HX, HY. assert (x' = x) by congruence. assert (y' = y) by congruence. subst. reflexivity.
Qed.
Lemma hex_bytes_shape s t : hex_bytes s t -> lenN s = 2 * lenN t /\ forallb is_valid_hex_char s = true /\ bytes_ok t = true.
Proof.
  induction 1 as [|a b x y s t HA HB HS (L & V & B)]; [repeat split|]. rewrite !lenN_cons. split; [lia|]. split.
  - cbn [forallb]. rewrite V. assert (is_valid_hex_char a = true) as -> by (apply hex_valid; eauto). assert (is_valid_hex_char b = true) as -> by (apply hex_valid; eauto). reflexivity.
  - apply hex_value_lt in HA, HB. unfold bytes_ok in *. cbn [forallb]. rewrite B, andb_true_r. unfold byte_ok. apply N.ltb_lt. lia.
Qed.
Lemma parse_uid_iff x u : parse_uid x = Go u <-> lenN u = 6 /\ hex_bytes x u.
Proof.
  unfold parse_uid, hex_string_to_bytes. split.
  - destruct (N.eqb_spec (lenN x mod 2) 0) as [M|]; [|discriminate]. destruct (forallb is_valid_hex_char x) eqn:V; [|discriminate].
    destruct (hex_pairs x) as [t| |] eqn:P; try discriminate. cbn [rbind]. destruct (N.eqb_spec (lenN t) SBX_FILE_UID_LEN) as [L|]; [|discriminate].
    intro H. injection H as <-. split; [exact L|]. apply hex_pairs_iff; assumption.
  - intros (L & H). destruct (hex_bytes_shape _ _ H) as (LX & V & _).
    assert (M : lenN x mod 2 = 0) by (rewrite LX, N.mul_comm; apply N.mod_mul; lia). rewrite M, V. cbn [N.eqb].
    apply hex_pairs_iff in H; [|exact M|exact V]. rewrite H. cbn [rbind]. rewrite L. reflexivity.
Qed.
Lemma parse_uid_stop x e : parse_uid x = Stop e -> e = Exit 1.
Proof.
  unfold parse_uid, hex_string_to_bytes. destruct (N.eqb_spec (lenN x mod 2) 0) as [M|]; [|congruence]. destruct (forallb is_valid_hex_char x) eqn:V; [|congruence].
  assert (P : forall k s, (length s <= k)%nat -> forallb is_valid_hex_char s = true -> exists t, hex_pairs s = ROk t).
  { clear. induction k as [|k IH]; intros s L V; [destruct s; [exists []; reflexivity|cbn in L; lia]|].
    destruct s as [|a [|b s]]; [exists []; reflexivity|exists []; reflexivity|]. cbn [forallb] in V. apply andb_true_iff in V. destruct V as [VA V].
    apply andb_true_iff in V. destruct V as [VB V]. apply hex_valid in VA, VB. destruct VA as (x & HA), VB as (y & HB). apply hex_char_iff in HA, HB.
    destruct (IH s) as (t & E); [cbn in L; lia|exact V|]. cbn [hex_pairs]. rewrite HA, HB, E. cbn. eauto. }
  destruct (P (length x) x) as (t & ->); [lia|exact V|]. cbn [rbind]. destruct (_ =? _); congruence.
Qed.

(* ---- version and shards ---- *)
Lemma shards_iff m a n : get_shards m a = Go n <-> number_option m a (Some n).
Proof.
  unfold get_shards, number_option. destruct (value_of m a) as [x|]; [|split; [discriminate|tauto]]. rewrite <- parse_number.
  destruct (parse_unsigned x); split; congruence.
Qed.
Lemma check_iff d p u : check_data_parity_shards d p = Go u <-> 1 <= d /\ 1 <= p /\ d + p <= 256.
Proof.
  destruct u. unfold check_data_parity_shards, U64_MAX. destruct (N.eqb_spec d 0); [split; [discriminate|lia]|]. destruct (N.eqb_spec p 0); [split; [discriminate|lia]|].
  destruct (N.ltb_spec 18446744073709551615 (d + p)); [split; [discriminate|lia]|]. destruct (N.ltb_spec 256 (d + p)); [split; [discriminate|lia]|].
  split; [lia|reflexivity].
Qed.
Lemma version_options_iff m v o : get_ver_and_data_par_burst_w_defaults m = Go (v, o) <-> version_options m v o.
Proof.
  unfold get_ver_and_data_par_burst_w_defaults, version_options. destruct (value_of m A_sbx_version) as [x|].
  - rewrite <- version_iff. destruct (string_to_ver x) as [w|]; [|split; [discriminate|intros [X _]; discriminate]].
    destruct (ver_uses_rs w) eqn:RS.
    + split.
      * intro H. apply gbind_go in H. destruct H as (d & HD & H). apply gbind_go in H. destruct H as (p & HP & H). apply gbind_go in H. destruct H as (u & HC & H).
        apply gbind_go in H. destruct H as (b & HB & H). injection H as <- <-. split; [reflexivity|].
        split; [destruct w; try discriminate; auto|]. apply shards_iff in HD, HP. apply check_iff in HC. destruct HC as (C1 & C2 & C3).
        repeat (split; [assumption|]). apply number_iff in HB. destruct b as [b|]; [left; exact HB|]. right. split; [|reflexivity].
        unfold number_option in HB. destruct (value_of m A_burst); [contradiction|reflexivity].
      * intros [E H]. injection E as ->. destruct o as [[[d p] B]|]; [|destruct H as [->|[->| ->]]; discriminate].
        destruct H as (_ & HD & HP & C1 & C2 & C3 & HB). apply shards_iff in HD, HP. rewrite HD, HP. cbn [gbind].
        assert (HC : check_data_parity_shards d p = Go tt) by (apply check_iff; auto). rewrite HC. cbn [gbind].
        destruct HB as [HB|[HB ->]]; [apply number_iff in HB; rewrite HB; reflexivity|]. unfold get_number. rewrite HB. reflexivity.
    + split.
      * intro H. injection H as <- <-. split; [reflexivity|]. destruct w; try discriminate; auto.
      * intros [E H]. injection E as ->. destruct o as [[[d p] B]|]; [|reflexivity]. destruct H as ([->|[->| ->]] & _); discriminate.
  - destruct (value_of m A_rs_data), (value_of m A_rs_parity), (value_of m A_burst);
      try (split; [discriminate|intros (X & Y & Z & _); discriminate]).
    split; [intro H; injection H as <- <-; repeat split|]. intros (_ & _ & _ & -> & ->). reflexivity.
Qed.
Lemma version_stop m e : get_ver_and_data_par_burst_w_defaults m = Stop e -> e = Exit 1 \/
  e = Panicked /\ exists d p, number_option m A_rs_data (Some d) /\ number_option m A_rs_parity (Some p) /\ 18446744073709551616 <= d + p.
Proof.
  unfold get_ver_and_data_par_burst_w_defaults. destruct (value_of m A_sbx_version) as [x|].
  2:{ destruct (value_of m A_rs_data), (value_of m A_rs_parity), (value_of m A_burst); intro H; try discriminate; left; congruence. }
  destruct (string_to_ver x) as [w|]; [|left; congruence]. destruct (ver_uses_rs w); [|discriminate].
  destruct (get_shards m A_rs_data) as [d|] eqn:HD.
  2:{ unfold get_shards in HD. cbn. intro H. left. destruct (value_of m A_rs_data) as [y|]; [destruct (parse_unsigned y)|]; congruence. }
  destruct (get_shards m A_rs_parity) as [p|] eqn:HP.
  2:{ unfold get_shards in HP. cbn. intro H. left. destruct (value_of m A_rs_parity) as [y|]; [destruct (parse_unsigned y)|]; congruence. }
  cbn [gbind]. destruct (check_data_parity_shards d p) as [u|e'] eqn:HC; cbn [gbind].
  - destruct (get_number m A_burst) as [b|] eqn:HB; [discriminate|]. unfold get_number in HB. cbn. intro H. left.
    destruct (value_of m A_burst) as [y|]; [destruct (parse_unsigned y)|]; congruence.
  - intro H. injection H as <-. unfold check_data_parity_shards, U64_MAX in HC. destruct (d =? 0); [left; congruence|]. destruct (p =? 0); [left; congruence|].
    destruct (N.ltb_spec 18446744073709551615 (d + p)); [|destruct (_ <? _); [left; congruence|discriminate]].
    right. split; [congruence|]. exists d, p. apply shards_iff in HD, HP. repeat split; auto; lia.
Qed.
