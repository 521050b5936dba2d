(* Lemmas about the commands. *)
From Coq Require Import String Ascii.
From Verif Require Import M_Base M_Specs M_Header M_Multihash M_Metadata M_Block M_Index M_FileUtils M_Buffer M_Ranges M_Encode
  M_Scan M_Loop M_Decode M_Sort M_Repair M_Content M_Update M_Rescue M_Hex M_Json M_Path M_Cli S_Cli L_Base L_Path.

(* ---- paths built from parts ---- *)
Definition start (cwd : loc) (path : list N) : loc := match path with 47 :: _ => [] | _ => cwd end.
Lemma start_app cwd a b : a <> [] -> start cwd (a ++ b) = start cwd a.
Proof. destruct a; [congruence|reflexivity]. Qed.
Lemma start_no cwd n : ~ In 47 n -> start cwd n = cwd.
Proof.
  destruct n as [|c n]; [reflexivity|]. intro H. assert (D : c <> 47) by (intro; subst; apply H; left; reflexivity). unfold start.
  destruct c as [|q]; [reflexivity|]. repeat (destruct q as [q|q|]; try reflexivity; try (exfalso; apply D; reflexivity)).
Qed.
Definition zero (p : list N) : bool := existsb (N.eqb 0) p.
Lemma zero_app a b : zero (a ++ b) = zero a || zero b.
Proof. apply existsb_app. Qed.
Lemma zero_In p : zero p = false <-> ~ In 0 p.
Proof.
  unfold zero. split; intro H.
  - intro I. assert (X : existsb (N.eqb 0) p = true) by (apply existsb_exists; exists 0; auto). congruence.
  - destruct (existsb (N.eqb 0) p) eqn:E; [|reflexivity]. apply existsb_exists in E. destruct E as (x & I & X). apply N.eqb_eq in X. subst. contradiction.
Qed.
Lemma resolve_eq s cwd p : resolve s cwd p = if eqbl p [] || zero p then None else walk s (start cwd p) (split_slash p).
Proof. reflexivity. Qed.
Lemma resolve_some s cwd p l : resolve s cwd p = Some l <-> p <> [] /\ zero p = false /\ walk s (start cwd p) (split_slash p) = Some l.
Proof.
  rewrite resolve_eq. destruct (eqbl p []) eqn:A; [apply eqbl_eq in A; subst; cbn; split; [discriminate|intros [X _]; congruence]|].
  apply eqbl_neq in A. cbn [orb]. destruct (zero p); [split; [discriminate|intros (_ & X & _); discriminate]|]. tauto.
Qed.
Lemma push_nil o : path_push [] o = o.
Proof. unfold path_push. cbn. destruct o as [|c o]; [reflexivity|]. destruct c as [|q]; [reflexivity|]. repeat (destruct q as [q|q|]; try reflexivity). Qed.
Lemma push_no buf n : ~ In 47 n -> path_push buf n = match rev buf with [] => n | c :: _ => if c =? 47 then buf ++ n else buf ++ 47 :: n end.
Proof.
  destruct n as [|c n]; [reflexivity|]. intro H. assert (D : c <> 47) by (intro; subst; apply H; left; reflexivity). unfold path_push.
  destruct c as [|q]; [reflexivity|]. repeat (destruct q as [q|q|]; try reflexivity; try (exfalso; apply D; reflexivity)).
Qed.
Lemma resolve_child s cwd o d n : resolve s cwd o = Some d -> s d = Some NDir -> good_name n ->
  resolve s cwd (make_path [o; n]) = if zero n then None else Some (d ++ [n]).
Proof.
  intros R D G. apply resolve_some in R. destruct R as (O & Z & W). pose proof G as (A & NS & _).
  assert (DA : is_dir_at s d = true) by (unfold is_dir_at; rewrite D; reflexivity).
  unfold make_path. cbn [fold_left]. rewrite push_nil, push_no by exact NS.
  destruct (rev o) as [|c r] eqn:RO. { apply (f_equal (@rev N)) in RO. rewrite rev_involutive in RO. cbn in RO. congruence. }
  assert (EO : o = rev r ++ [c]) by (rewrite <- (rev_involutive o), RO; reflexivity).
  rewrite resolve_eq.
  destruct (N.eqb_spec c 47) as [->|NC].
  - assert (X : eqbl (o ++ n) [] = false) by (apply eqbl_neq; destruct o; [congruence|discriminate]). rewrite X. cbn [orb].
    rewrite zero_app, Z. cbn [orb]. destruct (zero n); [reflexivity|]. rewrite start_app by exact O.
    revert W. generalize (start cwd o) as st. intro st. rewrite EO, <- app_assoc. cbn [app]. rewrite !split_app, !walk_app.
    destruct (walk s st (split_slash (rev r))) as [l|]; [|discriminate]. cbn [split_slash walk]. rewrite (split_no n NS). cbn [walk].
    destruct (is_dir_at s l) eqn:DL; [|discriminate]. cbn. intro E. injection E as <-. rewrite good_step by exact G. reflexivity.
  - assert (X : eqbl (o ++ 47 :: n) [] = false) by (apply eqbl_neq; destruct o; [congruence|discriminate]). rewrite X. cbn [orb].
    rewrite zero_app, Z. cbn [orb]. change (zero (47 :: n)) with (zero n). destruct (zero n); [reflexivity|]. rewrite start_app by exact O.
    rewrite split_app, walk_app, W, (split_no n NS). cbn [walk]. rewrite DA, good_step by exact G. reflexivity.
Qed.
Lemma resolve_name s cwd n : good_name n -> resolve s cwd n = if zero n then None else if is_dir_at s cwd then Some (cwd ++ [n]) else None.
Proof.
  intro G. pose proof G as (A & NS & _). rewrite resolve_eq. apply eqbl_neq in A. rewrite A. cbn [orb]. destruct (zero n); [reflexivity|].
  rewrite start_no, split_no by exact NS. cbn [walk]. rewrite good_step by exact G. reflexivity.
Qed.
(* a path with a file name that does not name a directory: its last piece is that name *)
Lemma last_name s cwd p l n : resolve s cwd p = Some l -> s l <> Some NDir -> get_file_name_part_of_path p = Some n ->
  exists d, l = d ++ [n] /\ good_name n /\ is_dir_at s d = true /\
    (p = n /\ d = cwd \/ exists a, p = a ++ 47 :: n /\ walk s (match a with [] => [] | _ => start cwd a end) (split_slash a) = Some d).
Proof.
  intros R ND P. apply resolve_some in R. destruct R as (PN & Z & W). destruct (last_piece p) as [H|(a & b & -> & H)].
  - rewrite part_one in P by exact H. rewrite start_no, (split_no p H) in W by exact H. cbn [walk] in W.
    destruct (is_dir_at s cwd) eqn:D; [|discriminate]. destruct (piece_cases p H) as [->|[->|[->|G]]]; try discriminate.
    assert (n = p) by (pose proof G as (A & B & C & F); apply eqbl_neq in A, C, F; rewrite A, C, F in P; cbn in P; congruence). subst p.
    rewrite good_step in W by exact G. exists cwd. split; [congruence|]. split; [exact G|]. split; [exact D|]. auto.
  - rewrite part_app in P by exact H. rewrite split_app, (split_no b H), walk_app in W.
    assert (SA : start cwd (a ++ 47 :: b) = match a with [] => [] | _ => start cwd a end) by (destruct a; reflexivity). rewrite SA in W.
    destruct (walk s (match a with [] => [] | _ => start cwd a end) (split_slash a)) as [d|] eqn:WA; [|discriminate]. cbn [walk] in W.
    destruct (is_dir_at s d) eqn:D; [|discriminate].
    assert (DD : s d = Some NDir) by (unfold is_dir_at in D; destruct (s d) as [[|]|]; congruence).
    destruct (piece_cases b H) as [->|[->|[->|G]]].
    + injection W as <-. contradiction.
    + injection W as <-. contradiction.
    + discriminate.
    + assert (n = b) by (pose proof G as (A & B & C & F); apply eqbl_neq in A, C, F; rewrite A, C, F in P; cbn in P; congruence). subst b.
      rewrite good_step in W by exact G. exists d. split; [congruence|]. split; [exact G|]. split; [exact D|]. right. exists a. auto.
Qed.
Lemma resolve_beside s cwd p l n ext : resolve s cwd p = Some l -> s l <> Some NDir -> get_file_name_part_of_path p = Some n ->
  good_name (n ++ ext) -> zero ext = false -> exists d, l = d ++ [n] /\ good_name n /\ resolve s cwd (p ++ ext) = Some (d ++ [n ++ ext]).
Proof.
  intros R ND P G ZE. destruct (last_name _ _ _ _ _ R ND P) as (d & -> & GN & D & C). exists d. split; [reflexivity|]. split; [exact GN|].
  apply resolve_some in R. destruct R as (PN & Z & W). apply resolve_some. split; [destruct p; [congruence|discriminate]|].
  split; [rewrite zero_app, Z, ZE; reflexivity|]. rewrite start_app by exact PN. pose proof G as (_ & NS & _). destruct C as [[-> ->]|(a & -> & WA)].
  - rewrite start_no by apply GN. rewrite (split_no _ NS). cbn [walk]. rewrite D, good_step by exact G. reflexivity.
  - rewrite <- app_assoc. cbn [app]. rewrite split_app, (split_no _ NS), walk_app.
    assert (SA : start cwd (a ++ 47 :: n) = match a with [] => [] | _ => start cwd a end) by (destruct a; reflexivity). rewrite SA, WA.
    cbn [walk]. rewrite D, good_step by exact G. reflexivity.
Qed.
Lemma good_ext n ext : good_name n -> ~ In 47 ext -> (3 <= length ext)%nat -> good_name (n ++ ext).
Proof.
  intros (A & B & _) X L. repeat split.
  - destruct n; [congruence|discriminate].
  - intro I. apply in_app_or in I. tauto.
  - intro E. apply (f_equal (@length N)) in E. rewrite app_length in E. cbn in E. lia.
  - intro E. apply (f_equal (@length N)) in E. rewrite app_length in E. cbn in E. lia.
Qed.

(* ---- opening ---- *)
Lemma open_write_some s cwd can t p l s1 : open_write s cwd can t p = Some (l, s1) ->
  resolve s cwd p = Some l /\ can l = true /\ s l <> Some NDir /\
  s1 = upd s l (NFile (match s l with Some (NFile c) => if t then [] else c | _ => [] end)).
Proof.
  unfold open_write. destruct (resolve s cwd p) as [x|]; [|discriminate]. destruct (can x) eqn:C; [|discriminate]. cbn [negb].
  destruct (s x) as [[c|]|] eqn:S; intro E; try discriminate; injection E as <- <-; rewrite S; repeat split; auto; congruence.
Qed.
Lemma open_read_some s cwd can p l f : open_read s cwd can p = Some (l, f) -> resolve s cwd p = Some l /\ s l = Some (NFile f).
Proof.
  unfold open_read. destruct (resolve s cwd p) as [x|]; [|discriminate]. destruct (s x) as [[c|]|] eqn:S; try discriminate.
  destruct (can x); [|discriminate]. intro E. injection E as <- <-. auto.
Qed.
Lemma exists_resolve s cwd p : path_exists s cwd p = true <-> exists l, resolve s cwd p = Some l /\ s l <> None.
Proof.
  unfold path_exists, lookup. destruct (resolve s cwd p) as [l|].
  - split; [intro H; exists l; split; [reflexivity|destruct (s l); congruence]|intros (x & E & X); injection E as <-; destruct (s l); congruence].
  - split; [discriminate|intros (x & E & _); discriminate].
Qed.
Lemma is_dir_resolve s cwd p : path_is_dir s cwd p = true <-> exists l, resolve s cwd p = Some l /\ s l = Some NDir.
Proof.
  unfold path_is_dir, lookup. destruct (resolve s cwd p) as [l|].
  - split; [intro H; exists l; split; [reflexivity|destruct (s l) as [[|]|]; congruence]|intros (x & E & X); injection E as <-; rewrite X; reflexivity].
  - split; [discriminate|intros (x & E & _); discriminate].
Qed.

(* ---- what a command may touch: nothing, or the one place a path leads to ---- *)
Definition touches (s : fs) (P : loc -> Prop) (r : ran) : Prop := same s (rn_fs r) \/ exists l, P l /\ same_but l s (rn_fs r).
Lemma touch_none s P e o : touches s P (mkRan s e o).
Proof. left. intro. reflexivity. Qed.
Lemma touch_upd s (P : loc -> Prop) l n e o : P l -> touches s P (mkRan (upd s l n) e o).
Proof. intro H. right. exists l. split; [exact H|]. intros x D. apply upd_other. exact D. Qed.
Lemma touch_upd2 s (P : loc -> Prop) l n n' e o : P l -> touches s P (mkRan (upd (upd s l n) l n') e o).
Proof. intro H. right. exists l. split; [exact H|]. intros x D. cbn. rewrite !upd_other by exact D. reflexivity. Qed.
Lemma touch_run {A} s P (x : got A) k : (forall a, x = Go a -> touches s P (k a)) -> touches s P (run s x k).
Proof. destruct x as [a|e]; [intro H; apply H; reflexivity|intros _; apply touch_none]. Qed.
Lemma touches_weaken s (P Q : loc -> Prop) r : (forall l, P l -> Q l) -> touches s P r -> touches s Q r.
Proof. intros H [S|(l & X & S)]; [left; exact S|right; exists l; auto]. Qed.
(* if nothing is at that place, everything is kept *)
Lemma touches_keeps s (P : loc -> Prop) r : (forall l, P l -> s l = None) -> touches s P r -> kept s (rn_fs r).
Proof.
  intros H [S|(l & X & S)] x n E; [rewrite S; exact E|]. rewrite S; [exact E|]. intro; subst. rewrite (H _ X) in E. discriminate.
Qed.
Lemma gbind_go {A B} (x : got A) (k : A -> got B) b : gbind x k = Go b -> exists a, x = Go a /\ k a = Go b.
Proof. destruct x as [a|e]; cbn; [intro H; exists a; auto|discriminate]. Qed.

(* encode: output is what eq_out leads to *)
Lemma encode_touches E s q : touches s (fun l => resolve s (v_cwd E) (eq_out q) = Some l /\ s l <> Some NDir) (encode_run E s q).
Proof.
  unfold encode_run. destruct (if is_dash (eq_in q) then _ else _) as [inp|]; [|apply touch_none].
  destruct (open_write _ _ _ _ _) as [[lo s1]|] eqn:OW; [|apply touch_none]. apply open_write_some in OW. destruct OW as (R & _ & ND & ->).
  destruct (match inp with Some _ => _ | None => _ end); [apply touch_upd2; auto|].
  destruct (match inp with Some _ => _ | None => _ end), (get_file_name_part_of_path (eq_out q));
    try (destruct (_ || _); apply touch_upd2; auto). destruct (encode_file _ _ _ _ _); apply touch_upd2; auto.
Qed.
Lemma decode_touches E s li f q ref path :
  touches s (fun l => exists o, path = Some o /\ resolve s (v_cwd E) o = Some l /\ s l <> Some NDir) (decode_run E s li f q ref path).
Proof.
  unfold decode_run. destruct (get_data_par_burst _ _ _ _ _); try apply touch_none. destruct path as [out|].
  - destruct (open_write _ _ _ _ _) as [[lo s1]|] eqn:OW; [|apply touch_none]. apply open_write_some in OW. destruct OW as (R & _ & ND & ->).
    destruct (_ && _); [apply touch_upd2; eauto|]. destruct (decode _ _ _ _ _ _ _ _); apply touch_upd2; eauto.
  - destruct (decode _ _ _ _ _ _ _ _); apply touch_none.
Qed.
Definition ext_of (v : version) : list N := if ver_uses_rs v then str ".ecsbx" else str ".sbx".
Lemma ext_no v : ~ In 47 (ext_of v) /\ zero (ext_of v) = false /\ (3 <= length (ext_of v))%nat.
Proof. destruct v; cbn; (split; [intuition discriminate|split; [reflexivity|lia]]). Qed.
Lemma ext_version m v o : get_ver_and_data_par_burst_w_defaults m = Go (v, o) -> ext_of v = container_ext m.
Proof.
  unfold get_ver_and_data_par_burst_w_defaults, container_ext. destruct (value_of m A_sbx_version) as [x|].
  - unfold string_to_ver. intro H.
    assert (X : forall w, (if ver_uses_rs w then get! d <- get_shards m A_rs_data; get! p <- get_shards m A_rs_parity; get! _ <- check_data_parity_shards d p;
        get! b <- get_number m A_burst; Go (w, Some (d, p, match b with Some b => b | None => 0 end)) else Go (w, None)) = Go (v, o) -> v = w).
    { intros w. destruct (ver_uses_rs w); [|congruence]. intro G. apply gbind_go in G. destruct G as (d & _ & G). apply gbind_go in G. destruct G as (p & _ & G).
      apply gbind_go in G. destruct G as (? & _ & G). apply gbind_go in G. destruct G as (b & _ & G). congruence. }
    destruct (eqbl x (str "1")); [apply X in H; subst; reflexivity|]. destruct (eqbl x (str "2")); [apply X in H; subst; reflexivity|].
    destruct (eqbl x (str "3")); [apply X in H; subst; reflexivity|]. cbn [orb].
    destruct (eqbl x (str "17")); [apply X in H; subst; reflexivity|]. destruct (eqbl x (str "18")); [apply X in H; subst; reflexivity|].
    destruct (eqbl x (str "19")); [apply X in H; subst; reflexivity|]. discriminate.
  - destruct (value_of m A_rs_data), (value_of m A_rs_parity), (value_of m A_burst); try discriminate. intro H. injection H as <- <-. reflexivity.
Qed.
Lemma check_in_file_go E s x y : check_in_file E s x = Go y ->
  y = x /\ exists l n, resolve s (v_cwd E) x = Some l /\ s l <> None /\ s l <> Some NDir /\ get_file_name_part_of_path x = Some n.
Proof.
  unfold check_in_file. destruct (path_exists s (v_cwd E) x) eqn:PE; [|discriminate]. cbn [negb].
  destruct (get_file_name_part_of_path x) as [n|]; [|discriminate]. destruct (path_is_dir s (v_cwd E) x) eqn:PD; [discriminate|].
  intro H. injection H as <-. split; [reflexivity|]. apply exists_resolve in PE. destruct PE as (l & R & NN). exists l, n. repeat split; auto.
  intro D. assert (X : path_is_dir s (v_cwd E) x = true) by (apply is_dir_resolve; eauto). congruence.
Qed.
Lemma get_in_file_go E s m x : get_in_file E s m = Go x -> value_of m A_in_file = Some x /\
  exists l n, resolve s (v_cwd E) x = Some l /\ s l <> None /\ s l <> Some NDir /\ get_file_name_part_of_path x = Some n.
Proof.
  unfold get_in_file. destruct (value_of m A_in_file) as [y|]; [|discriminate]. intro H. apply check_in_file_go in H. destruct H as (-> & H). auto.
Qed.
Lemma not_dir_named s cwd p l : path_is_dir s cwd p = false -> resolve s cwd p = Some l -> s l <> Some NDir.
Proof. intros PD R D. assert (X : path_is_dir s cwd p = true) by (apply is_dir_resolve; eauto). congruence. Qed.
(* where the name built from the input's leads *)
Lemma derived_out E s m inf out ext n l li : value_of m A_in_file = Some inf ->
  ~ In 47 ext -> zero ext = false -> (3 <= length ext)%nat ->
  (value_of m A_out = None -> resolve s (v_cwd E) inf = Some li /\ s li <> Some NDir /\ get_file_name_part_of_path inf = Some n) ->
  match value_of m A_out with
  | None => out = inf ++ ext
  | Some x => if path_is_dir s (v_cwd E) x then get_file_name_part_of_path inf = Some n /\ out = make_path [x; n ++ ext] else out = x
  end ->
  resolve s (v_cwd E) out = Some l -> derived_place E m s ext l.
Proof.
  intros VI X1 X2 X3 HI HO R. exists inf. split; [exact VI|]. unfold named. destruct (value_of m A_out) as [x|].
  - destruct (path_is_dir s (v_cwd E) x) eqn:PD.
    + destruct HO as (PN & ->). right. apply is_dir_resolve in PD. destruct PD as (d & RD & DD). pose proof (part_good _ _ PN) as G.
      rewrite (resolve_child _ _ _ _ _ RD DD) in R by (apply good_ext; assumption). destruct (zero (n ++ ext)); [discriminate|]. injection R as <-.
      exists d, n. repeat split; auto; apply part_sound in PN; apply PN.
    + subst out. left. split; [exact R|]. eapply not_dir_named; eassumption.
  - destruct (HI eq_refl) as (RI & ND & PN). subst out.
    destruct (resolve_beside _ _ _ _ _ ext RI ND PN) as (d & -> & G & RO); [apply good_ext; auto; apply (part_good _ _ PN)|exact X2|].
    rewrite RO in R. injection R as <-. exists d, n. auto.
Qed.
Lemma encode_request_out E s m q l : encode_request E s m = Go q -> resolve s (v_cwd E) (eq_out q) = Some l -> derived_place E m s (container_ext m) l.
Proof.
  unfold encode_request. intros H R. apply gbind_go in H. destruct H as (uid & _ & H). apply gbind_go in H. destruct H as ((v & o) & HV & H).
  apply gbind_go in H. destruct H as (inf & HI & H). apply gbind_go in H. destruct H as (out & HO & H). apply gbind_go in H. destruct H as (h & _ & H).
  apply gbind_go in H. destruct H as (u & _ & H). apply gbind_go in H. destruct H as (from & _ & H). apply gbind_go in H. destruct H as (to & _ & H).
  injection H as <-. cbn [eq_out] in R. rewrite <- (ext_version _ _ _ HV). destruct (ext_no v) as (X1 & X2 & X3).
  assert (VI : value_of m A_in_file = Some inf /\ (is_dash inf = true \/ check_in_file E s inf = Go inf)).
  { unfold get_in_file_accept_stdin in HI. destruct (value_of m A_in_file) as [y|]; [|discriminate]. destruct (is_dash y) eqn:D; [injection HI as <-; auto|].
    pose proof HI as HI'. apply check_in_file_go in HI. destruct HI as (-> & _). auto. }
  destruct VI as (VI & CI). unfold encode_out_name in HO. fold (ext_of v) in HO.
  destruct CI as [D|CI].
  - rewrite D in HO. destruct (value_of m A_out) as [x|] eqn:VO; [|discriminate]. destruct (path_is_dir s (v_cwd E) x) eqn:PD; [discriminate|].
    injection HO as <-. apply (derived_out E s m inf x _ [] l [] VI X1 X2 X3); [rewrite VO; discriminate|rewrite VO, PD; reflexivity|exact R].
  - apply check_in_file_go in CI. destruct CI as (_ & li & n & RI & _ & ND & PN).
    apply (derived_out E s m inf out _ n l li VI X1 X2 X3); [auto| |exact R].
    destruct (value_of m A_out) as [x|]; [destruct (path_is_dir s (v_cwd E) x)|]; destruct (is_dash inf); try discriminate;
      try rewrite PN in HO; injection HO as <-; auto.
Qed.
Lemma encode_cmd_touches E m s : touches s (derived_place E m s (container_ext m)) (encode_cmd E m s).
Proof.
  unfold encode_cmd. apply touch_run. intros q Q. destruct (is_present m A_info_only); [apply touch_none|]. destruct (_ && _); [apply touch_none|].
  eapply touches_weaken; [|apply encode_touches]. cbn. intros l [R _]. eapply encode_request_out; eassumption.
Qed.
Lemma encode_cmd_keeps E m s : is_present m A_force = false -> kept s (rn_fs (encode_cmd E m s)).
Proof.
  intro F. unfold encode_cmd. destruct (encode_request E s m) as [q|e]; [|intros x n H; exact H]. cbn [run].
  destruct (is_present m A_info_only); [intros x n H; exact H|]. rewrite F. cbn [negb]. rewrite andb_true_r.
  destruct (path_exists s (v_cwd E) (eq_out q)) eqn:PE; [intros x n H; exact H|].
  eapply touches_keeps; [|apply encode_touches]. cbn. intros l [R _]. destruct (s l) eqn:S; [|reflexivity]. exfalso.
  assert (X : path_exists s (v_cwd E) (eq_out q) = true) by (apply exists_resolve; exists l; split; [exact R|congruence]). congruence.
Qed.

(* decode *)
Lemma decode_out_place E s m ref path o l : decode_out_path E s (value_of m A_out) ref = Go path -> path = Some o ->
  resolve s (v_cwd E) o = Some l -> decode_place E m s l.
Proof.
  intros H -> R. unfold decode_out_path in H. apply gbind_go in H. destruct H as (name & HN & H).
  assert (GN : forall n, name = Some n -> good_name n).
  { intros n ->. destruct (get_FNM ref) as [x|]; [|discriminate]. destruct (get_file_name_part_of_path x) eqn:P; [|discriminate]. injection HN as <-. exact (part_good _ _ P). }
  unfold decode_place. destruct (value_of m A_out) as [out|].
  - destruct (is_dash out) eqn:D; [discriminate|]. apply eqbl_neq in D. split; [exact D|]. unfold named.
    destruct (path_is_dir s (v_cwd E) out) eqn:PD.
    + destruct name as [n|]; [|discriminate]. injection H as <-. apply is_dir_resolve in PD. destruct PD as (d & RD & DD).
      rewrite (resolve_child _ _ _ _ _ RD DD (GN n eq_refl)) in R. destruct (zero n) eqn:Z; [discriminate|]. injection R as <-.
      right. exists d. repeat split; auto. exists n. split; [exact (GN n eq_refl)|]. split; [apply zero_In; exact Z|reflexivity].
    + injection H as <-. left. split; [exact R|]. eapply not_dir_named; eassumption.
  - destruct name as [n|]; [|discriminate]. injection H as <-. rewrite resolve_name in R by (apply GN; reflexivity).
    destruct (zero n) eqn:Z; [discriminate|]. destruct (is_dir_at s (v_cwd E)); [|discriminate]. injection R as <-.
    exists n. split; [exact (GN n eq_refl)|]. split; [apply zero_In; exact Z|reflexivity].
Qed.
Lemma decode_cmd_touches E m s : touches s (decode_place E m s) (decode_cmd E m s).
Proof.
  unfold decode_cmd. apply touch_run. intros (inf, q) Q. destruct (open_read _ _ _ _) as [[li f]|]; [|apply touch_none].
  destruct (get_ref_block _ _ _ _ _) as [[[rp ref]|]| |]; try apply touch_none. apply touch_run. intros path HP. destruct (_ && _); [apply touch_none|].
  eapply touches_weaken; [|apply decode_touches]. cbn. intros l (o & PO & R & _). eapply decode_out_place; eassumption.
Qed.
Lemma decode_request_go E s m inf q : decode_request E s m = Go (inf, q) -> get_in_file E s m = Go inf /\
  dc_force_write q = is_present m A_force /\ get_multi_pass m = Go (dc_multi q).
Proof.
  unfold decode_request. intro H. repeat (apply gbind_go in H; let x := fresh in let e := fresh in destruct H as (x & e & H)).
  injection H as <- <-. cbn. auto.
Qed.
Lemma no_multi m mp : is_present m A_multi_pass = false -> is_present m A_multi_pass_no_skip = false -> get_multi_pass m = Go mp -> mp = None.
Proof. unfold get_multi_pass. intros -> ->. congruence. Qed.
Lemma decode_cmd_keeps E m s : is_present m A_force = false -> is_present m A_multi_pass = false -> is_present m A_multi_pass_no_skip = false ->
  kept s (rn_fs (decode_cmd E m s)).
Proof.
  intros F M1 M2. unfold decode_cmd. destruct (decode_request E s m) as [(inf, q)|e] eqn:Q; [|intros x n H; exact H]. cbn [run].
  apply decode_request_go in Q. destruct Q as (_ & FW & MP). apply no_multi in MP; try assumption. rewrite F in FW.
  destruct (open_read _ _ _ _) as [[li f]|]; [|intros x n H; exact H].
  destruct (get_ref_block _ _ _ _ _) as [[[rp ref]|]| |]; try (intros x n H; exact H).
  destruct (decode_out_path _ _ _ _) as [path|e]; [|intros x n H; exact H]. cbn [run]. unfold truncating at 1. rewrite FW, MP. cbn [negb andb].
  destruct (match path with Some o => _ | None => _ end) eqn:PE; [intros x n H; exact H|].
  eapply touches_keeps; [|apply decode_touches]. cbn. intros l (o & -> & R & _). destruct (s l) eqn:S; [|reflexivity]. exfalso.
  assert (X : path_exists s (v_cwd E) o = true) by (apply exists_resolve; exists l; split; [exact R|congruence]). congruence.
Qed.

(* sort *)
Lemma sort_request_go E s m inf out q : sort_request E s m = Go (inf, out, q) ->
  get_in_file E s m = Go inf /\ sort_out_name E s m inf = Go out /\ get_multi_pass m = Go (dc_multi q) /\
  (path_exists s (v_cwd E) out = true -> is_present m A_force = true \/ dc_multi q <> None \/ is_present m A_dry_run = true).
Proof.
  unfold sort_request. intro H. apply gbind_go in H. destruct H as (i & HI & H). apply gbind_go in H. destruct H as (o & HO & H).
  apply gbind_go in H. destruct H as (mp & HM & H). apply gbind_go in H. destruct H as (b & _ & H). apply gbind_go in H. destruct H as (? & HE & H).
  repeat (apply gbind_go in H; let x := fresh in let e := fresh in destruct H as (x & e & H)). injection H as <- <- <-. cbn [decode_param dc_multi].
  repeat split; auto. intro PE. rewrite PE in HE. cbn [andb] in HE. destruct (is_present m A_force); [auto|]. destruct mp; [right; left; discriminate|].
  destruct (is_present m A_dry_run); [auto|discriminate].
Qed.
Lemma sort_run_touches E m s inf out q : sort_request E s m = Go (inf, out, q) ->
  touches s (fun l => resolve s (v_cwd E) out = Some l /\ s l <> Some NDir /\ is_present m A_dry_run = false) (sort_cmd E m s).
Proof.
  intro Q. unfold sort_cmd. rewrite Q. cbn [run]. destruct (open_read _ _ _ _) as [[li f]|]; [|apply touch_none].
  destruct (rbind _ _); try apply touch_none. destruct (is_present m A_dry_run); [destruct (sort_file _ _ _ _); apply touch_none|].
  destruct (open_write _ _ _ _ _) as [[lo s1]|] eqn:OW; [|apply touch_none]. apply open_write_some in OW. destruct OW as (R & _ & ND & ->).
  destruct (loc_eqb li lo); [apply touch_upd2; auto|].
  destruct (sort_file _ _ _ _) as [[[? ?] [?|]]| |]; try (apply touch_upd2; auto). apply touch_upd; auto.
Qed.
Lemma sort_cmd_touches E m s : touches s (fun l => derived_place E m s (str ".sorted") l /\ is_present m A_dry_run = false) (sort_cmd E m s).
Proof.
  destruct (sort_request E s m) as [[[inf out] q]|e] eqn:Q; [|unfold sort_cmd; rewrite Q; apply touch_none].
  eapply touches_weaken; [|exact (sort_run_touches _ _ _ _ _ _ Q)]. cbn beta. intros l (R & _ & D). split; [|exact D].
  apply sort_request_go in Q. destruct Q as (HI & HO & _). apply get_in_file_go in HI. destruct HI as (VI & li & n & RI & _ & ND & PN).
  apply (derived_out E s m inf out (str ".sorted") n l li VI); [cbn; intuition discriminate|reflexivity|cbn; lia|auto| |exact R].
  unfold sort_out_name in HO. rewrite PN in HO. destruct (value_of m A_out) as [x|]; [destruct (path_is_dir s (v_cwd E) x)|]; injection HO as <-; auto.
Qed.
Lemma sort_cmd_keeps E m s : is_present m A_force = false -> is_present m A_multi_pass = false -> is_present m A_multi_pass_no_skip = false ->
  kept s (rn_fs (sort_cmd E m s)).
Proof.
  intros F M1 M2. destruct (sort_request E s m) as [[[inf out] q]|e] eqn:Q; [|unfold sort_cmd; rewrite Q; intros x n H; exact H].
  eapply touches_keeps; [|exact (sort_run_touches _ _ _ _ _ _ Q)]. cbn beta. intros l (R & _ & D). destruct (s l) eqn:S; [|reflexivity]. exfalso.
  apply sort_request_go in Q. destruct Q as (_ & _ & MP & X). apply no_multi in MP; try assumption.
  assert (PE : path_exists s (v_cwd E) out = true) by (apply exists_resolve; exists l; split; [exact R|congruence]).
  destruct (X PE) as [Y|[Y|Y]]; congruence.
Qed.

(* repair and update *)
Lemma rbind_ok {A B} (x : result A) (k : A -> result B) b : rbind x k = ROk b -> exists a, x = ROk a /\ k a = ROk b.
Proof. destruct x as [a|e|]; cbn; [intro H; exists a; auto|discriminate|discriminate]. Qed.
Lemma rfold_inv {A B} (P : A -> Prop) (step : A -> B -> result A) : (forall a b a', P a -> step a b = ROk a' -> P a') ->
  forall l a a', P a -> rfold step l a = ROk a' -> P a'.
Proof.
  intros HS l. induction l as [|b l IH]; intros a a' PA; cbn; [congruence|]. intro H. apply rbind_ok in H. destruct H as (a1 & H1 & H2).
  eapply IH; [|exact H2]. eapply HS; eassumption.
Qed.
Lemma repair_dry rc burst f t w : repair_file rc true burst f = ROk (Some (t, w)) -> w = f.
Proof.
  unfold repair_file. intro H. apply rbind_ok in H. destruct H as ([[rp ref]|] & _ & H); [|discriminate]. destruct (negb _); [discriminate|].
  apply rbind_ok in H. destruct H as ([[[d p] B]|] & _ & H); [|discriminate]. apply rbind_ok in H. destruct H as ((ref1 & buffer) & _ & H).
  apply rbind_ok in H. destruct H as ((((w1 & r1) & b1) & t1) & H1 & H). apply rbind_ok in H. destruct H as (((w2 & R2) & t2) & H2 & H). injection H as <- <-.
  assert (E1 : w1 = f).
  { refine (rfold_inv (fun x => fst (fst (fst x)) = f) _ _ _ _ _ _ H1); [|reflexivity]. intros (((w0 & b0) & bf0) & t0) pos (((w' & b') & bf') & t') E S. cbn in *. subst w0.
    unfold repair_meta_step in S. repeat match type of S with
      | rbind _ _ = _ => let x := fresh in let e := fresh in apply rbind_ok in S; destruct S as (x & e & S)
      | (let (_, _) := ?x in _) = _ => destruct x
      | (if ?c then _ else _) = _ => destruct c
      | match ?x with _ => _ end = _ => destruct x
      end; try discriminate; congruence. }
  subst w1.
  assert (L : forall fuel total seq x y, fst (fst x) = f -> repair_loop fuel rc true (b_version ref) (header_pred_same_ver_uid ref) d p B total seq x = ROk y -> fst (fst y) = f).
  { induction fuel as [|fuel IH]; intros total seq x y E S; [discriminate|]. cbn [repair_loop] in S. destruct (_ <=? _); [congruence|].
    apply rbind_ok in S. destruct S as (x' & S1 & S2).
    assert (E' : fst (fst x') = f).
    { destruct x as ((w0 & R0) & t0). cbn in E. subst w0. unfold repair_step in S1. apply rbind_ok in S1. destruct S1 as (? & _ & S1).
      apply rbind_ok in S1. destruct S1 as ((R1 & t3) & _ & S1). destruct (_ =? _); [|injection S1 as <-; reflexivity].
      unfold repair_set in S1. apply rbind_ok in S1. destruct S1 as ((((ok & ms) & bl) & R4) & _ & S1). injection S1 as <-. reflexivity. }
    destruct (_ =? _); [congruence|]. eapply IH; eassumption. }
  exact (L _ _ _ (f, _, _) _ eq_refl H2).
Qed.
Lemma update_blocks_dry ref p ps : forall f st, fst (update_blocks ref p false ps f st) = f.
Proof.
  induction ps as [|pos ps IH]; intros f st; [reflexivity|]. cbn [update_blocks]. destruct (_ <? _); [reflexivity|].
  destruct (update_block ref p _) as [[d|]| |]; try reflexivity; apply IH.
Qed.
Lemma update_dry H cpus p cut f : up_dry p = true -> fst (update_file H cpus p cut f) = f.
Proof.
  intro D. unfold update_file. destruct (get_ref_block _ _ _ _ _) as [[[rp ref]|]| |]; try reflexivity.
  destruct (update_size ref p) as [sz| |]; try reflexivity. destruct (get_data_par_burst _ _ _ _ _) as [o| |]; try reflexivity.
  destruct (snd (update_metadata_blocks ref p o true None f)); try reflexivity.
  destruct (match sz with Some _ => _ | None => _ end); try reflexivity. unfold update_metadata_blocks. cbn [up_dry]. rewrite D. cbn [negb andb].
  apply update_blocks_dry.
Qed.
Lemma same_upd s l n : s l = Some n -> same s (upd s l n).
Proof. intros H x. unfold upd. destruct (loc_eqb x l) eqn:E; [apply loc_eqb_eq in E; subst; auto|reflexivity]. Qed.
Lemma repair_cmd_touches E m s : touches s (fun l => input_place E m s l /\ is_present m A_dry_run = false) (repair_cmd E m s).
Proof.
  unfold repair_cmd. apply touch_run. intros (inf, burst) Q. apply gbind_go in Q. destruct Q as (i & HI & Q). apply gbind_go in Q. destruct Q as (u & _ & Q).
  apply gbind_go in Q. destruct Q as (b & _ & Q). injection Q as <- <-. apply get_in_file_go in HI. destruct HI as (VI & _).
  destruct (asked_and_refused E m); [apply touch_none|]. destruct (open_read _ _ _ _) as [[li f]|] eqn:OR; [|apply touch_none].
  apply open_read_some in OR. destruct OR as (R & SF). assert (IP : input_place E m s li) by (exists i; auto).
  destruct (is_present m A_dry_run) eqn:D.
  - destruct (repair_file _ _ _ _) as [[[t w]|]| |] eqn:RF; try apply touch_none. apply repair_dry in RF. subst w. left. apply same_upd. exact SF.
  - destruct (repair_file _ _ _ _) as [[[t w]|]| |]; try apply touch_none; apply touch_upd; auto.
Qed.
Lemma update_cmd_touches E cut m s : touches s (fun l => input_place E m s l /\ is_present m A_dry_run = false) (update_cmd E cut m s).
Proof.
  unfold update_cmd. apply touch_run. intros ((inf, burst), h) Q. apply gbind_go in Q. destruct Q as (i & HI & Q). apply gbind_go in Q. destruct Q as (u & _ & Q).
  apply gbind_go in Q. destruct Q as (b & _ & Q). apply gbind_go in Q. destruct Q as (h' & _ & Q). injection Q as <- <- <-. apply get_in_file_go in HI. destruct HI as (VI & _).
  destruct (asked_and_refused E m); [apply touch_none|]. destruct (open_read _ _ _ _) as [[li f]|] eqn:OR; [|apply touch_none].
  apply open_read_some in OR. destruct OR as (R & SF). assert (IP : input_place E m s li) by (exists i; auto).
  destruct (update_file _ _ _ _ _) as [w r] eqn:UF. destruct (is_present m A_dry_run) eqn:D.
  - assert (W : w = f). { change w with (fst (w, r)). rewrite <- UF. apply update_dry. reflexivity. } subst w. left. apply same_upd. exact SF.
  - apply touch_upd. auto.
Qed.

(* ---- exit codes ---- *)
Definition never0 {A} (x : got A) : Prop := x <> Stop (Exit 0).
Lemma n0_go {A} (a : A) : never0 (Go a). Proof. discriminate. Qed.
Lemma n0_1 {A} : @never0 A (Stop (Exit 1)). Proof. intro H. injection H. discriminate. Qed.
Lemma n0_2 {A} : @never0 A (Stop (Exit 2)). Proof. intro H. injection H. discriminate. Qed.
Lemma n0_p {A} : @never0 A (Stop Panicked). Proof. discriminate. Qed.
Lemma n0_bind {A B} (x : got A) (k : A -> got B) : never0 x -> (forall a, never0 (k a)) -> never0 (gbind x k).
Proof. intros X K. destruct x as [a|e]; [apply K|]. intro H. apply X. cbn in H. congruence. Qed.
Ltac n0 := repeat first [apply n0_go | apply n0_1 | apply n0_2 | apply n0_p
  | match goal with |- never0 (gbind _ _) => apply n0_bind; [|intro] end
  | match goal with |- never0 (match ?x with _ => _ end) => destruct x end
  | match goal with |- never0 (let (_, _) := ?x in _) => destruct x end].
Lemma n0_encode E s m : never0 (encode_request E s m).
Proof.
  unfold encode_request, get_ver_and_data_par_burst_w_defaults, get_in_file_accept_stdin, encode_out_name, parse_uid, check_in_file,
    get_shards, check_data_parity_shards, get_number, get_range_end, get_pr_verbosity_level. n0.
Qed.
Lemma n0_decode E s m : never0 (decode_request E s m).
Proof. unfold decode_request, get_in_file, check_in_file, get_number, get_range_end, get_pr_verbosity_level, get_multi_pass. n0. Qed.
Lemma n0_sort E s m : never0 (sort_request E s m).
Proof. unfold sort_request, sort_out_name, get_in_file, check_in_file, get_number, get_range_end, get_pr_verbosity_level, get_multi_pass. n0. Qed.
Lemma n0_out E s o ref : never0 (decode_out_path E s o ref).
Proof. unfold decode_out_path. n0. Qed.
Lemma run0 {A} s (x : got A) k : never0 x -> rn_exit (run s x k) = Exit 0 -> exists a, x = Go a /\ run s x k = k a.
Proof. destruct x as [a|e]; [intros _ _; exists a; auto|]. cbn. intros N H. exfalso. apply N. congruence. Qed.

Lemma made_upd2 s l n c : made s (upd (upd s l n) l (NFile c)) l.
Proof. split; [exists c; apply upd_same|]. intros x D. rewrite !upd_other by exact D. reflexivity. Qed.
Lemma made_upd s l c : made s (upd s l (NFile c)) l.
Proof. split; [exists c; apply upd_same|]. intros x D. rewrite upd_other by exact D. reflexivity. Qed.
Lemma encode_made E s q : rn_exit (encode_run E s q) = Exit 0 ->
  exists l, resolve s (v_cwd E) (eq_out q) = Some l /\ s l <> Some NDir /\ made s (rn_fs (encode_run E s q)) l.
Proof.
  unfold encode_run. destruct (if is_dash (eq_in q) then _ else _) as [inp|]; [|discriminate].
  destruct (open_write _ _ _ _ _) as [[lo s1]|] eqn:OW; [|discriminate]. apply open_write_some in OW. destruct OW as (R & _ & ND & ->).
  intro X. exists lo. split; [exact R|]. split; [exact ND|]. revert X.
  destruct (match inp with Some _ => _ | None => _ end); [intros _; apply made_upd2|].
  destruct (match inp with Some _ => _ | None => _ end), (get_file_name_part_of_path (eq_out q));
    try (destruct (_ || _); intros _; apply made_upd2). destruct (encode_file _ _ _ _ _); intros _; apply made_upd2.
Qed.
Lemma encode_cmd_made E m s : is_present m A_force = false -> is_present m A_info_only = false -> rn_exit (encode_cmd E m s) = Exit 0 ->
  exists l, derived_place E m s (container_ext m) l /\ s l = None /\ made s (rn_fs (encode_cmd E m s)) l.
Proof.
  intros F I X. destruct (run0 _ _ _ (n0_encode E s m) X) as (q & Q & EQ). unfold encode_cmd in *. rewrite EQ in *. rewrite I in *.
  rewrite F in *. cbn [negb] in *. rewrite andb_true_r in *. destruct (path_exists s (v_cwd E) (eq_out q)) eqn:PE; [discriminate|].
  destruct (encode_made _ _ _ X) as (l & R & _ & M). exists l. split; [eapply encode_request_out; eassumption|]. split; [|exact M].
  destruct (s l) eqn:S; [|reflexivity]. exfalso.
  assert (Y : path_exists s (v_cwd E) (eq_out q) = true) by (apply exists_resolve; exists l; split; [exact R|congruence]). congruence.
Qed.
Lemma decode_made E s li f q ref out : rn_exit (decode_run E s li f q ref (Some out)) = Exit 0 ->
  exists l, resolve s (v_cwd E) out = Some l /\ s l <> Some NDir /\ made s (rn_fs (decode_run E s li f q ref (Some out))) l.
Proof.
  unfold decode_run. destruct (get_data_par_burst _ _ _ _ _); try discriminate.
  destruct (open_write _ _ _ _ _) as [[lo s1]|] eqn:OW; [|discriminate]. apply open_write_some in OW. destruct OW as (R & _ & ND & ->).
  intro X. exists lo. split; [exact R|]. split; [exact ND|]. revert X. destruct (_ && _); [intros _; apply made_upd2|].
  destruct (decode _ _ _ _ _ _ _ _); intros _; apply made_upd2.
Qed.
Lemma decode_cmd_made E m s : is_present m A_force = false -> is_present m A_multi_pass = false -> is_present m A_multi_pass_no_skip = false ->
  value_of m A_out <> Some [45] -> rn_exit (decode_cmd E m s) = Exit 0 ->
  exists l, decode_place E m s l /\ s l = None /\ made s (rn_fs (decode_cmd E m s)) l.
Proof.
  intros F M1 M2 NO X. destruct (run0 _ _ _ (n0_decode E s m) X) as ((inf, q) & Q & EQ). unfold decode_cmd in *. rewrite EQ in *. clear EQ.
  apply decode_request_go in Q. destruct Q as (_ & FW & MP). apply no_multi in MP; try assumption. rewrite F in FW.
  destruct (open_read _ _ _ _) as [[li f]|]; [|discriminate]. destruct (get_ref_block _ _ _ _ _) as [[[rp ref]|]| |]; try discriminate.
  destruct (run0 _ _ _ (n0_out E s _ ref) X) as (path & HP & EQ). rewrite EQ in *. clear EQ. unfold truncating at 1 in X. unfold truncating at 1. rewrite FW, MP in *. cbn [negb andb] in *.
  destruct path as [o|].
  2:{ exfalso. unfold decode_out_path in HP. apply gbind_go in HP. destruct HP as (name & _ & HP). destruct (value_of m A_out) as [x|]; [|destruct name; discriminate].
      destruct (is_dash x) eqn:D; [apply eqbl_eq in D; congruence|]. destruct (path_is_dir _ _ _); [destruct name; discriminate|discriminate]. }
  destruct (path_exists s (v_cwd E) o) eqn:PE; [discriminate|]. destruct (decode_made _ _ _ _ _ _ _ X) as (l & R & _ & M).
  exists l. split; [eapply decode_out_place; [exact HP|reflexivity|exact R]|]. split; [|exact M]. destruct (s l) eqn:S; [|reflexivity]. exfalso.
  assert (Y : path_exists s (v_cwd E) o = true) by (apply exists_resolve; exists l; split; [exact R|congruence]). congruence.
Qed.
Lemma sort_cmd_made E m s : is_present m A_force = false -> is_present m A_multi_pass = false -> is_present m A_multi_pass_no_skip = false ->
  is_present m A_dry_run = false -> rn_exit (sort_cmd E m s) = Exit 0 ->
  exists l, derived_place E m s (str ".sorted") l /\ s l = None /\ made s (rn_fs (sort_cmd E m s)) l.
Proof.
  intros F M1 M2 D X. pose proof (sort_cmd_touches E m s) as T. pose proof (sort_cmd_keeps E m s F M1 M2) as K.
  assert (Y : exists lo c, rn_fs (sort_cmd E m s) lo = Some (NFile c) /\ s lo = None).
  { destruct (run0 _ _ _ (n0_sort E s m) X) as (((inf, out), q) & Q & EQ). unfold sort_cmd in *. rewrite EQ in *. clear EQ T K.
    apply sort_request_go in Q. destruct Q as (_ & _ & MP & PX). apply no_multi in MP; try assumption. rewrite D in *.
    destruct (open_read _ _ _ _) as [[li f]|]; [|discriminate]. destruct (rbind _ _); try discriminate.
    destruct (open_write _ _ _ _ _) as [[lo s1]|] eqn:OW; [|discriminate]. apply open_write_some in OW. destruct OW as (R & _ & ND & ->).
    exists lo. assert (SN : s lo = None).
    { destruct (s lo) eqn:S; [|reflexivity]. exfalso. assert (Y : path_exists s (v_cwd E) out = true) by (apply exists_resolve; exists lo; split; [exact R|congruence]).
      destruct (PX Y) as [Z|[Z|Z]]; congruence. }
    destruct (loc_eqb li lo); [eexists; split; [apply upd_same|exact SN]|].
    destruct (sort_file _ _ _ _) as [[[? ?] [g|]]| |]; try discriminate; eexists; (split; [apply upd_same|exact SN]). }
  destruct Y as (lo & c & W & SN). destruct T as [S|(l & (P & _) & S)]; [rewrite S in W; congruence|].
  assert (lo = l). { destruct (loc_eqb lo l) eqn:EL; [apply loc_eqb_eq; exact EL|]. apply loc_eqb_neq in EL. rewrite S in W by exact EL. congruence. }
  subst lo. exists l. split; [exact P|]. split; [exact SN|]. split; [exists c; exact W|exact S].
Qed.
