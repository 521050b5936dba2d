(* C54: the command rescue. *)
From Coq Require Import String Ascii Permutation.
From Verif Require Import M_Base M_Specs M_Header M_Multihash M_Metadata M_Block M_Index M_FileUtils M_Buffer M_Ranges M_Encode
  M_Scan M_Loop M_Decode M_Sort M_Repair M_Content M_Update M_Rescue M_Hex M_Json M_Path M_Cli M_RescueCmd P_Cli
  S_Block S_Scan S_Repair S_Rescue S_Cli S_RescueCmd
  L_Base L_Header L_Block L_Block2 L_File L_Ref L_Path L_Cli L_Cli2 L_Rescue L_Rescue2 L_Rescue3 L_RescueCmd P_Options P_Rescue.
Ltac Zify.zify_post_hook ::= idtac.

(* ---- options ---- *)
Lemma type_iff m t : get_block_type m = Go t <-> type_option m t.
Proof.
  unfold get_block_type, type_option. destruct (value_of m A_block_type) as [x|].
  - destruct (eqbl x (str "any")) eqn:A; [apply eqbl_eq in A; subst x; destruct t as [[|]|]; split; (reflexivity || discriminate)|].
    destruct (eqbl x (str "meta")) eqn:B; [apply eqbl_eq in B; subst x; destruct t as [[|]|]; split; (reflexivity || discriminate)|].
    destruct (eqbl x (str "data")) eqn:C; [apply eqbl_eq in C; subst x; destruct t as [[|]|]; split; (reflexivity || discriminate)|].
    apply eqbl_neq in A, B, C. destruct t as [[|]|]; split; (discriminate || contradiction).
  - destruct t as [[|]|]; split; (reflexivity || discriminate || contradiction || exact (fun _ => Logic.I)).
Qed.
Lemma uid_filter_iff m u : match value_of m A_uid with None => Go None | Some x => get! u <- parse_uid x; Go (Some u) end = Go u <-> uid_filter m u.
Proof.
  unfold uid_filter. destruct (value_of m A_uid) as [x|]; [|destruct u; split; (discriminate || contradiction || reflexivity || exact (fun _ => Logic.I))].
  destruct u as [u|].
  - rewrite <- parse_uid_iff. destruct (parse_uid x) as [y|e]; cbn [gbind]; split; congruence.
  - destruct (parse_uid x) as [y|e]; cbn [gbind]; split; (discriminate || contradiction).
Qed.
Lemma rescue_request_iff E s m p inf out log : rescue_request E s m = Go (p, inf, out, log) <->
  rescue_options m p /\ value_of m A_in_file = Some inf /\ (exists l, named E s inf l /\ s l <> None) /\
  value_of m A_out_dir = Some out /\ (exists d, named E s out d /\ s d = Some NDir) /\ log = value_of m A_log_file.
Proof.
  unfold rescue_request, rescue_options. split.
  - intro H. apply gbind_go in H as (u & HU & H). apply gbind_go in H as (ty & HT & H). apply gbind_go in H as (from & HF & H).
    apply gbind_go in H as (to & HO & H). apply gbind_go in H as (x & HV & H). destruct (value_of m A_in_file) as [i|]; [|discriminate]. destruct (value_of m A_out_dir) as [o|]; [|discriminate].
    destruct (path_exists s (v_cwd E) i) eqn:P1; [|discriminate]. destruct (path_exists s (v_cwd E) o) eqn:P2; [|discriminate]. destruct (path_is_dir s (v_cwd E) o) eqn:P3; [|discriminate].
    cbn [negb] in H. injection H as <- <- <- <-. cbn [rp_from rp_to rp_misalign rp_type rp_uid]. apply uid_filter_iff in HU. apply type_iff in HT. apply number_iff in HF. apply range_iff in HO. apply verbosity_iff in HV.
    apply exists_resolve in P1. apply is_dir_resolve in P3. repeat (split; [solve [assumption|reflexivity|auto 10]|]). reflexivity.
  - intros ((V & F & T & M & TY & U) & -> & P1 & -> & P3 & ->). apply uid_filter_iff in U. rewrite U. cbn [gbind]. apply type_iff in TY. rewrite TY. cbn [gbind]. apply number_iff in F. rewrite F. cbn [gbind].
    apply range_iff in T. rewrite T. cbn [gbind]. apply (verbosity_iff m tt) in V. rewrite V. cbn [gbind]. assert (Q1 : path_exists s (v_cwd E) inf = true) by (apply exists_resolve; exact P1).
    assert (Q3 : path_is_dir s (v_cwd E) out = true) by (apply is_dir_resolve; exact P3).
    assert (Q2 : path_exists s (v_cwd E) out = true) by (apply exists_resolve; destruct P3 as (d & R & D); exists d; split; [exact R|congruence]).
    rewrite Q1, Q2, Q3. cbn [negb]. rewrite <- M. destruct p. reflexivity.
Qed.
(* Invalid options, a missing input or a missing directory: exit code 1, and nothing is changed. *)
Theorem c54_refused E R m s :
  value_of m A_in_file <> None -> value_of m A_out_dir <> None -> (value_of m A_to_pos_inc = None \/ value_of m A_to_pos_exc = None) ->
  ((exists p, rescue_options m p) /\ (exists l, input_place E m s l /\ s l <> None) /\ (exists d, rescue_dir E m s d)) \/
  rescue_cmd E R m s = mkRan s (Exit 1) [].
Proof.
  intros VI VO TP. destruct (rescue_request E s m) as [[[[p inf] out] log]|e] eqn:Q.
  - left. apply rescue_request_iff in Q as (O & I & (l & P) & D & (d & P') & _). split; [eauto|]. split; [exists l; split; [exists inf; split; [exact I|apply P]|apply P]|]. exists d, out. auto.
  - right. unfold rescue_cmd. rewrite Q. cbn [run]. f_equal. unfold rescue_request in Q.
    assert (N : forall A (x : got A) e, x = Stop e -> (forall e', x = Stop e' -> e' = Exit 1) -> e = Exit 1) by (intros; eauto).
    revert Q. destruct (match value_of m A_uid with None => Go None | Some x => get! u <- parse_uid x; Go (Some u) end) as [u|e1] eqn:U; cbn [gbind].
    2:{ intro Q. injection Q as <-. destruct (value_of m A_uid) as [x|]; [|discriminate]. destruct (parse_uid x) eqn:PU; [discriminate|]. cbn [gbind] in U. injection U as <-. eapply parse_uid_stop; exact PU. }
    destruct (get_block_type m) as [ty|e1] eqn:T; cbn [gbind].
    2:{ intro Q. injection Q as <-. unfold get_block_type in T. destruct (value_of m A_block_type) as [x|]; [|discriminate]. destruct (eqbl x _); [discriminate|]. destruct (eqbl x _); [discriminate|]. destruct (eqbl x _); congruence. }
    destruct (get_number m A_from_pos) as [fr|e1] eqn:F; cbn [gbind].
    2:{ intro Q. injection Q as <-. unfold get_number in F. destruct (value_of m A_from_pos); [|discriminate]. destruct (parse_unsigned _); congruence. }
    destruct (get_range_end m A_to_pos_inc A_to_pos_exc) as [to|e1] eqn:G; cbn [gbind].
    2:{ intro Q. injection Q as <-. unfold get_range_end in G. destruct (value_of m A_to_pos_inc), (value_of m A_to_pos_exc); [destruct TP; discriminate|..]; try discriminate; destruct (parse_unsigned _); congruence. }
    destruct (get_pr_verbosity_level m) as [vb|e1] eqn:V; cbn [gbind].
    2:{ intro Q. injection Q as <-. unfold get_pr_verbosity_level in V. destruct (value_of m A_pr_verbosity_level); [|discriminate]. destruct (_ || _); congruence. }
    destruct (value_of m A_in_file) as [i|]; [|congruence]. destruct (value_of m A_out_dir) as [o|]; [|congruence].
    destruct (negb _); [congruence|]. destruct (negb _); [congruence|]. destruct (negb _); congruence.
Qed.
Print Assumptions c54_refused.

(* ---- nothing is lost ---- *)
(* However the run goes on and however it ends: every place is as it was, except that files named by twelve hexadecimal digits in the
   directory asked for may be new or have more at the end, and that the log may be new. *)
Theorem c54_only_grows E R m s x : orders R -> bytes_only s ->
  let s' := rn_fs (rescue_cmd E R m s) in
  s' x = s x \/ (log_place E m s x /\ s x <> Some NDir) \/ (exists d n, rescue_dir E m s d /\ hex_name n /\ x = d ++ [n] /\ grew (s x) (s' x)).
Proof.
  intros OR FB. cbv zeta. unfold rescue_cmd. destruct (rescue_request E s m) as [[[[p inf] out] log]|e] eqn:Q; cbn [run]; [|auto].
  apply rescue_request_iff in Q as (_ & _ & _ & VO & (d & RD & DD) & EL).
  destruct (open_read s (v_cwd E) (v_can E) inf) as [[li f]|] eqn:OPR; [|auto]. apply open_read_some in OPR as [_ FS].
  destruct (open_log E s log) as [text|e] eqn:OL; cbn [run]; [|auto]. destruct (rescue_start p f text) as [[[rl st] at_]|e|]; [|auto..].
  destruct (read_buffers _ _ _ p f rl at_ (re_event R) st) as [[[l failed]|e|]|] eqn:RB; [|auto..].
  pose proof (read_uids _ _ _ _ _ _ _ (FB _ _ FS) _ _ _ _ RB) as U.
  pose proof (writer_grown E out log s d RD DD R OR l st s false U (grown_refl E log s d)) as G.
  destruct (rescue_writer E R out log l st s false) as [[s1 st1] dn]. cbn [fst] in G.
  pose proof (log_grown E log s d (re_last R) st1 s1 false G) as G2. destruct (maybe_log E (re_last R) log st1 s1 false) as [s2 er]. cbn [fst] in G2.
  cbn [rn_fs]. destruct G2 as [_ G2]. destruct (G2 x) as [H|[[(path & L & H) ND]|(n & HX & -> & H)]]; [auto| |].
  - right; left. split; [|exact ND]. exists path. subst log. auto.
  - right; right. exists d, n. split; [exists out; auto|]. auto.
Qed.
Print Assumptions c54_only_grows.

(* ---- what a successful run has written ---- *)
(* The command does to the files of the directory what rescuing does (C25, C26); the log, if it was written at the end, holds the final counts. *)
Theorem c54_exit0 E R m s : orders R -> bytes_only s ->
  rn_exit (rescue_cmd E R m s) = Exit 0 ->
  exists p li f d text w st, rescue_options m p /\ input_place E m s li /\ s li = Some (NFile f) /\ rescue_dir E m s d /\
    match text with None => forall l, log_place E m s l -> s l = None | Some c => exists l, log_place E m s l /\ s l = Some (NFile c) end /\
    rescue_from_file (re_order R) 1000 (S (length f)) p f (re_event R) text (dir_of s d) = Some (w, ROk st) /\
    (log_elsewhere E m s d -> forall n, hex_name n -> dir_of (rn_fs (rescue_cmd E R m s)) d n = w n) /\
    (re_last R = true -> forall l, log_place E m s l -> v_can E l = true -> s l <> Some NDir -> rn_fs (rescue_cmd E R m s) l = Some (NFile (serialize st))).
Proof.
  intros OR FB. unfold rescue_cmd. destruct (rescue_request E s m) as [[[[p inf] out] log]|e] eqn:Q; cbn [run].
  2:{ cbn [rn_exit]. intros ->. exfalso. assert (N0 : never0 (rescue_request E s m)) by (unfold rescue_request, parse_uid, get_block_type, get_number, get_range_end, get_pr_verbosity_level; n0). exact (N0 Q). }
  apply rescue_request_iff in Q as (RO & VI & _ & VO & (d & RD & DD) & EL).
  destruct (open_read s (v_cwd E) (v_can E) inf) as [[li f]|] eqn:OPR; [|discriminate]. apply open_read_some in OPR as [RI FS].
  destruct (open_log E s log) as [text|e] eqn:OL; cbn [run].
  2:{ cbn [rn_exit]. intros ->. unfold open_log in OL. destruct log; [|discriminate]. destruct (lookup s (v_cwd E) l) as [[c|]|]; [destruct (open_read s (v_cwd E) (v_can E) l) as [[? ?]|]; discriminate|discriminate|]. destruct (_ || _); discriminate. }
  destruct (rescue_start p f text) as [[[rl st0] at_]|e|] eqn:RS; [|discriminate..]. change BLOCK_COUNT_IN_BUFFER with 1000.
  destruct (read_buffers (S (length f)) (S (length f)) 1000 p f rl at_ (re_event R) st0) as [[[l failed]|e|]|] eqn:RB; [|discriminate..].
  pose proof (read_uids _ _ _ _ _ _ _ (FB _ _ FS) _ _ _ _ RB) as U.
  pose proof (writer_grown E out log s d RD DD R OR l st0 s false U (grown_refl E log s d)) as G.
  pose proof (fun LE => writer_view E out log s d RD DD LE R OR l st0 s false (dir_of s d) U (grown_refl E log s d) (fun n _ => eq_refl)) as VW.
  pose proof (writer_stats E R out log l st0 s false (re_order R) (dir_of s d)) as WS.
  destruct (rescue_writer E R out log l st0 s false) as [[s1 st1] dn]. cbn [fst snd] in G, VW, WS.
  pose proof (fun LE => log_view E log s d LE (re_last R) st1 s1 false (fst (write_buffers (re_order R) l st0 (dir_of s d))) (proj1 G)) as LV.
  assert (LW : re_last R = true -> forall k, log_place E m s k -> v_can E k = true -> s k <> Some NDir -> fst (maybe_log E (re_last R) log st1 s1 false) k = Some (NFile (serialize st1))).
  { intros -> k (path & VL & RL) CK ND. unfold maybe_log, write_log. rewrite EL, VL. unfold open_write. rewrite (resolve_same _ _ _ _ (proj1 G)). unfold named in RL. rewrite RL, CK. cbn [negb].
    destruct (s1 k) as [[c|]|] eqn:S1; [|exfalso; apply ND, (proj1 G); exact S1|]; cbn [fst]; apply upd_same. }
  destruct (maybe_log E (re_last R) log st1 s1 false) as [s2 er]. cbn [fst] in LV, LW. cbn [rn_exit rn_fs]. destruct failed; [discriminate|]. destruct dn; [|discriminate]. intros _.
  exists p, li, f, d, text, (fst (write_buffers (re_order R) l st0 (dir_of s d))), st1. split; [exact RO|]. split; [exists inf; auto|]. split; [exact FS|]. split; [exists out; auto|].
  split; [|split; [|split]].
  - unfold open_log in OL. subst log. unfold log_place. destruct (value_of m A_log_file) as [path|]; [|injection OL as <-; intros k (path & Z & _); discriminate].
    unfold lookup, open_read in OL. unfold named. destruct (resolve s (v_cwd E) path) as [k|] eqn:RK.
    + destruct (s k) as [[c|]|] eqn:SK; [destruct (v_can E k); [|discriminate]; injection OL as <-; exists k; split; [eauto|exact SK]|discriminate|].
      destruct (_ || _); [discriminate|]. injection OL as <-. intros k' (y & Y & RY). injection Y as <-. congruence.
    + destruct (_ || _); [discriminate|]. injection OL as <-. intros k' (y & Y & RY). injection Y as <-. congruence.
  - unfold rescue_from_file. rewrite RS, RB, (WS eq_refl). destruct (write_buffers (re_order R) l st0 (dir_of s d)). reflexivity.
  - intros LE. assert (LE' : forall n, hex_name n -> ~ is_log E log s (d ++ [n])).
    { intros n HX (path & L & RL). apply (LE n HX). exists path. rewrite <- EL. auto. }
    apply LV; [exact LE'|]. apply VW; [exact LE'|reflexivity].
  - exact LW.
Qed.
Print Assumptions c54_exit0.

Lemma options_unique m p p' : rescue_options m p -> rescue_options m p' -> p = p'.
Proof.
  intros (_ & F & T & M & TY & U) (_ & F' & T' & M' & TY' & U'). apply number_iff in F, F'. apply range_iff in T, T'. apply type_iff in TY, TY'. apply uid_filter_iff in U, U'.
  destruct p, p'. cbn in *. congruence.
Qed.
Lemma output_whole p f lo hi c u o : hi <= c -> output_for p f lo hi c u o -> output_for p f lo hi hi u o.
Proof.
  intros H (ps & bs & S & F & I & ->). exists ps, bs. split; [exact S|]. split; [|split; [|reflexivity]].
  - clear - F. induction F as [|pos b ps bs [T _] F IH]; constructor; [|exact IH]. split; [exact T|]. destruct T as (h & (Q & _) & _). apply lands_ge in Q. lia.
  - intros pos b T HP. apply (I pos b T). lia.
Qed.
(* The blocks found are in the files: what each file of the directory has more than before is the blocks of its UID, in the order of their positions. *)
Theorem c54_rescue E R m s p li f d lo hi :
  orders R -> bytes_only s -> rescue_options m p -> input_place E m s li -> s li = Some (NFile f) -> 0 < lenN f < 18446744073709551616 ->
  rescue_dir E m s d -> no_log E m s -> log_elsewhere E m s d -> rescue_range p f lo hi -> re_event R = None ->
  rn_exit (rescue_cmd E R m s) = Exit 0 ->
  let before := dir_of s d in let after := dir_of (rn_fs (rescue_cmd E R m s)) d in
  forall u, lenN u = 6 -> bytes_ok u = true ->
    exists out, output_for p f lo hi hi u out /\ content after (name_of u) = content before (name_of u) ++ out.
Proof.
  intros OR FB RO (inp & VI & RI) FS FL (out & VO & RD & DD) NL LE RR EV X before after u UL UB.
  destruct (c54_exit0 E R m s OR FB X) as (p' & li' & f' & d' & text & w & st & RO' & (inp' & VI' & RI') & FS' & (out' & VO' & RD' & _) & TX & RF & VW & _).
  rewrite (options_unique m p' p RO' RO) in *. rewrite VI in VI'. injection VI' as <-. rewrite VO in VO'. injection VO' as <-. unfold named in *.
  rewrite RI in RI'. injection RI' as <-. rewrite RD in RD'. injection RD' as <-. rewrite FS in FS'. injection FS' as <-.
  assert (text = None).
  { destruct text as [c|]; [|reflexivity]. exfalso. destruct TX as (l & (lg & VL & RL) & SL). destruct NL as [NL|(l' & (lg' & VL' & RL') & SL')]; [congruence|].
    unfold named in *. rewrite VL in VL'. injection VL' as <-. congruence. }
  subst text. rewrite EV in RF.
  destruct (c25_rescue (re_order R) 1000 (S (length f)) p f None (dir_of s d) lo hi OR ltac:(lia) (FB _ _ FS) FL RR Logic.I) as (w' & st' & RF' & C & O & _); [unfold lenN; lia|].
  pose proof (eq_trans (eq_sym RF) RF') as Q. injection Q as <- <-. destruct (O u UB) as (o & OU & CO). exists o. split; [eapply output_whole; [apply C; reflexivity|exact OU]|].
  unfold after, before. rewrite <- CO. unfold content. rewrite (VW LE); [reflexivity|]. apply hex_named; assumption.
Qed.
Print Assumptions c54_rescue.

(* It does succeed, if the input can be read and the directory can be written. *)
Theorem c54_succeeds E R m s p li f d :
  orders R -> bytes_only s -> rescue_options m p -> input_place E m s li -> s li = Some (NFile f) -> v_can E li = true -> 0 < lenN f < 18446744073709551616 ->
  rescue_dir E m s d -> dir_writable E s d -> value_of m A_log_file = None -> re_event R = None -> (exists lo hi, rescue_range p f lo hi) ->
  rn_exit (rescue_cmd E R m s) = Exit 0.
Proof.
  intros OR FB RO (inp & VI & RI) FS FC FL (out & VO & RD & DD) DW NL EV (lo & hi & RR). unfold rescue_cmd.
  assert (Q : rescue_request E s m = Go (p, inp, out, None)).
  { apply rescue_request_iff. split; [exact RO|]. split; [exact VI|]. split; [exists li; split; [exact RI|congruence]|]. split; [exact VO|]. split; [eauto|symmetry; exact NL]. }
  rewrite Q. cbn [run]. unfold open_read. unfold named in RI. rewrite RI, FS, FC. cbn [open_log run].
  destruct (c25_rescue (re_order R) 1000 (S (length f)) p f None (dir_of s d) lo hi OR ltac:(lia) (FB _ _ FS) FL RR Logic.I) as (w' & st' & RF & _); [unfold lenN; lia|].
  unfold rescue_from_file in RF. rewrite EV. change BLOCK_COUNT_IN_BUFFER with 1000. destruct (rescue_start p f None) as [[[rl st] at_]|e|]; [|discriminate..].
  destruct (read_buffers (S (length f)) (S (length f)) 1000 p f rl at_ None st) as [[[l failed]|e|]|] eqn:RB; [|discriminate..].
  pose proof (read_uids _ _ _ _ _ _ _ (FB _ _ FS) _ _ _ _ RB) as U.
  pose proof (writer_done E out None s d RD DD DW R OR eq_refl l st s U (grown_refl E None s d)) as D.
  destruct (rescue_writer E R out None l st s false) as [[s1 st1] dn]. cbn [snd] in D. subst dn.
  destruct (maybe_log E (re_last R) None st1 s1 false) as [s2 er]. cbn [rn_exit negb]. rewrite orb_false_r.
  destruct failed; [|reflexivity]. destruct (write_buffers (re_order R) l st (dir_of s d)); discriminate.
Qed.
Print Assumptions c54_succeeds.

(* After any number of interrupted runs with a log (as in C26), a run that ends with exit code 0 has every block saved. *)
Theorem c54_resumed E R m s p li f d lo hi w0 g :
  orders R -> bytes_only s -> rescue_options m p -> input_place E m s li -> s li = Some (NFile f) -> 0 < lenN f < 18446744073709551616 ->
  rescue_dir E m s d -> log_elsewhere E m s d -> rescue_range p f lo hi -> re_event R = None ->
  (match g with Some c => exists l, log_place E m s l /\ s l = Some (NFile c) | None => no_log E m s end) ->
  history 1000 p f w0 (dir_of s d) g ->
  rn_exit (rescue_cmd E R m s) = Exit 0 ->
  forall pos u b, to_rescue p f lo hi pos u b -> saved (dir_of (rn_fs (rescue_cmd E R m s)) d) u b.
Proof.
  intros OR FB RO (inp & VI & RI) FS FL (out & VO & RD & DD) LE RR EV LG HI X pos u b T.
  destruct (c54_exit0 E R m s OR FB X) as (p' & li' & f' & d' & text & w & st & RO' & (inp' & VI' & RI') & FS' & (out' & VO' & RD' & _) & TX & RF & VW & _).
  rewrite (options_unique m p' p RO' RO) in *. rewrite VI in VI'. injection VI' as <-. rewrite VO in VO'. injection VO' as <-. unfold named in *.
  rewrite RI in RI'. injection RI' as <-. rewrite RD in RD'. injection RD' as <-. rewrite FS in FS'. injection FS' as <-.
  assert (text = g).
  { unfold log_place, named in *. destruct text as [c|], g as [c'|]; [| | |reflexivity].
    - destruct TX as (l & (y & VL & RL) & SL), LG as (l' & (y' & VL' & RL') & SL'). rewrite VL in VL'. injection VL' as <-. congruence.
    - exfalso. destruct TX as (l & (y & VL & RL) & SL). destruct LG as [LG|(l' & (y' & VL' & RL') & SL')]; [congruence|]. unfold named in *. rewrite VL in VL'. injection VL' as <-. congruence.
    - exfalso. destruct LG as (l & LP & SL). rewrite (TX l LP) in SL. discriminate. }
  subst text. rewrite EV in RF.
  destruct (c26_resumed_run_completes (re_order R) 1000 (S (length f)) p f w0 (dir_of s d) g w st lo hi OR ltac:(lia) (FB _ _ FS) FL RR HI RF pos u b T) as (x & y & Z).
  exists x, y. rewrite <- Z. unfold content. rewrite (VW LE); [reflexivity|]. destruct (to_rescue_uid _ _ _ _ _ _ _ T). apply hex_named; assumption.
Qed.
Print Assumptions c54_resumed.

(* A log that was cut short (or cannot be read for another reason): exit code 2, and nothing is changed. *)
Theorem c54_cut_log E R m s l c : log_place E m s l -> s l = Some (NFile c) ->
  (v_can E l = false \/ (exists st k, k < lenN (serialize st) /\ c = takeN k (serialize st))) ->
  rn_exit (rescue_cmd E R m s) <> Exit 0 /\ same s (rn_fs (rescue_cmd E R m s)).
Proof.
  intros (path & VL & RL) SL BAD. unfold rescue_cmd. destruct (rescue_request E s m) as [[[[p inf] out] log]|e] eqn:Q; cbn [run].
  2:{ cbn [rn_exit rn_fs]. split; [|intro; reflexivity]. intros ->.
    assert (N0 : never0 (rescue_request E s m)) by (unfold rescue_request, parse_uid, get_block_type, get_number, get_range_end, get_pr_verbosity_level; n0). exact (N0 Q). }
  apply rescue_request_iff in Q as (_ & _ & _ & _ & _ & EL). destruct (open_read s (v_cwd E) (v_can E) inf) as [[li f]|]; [|split; [discriminate|intro; reflexivity] ].
  subst log. rewrite VL. unfold open_log, lookup, open_read. unfold named in RL. rewrite RL, SL. destruct (v_can E l) eqn:C; [|split; [discriminate|intro; reflexivity] ].
  cbn [run]. destruct BAD as [|(st & k & HK & ->)]; [discriminate|]. unfold rescue_start. rewrite (c26_cut_log_refused _ st k HK). cbn [rbind]. split; [discriminate|intro; reflexivity].
Qed.
Print Assumptions c54_cut_log.

(* ---- a run ---- *)
(* rescue d o, in the directory /w, where d is an image with blocks of two containers, and o holds a file of one of them already *)
Definition resc_fs : fs := upd (upd toy_fs (w_ ++ [str "d"]) (NFile disk)) (w_ ++ [str "o"; str "010203040506"]) (NFile [88]).
Definition resc_m : matches := cmd [(A_in_file, str "d"); (A_out_dir, str "o")] [].
Definition resc_lm (log : list N) : matches := cmd [(A_in_file, str "d"); (A_out_dir, str "o"); (A_log_file, log)] [].
Definition resc_R (tick last : bool) : rescue_env := mkRescueEnv rev_order None (fun _ _ => tick) last.
Definition resc_o : loc := w_ ++ [str "o"].
Example c54_hypotheses : orders (resc_R true true) /\ bytes_only resc_fs /\ rescue_options resc_m all_of_it /\
  input_place toy_env resc_m resc_fs (w_ ++ [str "d"]) /\ resc_fs (w_ ++ [str "d"]) = Some (NFile disk) /\ 0 < lenN disk < 18446744073709551616 /\
  rescue_dir toy_env resc_m resc_fs resc_o /\ dir_writable toy_env resc_fs resc_o /\ no_log toy_env (resc_lm (str "log")) resc_fs /\
  log_elsewhere toy_env (resc_lm (str "log")) resc_fs resc_o /\ rescue_range all_of_it disk 0 (lenN disk).
Proof.
  split; [intros k x; apply Permutation_sym, Permutation_rev|].
  assert (FB : bytes_only resc_fs).
  { intros l c. unfold resc_fs, toy_fs, upd. repeat (destruct (loc_eqb l _); [intro Q; try discriminate Q; injection Q as <-; vm_compute; reflexivity|]). discriminate. }
  split; [exact FB|]. split; [repeat split|]. split; [exists (str "d"); split; vm_compute; reflexivity|]. split; [vm_compute; reflexivity|]. split; [vm_compute; split; reflexivity|].
  split; [exists (str "o"); repeat split; vm_compute; reflexivity|]. split.
  { intros n [L _]. split; [reflexivity|]. unfold resc_fs, toy_fs, upd. repeat (destruct (loc_eqb (resc_o ++ [n]) _) eqn:Q; [apply loc_eqb_eq in Q; try discriminate Q|clear Q]); try discriminate. }
  split; [right; exists (w_ ++ [str "log"]); split; [exists (str "log"); split; vm_compute; reflexivity|vm_compute; reflexivity]|]. split.
  { intros n H (path & V & R). vm_compute in V. injection V as <-. vm_compute in R. injection R as R. discriminate R. }
  exists (lenN disk). split; [vm_compute; reflexivity|reflexivity].
Qed.
Definition resc1 : ran := rescue_cmd toy_env (resc_R true true) (resc_lm (str "log")) resc_fs.
Definition is_exit0 (r : ran) : bool := match rn_exit r with Exit 0 => true | _ => false end.
Example c54_run : let r := resc1 in is_exit0 r && eqbl (content (dir_of (rn_fs r) resc_o) (str "010203040506")) (88 :: toy_block V2 uA 1 7 ++ toy_block V2 uA 2 8 ++ toy_block V2 uA 0 0)
  && eqbl (content (dir_of (rn_fs r) resc_o) (str "AABBCC010203")) (toy_block V1 uB 1 3)
  && match rn_fs r (w_ ++ [str "log"]) with Some (NFile c) => eqbl (takeN 20 c) (str "bytes_processed=1074") | _ => false end = true.
Proof. vm_compute. reflexivity. Qed.
(* rescuing the same again: the log says that all was done, and nothing is added *)
Example c54_run_again : let r := rescue_cmd toy_env (resc_R false true) (resc_lm (str "log")) (rn_fs resc1) in
  is_exit0 r && (lenN (content (dir_of (rn_fs r) resc_o) (str "010203040506")) =? 385) = true.
Proof. vm_compute. reflexivity. Qed.
(* F30. A log that cannot be written is not always reported: the run ends with exit code 0 and no log is there. *)
Theorem c54_log_written_refuted : exists E R m s log, orders R /\ re_last R = true /\ value_of m A_log_file = Some log /\
  rn_exit (rescue_cmd E R m s) = Exit 0 /\ lookup (rn_fs (rescue_cmd E R m s)) (v_cwd E) log = None.
Proof.
  exists toy_env, (resc_R false true), (resc_lm (str "missing/log")), resc_fs, (str "missing/log"). split; [intros k x; apply Permutation_sym, Permutation_rev|].
  split; [reflexivity|]. split; [reflexivity|]. split; vm_compute; reflexivity.
Qed.
Print Assumptions c54_log_written_refuted.
(* Written while the run goes on, the error is noticed. *)
Example c54_log_error : rn_exit (rescue_cmd toy_env (resc_R true true) (resc_lm (str "missing/log")) resc_fs) = Exit 2.
Proof. vm_compute. reflexivity. Qed.
