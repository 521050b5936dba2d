(* C41: exactly which values are printed faithfully in JSON. *)
From Coq Require Import String Lia.
From Verif Require Import M_Base M_Metadata M_Buffer M_Rescue M_Json S_Json L_Base L_File L_Log L_Json L_Json2 L_JsonExact S_Meta L_Utf8 P_Json.

Lemma ascii_of_chars v : utf8_valid v = true -> chars v = v -> Forall (fun c => c <= 127) v.
Proof.
  intros U C. assert (NC : forall c, In c v -> is_cont c = false).
  { intros c I. unfold chars in C. rewrite <- C in I. apply filter_In in I. destruct I as [_ I]. destruct (is_cont c); [discriminate I|reflexivity]. }
  apply utf8_valid_iff in U. destruct U as (cps & SC & ->). apply Forall_forall. intros c I. apply in_flat_map in I. destruct I as (cp & IC & I).
  destruct (N.ltb_spec cp 128) as [L|L]; [unfold utf8_enc in I; destruct (N.ltb_spec cp 128); [|lia]; destruct I as [<-|[]]; lia|exfalso].
  assert (X : is_cont (128 + cp mod 64) = false).
  { apply NC. apply in_flat_map. exists cp. split; [exact IC|]. unfold utf8_enc. destruct (N.ltb_spec cp 128); [lia|]. destruct (cp <? 2048), (cp <? 65536); cbn; auto. }
  unfold is_cont in X. assert (cp mod 64 < 64) by (apply N.mod_lt; lia). destruct (N.leb_spec 128 (128 + cp mod 64)), (N.leb_spec (128 + cp mod 64) 191); try lia; discriminate X.
Qed.
Lemma parse_of_numeral v : numeral v -> parses_as_u64 v = true.
Proof.
  intros (d & E & ND & FD & LT). unfold parses_as_u64.
  assert (G : match v with 43 :: t => t | _ => v end = d).
  { destruct E as [-> | ->]; [|reflexivity]. destruct d as [|x d]; [reflexivity|]. cbn [forallb] in FD. apply Bool.andb_true_iff in FD. destruct FD as [FX _].
    destruct x as [|p]; [reflexivity|]. do 6 (destruct p as [p|p|]; try reflexivity). discriminate FX. }
  rewrite G. destruct d as [|x d]; [congruence|]. rewrite FD. unfold parse_u64. destruct (N.ltb_spec (dec_value (x :: d)) 18446744073709551616); [reflexivity|lia].
Qed.

(* "key : value" is printed as an object with this field and exactly this value, as a string, if and only if the value consists of ASCII
   characters that are not control characters and not backslashes, without spaces at the ends (or is just one space), and
   is not one of the words null, true and false nor a numeral, unless quotes are forced. *)
Theorem c41_field_iff force words key n m val :
  spelled words key -> utf8_valid val = true -> 1 <= m ->
  ((exists t, do_calls [Open None Curly; Field force (key ++ repN n 32 ++ str ":" ++ repN m 32 ++ val); Close] [] = ROk (t, []) /\
      json_text t (JObj [(camel words, JStr val)])) <->
   (val = str " " \/ (val <> [] /\ Forall (fun c => 32 <= c <= 127 /\ c <> 92) val /\ hd 0 val <> 32 /\ last val 0 <> 32)) /\
   (force = true \/ (val <> str "null" /\ val <> str "true" /\ val <> str "false" /\ ~ numeral val))).
Proof.
  intros S UV M. rewrite (one_field_text words key n m force val S M).
  pose proof (string_text_plain _ (camel_chars words key S)) as KK.
  split.
  - intros (t & E & J). destruct (strip_front_end_chars (repN m 32 ++ val) (str " ")) as [w| |] eqn:SV; try discriminate E. cbn [rbind] in E. injection E as <-.
    destruct (determine_if_skip_quotes force w) eqn:DQ.
    + exfalso. unfold determine_if_skip_quotes in DQ. apply Bool.andb_true_iff in DQ. destruct DQ as [_ DQ].
      assert (HW : exists c w', escape_quotes w = c :: w' /\ is_ws c = false /\ c <> 34).
      { apply Bool.orb_true_iff in DQ. destruct DQ as [DQ|DQ].
        - unfold skip_quotes_for_term in DQ. apply Bool.orb_true_iff in DQ. destruct DQ as [DQ|DQ]; [apply Bool.orb_true_iff in DQ; destruct DQ as [DQ|DQ]|]; apply eqbl_eq in DQ; subst w;
            (eexists _, _; split; [vm_compute; reflexivity|split; [reflexivity|discriminate]]).
        - apply numeral_of_parse in DQ. destruct DQ as (d & ED & ND & FD & _). destruct d as [|x d]; [congruence|]. cbn [forallb] in FD. apply Bool.andb_true_iff in FD. destruct FD as [FX _].
          assert (DX : is_ws x = false /\ x <> 34).
          { unfold is_digit in FX. apply Bool.andb_true_iff in FX. destruct FX as [X1 X2]. apply N.leb_le in X1, X2. split; [|lia].
            unfold is_ws. cbn [existsb]. destruct (N.eqb_spec x 32), (N.eqb_spec x 9), (N.eqb_spec x 10), (N.eqb_spec x 13); try lia; reflexivity. }
          destruct DX as [D1 D2]. destruct ED as [-> | ->].
          + exists x, (escape_quotes d). split; [|split; [exact D1|exact D2]]. unfold escape_quotes. cbn [flat_map]. destruct (N.eqb_spec x 34); [congruence|reflexivity].
          + exists 43, (escape_quotes (x :: d)). split; [reflexivity|]. split; [reflexivity|discriminate]. }
      destruct HW as (c & w' & EW & CW & C34). destruct (one_field_json _ _ c w' val KK EW CW J) as [X _]. congruence.
    + destruct (one_field_json _ _ 34 (escape_quotes w ++ [34]) val KK eq_refl eq_refl J) as [_ X]. specialize (X _ eq_refl).
      destruct (escape_reads w val X) as (L1 & G & NB).
      assert (EQ : val = w /\ (val = str " " \/ (val <> [] /\ chars val = val /\ hd 0 val <> 32 /\ last val 0 <> 32))).
      { destruct (strip_value m val w M SV) as [-> |(L2 & Q)].
        - assert (val = [32]). { change (escape_quotes [32]) with [32] in X. apply p_chars_ok with (r := []) in X. cbn in X. congruence. }
          subst. split; [reflexivity|left; reflexivity].
        - destruct (Q ltac:(lia)) as (-> & C & NE & H1 & H2). split; [reflexivity|right; auto]. }
      destruct EQ as [<- EQ]. specialize (NB eq_refl). split.
      * destruct EQ as [-> |(NE & C & H1 & H2)]; [left; reflexivity|right]. split; [exact NE|]. split; [|auto].
        pose proof (ascii_of_chars val UV C) as AS. rewrite Forall_forall in *. intros c I. split; [split; [apply G, I|apply AS, I]|]. intros ->. apply NB, I.
      * destruct force; [left; reflexivity|right]. unfold determine_if_skip_quotes in DQ. cbn [negb andb] in DQ. apply Bool.orb_false_iff in DQ. destruct DQ as [DQ P].
        unfold skip_quotes_for_term in DQ. apply Bool.orb_false_iff in DQ. destruct DQ as [DQ T3]. apply Bool.orb_false_iff in DQ. destruct DQ as [T1 T2].
        split; [apply eqbl_neq, T1|]. split; [apply eqbl_neq, T2|]. split; [apply eqbl_neq, T3|]. intro NU. apply parse_of_numeral in NU. congruence.
  - intros [V F].
    assert (ST : strip_front_end_chars (repN m 32 ++ val) (str " ") = ROk val).
    { assert (SP : forall k (P : N -> Prop), P 32 -> Forall P (repN k 32)) by (intros; apply Forall_forall; intros x I; apply In_repN in I; subst; assumption).
      destruct V as [-> |(NE & C & H1 & H2)].
      - replace (repN m 32 ++ str " ") with (32 :: repN m 32).
        2:{ change (str " ") with (repN 1 32). rewrite <- rep_app, N.add_comm, rep_S. reflexivity. }
        unfold strip_front_end_chars. rewrite chars_blank by (constructor; [reflexivity|apply blank_rep]). rewrite strip_scan_in by (apply blank_in; constructor; [reflexivity|apply blank_rep]).
        destruct (N.ltb_spec 0 (lenN (32 :: repN m 32))) as [_|X]; [|rewrite lenN_cons in X; lia]. rewrite slice_ascii; [reflexivity| |lia|rewrite lenN_cons; lia].
        constructor; [reflexivity|apply SP; reflexivity].
      - rewrite <- (app_nil_r val) at 1. apply strip_ok; [|apply SP; left; reflexivity|apply Forall_nil|exact NE|change (str " ") with [32]; intros [X|[]]; congruence|change (str " ") with [32]; intros [X|[]]; congruence].
        rewrite app_nil_r. apply Forall_app. split; [apply SP; reflexivity|]. eapply Forall_impl; [|exact C]. cbn. intros; lia. }
    rewrite ST. cbn [rbind]. eexists. split; [reflexivity|].
    assert (DQ : determine_if_skip_quotes force val = false).
    { unfold determine_if_skip_quotes. destruct F as [-> |(N1 & N2 & N3 & N4)]; [reflexivity|]. unfold skip_quotes_for_term.
      rewrite (proj2 (eqbl_neq val (str "null"))), (proj2 (eqbl_neq val (str "true"))), (proj2 (eqbl_neq val (str "false"))) by assumption.
      destruct (parses_as_u64 val) eqn:P; [destruct N4; apply numeral_of_parse; exact P|]. apply Bool.andb_false_r. }
    rewrite DQ.
    assert (TX : string_text (escape_quotes val) val).
    { destruct V as [-> |(_ & C & _)]; [apply st_plain; try discriminate; constructor|]. apply escape_text7; rewrite Forall_forall in *; [intros c I; apply C, I|]. intro I. apply C in I. lia. }
    exists [], (str "{" ++ ([10] ++ [34] ++ camel words ++ [34] ++ [] ++ str ":" ++ str " " ++ ([34] ++ escape_quotes val ++ [34]) ++ [10]) ++ str "}"), [10].
    split; [unfold one_field; repeat (rewrite <- ?app_assoc; cbn [app]); change (str ": ") with (str ":" ++ str " "); rewrite <- ?app_assoc; reflexivity|]. split; [apply ws_nil|]. split; [apply ws_lf|].
    apply vt_obj. apply mt_one; [apply ws_lf|exact KK|apply ws_nil|apply ws_sp|apply vt_str, TX|apply ws_lf].
Qed.
Print Assumptions c41_field_iff.
(* both sides occur: a value with quotes and a colon; a name with an umlaut, and a Windows path *)
Example c41_iff_run : spelled [str "File"; str "name"] (str "File name") /\
  (exists t, do_calls [Open None Curly; Field false (str "File name : a ""b"": c"); Close] [] = ROk (t, []) /\ json_text t (JObj [(str "fileName", JStr (str "a ""b"": c"))])) /\
  ~ (exists t, do_calls [Open None Curly; Field true (str "File name : C:\x"); Close] [] = ROk (t, []) /\ json_text t (JObj [(str "fileName", JStr (str "C:\x"))])) /\
  utf8_valid [195; 188] = true /\
  ~ (exists t, do_calls [Open None Curly; Field true (str "File name : " ++ [195; 188]); Close] [] = ROk (t, []) /\ json_text t (JObj [(str "fileName", JStr [195; 188])])).
Proof.
  assert (SP : spelled [str "File"; str "name"] (str "File name")) by apply c41_field_case.
  split; [exact SP|]. split.
  - apply (c41_field_iff false _ _ 1 1 (str "a ""b"": c") SP eq_refl ltac:(discriminate)). split; [right|right].
    + split; [discriminate|]. split; [repeat constructor; vm_compute; discriminate|split; vm_compute; discriminate].
    + split; [discriminate|]. split; [discriminate|]. split; [discriminate|]. apply not_numeral; [reflexivity|discriminate].
  - split; [|split; [reflexivity|]].
    + intro X. apply (c41_field_iff true _ _ 1 1 (str "C:\x") SP eq_refl ltac:(discriminate)) in X. destruct X as [[X|(_ & X & _)] _]; [discriminate X|].
      rewrite Forall_forall in X. apply (X 92); [|reflexivity]. cbn. auto.
    + intro X. apply (c41_field_iff true _ _ 1 1 [195; 188] SP eq_refl ltac:(discriminate)) in X. destruct X as [[X|(_ & X & _)] _]; [discriminate X|].
      rewrite Forall_forall in X. destruct (X 195) as [[_ Y] _]; [left; reflexivity|]. apply Y. reflexivity.
Qed.
