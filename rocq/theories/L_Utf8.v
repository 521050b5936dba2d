From Verif Require Import M_Base M_Metadata S_Meta L_Base.
Ltac Zify.zify_post_hook ::= Z.div_mod_to_equations.
Ltac nb := repeat match goal with
  | H : inr _ _ _ = true |- _ => unfold inr in H
  | H : _ && _ = true |- _ => apply andb_true_iff in H; destruct H
  | H : (_ <=? _) = true |- _ => apply N.leb_le in H
  | H : (_ <=? _) = false |- _ => apply N.leb_gt in H
  | H : (_ <? _) = true |- _ => apply N.ltb_lt in H
  | H : (_ <? _) = false |- _ => apply N.ltb_ge in H
  | H : (_ =? _) = true |- _ => apply N.eqb_eq in H
  | H : (_ =? _) = false |- _ => apply N.eqb_neq in H
  end.
Lemma inr_t lo hi x : lo <= x <= hi -> inr lo hi x = true.
Proof. intros H. unfold inr. apply andb_true_iff. split; apply N.leb_le; lia. Qed.
Lemma inr_f lo hi x : x < lo \/ hi < x -> inr lo hi x = false.
Proof. intros H. unfold inr. apply andb_false_iff. destruct H; [left|right]; apply N.leb_gt; lia. Qed.
Lemma utf8_enc_ok cp rest : scalar cp -> utf8_valid (utf8_enc cp ++ rest) = utf8_valid rest.
Proof.
  intro S. unfold utf8_enc, scalar in *. destruct (N.ltb_spec cp 0x80); [|destruct (N.ltb_spec cp 0x800); [|destruct (N.ltb_spec cp 0x10000)]]; cbn [app utf8_valid].
  - destruct (N.ltb_spec cp 128); [reflexivity|lia].
  - destruct (N.ltb_spec (192 + cp / 64) 128); [lia|]. rewrite !inr_t by lia. reflexivity.
  - destruct (N.ltb_spec (224 + cp / 4096) 128); [lia|]. rewrite (inr_f 194 223), (inr_t 224 239), (inr_t 128 191 (128 + cp mod 64)) by lia.
    destruct (N.eqb_spec (224 + cp / 4096) 224); [rewrite inr_t by lia; reflexivity|].
    destruct (N.eqb_spec (224 + cp / 4096) 237); rewrite inr_t by lia; reflexivity.
  - destruct (N.ltb_spec (240 + cp / 262144) 128); [lia|]. rewrite (inr_f 194 223), (inr_f 224 239), (inr_t 240 244), (inr_t 128 191 (128 + cp mod 64)), (inr_t 128 191 (128 + cp / 64 mod 64)) by lia.
    destruct (N.eqb_spec (240 + cp / 262144) 240); [rewrite inr_t by lia; reflexivity|].
    destruct (N.eqb_spec (240 + cp / 262144) 244); rewrite inr_t by lia; reflexivity.
Qed.
Lemma utf8_valid_iff s : utf8_valid s = true <-> is_utf8 s.
Proof.
  split.
  - remember (length s) as n eqn:En. assert (L : (length s <= n)%nat) by lia. clear En. revert s L.
    assert (G : forall cp s t, scalar cp -> is_utf8 t -> s = utf8_enc cp ++ t -> is_utf8 s).
    { intros cp s t S (cps & F & ->) ->. exists (cp :: cps). split; [constructor; assumption|reflexivity]. }
    induction n as [|n IH]; intros s L; (destruct s as [|a s]; [intros _; exists []; split; [constructor|reflexivity]|cbn [length] in L; try lia]).
    cbn [utf8_valid]. destruct (a <? 128) eqn:E1; [intro V; nb; apply (G a _ s); [unfold scalar; lia|apply IH; [lia|exact V]|unfold utf8_enc; destruct (N.ltb_spec a 0x80); [reflexivity|lia]]|].
    destruct (inr 194 223 a) eqn:E2.
    { destruct s as [|b s]; [discriminate|]. intro V. nb. cbn [length] in L. apply (G ((a - 192) * 64 + (b - 128)) _ s); [unfold scalar; lia|apply IH; [lia|assumption]|].
      unfold utf8_enc. destruct (N.ltb_spec ((a - 192) * 64 + (b - 128)) 0x80); [lia|]. destruct (N.ltb_spec ((a - 192) * 64 + (b - 128)) 0x800); [|lia].
      cbn [app]. f_equal; [lia|f_equal; lia]. }
    destruct (inr 224 239 a) eqn:E3.
    { destruct s as [|b [|c s]]; try discriminate. intro V. cbn [length] in L. apply andb_true_iff in V as [V V3]. apply andb_true_iff in V as [V1 V2].
      assert (R : 128 <= b <= 191 /\ (a = 224 -> 160 <= b) /\ (a = 237 -> b <= 159)).
      { destruct (N.eqb_spec a 224); [nb; lia|]. destruct (N.eqb_spec a 237); nb; lia. }
      clear V1. nb. set (cp := (a - 224) * 4096 + (b - 128) * 64 + (c - 128)).
      assert (C : 0x800 <= cp < 0x10000 /\ (cp < 0xD800 \/ 0xE000 <= cp)). { unfold cp. destruct (N.lt_ge_cases a 237); [|destruct (N.eq_dec a 237)]; destruct (N.eq_dec a 224); lia. }
      apply (G cp _ s); [unfold scalar; lia|apply IH; [lia|assumption]|]. unfold utf8_enc. destruct (N.ltb_spec cp 0x80); [lia|]. destruct (N.ltb_spec cp 0x800); [lia|]. destruct (N.ltb_spec cp 0x10000); [|lia].
      cbn [app]. unfold cp. f_equal; [lia|f_equal; [lia|f_equal; lia]]. }
    destruct (inr 240 244 a) eqn:E4; [|discriminate].
    destruct s as [|b [|c [|d s]]]; try discriminate. intro V. cbn [length] in L. apply andb_true_iff in V as [V V4]. apply andb_true_iff in V as [V V3]. apply andb_true_iff in V as [V1 V2].
    assert (R : 128 <= b <= 191 /\ (a = 240 -> 144 <= b) /\ (a = 244 -> b <= 143)).
    { destruct (N.eqb_spec a 240); [nb; lia|]. destruct (N.eqb_spec a 244); nb; lia. }
    clear V1. nb. set (cp := (a - 240) * 262144 + (b - 128) * 4096 + (c - 128) * 64 + (d - 128)).
    assert (C : 0x10000 <= cp < 0x110000). { unfold cp. destruct (N.eq_dec a 240); destruct (N.eq_dec a 244); lia. }
    apply (G cp _ s); [unfold scalar; lia|apply IH; [lia|assumption]|]. unfold utf8_enc. destruct (N.ltb_spec cp 0x80); [lia|]. destruct (N.ltb_spec cp 0x800); [lia|]. destruct (N.ltb_spec cp 0x10000); [lia|].
    cbn [app]. unfold cp. f_equal; [lia|f_equal; [lia|f_equal; [lia|f_equal; lia]]].
  - intros (cps & F & ->). induction F as [|cp cps S F IH]; [reflexivity|]. cbn [flat_map]. rewrite utf8_enc_ok; assumption.
Qed.
