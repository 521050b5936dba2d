(* Block facts in the form of the property statements. *)
From Verif Require Import M_Base L_Base L_File M_Specs M_Crc M_Header M_Metadata M_Block.
From Verif Require Import S_Crc S_Meta S_Block L_Crc L_Header L_Meta L_Block.

Lemma block_write_succeeds b upd buf :
  block_ok b -> bytes_ok buf = true -> ver_to_block_size (b_version b) <= lenN buf ->
  ((exists r, sync_to_buffer b upd buf = ROk r) <->
   match b_data b with DData => True | DMeta ms => fields_size ms <= ver_to_block_size (b_version b) - 16 end).
Proof.
  intros [HO HD] HB HL. destruct (b_data b) as [|ms] eqn:ED.
  - rewrite sync_to_data by assumption. split; [auto|]. intros _. eexists. reflexivity.
  - destruct HD as (HS & HF & _). rewrite (sync_to_meta b upd buf ms) by assumption.
    destruct (N.ltb_spec (ver_to_block_size (b_version b) - 16) (fields_size ms)).
    + split; [intros [r E]; discriminate|lia].
    + split; [lia|]. intros _. eexists. reflexivity.
Qed.
Lemma block_acceptance b0 buf hp p b : bytes_ok buf = true ->
  sync_from_buffer b0 buf hp p = ROk b <->
  (exists h pl, well_formed_block buf h pl /\ b_header b = h /\
     b_data b = (if h_seq_num h =? 0 then DMeta (metas_from_bytes pl) else DData)) /\
  hp (b_header b) = true /\ p b = true.
Proof.
  intro HB. rewrite sync_from_ok, parse_ok_iff by exact HB.
  assert (Z : forall x, (x <? 1) = (x =? 0)) by (intro x; destruct (N.ltb_spec x 1), (N.eqb_spec x 0); lia).
  split.
  - intros ((h & pl & W & ->) & H1 & H2). split; [|auto]. exists h, pl. split; [exact W|]. split; [reflexivity|].
    unfold block_of. cbn [b_data]. rewrite Z. reflexivity.
  - intros ((h & pl & W & E1 & E2) & H1 & H2). split; [|auto]. exists h, pl. split; [exact W|].
    unfold block_of. rewrite Z, <- E2, <- E1. destruct b; reflexivity.
Qed.
