(* The file written by the encoder is a container. *)
From Verif Require Import M_Base M_Specs M_Crc M_Header M_Multihash M_Metadata M_Block M_Index M_FileUtils M_Buffer M_Ranges M_Encode
  S_Crc S_Meta S_Block S_Index S_Container L_Base L_File L_Crc L_Header L_Block L_Meta L_Index L_Index2 L_Buffer L_Lot L_Encode L_Container.
Ltac Zify.zify_post_hook ::= idtac.

Lemma fold_left_map {A B C} (f : C -> B -> C) (g : A -> B) l : forall a, fold_left f (map g l) a = fold_left (fun a x => f a (g x)) l a.
Proof. induction l as [|x l IH]; intro a; [reflexivity|]. cbn [map fold_left]. apply IH. Qed.
Lemma fold_left_ext_in {A C} (f g : C -> A -> C) l : (forall a x, In x l -> f a x = g a x) -> forall a, fold_left f l a = fold_left g l a.
Proof.
  induction l as [|x l IH]; intros H a; [reflexivity|]. cbn [fold_left]. rewrite H by (left; reflexivity). apply IH.
  intros; apply H; right; assumption.
Qed.

(* writing the same block at every metadata position *)
Definition write_metas (v : version) (o : dpb) (mb : list N) (f : file) : file :=
  fold_left (fun f pos => file_write f pos mb) (calc_meta_block_all_write_pos_s v o) f.
Definition meta_list (v : version) (o : dpb) (mb : list N) : list (N * list N) :=
  map (fun pos => (pos / ver_to_block_size v, mb)) (calc_meta_block_all_write_pos_s v o).
Lemma write_metas_put v o mb f : write_metas v o mb f = put_blocks (ver_to_block_size v) (meta_list v o mb) f.
Proof.
  unfold write_metas, put_blocks, meta_list. rewrite fold_left_map. apply fold_left_ext_in. intros a x Hx. cbn [fst snd].
  apply meta_pos_In in Hx as (i & _ & ->). rewrite N.div_mul by (pose proof (bs_pos v); lia). reflexivity.
Qed.
Lemma In_meta_list v o mb i b : In (i, b) (meta_list v o mb) <-> meta_index None o i /\ b = mb.
Proof.
  unfold meta_list. rewrite in_map_iff. pose proof (bs_pos v) as BS. split.
  - intros (x & E & Hx). apply meta_pos_In in Hx as (j & Hj & ->). rewrite N.div_mul in E by lia. injection E as <- <-. auto.
  - intros [Hi ->]. exists (i * ver_to_block_size v). rewrite N.div_mul by lia. split; [reflexivity|]. apply meta_pos_In. exists i; auto.
Qed.
Lemma wr_put c f bl : wr c f bl = put_blocks (ver_to_block_size (c_ver c))
  (map (fun x => (calc_data_block_write_index (fst (fst x)) (Some (c_meta c)) (c_dpb c), snd (fst x))) bl) f.
Proof. unfold wr, put_blocks. rewrite fold_left_map. reflexivity. Qed.

Section File.
Variable c : cfg.
Variable rs : codec.
Let v := c_ver c.
Let uid := c_uid c.
Let bs := ver_to_block_size v.
Let ds := ver_to_data_size v.
Let o := c_dpb c.
Let me := c_meta c.
Hypothesis CIN : c_in c = InData.
Hypothesis CUID : lenN uid = 6 /\ bytes_ok uid = true.
Hypothesis CO : dpb_ok (c_dpb c).
Hypothesis CRS : codec_ok rs (c_dpb c).
Hypothesis CME : c_dpb c <> None -> c_meta c = true.
Variable xs : list (list N).
Hypothesis HCH : chunked ds xs.
Hypothesis HBY : bytes_ok (concat xs) = true.
Hypothesis HN : nblocks c xs <= U32_MAX.
Variable K : N.
Hypothesis HK : lenN xs <= K * dws c.
Let data := concat xs.
Let n := nblocks c xs.

Lemma meta_index_on i : me = true -> meta_index None o i -> meta_index (Some me) o i.
Proof. intros M H. apply meta_index_me; [|exact H]. intros _. rewrite M. discriminate. Qed.
Lemma meta_index_off i : meta_index (Some me) o i -> me = true /\ meta_index None o i.
Proof.
  unfold meta_index. unfold o. case_eq (c_dpb c); [intros [[d p] B] EO|intro EO].
  - intro H. split; [apply CME; rewrite EO; discriminate|exact H].
  - intros [H ->]. split; [destruct me; congruence|]. split; [discriminate|reflexivity].
Qed.

Lemma container_ok m0 m1 : lenN m0 = bs -> lenN m1 = bs ->
  let f1 := wr c (if me then write_metas v o m0 [] else []) (blocks c rs 1 xs 0 K) in
  is_container v uid me o rs m1 data (if me then write_metas v o m1 f1 else f1).
Proof.
  intros L0 L1 f1. assert (BS : 1 <= bs) by apply bs_pos.
  set (D := map (fun x : N * list N * bool => (calc_data_block_write_index (fst (fst x)) (Some (c_meta c)) (c_dpb c), snd (fst x))) (blocks c rs 1 xs 0 K)).
  set (M0 := if me then meta_list v o m0 else []). set (M1 := if me then meta_list v o m1 else []).
  set (g := put_blocks bs M0 []).
  assert (EF : (if me then write_metas v o m1 f1 else f1) = put_blocks bs (D ++ M1) g).
  { rewrite put_blocks_app. unfold f1. rewrite wr_put. fold v bs D. unfold g, M0, M1. destruct me; [rewrite !write_metas_put|]; reflexivity. }
  match goal with |- is_container _ _ _ _ _ _ _ ?x => replace x with (put_blocks bs (D ++ M1) g) by (symmetry; exact EF) end. clear EF f1.
  assert (InD : forall i b, In (i, b) D <-> exists s, 1 <= s <= n /\ i = calc_data_block_write_index s (Some me) o /\ b = block_bytes c s (payload_of v o rs data s)).
  { intros i b. unfold D. rewrite in_map_iff. split.
    - intros (x & E & Hx). apply (In_blocks c rs CIN CUID CO CRS xs HCH HBY K x HK) in Hx as (s & fl & Hs & -> & _).
      cbn [fst snd] in E. injection E as <- <-. exists s. auto.
    - intros (s & Hs & -> & ->). destruct (block_home c rs CIN CUID CO CRS xs HCH s Hs) as (H1 & H2 & H3).
      destruct (group_nth c rs CIN CUID CO CRS xs HCH HBY _ _ H1 H2) as (fl & E). cbv zeta in H3. rewrite <- H3 in E.
      exists (s, block_bytes c s (payload_of v o rs data s), fl). split; [reflexivity|].
      apply (In_blocks c rs CIN CUID CO CRS xs HCH HBY K _ HK). exists s, fl. auto. }
  assert (InM : forall m i b, In (i, b) (if me then meta_list v o m else []) <-> meta_index (Some me) o i /\ b = m).
  { intros m i b. split.
    - intro H. case_eq me; intro ME; rewrite ME in H; [|destruct H]. apply In_meta_list in H as [H ->]. split; [rewrite <- ME; apply meta_index_on; assumption|reflexivity].
    - intros [H ->]. apply meta_index_off in H as [ME H]. rewrite ME. apply In_meta_list. auto. }
  assert (BB : forall s, 1 <= s <= n -> is_block v uid s (payload_of v o rs data s) (block_bytes c s (payload_of v o rs data s)) /\ lenN (block_bytes c s (payload_of v o rs data s)) = bs).
  { intros s Hs. destruct (payload_ok c rs CIN CUID CO CRS xs HCH HBY s Hs) as [P1 P2].
    destruct (block_bytes_is c CUID xs HCH s _ P1 P2) as (B1 & B2 & _); [unfold n in Hs; unfold U32_MAX in HN; lia|]. auto. }
  assert (LM : forall m, lenN m = bs -> Forall (fun x => lenN (snd x) = bs) (if me then meta_list v o m else [])).
  { intros m Hm. apply Forall_forall. intros [i b] Hx. apply InM in Hx as [_ ->]. exact Hm. }
  destruct (put_blocks_ok bs BS M0 []) as (G1 & G2 & G3 & G4 & G5).
  { apply LM, L0. } { intros a b b' H1 H2. apply InM in H1 as [_ ->]. apply InM in H2 as [_ ->]. reflexivity. }
  fold g in G1, G2, G3, G4, G5.
  destruct (put_blocks_ok bs BS (D ++ M1) g) as (F1 & F2 & F3 & F4 & F5).
  { apply Forall_app. split; [|apply LM, L1]. apply Forall_forall. intros [i b] Hx. apply InD in Hx as (s & Hs & -> & ->). cbn [snd]. apply BB, Hs. }
  { intros a b b' H1 H2. apply in_app_iff in H1, H2. rewrite InD in H1, H2. unfold M1 in H1, H2. rewrite InM in H1, H2.
    destruct H1 as [(s1 & S1 & E1 & ->)|[H1 ->]], H2 as [(s2 & S2 & E2 & ->)|[H2 ->]].
    - assert (s1 = s2) by (apply (write_index_inj (Some me) o); [exact CO|lia|lia|congruence]). subst. reflexivity.
    - subst a. exfalso. apply (write_index_not_meta (Some me) o s1 CO ltac:(lia) H2).
    - subst a. exfalso. apply (write_index_not_meta (Some me) o s2 CO ltac:(lia) H1).
    - reflexivity. }
  set (f := put_blocks bs (D ++ M1) g) in *. exists n. split; [apply (nblocks_ok c CO xs)|]. fold bs.
  assert (UI : forall i, used_index me o n i <-> exists b, In (i, b) (D ++ M1)).
  { intro i. unfold used_index. split.
    - intros [H|(s & Hs & E)].
      + exists m1. apply in_app_iff. right. apply InM. auto.
      + exists (block_bytes c s (payload_of v o rs data s)). apply in_app_iff. left. apply InD. exists s. auto.
    - intros (b & Hb). apply in_app_iff in Hb as [Hb|Hb]; [apply InD in Hb as (s & Hs & E & _); right; exists s; auto|apply InM in Hb; left; apply Hb]. }
  split; [|split; [|split; [|split]]].
  - intros s Hs. rewrite (F1 _ (block_bytes c s (payload_of v o rs data s))); [apply BB, Hs|]. apply in_app_iff. left. apply InD. exists s. auto.
  - intros i Hi. apply F1. apply in_app_iff. right. apply InM. auto.
  - intros i Hi. rewrite F2; [rewrite G2; [unfold nthN; destruct (N.to_nat i); reflexivity|]|].
    + intros b Hb. apply InM in Hb as [Hb _]. apply Hi. left. exact Hb.
    + intros b Hb. apply Hi, UI. exists b. exact Hb.
  - intros i Hi. apply UI in Hi as (b & Hb). apply (F3 i b Hb).
  - destruct F5 as [F5|(a & b & Hab & F5)]; [|right; exists a; split; [apply UI; exists b; exact Hab|exact F5]].
    destruct G5 as [G5|(a & b & Hab & G5)]; [left; rewrite F5, G5; reflexivity|].
    right. exists a. split; [left; apply InM in Hab; apply Hab|]. rewrite F5. exact G5.
Qed.
End File.
