(* Lemmas for C73: the search for the reference block stopped. *)
From Verif Require Import M_Base M_Specs M_Header M_Metadata M_Block M_Index M_Buffer M_Ranges M_Scan M_Stop M_StopRef
  S_Crc S_Meta S_Block S_Scan S_StopRef L_Base L_Crc L_Block L_Scan L_Ref L_Ranges.

(* the part of get_ref_block_ok after the loop, for any range *)
Lemma ref_loop_spec f lo req choice m d : bytes_ok f = true -> lo <= lenN f ->
  ref_loop (S (length f)) f lo req choice 0 None None = ROk (m, d) -> ref_spec f lo (lo + req) choice (ref_pick choice m d).
Proof.
  intros HB HL HR.
  destruct (ref_loop_ok f lo (lo + req) HB choice req eq_refl (S (length f)) 0 None None) as (m0 & d0 & cur & ER & UM & UD & FA & AN).
  - lia.
  - unfold lenN. lia.
  - rewrite N.add_0_r. apply inv_start.
  - intro H. rewrite N.add_0_r. constructor. lia.
  - intros pos h pl L Q. apply lands_ge in L. lia.
  - intros pos h pl L Q. apply lands_ge in L. lia.
  - destruct choice as [|[]|[]]; reflexivity.
  - rewrite HR in ER. apply ROk_inj in ER. injection ER as <- <-.
    assert (FM : (forall pos h pl, lands f lo (lo + req) pos -> any_block_at f pos h pl -> pos < cur) -> found f lo (lo + req) isM m) by (intro A; eapply upto_found_all; eassumption).
    assert (FD : (forall pos h pl, lands f lo (lo + req) pos -> any_block_at f pos h pl -> pos < cur) -> found f lo (lo + req) isD d) by (intro A; eapply upto_found_all; eassumption).
    destruct choice as [|[]|[]]; cbn [ref_spec ref_pick ref_found] in *.
    + destruct m as [m|], d as [d|]; cbn [first_some].
      * destruct (AN eq_refl); discriminate.
      * eapply (first_any _ _ _ isM isD); [exact any_type|exact UM|exact UD].
      * eapply (first_any _ _ _ isD isM); [exact swap_type|exact UD|exact UM].
      * destruct FA as [FA|FA]; [discriminate|]. apply (none_any _ _ _ isM isD any_type); [exact (FM FA)|exact (FD FA)].
    + destruct d as [d|]; cbn [first_some some] in *.
      * left. split; [discriminate|]. apply (upto_some _ _ _ _ _ _ UD).
      * destruct FA as [FA|FA]; [discriminate|]. right. split; [exact (FD FA)|]. destruct m as [m|].
        -- eapply (first_any' _ _ _ isM isD); [exact any_type|exact UM|exact (FD FA)].
        -- apply (none_any _ _ _ isM isD any_type); [exact (FM FA)|exact (FD FA)].
    + destruct m as [m|]; cbn [first_some some] in *.
      * left. split; [discriminate|]. apply (upto_some _ _ _ _ _ _ UM).
      * destruct FA as [FA|FA]; [discriminate|]. right. split; [exact (FM FA)|]. destruct d as [d|].
        -- eapply (first_any' _ _ _ isD isM); [exact swap_type|exact UD|exact (FM FA)].
        -- apply (none_any _ _ _ isM isD any_type); [exact (FM FA)|exact (FD FA)].
    + destruct d as [d|]; cbn [some] in *; [apply (upto_some _ _ _ _ _ _ UD)|]. destruct FA as [FA|FA]; [discriminate|]. exact (FD FA).
    + destruct m as [m|]; cbn [some] in *; [apply (upto_some _ _ _ _ _ _ UM)|]. destruct FA as [FA|FA]; [discriminate|]. exact (FM FA).
Qed.

(* a stopped search is a search of a shorter range: up to the position it had reached *)
Lemma ref_loop_cut f lo req choice k : bytes_ok f = true ->
  forall fuel i bytes m d, i <= k -> (bytes < req -> looked f lo (lo + req) i (lo + bytes)) ->
  (lenN f < lo + bytes + 128 * N.of_nat fuel) -> lo + bytes <= lenN f ->
  exists m' d' j hi, ref_loop_stop (Some k) fuel f lo req choice i bytes m d = ROk (m', d', j) /\
    ref_loop fuel f lo hi choice bytes m d = ROk (m', d') /\
    (hi = req \/ bytes <= hi < req /\ looked f lo (lo + req) k (lo + hi) /\ k < j).
Proof.
  intro HB. induction fuel as [|fuel IH]; intros i bytes m d HI HL HF HLf; [lia|]. cbn [ref_loop_stop ref_loop raised].
  destruct (N.leb_spec req bytes) as [H|H].
  { exists m, d, (i + 1), req. split; [destruct (k <=? i); reflexivity|]. split; [|left; reflexivity].
    destruct (N.leb_spec req bytes); [reflexivity|lia]. }
  specialize (HL H). destruct (N.leb_spec k i) as [K|K].
  { exists m, d, (i + 1), bytes. split; [reflexivity|]. rewrite N.leb_refl. split; [reflexivity|]. right.
    split; [lia|]. replace k with i by lia. split; [exact HL|lia]. }
  destruct (lazy_spec f (lo + bytes) HB) as (r & ER & SR). rewrite ER. cbn [rbind].
  assert (FIN : forall a b (g : N -> result (option (N * block) * option (N * block))), g req = ROk (a, b) ->
    exists m' d' j hi, ROk (a, b, i + 1) = ROk (m', d', j) /\ (if hi <=? bytes then ROk (m, d) else g hi) = ROk (m', d') /\
      (hi = req \/ bytes <= hi < req /\ looked f lo (lo + req) k (lo + hi) /\ k < j)).
  { intros a b g G. exists a, b, (i + 1), req. split; [reflexivity|]. split; [|left; reflexivity].
    destruct (N.leb_spec req bytes); [lia|exact G]. }
  destruct (lz_eof r) eqn:EO.
  { apply (FIN m d (fun _ => ROk (m, d))). reflexivity. }
  destruct SR as (S1 & S2 & S3).
  assert (HL' : bytes + lz_len r < req -> looked f lo (lo + req) (i + 1) (lo + (bytes + lz_len r))).
  { intro Q. rewrite N.add_assoc. apply looked_next; [exact HL|exact S1|lia]. }
  assert (HLf' : lo + (bytes + lz_len r) <= lenN f) by (destruct S1 as [S1 _]; lia).
  assert (HF' : lenN f < lo + (bytes + lz_len r) + 128 * N.of_nat fuel) by lia.
  assert (REC : forall a b, exists m' d' j hi, ref_loop_stop (Some k) fuel f lo req choice (i + 1) (bytes + lz_len r) a b = ROk (m', d', j) /\
     (if hi <=? bytes then ROk (m, d) else ref_loop fuel f lo hi choice (bytes + lz_len r) a b) = ROk (m', d') /\
      (hi = req \/ bytes <= hi < req /\ looked f lo (lo + req) k (lo + hi) /\ k < j)).
  { intros a b. destruct (IH (i + 1) (bytes + lz_len r) a b ltac:(lia) HL' HF' HLf') as (m' & d' & j & hi & E1 & E2 & E3).
    exists m', d', j, hi. split; [exact E1|]. split.
    - destruct (N.leb_spec hi bytes) as [Q|Q]; [exfalso; destruct E3 as [->|[Q1 _]]; lia|exact E2].
    - destruct E3 as [->|(Q1 & Q2 & Q3)]; [left; reflexivity|]. right. split; [lia|]. split; [exact Q2|exact Q3]. }
  destruct (lz_block r) as [b|]; [|apply REC]. cbv zeta.
  set (a1 := match block_type_of b with TMeta => first_some m (Some (bytes, b)) | TData => m end).
  set (b1 := match block_type_of b with TMeta => d | TData => first_some d (Some (bytes, b)) end).
  destruct (ref_found choice a1 b1); [|apply REC].
  apply (FIN a1 b1 (fun _ => ROk (a1, b1))). reflexivity.
Qed.
(* what is found before the flag is seen is kept, and otherwise nothing wanted was found *)
Lemma ref_loop_stop_kept stop f lo req choice : forall fuel i bytes m d m' d' j, ref_found choice m d = false ->
  ref_loop_stop stop fuel f lo req choice i bytes m d = ROk (m', d', j) ->
  ref_loop fuel f lo req choice bytes m d = ROk (m', d') \/ ref_found choice m' d' = false /\ raised stop (j - 1) = true.
Proof.
  induction fuel as [|fuel IH]; intros i bytes m d m' d' j HF E; cbn [ref_loop_stop ref_loop] in *; [discriminate E|].
  destruct (raised stop i) eqn:ER.
  { apply ROk_inj in E. injection E as <- <- <-. right. split; [exact HF|]. replace (i + 1 - 1) with i by lia. exact ER. }
  destruct (req <=? bytes); [apply ROk_inj in E; injection E as <- <- <-; left; reflexivity|].
  destruct (read_block_lazily f (lo + bytes)) as [r|e|]; cbn [rbind] in *; try discriminate E.
  destruct (lz_eof r); [apply ROk_inj in E; injection E as <- <- <-; left; reflexivity|].
  destruct (lz_block r) as [b|]; [|eapply IH; eassumption]. cbv zeta in *.
  set (a1 := match block_type_of b with TMeta => first_some m (Some (bytes, b)) | TData => m end) in *.
  set (b1 := match block_type_of b with TMeta => d | TData => first_some d (Some (bytes, b)) end) in *.
  destruct (ref_found choice a1 b1) eqn:EF; [apply ROk_inj in E; injection E as <- <- <-; left; reflexivity|].
  eapply IH; eassumption.
Qed.
Lemma ref_loop_never f lo req choice : forall fuel i bytes m d,
  (do! (m', d', j) <- ref_loop_stop None fuel f lo req choice i bytes m d; ROk (m', d')) = ref_loop fuel f lo req choice bytes m d.
Proof.
  induction fuel as [|fuel IH]; intros i bytes m d; cbn [ref_loop_stop ref_loop raised]; [reflexivity|].
  destruct (req <=? bytes); [reflexivity|]. destruct (read_block_lazily f (lo + bytes)) as [r|e|]; cbn [rbind]; try reflexivity.
  destruct (lz_eof r); [reflexivity|]. destruct (lz_block r) as [b|]; [|apply IH]. cbv zeta.
  destruct (ref_found choice _ _); [reflexivity|apply IH].
Qed.
(* the types of the blocks kept *)
Definition typed (t : block_type) (r : option (N * block)) : Prop := match r with Some x => block_type_of (snd x) = t | None => True end.
Lemma ref_loop_stop_typed stop f lo req choice : forall fuel i bytes m d m' d' j, typed TMeta m -> typed TData d ->
  ref_loop_stop stop fuel f lo req choice i bytes m d = ROk (m', d', j) -> typed TMeta m' /\ typed TData d'.
Proof.
  induction fuel as [|fuel IH]; intros i bytes m d m' d' j TM TD E; cbn [ref_loop_stop] in E; [discriminate E|].
  assert (FIN : forall a b l, typed TMeta a -> typed TData b -> ROk (a, b, l) = ROk (m', d', j) -> typed TMeta m' /\ typed TData d').
  { intros a b l A B Q. apply ROk_inj in Q. injection Q as <- <- <-. split; assumption. }
  destruct (raised stop i); [exact (FIN _ _ _ TM TD E)|]. destruct (req <=? bytes); [exact (FIN _ _ _ TM TD E)|].
  destruct (read_block_lazily f (lo + bytes)) as [r|e|]; cbn [rbind] in E; try discriminate E.
  destruct (lz_eof r); [exact (FIN _ _ _ TM TD E)|]. destruct (lz_block r) as [b|]; [|exact (IH _ _ _ _ _ _ _ TM TD E)]. cbv zeta in E.
  set (a1 := match block_type_of b with TMeta => first_some m (Some (bytes, b)) | TData => m end) in E.
  set (b1 := match block_type_of b with TMeta => d | TData => first_some d (Some (bytes, b)) end) in E.
  assert (TA : typed TMeta a1) by (unfold a1; destruct (block_type_of b) eqn:EB; [destruct m; [exact TM|exact EB] || exact TM|exact TM || (destruct m; [exact TM|exact EB])]).
  assert (TB : typed TData b1) by (unfold b1; destruct (block_type_of b) eqn:EB; [exact TD || (destruct d; [exact TD|exact EB])|exact TD || (destruct d; [exact TD|exact EB])]).
  destruct (ref_found choice a1 b1); [exact (FIN _ _ _ TA TB E)|exact (IH _ _ _ _ _ _ _ TA TB E)].
Qed.
