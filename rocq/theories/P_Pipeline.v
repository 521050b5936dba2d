(* C33: the threads of a command always end, in the same state under every schedule, and do the work in order. *)
From Coq Require Import List Arith Bool Lia.
From Verif Require Import M_Base M_Specs M_Header M_Block M_Index M_Buffer M_Ranges M_Encode M_Scan M_Loop M_Decode M_Sort M_Rescue M_Pipeline S_Pipeline L_Pipeline L_Pipeline2 L_Pipeline3.
Import ListNotations.
Local Open Scope nat_scope.

(* For every reader, workers and buffers: if the reader stops by itself (mu bounds the buffers it may still fill) and sends at most
   [left r] notes, and the channels have room for all buffers, an end mark and the notes, then all threads end whatever the schedule and wherever a
   thread fails: the number of steps and the final state do not depend on the schedule. *)
Theorem c33_threads_end (E F T R W : Type) (read : R -> F -> R * list T * F * bool * option E) (worker : nat -> W -> F -> (W * F) + E) (on_note : W -> T -> W + E)
    (cap : nat -> nat) (left mu : R -> nat) (r : R) (ws : list W) (bufs : list F) :
  bufs <> [] ->
  (forall r b r' ns b' run er, read r b = (r', ns, b', run, er) -> length ns + left r' <= left r) ->
  (forall r b r' ns b' er, read r b = (r', ns, b', true, er) -> mu r' < mu r) ->
  length bufs + left r + 1 <= cap 0 -> (forall i, 1 <= i <= length ws -> length bufs + 1 <= cap i) ->
  exists t sts, always_ends_in (step (message F T) (tstate E R W) (1 + length ws) cap (thread_work E F T R W read worker on_note)) (command_init r ws bufs) t /\
    ended_with t sts.
Proof.
  intros NB HL HM C0 CI.
  apply (command_ends E F T R W read worker on_note (1 + length ws) cap left HL (length bufs) r) with (mu := mu); try reflexivity; try assumption.
  - intros [|i] Hi; unfold room; [lia|]. rewrite Nat.add_0_r. apply CI. lia.
  - destruct bufs; [congruence|cbn; lia].
Qed.
(* If the work done one buffer at a time succeeds, then every schedule ends with the same result in every thread; if it fails,
   every schedule ends with an error recorded. An error of the reader makes it stop. *)
Theorem c33_same_as_one_by_one (E F T R W : Type) (read : R -> F -> R * list T * F * bool * option E) (worker : nat -> W -> F -> (W * F) + E) (on_note : W -> T -> W + E)
    (cap : nat -> nat) (left : R -> nat) (r : R) (ws : list W) (bufs : list F) (fuel : nat) (o : outcome R W) :
  bufs <> [] -> ws <> [] ->
  (forall r b r' ns b' run er, read r b = (r', ns, b', run, er) -> length ns + left r' <= left r) ->
  (forall r b r' ns b' run e, read r b = (r', ns, b', run, Some e) -> run = false) ->
  length bufs + left r + 1 <= cap 0 -> (forall i, 1 <= i <= length ws -> length bufs + 1 <= cap i) ->
  one_by_one E F T R W read worker on_note fuel bufs r ws = Some o ->
  exists t sts, always_ends_in (step (message F T) (tstate E R W) (1 + length ws) cap (thread_work E F T R W read worker on_note)) (command_init r ws bufs) t /\
    ended_with t sts /\
    match o with
    | Fine r' ws' => sts = TReader r' false None :: map (fun w => TWorker w None) ws'
    | Failed => exists st, In st sts /\ error_of st <> None
    end.
Proof.
  intros NB NW HL HE C0 CI O.
  apply (command_outcome E F T R W read worker on_note (1 + length ws) cap left HL (length bufs) r) with (fuel := fuel); try reflexivity; try assumption.
  - intros [|i] Hi; unfold room; [lia|]. rewrite Nat.add_0_r. apply CI. lia.
  - destruct bufs; [congruence|cbn; lia].
Qed.

(* ---- the commands: nine buffers, channels with room for ten messages (src/encode_core.rs:34,594-596) ---- *)
Definition ten (i : nat) : nat := 10.
Section Loops.
Context {St V : Type} (c : cfg) (pre : St -> bool) (stp : St -> slot -> result (St * action * bool)) (ffuel : nat).
(* Filling a buffer, in the reader. When the model's fill does not return a buffer, whatever buffer is sent on. *)
Definition read_fill (junk : dbuf -> dbuf) (st : St) (b : dbuf) : St * list unit * dbuf * bool * option unit :=
  match fill c pre stp ffuel st b with
  | ROk (st1, b1, run) => (st1, [], b1, run, None)
  | _ => (st, [], junk b, false, Some tt)
  end.
Definition no_note {A B C : Type} (w : A) (x : B) : A + C := inl w.
(* one worker: src/decode_core.rs:962-972, src/sbx_container_content.rs:172-178 *)
Definition work_consume (consume : V -> dbuf -> result (dbuf * V)) (_ : nat) (w : V) (b : dbuf) : (V * dbuf) + unit :=
  match consume w b with ROk (b2, w1) => inl (w1, dbuf_reset c b2) | _ => inr tt end.
Lemma buf_loop_one consume junk : forall fuel q st w st' w', buf_loop c pre stp consume ffuel fuel q st w = ROk (st', w') ->
  one_by_one unit dbuf unit St V (read_fill junk) (work_consume consume) no_note fuel q st [w] = Some (Fine st' [w']).
Proof.
  induction fuel as [|fuel IH]; intros q st w st' w' E; [discriminate|]. cbn [buf_loop] in E. destruct q as [|b q]; [discriminate|]. cbn [one_by_one]. unfold read_fill at 1.
  destruct (fill c pre stp ffuel st b) as [[[st1 b1] run]| |]; [|discriminate|discriminate]. cbn [rbind] in E. cbn [noted_first noted through]. unfold work_consume at 1.
  destruct (consume w b1) as [[b2 w1]| |]; [|discriminate|discriminate]. cbn [rbind] in E. destruct run; [apply IH; exact E|congruence].
Qed.
End Loops.
(* Decoding to a file and hashing of contents: two threads. If the loop of the model returns a result then so does every schedule of the threads. *)
Theorem c33_two_threads {St V : Type} (c : cfg) (pre : St -> bool) (stp : St -> slot -> result (St * action * bool)) (consume : V -> dbuf -> result (dbuf * V)) junk ffuel fuel bufs st w st' w' :
  length bufs = 9 -> buf_loop c pre stp consume ffuel fuel bufs st w = ROk (st', w') ->
  exists t, always_ends_in (step _ _ 2 ten (thread_work unit dbuf unit St V (read_fill c pre stp ffuel junk) (work_consume c consume) no_note)) (command_init st [w] bufs) t /\
    ended_with t [TReader st' false None; TWorker w' None].
Proof.
  intros LB BL. destruct (c33_same_as_one_by_one unit dbuf unit St V (read_fill c pre stp ffuel junk) (work_consume c consume) no_note ten (fun _ => 0) st [w] bufs fuel (Fine st' [w'])) as (t & sts & A & B & C).
  - destruct bufs; discriminate.
  - discriminate.
  - unfold read_fill. intros r b r' ns b' run er. destruct (fill c pre stp ffuel r b) as [[[x y] z]| |]; intro X; injection X as <- <- <- <- <-; cbn; lia.
  - unfold read_fill. intros r b r' ns b' run er. destruct (fill c pre stp ffuel r b) as [[[x y] z]| |]; congruence.
  - rewrite LB. unfold ten. lia.
  - intros. rewrite LB. unfold ten. lia.
  - apply buf_loop_one. exact BL.
  - exists t. split; [exact A|]. rewrite C in B. exact B.
Qed.

(* Encoding: reader, encoder and writer *)
Definition enc_worker (c : cfg) (rs : codec) (i : nat) (w : estats + file) (b : dbuf) : ((estats + file) * dbuf) + unit :=
  match i, w with
  | 1, inl stats => match enc_encode c rs stats b with ROk (b1, s1) => inl (inl s1, b1) | _ => inr tt end
  | 2, inr f => match dbuf_write c f b with ROk (b1, f1) => inl (inr f1, dbuf_reset c b1) | _ => inr tt end
  | _, _ => inr tt
  end.
Lemma enc_loop_one c rs rl last ffuel junk : forall fuel q st stats f st' stats' f', enc_loop c rs rl last ffuel fuel q st stats f = ROk (st', stats', f') ->
  one_by_one unit dbuf unit estate (estats + file) (read_fill c (enc_pre rl) (enc_step c last) ffuel junk) (enc_worker c rs) no_note fuel q st [inl stats; inr f] = Some (Fine st' [inl stats'; inr f']).
Proof.
  induction fuel as [|fuel IH]; intros q st stats f st' stats' f' E; [discriminate|]. cbn [enc_loop] in E. destruct q as [|b q]; [discriminate|]. cbn [one_by_one]. unfold read_fill at 1.
  destruct (fill c (enc_pre rl) (enc_step c last) ffuel st b) as [[[st1 b1] run]| |]; [|discriminate|discriminate]. cbn [rbind] in E. cbn [noted_first noted through enc_worker].
  destruct (enc_encode c rs stats b1) as [[b2 s1]| |]; [|discriminate|discriminate]. cbn [rbind] in E.
  destruct (dbuf_write c f b2) as [[b3 f1]| |]; [|discriminate|discriminate]. cbn [rbind] in E. destruct run; [apply IH; exact E|congruence].
Qed.
Theorem c33_encode c rs rl last junk ffuel fuel bufs st stats f st' stats' f' :
  length bufs = 9 -> enc_loop c rs rl last ffuel fuel bufs st stats f = ROk (st', stats', f') ->
  exists t, always_ends_in (step _ _ 3 ten (thread_work unit dbuf unit estate (estats + file) (read_fill c (enc_pre rl) (enc_step c last) ffuel junk) (enc_worker c rs) no_note))
              (command_init st [inl stats; inr f] bufs) t /\
    ended_with t [TReader st' false None; TWorker (inl stats') None; TWorker (inr f') None].
Proof.
  intros LB BL. destruct (c33_same_as_one_by_one unit dbuf unit estate (estats + file) (read_fill c (enc_pre rl) (enc_step c last) ffuel junk) (enc_worker c rs) no_note ten (fun _ => 0) st [inl stats; inr f] bufs fuel (Fine st' [inl stats'; inr f'])) as (t & sts & A & B & C).
  - destruct bufs; discriminate.
  - discriminate.
  - unfold read_fill. intros r b r' ns b' run er. destruct (fill c (enc_pre rl) (enc_step c last) ffuel r b) as [[[x y] z]| |]; intro X; injection X as <- <- <- <- <-; cbn; lia.
  - unfold read_fill. intros r b r' ns b' run er. destruct (fill c (enc_pre rl) (enc_step c last) ffuel r b) as [[[x y] z]| |]; congruence.
  - rewrite LB. unfold ten. lia.
  - intros. rewrite LB. unfold ten. lia.
  - apply enc_loop_one. exact BL.
  - exists t. split; [exact A|]. rewrite C in B. exact B.
Qed.

(* Decoding to standard output: reader, hasher and writer (src/decode_core.rs:1205-1265) *)
Definition out_worker (c : cfg) (hashing : bool) (i : nat) (w : list N) (b : dbuf) : (list N * dbuf) + unit :=
  match i with
  | 1 => match (if hashing then dbuf_hash c b else ROk []) with ROk h => inl (w ++ h, b) | _ => inr tt end
  | _ => match dbuf_write_no_seek c b with ROk (b1, d) => inl (w ++ d, dbuf_reset c b1) | _ => inr tt end
  end.
Lemma out_loop_one {St} c pre stp ffuel hashing junk : forall fuel q (st : St) h d st' w', buf_loop c pre stp (consume_stdout c hashing) ffuel fuel q st (h, d) = ROk (st', w') ->
  one_by_one unit dbuf unit St (list N) (read_fill c pre stp ffuel junk) (out_worker c hashing) no_note fuel q st [h; d] = Some (Fine st' [fst w'; snd w']).
Proof.
  induction fuel as [|fuel IH]; intros q st h d st' w' E; [discriminate|]. cbn [buf_loop] in E. destruct q as [|b q]; [discriminate|]. cbn [one_by_one]. unfold read_fill at 1.
  destruct (fill c pre stp ffuel st b) as [[[st1 b1] run]| |]; [|discriminate|discriminate]. cbn [rbind] in E. cbn [noted_first noted through out_worker]. unfold consume_stdout at 1 in E.
  destruct (if hashing then dbuf_hash c b1 else ROk []) as [h1| |]; [|discriminate|discriminate]. cbn [rbind] in E.
  destruct (dbuf_write_no_seek c b1) as [[b2 d1]| |]; [|discriminate|discriminate]. cbn [rbind fst snd] in E. destruct run; [apply IH; exact E|].
  injection E as <- <-. reflexivity.
Qed.
Theorem c33_stdout {St} c pre stp hashing junk ffuel fuel bufs (st : St) h d st' h' d' :
  length bufs = 9 -> buf_loop c pre stp (consume_stdout c hashing) ffuel fuel bufs st (h, d) = ROk (st', (h', d')) ->
  exists t, always_ends_in (step _ _ 3 ten (thread_work unit dbuf unit St (list N) (read_fill c pre stp ffuel junk) (out_worker c hashing) no_note)) (command_init st [h; d] bufs) t /\
    ended_with t [TReader st' false None; TWorker h' None; TWorker d' None].
Proof.
  intros LB BL. destruct (c33_same_as_one_by_one unit dbuf unit St (list N) (read_fill c pre stp ffuel junk) (out_worker c hashing) no_note ten (fun _ => 0) st [h; d] bufs fuel (Fine st' [h'; d'])) as (t & sts & A & B & C).
  - destruct bufs; discriminate.
  - discriminate.
  - unfold read_fill. intros r b r' ns b' run er. destruct (fill c pre stp ffuel r b) as [[[x y] z]| |]; intro X; injection X as <- <- <- <- <-; cbn; lia.
  - unfold read_fill. intros r b r' ns b' run er. destruct (fill c pre stp ffuel r b) as [[[x y] z]| |]; congruence.
  - rewrite LB. unfold ten. lia.
  - intros. rewrite LB. unfold ten. lia.
  - apply (out_loop_one c pre stp ffuel hashing junk fuel bufs st h d st' (h', d') BL).
  - exists t. split; [exact A|]. rewrite C in B. exact B.
Qed.

(* Sorting: the reader also sends the first metadata block to the writer; that channel has room for eleven messages (src/sort_core.rs:436) *)
Definition eleven_ten (i : nat) : nat := match i with 0 => 11 | _ => 10 end.
Definition sort_read (c : cfg) (rl : N) (f : file) (ref : block) (seek_to : N) (rb : bool) (ffuel : nat) (junk : dbuf -> dbuf) (st : sstate) (b : dbuf)
  : sstate * list (list N) * dbuf * bool * option unit :=
  match fill c (sort_pre rl) (sort_step c f ref seek_to rb) ffuel st b with
  | ROk (st1, b1, run) => (st1, match so_meta st, so_meta st1 with None, Some m => [m] | _, _ => [] end, b1, run, None)
  | _ => (st, [], junk b, false, Some tt)
  end.
(* src/sort_core.rs:614-627 *)
Definition sort_note (c : cfg) (m : option multi_pass) (ref : block) (w : option file + ostats) (meta : list N) : (option file + ostats) + unit :=
  inl (match w with inl (Some out) => inl (Some (write_meta_blocks m ref (c_dpb c) meta out)) | x => x end).
Definition sort_worker (c : cfg) (read_offset : N) (i : nat) (w : option file + ostats) (b : dbuf) : ((option file + ostats) * dbuf) + unit :=
  match i, w with
  | 1, inl out =>
      match (match out with
             | Some x => do! (b', x') <- dbuf_write c x b; ROk (b', Some x')
             | None => do! ls <- rmap (lot_calc_write_pos c) (d_lots b); ROk (mkDbuf ls (d_used b) (d_start b), None)
             end) with
      | ROk (b', out') => inl (inl out', b')
      | _ => inr tt
      end
  | 2, inr t => match rfold (count_order (c_dpb c) read_offset) (used_slots b) t with ROk t' => inl (inr t', dbuf_reset c b) | _ => inr tt end
  | _, _ => inr tt
  end.
(* the metadata block sent stays the one remembered *)
Lemma fill_meta c rl f ref seek_to rb : forall ffuel st b st1 b1 run, fill c (sort_pre rl) (sort_step c f ref seek_to rb) ffuel st b = ROk (st1, b1, run) ->
  so_meta st = None \/ so_meta st1 = so_meta st.
Proof.
  induction ffuel as [|ffuel IH]; intros st b st1 b1 run E; cbn [fill] in E; (destruct (is_full b); [injection E as <- <- <-; auto|]); [discriminate|].
  destruct (sort_pre rl st); [injection E as <- <- <-; auto|]. destruct (get_slot c b) as [[b2 loc]|]; [|discriminate]. destruct (slot_at b2 loc) as [s|]; [|discriminate].
  destruct (sort_step c f ref seek_to rb st s) as [[[st2 a] stop]| |] eqn:ES; [|discriminate|discriminate]. cbn [rbind] in E.
  assert (SM : so_meta st = None \/ so_meta st2 = so_meta st).
  { revert ES. clear. unfold sort_step. destruct (_ <? _)%N; [intro X; injection X as <- <- <-; auto|]. destruct (sync_from_buffer _ _ _ _) as [bb| |]; [| |discriminate].
    - destruct (is_meta bb).
      + destruct (so_meta st) eqn:EM; [intro X; injection X as <- <- <-; auto|auto].
      + intro X; injection X as <- <- <-; auto.
    - intro X; injection X as <- <- <-; auto. }
  destruct a as [s'|s']; cbn [rbind] in E; [|destruct (cancel_slot c (put_slot b2 loc s')) as [b3| |]; [|discriminate|discriminate]; cbn [rbind] in E];
    (destruct stop; [injection E as <- <- <-; exact SM|]; destruct (IH _ _ _ _ _ E) as [X|X]; [destruct SM as [S0|S0]; [left; exact S0|left; congruence]|destruct SM as [S0|S0]; [left; exact S0|right; congruence]]).
Qed.
Lemma sort_loop_one c rl f ref seek_to rb ro m ffuel junk : forall fuel q st out t st' w',
  buf_loop_msg c (sort_pre rl) (sort_step c f ref seek_to rb) (sort_consume c m ref ro) ffuel fuel q st (out, t) = ROk (st', w') ->
  one_by_one unit dbuf (list N) sstate (option file + ostats) (sort_read c rl f ref seek_to rb ffuel junk) (sort_worker c ro) (sort_note c m ref) fuel q st [inl out; inr t] = Some (Fine st' [inl (fst w'); inr (snd w')]).
Proof.
  induction fuel as [|fuel IH]; intros q st out t st' w' E; [discriminate|]. cbn [buf_loop_msg] in E. destruct q as [|b q]; [discriminate|]. cbn [one_by_one]. unfold sort_read at 1.
  destruct (fill c (sort_pre rl) (sort_step c f ref seek_to rb) ffuel st b) as [[[st1 b1] run]| |]; [|discriminate|discriminate]. cbn [rbind] in E. unfold sort_consume at 1 in E. cbn [fst snd] in E.
  set (out1 := match so_meta st, so_meta st1, out with None, Some meta, Some out => Some (write_meta_blocks m ref (c_dpb c) meta out) | _, _, _ => out end) in E.
  assert (NT : noted_first unit (list N) (option file + ostats) (sort_note c m ref) [inl out; inr t] (match so_meta st, so_meta st1 with None, Some m => [m] | _, _ => [] end) = Some [inl out1; inr t]).
  { unfold out1, noted_first, noted, sort_note. destruct (so_meta st), (so_meta st1), out; reflexivity. }
  rewrite NT. cbn [through sort_worker].
  destruct (match out1 with Some x => _ | None => _ end) as [[b2 out2]| |]; [|discriminate|discriminate]. cbn [rbind] in E.
  destruct (rfold (count_order (c_dpb c) ro) (used_slots b2) t) as [t1| |]; [|discriminate|discriminate]. cbn [rbind] in E.
  destruct run; [apply IH; exact E|]. injection E as <- <-. reflexivity.
Qed.
Theorem c33_sort c rl f ref seek_to rb ro m junk ffuel fuel bufs st out t st' out' t' :
  length bufs = 9 -> buf_loop_msg c (sort_pre rl) (sort_step c f ref seek_to rb) (sort_consume c m ref ro) ffuel fuel bufs st (out, t) = ROk (st', (out', t')) ->
  exists e, always_ends_in (step _ _ 3 eleven_ten (thread_work unit dbuf (list N) sstate (option file + ostats) (sort_read c rl f ref seek_to rb ffuel junk) (sort_worker c ro) (sort_note c m ref)))
              (command_init st [inl out; inr t] bufs) e /\
    ended_with e [TReader st' false None; TWorker (inl out') None; TWorker (inr t') None].
Proof.
  intros LB BL. set (left := fun s : sstate => match so_meta s with None => 1 | Some _ => 0 end).
  destruct (c33_same_as_one_by_one unit dbuf (list N) sstate (option file + ostats) (sort_read c rl f ref seek_to rb ffuel junk) (sort_worker c ro) (sort_note c m ref) eleven_ten left st [inl out; inr t] bufs fuel (Fine st' [inl out'; inr t'])) as (e & sts & A & B & C).
  - destruct bufs; discriminate.
  - discriminate.
  - unfold sort_read, left. intros r b r' ns b' run er. destruct (fill c (sort_pre rl) (sort_step c f ref seek_to rb) ffuel r b) as [[[x y] z]| |] eqn:EF; intro X; injection X as <- <- <- <- <-; cbn; try lia.
    destruct (fill_meta _ _ _ _ _ _ _ _ _ _ _ _ EF) as [H|H].
    + rewrite H. destruct (so_meta x); cbn; lia.
    + rewrite H. destruct (so_meta r); cbn; lia.
  - unfold sort_read. intros r b r' ns b' run er. destruct (fill c (sort_pre rl) (sort_step c f ref seek_to rb) ffuel r b) as [[[x y] z]| |]; congruence.
  - rewrite LB. unfold eleven_ten, left. destruct (so_meta st); lia.
  - intros i Hi. rewrite LB. unfold eleven_ten. destruct i; lia.
  - apply (sort_loop_one c rl f ref seek_to rb ro m ffuel junk fuel bufs st out t st' (out', t') BL).
  - exists e. split; [exact A|]. rewrite C in B. exact B.
Qed.

(* Rescuing: reader, grouper and writer. A buffer is its slots and the counters sent along; the state of the writer is the directory and the shared
   counters. Grouping is part of writing in the model (appends); [order] is the order in which the map of a buffer is iterated. *)
Definition rbuf : Type := list rblock * rstats.
Definition rescue_read (fuel : nat) (size : N) (p : rparam) (f : file) (rl at_ : N) (ev : option (N * event)) (s : rstats) (b : rbuf) : rstats * list unit * rbuf * bool * option unit :=
  match fill_buffer fuel size p f rl at_ ev [] s with
  | Some (ROk (slots, s', Full)) => (s', [], (slots, s'), true, None)
  | Some (ROk (slots, s', Ended)) => (s', [], (slots, s'), false, None)
  | Some (ROk (slots, s', M_Rescue.Failed)) => (s', [], (slots, s'), false, Some tt)
  | _ => (s, [], b, false, Some tt)
  end.
Definition rescue_worker (order : list (list N * list (list N)) -> list (list N * list (list N))) (i : nat) (w : dir * rstats) (b : rbuf) : ((dir * rstats) * rbuf) + unit :=
  match i with
  | 1 => inl (w, b)
  | _ => inl ((write_buffer order (fst b) (fst w), snd b), ([], mkRstats 0 0 0))
  end.
Lemma rescue_one order fuel size p f rl at_ ev : forall n s l g w s0 w' s' q, q <> [] ->
  read_buffers n fuel size p f rl at_ ev s = Some (ROk (l, false)) -> write_buffers (fun _ => order) l s0 w = (w', s') ->
  exists r', one_by_one unit rbuf unit rstats (dir * rstats) (rescue_read fuel size p f rl at_ ev) (rescue_worker order) no_note n q s [g; (w, s0)] = Some (Fine r' [g; (w', s')]).
Proof.
  induction n as [|n IH]; intros s l g w s0 w' s' q NQ RB WB; [discriminate|]. cbn [read_buffers] in RB. destruct q as [|b q]; [congruence|]. cbn [one_by_one]. unfold rescue_read at 1.
  destruct (fill_buffer fuel size p f rl at_ ev [] s) as [[[[slots s1] x]| |]|]; try discriminate. destruct x.
  - destruct (read_buffers n fuel size p f rl at_ ev s1) as [[[l1 e1]| |]|] eqn:R1; try discriminate. injection RB as <- ->. cbn [write_buffers] in WB.
    cbn [noted_first noted through rescue_worker fst snd]. eapply IH; [destruct q; discriminate|exact R1|exact WB].
  - injection RB as <-. cbn [write_buffers] in WB. injection WB as <- <-. cbn [noted_first noted through rescue_worker fst snd]. eexists. reflexivity.
  - discriminate.
Qed.
Theorem c33_rescue order fuel size p f rl at_ ev n s l g w w' s' bufs :
  length bufs = 9 -> read_buffers n fuel size p f rl at_ ev s = Some (ROk (l, false)) -> write_buffers (fun _ => order) l s w = (w', s') ->
  exists t r', always_ends_in (step _ _ 3 ten (thread_work unit rbuf unit rstats (dir * rstats) (rescue_read fuel size p f rl at_ ev) (rescue_worker order) no_note)) (command_init s [g; (w, s)] bufs) t /\
    ended_with t [TReader r' false None; TWorker g None; TWorker (w', s') None].
Proof.
  intros LB RB WB. destruct (rescue_one order fuel size p f rl at_ ev n s l g w s w' s' bufs ltac:(destruct bufs; discriminate) RB WB) as [r' O].
  destruct (c33_same_as_one_by_one _ _ _ _ _ (rescue_read fuel size p f rl at_ ev) (rescue_worker order) no_note ten (fun _ => 0) s [g; (w, s)] bufs n (Fine r' [g; (w', s')])) as (t & sts & A & B & C).
  - destruct bufs; discriminate.
  - discriminate.
  - unfold rescue_read. intros r b r1 ns b' run er. destruct (fill_buffer fuel size p f rl at_ ev [] r) as [[[[x y] []]| |]|]; intro X; injection X as <- <- <- <- <-; cbn; lia.
  - unfold rescue_read. intros r b r1 ns b' run er. destruct (fill_buffer fuel size p f rl at_ ev [] r) as [[[[x y] []]| |]|]; congruence.
  - rewrite LB. unfold ten. lia.
  - intros. rewrite LB. unfold ten. lia.
  - exact O.
  - exists t, r'. split; [exact A|]. rewrite C in B. exact B.
Qed.

(* ---- panics ---- *)
(* Without panics in the work the extended steps are the steps of before. *)
Theorem c33_no_panic_same M St n cap f p p' : (forall i st m, p i st m = false) ->
  (p_crashed p' = [] -> forall q', pstep M St n cap f p p' q' <-> exists s', q' = mkPsys s' [] /\ step M St n cap f (p_sys p') s').
Proof.
  intros NP C q'. assert (MV : forall i, pmove M St n cap f p i p' = match move M St n cap f i (p_sys p') with Some s' => Some (mkPsys s' []) | None => None end).
  { intro i. unfold pmove, crashed. rewrite C. cbn [existsb]. unfold move. destruct (nth_error (s_threads (p_sys p')) i) as [[st ph]|]; [|reflexivity]. destruct ph as [|[|x xs] k| |]; try reflexivity.
    destruct (nth i (s_channels (p_sys p')) []) as [|[m|] q]; try reflexivity. rewrite NP. reflexivity. }
  split.
  - intro S. inversion S as [i a b PM|a s' PC PR]; subst.
    + rewrite MV in PM. destruct (move M St n cap f i (p_sys p')) as [s'|] eqn:E; [|discriminate]. injection PM as <-. exists s'. split; [reflexivity|]. eapply by_thread, E.
    + exists s'. split; [reflexivity|]. apply by_barrier. exact PR.
  - intros (s' & -> & S). inversion S as [i a b PM|a b PR]; subst.
    + apply (by_pthread _ _ _ _ _ _ i). rewrite MV, PM. reflexivity.
    + apply by_pbarrier; assumption.
Qed.
(* A panic is never taken for success: once a thread has panicked, no thread passes the barrier. *)
Definition all_or_none_done {M St} (p : psys M St) : Prop :=
  (p_crashed p = [] /\ forall t, In t (s_threads (p_sys p)) -> t_phase t = Done) \/ (forall t, In t (s_threads (p_sys p)) -> t_phase t <> Done).
Lemma in_upd {A} i (x y : A) l : In y (upd i x l) -> y = x \/ In y l.
Proof. revert i. induction l as [|a l IH]; intros [|i] H; cbn in *; auto; [destruct H as [H|H]; auto|]. destruct H as [H|H]; [auto|]. destruct (IH i H); auto. Qed.
Lemma pstep_done M St n cap f panics p p' : all_or_none_done p -> pstep M St n cap f panics p p' -> all_or_none_done p'.
Proof.
  intros H S. inversion S as [i a b PM|a s' PC PR]; subst.
  - destruct H as [[C D]|ND].
    + exfalso. unfold pmove in PM. destruct (crashed M St i p); [discriminate|]. destruct (nth_error (s_threads (p_sys p)) i) as [[st ph]|] eqn:EN; [|discriminate].
      specialize (D _ (nth_error_In _ _ EN)). cbn in D. subst ph. unfold move in PM. rewrite EN in PM. discriminate.
    + right. unfold pmove in PM. destruct (crashed M St i p); [discriminate|]. destruct (nth_error (s_threads (p_sys p)) i) as [[st ph]|] eqn:EN; [|discriminate].
      assert (GO : forall s', move M St n cap f i (p_sys p) = Some s' -> forall t, In t (s_threads s') -> t_phase t <> Done).
      { intros s' MV t IT. apply move_effect in MV as (a1 & a2 & ch & N1 & EF & ->). cbn [s_threads] in IT. apply in_upd in IT as [->|IT]; [|auto]. destruct EF; cbn; try discriminate. destruct k; discriminate. }
      destruct ph as [|[|x xs] k| |].
      * destruct (nth i (s_channels (p_sys p)) []) as [|[m|] q].
        -- destruct (crashed M St (prev n i) p); [|discriminate]. injection PM as <-. exact ND.
        -- destruct (panics i st m); [injection PM as <-; exact ND|]. destruct (move M St n cap f i (p_sys p)) as [s'|] eqn:EM; [|discriminate]. injection PM as <-. apply GO. reflexivity.
        -- destruct (move M St n cap f i (p_sys p)) as [s'|] eqn:EM; [|discriminate]. injection PM as <-. apply GO. reflexivity.
      * destruct (move M St n cap f i (p_sys p)) as [s'|] eqn:EM; [|discriminate]. injection PM as <-. apply GO. reflexivity.
      * destruct (crashed M St (next n i) p); [injection PM as <-; exact ND|]. destruct (move M St n cap f i (p_sys p)) as [s'|] eqn:EM; [|discriminate]. injection PM as <-. apply GO. reflexivity.
      * destruct (move M St n cap f i (p_sys p)) as [s'|] eqn:EM; [|discriminate]. injection PM as <-. apply GO. reflexivity.
      * destruct (move M St n cap f i (p_sys p)) as [s'|] eqn:EM; [|discriminate]. injection PM as <-. apply GO. reflexivity.
  - left. split; [reflexivity|]. cbn [p_sys]. unfold release in PR. destruct (forallb (at_barrier M St) (s_threads (p_sys p))); [|discriminate]. injection PR as <-. cbn [s_threads]. intros t IT.
    apply in_map_iff in IT as (x & <- & _). reflexivity.
Qed.
Theorem c33_panic_not_success M St n cap f panics sts bufs k p :
  run_of (pstep M St n cap f panics) k (mkPsys (init sts bufs) []) p -> p_crashed p <> [] -> forall t, In t (s_threads (p_sys p)) -> t_phase t <> Done.
Proof.
  intros R. assert (H0 : all_or_none_done (mkPsys (init sts bufs) [])).
  { right. cbn. intros t IT. apply in_map_iff in IT as (x & <- & _). discriminate. }
  assert (H : all_or_none_done p).
  { clear -R H0. remember (mkPsys (init sts bufs) []) as p0 eqn:E0. clear E0. induction R as [|k p p1 p2 S R IH]; [exact H0|]. apply IH. eapply pstep_done; eassumption. }
  intros NC. destruct H as [[C _]|ND]; [contradiction|exact ND].
Qed.
(* "All threads terminate" is false when a worker panics: if the reader stops after a buffer on which worker 1 panics, the reader may be waiting at the
   barrier before the panic happens, and then waits for ever (and with it the main thread, which joins the reader first). *)
Theorem c33_panic_may_hang_refuted (E F T R W : Type) read worker on_note panics (r r' : R) (w1 w2 : W) (b1 b2 b' : F) rest (er : option E) (cap : nat -> nat) :
  read r b1 = (r', @nil T, b', false, er) -> panics 1 (TWorker w1 None) (Buf b') = true -> (forall st m, panics 0 st m = false) -> 2 <= cap 0 ->
  exists k p, run_of (pstep (message F T) (tstate E R W) 3 cap (thread_work E F T R W read worker on_note) panics) k (mkPsys (command_init r [w1; w2] (b1 :: b2 :: rest)) []) p /\
    (forall p', ~ pstep (message F T) (tstate E R W) 3 cap (thread_work E F T R W read worker on_note) panics p p') /\
    exists t, nth_error (s_threads (p_sys p)) 0 = Some t /\ t_phase t = AtBarrier /\ crashed _ _ 0 p = false.
Proof.
  intros ER PN P0 C0.
  set (q := map Some (map (@Buf F T) rest)).
  set (pend := mkPsys (mkSys [mkThread (TReader r' false er) AtBarrier; mkThread (TWorker w1 (@None E)) Ready; mkThread (TWorker w2 None) Ready] [q; [Some (Buf b'); None]; []]) [2; 1]).
  assert (L1 : 0 <? cap 0 = true) by (apply Nat.ltb_lt; lia). assert (L2 : 1 <? cap 0 = true) by (apply Nat.ltb_lt; lia).
  exists 8, pend. split; [|split].
  - unfold command_init, init. cbn [map tl].
    econstructor; [apply (by_pthread _ _ _ _ _ _ 0); unfold pmove; cbn [crashed existsb p_crashed p_sys s_threads nth_error s_channels nth]; rewrite P0; unfold move; cbn [s_threads nth_error s_channels nth work thread_work]; rewrite ER; cbn [map app upd]; reflexivity|].
    econstructor; [apply (by_pthread _ _ _ _ _ _ 0); unfold pmove, move; cbn [crashed existsb p_crashed p_sys s_threads nth_error s_channels nth next Nat.eqb length]; rewrite L1; cbn [app upd]; reflexivity|].
    econstructor; [apply (by_pthread _ _ _ _ _ _ 0); unfold pmove, move; cbn [crashed existsb p_crashed p_sys s_threads nth_error s_channels nth upd]; reflexivity|].
    econstructor; [apply (by_pthread _ _ _ _ _ _ 0); unfold pmove; cbn [crashed existsb p_crashed p_sys s_threads nth_error s_channels nth]; rewrite P0; unfold move; cbn [s_threads nth_error s_channels nth work thread_work map app upd]; reflexivity|].
    econstructor; [apply (by_pthread _ _ _ _ _ _ 0); unfold pmove, move; cbn [crashed existsb p_crashed p_sys s_threads nth_error s_channels nth next Nat.eqb length]; rewrite L2; cbn [app upd]; reflexivity|].
    econstructor; [apply (by_pthread _ _ _ _ _ _ 0); unfold pmove, move; cbn [crashed existsb p_crashed p_sys s_threads nth_error s_channels nth upd]; reflexivity|].
    econstructor; [apply (by_pthread _ _ _ _ _ _ 1); unfold pmove; cbn [crashed existsb p_crashed p_sys s_threads nth_error s_channels nth Nat.eqb orb]; rewrite PN; reflexivity|].
    econstructor; [apply (by_pthread _ _ _ _ _ _ 2); reflexivity|].
    unfold crash. cbn [p_sys p_crashed]. apply run_none.
  - intros p' S. inversion S as [i a b PM|a s' PC PR]; subst; [|discriminate]. unfold pmove in PM. destruct i as [|[|[|i]]]; try discriminate. cbn in PM. destruct i; discriminate.
  - eexists. split; [reflexivity|]. split; reflexivity.
Qed.
(* This happens in sorting: when reading a copy of the metadata block fails while checking them, the metadata block stays in the buffer
   (src/sort_core.rs:519-533) and the writer panics on it (assertion in calc_data_block_write_index). *)
Theorem c33_sort_torn_buffer_panics c x b l ls s ss :
  c_out c = OutBlock -> d_lots b = l :: ls -> takeN (l_used l) (l_slots l) = s :: ss -> b_seq_num (s_block s) = 0%N -> dbuf_write c x b = RPanic.
Proof.
  intros CO DL TK SQ. unfold dbuf_write. rewrite DL. cbn [rmap]. unfold lot_calc_write_pos at 1. rewrite TK. cbn [rmap]. unfold slot_write_pos at 1. rewrite CO, SQ. reflexivity.
Qed.

(* ---- examples ---- *)
(* A command counting to 3: the reader hands out numbers, worker 1 doubles them, worker 2 keeps them; two buffers *)
Definition ex_read (r : nat) (b : nat) : nat * list unit * nat * bool * option unit := (S r, [], r, r <? 3, None).
Definition ex_worker (i : nat) (w : list nat) (b : nat) : (list nat * nat) + unit := match i with 1 => inl (w, 2 * b) | _ => inl (w ++ [b], 0) end.
Example c33_example :
  exists t, always_ends_in (step _ _ 3 (fun _ => 3) (thread_work unit nat unit nat (list nat) ex_read ex_worker no_note)) (command_init 0 [[]; []] [0; 0]) t /\
    ended_with t [TReader 4 false None; TWorker [] None; TWorker [0; 2; 4; 6] None].
Proof.
  destruct (c33_same_as_one_by_one unit nat unit nat (list nat) ex_read ex_worker no_note (fun _ => 3) (fun _ => 0) 0 [[]; []] [0; 0] 9 (Fine 4 [[]; [0; 2; 4; 6]])) as (t & sts & A & B & C); try discriminate.
  - intros r b r' ns b' run er X. unfold ex_read in X. injection X as <- <- <- <- <-. cbn. lia.
  - cbn. lia.
  - cbn. lia.
  - vm_compute. reflexivity.
  - exists t. split; [exact A|]. rewrite C in B. exact B.
Qed.
(* With an error in worker 2 at the second buffer *)
Definition ex_worker_err (i : nat) (w : list nat) (b : nat) : (list nat * nat) + unit := match i with 1 => inl (w, 2 * b) | _ => if b =? 2 then inr tt else inl (w ++ [b], 0) end.
Example c33_example_error :
  exists t sts, always_ends_in (step _ _ 3 (fun _ => 3) (thread_work unit nat unit nat (list nat) ex_read ex_worker_err no_note)) (command_init 0 [[]; []] [0; 0]) t /\
    ended_with t sts /\ exists st, In st sts /\ error_of st <> None.
Proof.
  apply (c33_same_as_one_by_one unit nat unit nat (list nat) ex_read ex_worker_err no_note (fun _ => 3) (fun _ => 0) 0 [[]; []] [0; 0] 9 Failed); try discriminate.
  - intros r b r' ns b' run er X. unfold ex_read in X. injection X as <- <- <- <- <-. cbn. lia.
  - cbn. lia.
  - cbn. lia.
  - vm_compute. reflexivity.
Qed.
(* Room is needed: two threads and two buffers, with room for one message only in the channel to a worker that fails, get stuck with the reader not ended *)
Definition ex_step := step (message nat unit) (tstate unit nat (list nat)) 2 (fun i => match i with 0 => 1 | _ => 2 end) (thread_work unit nat unit nat (list nat) ex_read (fun _ _ _ => inr tt) no_note).
Fixpoint by_moves {M St} (mv : nat -> sys M St -> option (sys M St)) (l : list nat) (s : sys M St) : option (sys M St) :=
  match l with [] => Some s | i :: l' => match mv i s with Some s' => by_moves mv l' s' | None => None end end.
Lemma by_moves_run {M St} n cap f l : forall s t, by_moves (move M St n cap f) l s = Some t -> run_of (step M St n cap f) (length l) s t.
Proof.
  induction l as [|i l IH]; intros s t E; cbn in *; [injection E as ->; constructor|]. destruct (move M St n cap f i s) as [s'|] eqn:EM; [|discriminate]. econstructor; [eapply by_thread, EM|]. apply IH. exact E.
Qed.
Example c33_room_needed : exists k t, run_of ex_step k (command_init 0 [[]] [0; 0]) t /\ (forall t', ~ ex_step t t') /\ ~ exists sts, ended_with t sts.
Proof.
  exists 10. eexists. split; [apply (by_moves_run _ _ _ [0; 0; 0; 1; 1; 1; 0; 0; 0; 0]); vm_compute; reflexivity|]. split.
  - intros t' S. inversion S as [i s s' MV|s s' RL]; subst; [|vm_compute in RL; discriminate]. destruct i as [|[|i]]; [vm_compute in MV; discriminate|vm_compute in MV; discriminate|]. unfold move in MV. cbn in MV. destruct i; discriminate.
  - intros [sts ES]. unfold ended_with in ES. cbn in ES. destruct sts as [|st sts]; discriminate.
Qed.
(* Nine empty buffers are there at the start of each command *)
Example c33_nine_buffers p cpus v uid o sg : length (dbuf_new_multi (enc_cfg p cpus)) = 9 /\ length (dbuf_new_multi (dec_cfg v uid o sg cpus)) = 9 /\
  length (dbuf_new_multi (out_cfg v uid o cpus)) = 9 /\ length (dbuf_new_multi (sort_cfg v uid o sg cpus)) = 9.
Proof. unfold dbuf_new_multi. rewrite !map_length. repeat split; reflexivity. Qed.

Print Assumptions c33_threads_end.
Print Assumptions c33_same_as_one_by_one.
Print Assumptions c33_two_threads.
Print Assumptions c33_encode.
Print Assumptions c33_stdout.
Print Assumptions c33_sort.
Print Assumptions c33_rescue.
Print Assumptions c33_no_panic_same.
Print Assumptions c33_panic_not_success.
Print Assumptions c33_panic_may_hang_refuted.
Print Assumptions c33_sort_torn_buffer_panics.
