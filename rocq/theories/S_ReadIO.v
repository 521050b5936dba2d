(* Vocabulary for reading a file that is handed out in pieces. *)
From Verif Require Import M_Base M_FileIO M_ReadIO.

(* reading, and what comes of it: the data, and whether the end of the file is said to be reached *)
Inductive rop := RRead (n : N) | RSeek (p : N) | RPos | RSize.
Inductive rres := Bytes (d : list N) (eof : bool) | Number (n : N) | Moved | Failed.
Definition q_step (r : qreader) (op : rop) : qreader * rres :=
  match op with
  | RRead n => match q_read r n with (r1, Some (d, e)) => (r1, Bytes d e) | (r1, None) => (r1, Failed) end
  | RSeek p => (q_seek r p, Moved)
  | RPos => let (r1, p) := q_cur_pos r in (r1, Number p)
  | RSize => let (r1, n) := q_size r in (r1, Number n)
  end.
Fixpoint q_run (r : qreader) (l : list rop) : qreader * list rres :=
  match l with
  | [] => (r, [])
  | op :: l' => let (r1, x) := q_step r op in let (r2, xs) := q_run r1 l' in (r2, x :: xs)
  end.

(* Results that are true of the file f, read from position p on: data is what stands there, the next read goes on behind it; something is read unless nothing is there;
   the end is reported exactly if there is less data than asked for. After an error the position is somewhere behind. *)
Inductive true_results (f : file) : N -> list rop -> list rres -> Prop :=
| tr_nil p : true_results f p [] []
| tr_read p n d l xs : lenN d <= n -> d = sliceN p (lenN d) f -> (d = [] -> n = 0 \/ lenN f <= p) ->
    true_results f (p + lenN d) l xs -> true_results f p (RRead n :: l) (Bytes d (lenN d <? n) :: xs)
| tr_failed p q n l xs : p <= q -> true_results f q l xs -> true_results f p (RRead n :: l) (Failed :: xs)
| tr_seek p q l xs : true_results f q l xs -> true_results f p (RSeek q :: l) (Moved :: xs)
| tr_pos p l xs : true_results f p l xs -> true_results f p (RPos :: l) (Number p :: xs)
| tr_size p l xs : true_results f p l xs -> true_results f p (RSize :: l) (Number (lenN f) :: xs).

(* The results of reading with nothing missing: every read gives all there is, the end is reported exactly if there is less than asked for. *)
Fixpoint complete_results (f : file) (p : N) (l : list rop) : list rres :=
  match l with
  | [] => []
  | RRead n :: l' => let d := sliceN p n f in Bytes d (lenN d <? n) :: complete_results f (p + lenN d) l'
  | RSeek q :: l' => Moved :: complete_results f q l'
  | RPos :: l' => Number p :: complete_results f p l'
  | RSize :: l' => Number (lenN f) :: complete_results f p l'
  end.
(* the system hands out at least a quarter of what these reads ask for *)
Definition large_pieces (answers : list (option N)) (l : list rop) : Prop :=
  forall a, In a answers -> exists k, a = Some k /\ forall n, In (RRead n) l -> n <= 4 * k.
(* how many of n bytes, if they are there, the system hands out in at most t calls; None if one of them fails *)
Fixpoint handed (t : nat) (n : N) (answers : list (option N)) : option N :=
  match t with
  | O => Some 0
  | S t' =>
      if n =? 0 then Some 0
      else match answers with
           | [] => Some n
           | None :: _ => None
           | Some k :: a => let m := N.min n (N.max 1 k) in option_map (N.add m) (handed t' (n - m) a)
           end
  end.
