(* Model of src/json_printer.rs, src/json_utils.rs, src/json_macros.rs and of the string helpers of src/misc_utils.rs they use.
   A Rust string is the list of its UTF-8 bytes, as in M_Metadata. Everything printed goes to one stream: the output channel
   (standard output or standard error) and the formatter given to the write_* functions, which is always printed to the same channel,
   are not distinguished, so print_* and write_* functions are modelled once. *)
From Coq Require Import String Ascii.
From Verif Require Import M_Base M_Buffer M_Rescue.

Definition str (s : string) : list N := map N_of_ascii (list_ascii_of_string s).
Arguments str _%string.

(* A character of a UTF-8 string starts at every byte that is not a continuation byte *)
Definition is_cont (b : N) : bool := (128 <=? b) && (b <=? 191).
(* str::chars, by the first byte of every character: enough to compare with an ASCII character *)
Definition chars (s : list N) : list N := filter (fun b => negb (is_cont b)) s.
(* str::is_char_boundary and indexing a string by a range of bytes, which panics off boundaries *)
Definition is_char_boundary (s : list N) (i : N) : bool :=
  if i =? lenN s then true else if i <? lenN s then negb (is_cont (nthN s i)) else false.
Definition str_slice (s : list N) (a b : N) : result (list N) :=
  if (a <=? b) && is_char_boundary s a && is_char_boundary s b then ROk (sliceN a (b - a) s) else RPanic.

(* src/misc_utils.rs:223-240, the loop: i is the index of the next character *)
Fixpoint strip_scan (set : list N) (cs : list N) (i : N) (start : option N) (end_inc : N) : option N * N :=
  match cs with
  | [] => (start, end_inc)
  | c :: cs' =>
      if existsb (N.eqb c) set then strip_scan set cs' (i + 1) start end_inc
      else strip_scan set cs' (i + 1) (match start with None => Some i | Some _ => start end) i
  end.
(* src/misc_utils.rs:223-240: indices of characters are used as indices of bytes *)
Definition strip_front_end_chars (s set : list N) : result (list N) :=
  let '(start, end_inc) := strip_scan set (chars s) 0 None 0 in
  let from := match start with Some i => i | None => 0 end in
  if end_inc <? lenN s then str_slice s from (end_inc + 1) else str_slice s from (lenN s).

(* src/json_utils.rs:3-16 *)
Fixpoint find_char (c : N) (cs : list N) (i : N) : option N :=
  match cs with [] => None | x :: cs' => if x =? c then Some i else find_char c cs' (i + 1) end.
Definition split_key_val_pair (s : list N) : result (list N * list N) :=
  let spot := match find_char 58 (chars s) 0 with Some i => i | None => 0 end in
  do! l <- str_slice s 0 spot;
  do! l <- strip_front_end_chars l (str " ");
  do! r <- str_slice s (spot + 1) (lenN s);
  do! r <- strip_front_end_chars r (str " ");
  ROk (l, r).

(* src/misc_utils.rs:242-251 *)
Definition escape_quotes (s : list N) : list N := flat_map (fun c => if c =? 34 then [92; c] else [c]) s.

(* str::split(' ') *)
Fixpoint split_spaces (s : list N) : list (list N) :=
  match s with
  | [] => [[]]
  | c :: t => if c =? 32 then [] :: split_spaces t
              else match split_spaces t with w :: ws => (c :: w) :: ws | [] => [[c]] end
  end.
(* to_lowercase, to_uppercase: only letters A-Z and a-z are changed. Keys are ASCII literals of the source. *)
Definition lower (c : N) : N := if (65 <=? c) && (c <=? 90) then c + 32 else c.
Definition upper (c : N) : N := if (97 <=? c) && (c <=? 122) then c - 32 else c.
(* src/misc_utils.rs:202-221 *)
Definition to_camelcase (s : list N) : result (list N) :=
  match split_spaces s with
  | [] => ROk []
  | w :: ws =>
      do! ts <- rmap (fun w => do! w <- strip_front_end_chars w (str " ()"); ROk match w with [] => [] | c :: t => upper c :: t end) ws;
      ROk (map lower w ++ concat ts)
  end.

(* str::parse::<u64>().is_ok() *)
Definition parses_as_u64 (s : list N) : bool :=
  let d := match s with 43 :: t => t | _ => s end in
  match d with [] => false | _ => forallb is_digit d && match parse_u64 d with Some _ => true | None => false end end.
(* src/json_macros.rs:1-15 *)
Definition skip_quotes_for_term (v : list N) : bool := eqbl v (str "null") || eqbl v (str "true") || eqbl v (str "false").
Definition determine_if_skip_quotes (force_quotes : bool) (v : list N) : bool :=
  negb force_quotes && (skip_quotes_for_term v || parses_as_u64 v).
(* src/json_macros.rs:17-58 *)
Definition json_field (key val : list N) (force_quotes no_comma : bool) : result (list N) :=
  do! k <- to_camelcase key;
  ROk ((if no_comma then [] else str ",") ++ [34] ++ k ++ [34] ++ str ": " ++
       (if determine_if_skip_quotes force_quotes val then escape_quotes val else [34] ++ escape_quotes val ++ [34]) ++ [10]).

(* src/json_printer.rs:8-27 *)
Inductive bracket := Curly | Square.
Record context := mkContext { first_item : bool; bracket_type : bracket }.
(* src/json_printer.rs:29-34; the contexts, innermost first, of a printer with json enabled *)
Definition printer := list context.
(* src/json_printer.rs:54-66 *)
Definition open_str (b : bracket) : list N := match b with Curly => str "{" | Square => str "[" end.
Definition close_str (b : bracket) : list N := match b with Curly => str "}" | Square => str "]" end.

(* The calls a program makes to its printer. [Field]: print_maybe_json!, write_maybe_json!, print_field_if_json! (the three are the
   same with json enabled), [Error]: the error field of exit_with_msg! (src/cli_macros.rs:12-32), which does not mark the context as used *)
Inductive call := Open (name : option (list N)) (b : bracket) | Close | Field (force_quotes : bool) (msg : list N) | Error (msg : list N).

(* src/json_printer.rs:46-53,94-99 *)
Definition comma (st : printer) : list N * printer :=
  match st with
  | [] => ([], [])
  | c :: st' => (if first_item c then [] else str ",", mkContext false (bracket_type c) :: st')
  end.
(* src/json_printer.rs:101-210, with json enabled *)
Definition do_call (c : call) (st : printer) : result (list N * printer) :=
  match c with
  | Open name b =>
      let '(t, st') := comma st in
      do! n <- match name with None => ROk [] | Some n => do! k <- to_camelcase n; ROk ([34] ++ k ++ [34] ++ str ": ") end;
      ROk (t ++ n ++ open_str b ++ [10], mkContext true b :: st')
  | Close => match st with [] => RPanic | c :: st' => ROk (close_str (bracket_type c) ++ [10], st') end
  | Field force msg =>
      match st with
      | [] => RPanic
      | c :: st' =>
          do! (l, r) <- split_key_val_pair msg;
          do! t <- json_field l r force (first_item c);
          ROk (t, mkContext false (bracket_type c) :: st')
      end
  | Error msg =>
      match st with
      | [] => RPanic
      | c :: _ => do! t <- json_field (str "error") msg false (first_item c); ROk (t, st)
      end
  end.
Fixpoint do_calls (cs : list call) (st : printer) : result (list N * printer) :=
  match cs with
  | [] => ROk ([], st)
  | c :: cs' =>
      do! (t, st) <- do_call c st;
      do! (u, st) <- do_calls cs' st;
      ROk (t ++ u, st)
  end.
