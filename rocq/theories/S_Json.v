(* JSON texts (RFC 8259, in UTF-8) and what they stand for; what a program prints by properly nested calls stands for. *)
From Coq Require Import String.
From Verif Require Import M_Base M_Rescue M_Json.

Inductive json := JNull | JBool (b : bool) | JNum (text : list N) | JStr (s : list N) | JArr (l : list json) | JObj (l : list (list N * json)).

Definition ws (t : list N) : Prop := Forall (fun c => In c [32; 9; 10; 13]) t.
(* numbers: optional minus, digits without leading zero, optional fraction and exponent *)
Definition number_text (t : list N) : Prop :=
  exists minus int frac exp, t = minus ++ int ++ frac ++ exp /\
    (minus = [] \/ minus = str "-") /\
    (int = str "0" \/ exists c r, int = c :: r /\ 49 <= c <= 57 /\ forallb is_digit r = true) /\
    (frac = [] \/ exists d, frac = str "." ++ d /\ d <> [] /\ forallb is_digit d = true) /\
    (exp = [] \/ exists e s d, exp = e ++ s ++ d /\ (e = str "e" \/ e = str "E") /\ (s = [] \/ s = str "+" \/ s = str "-") /\ d <> [] /\ forallb is_digit d = true).
(* the text between the quotes of a string, and the string *)
Definition escapes : list (N * N) := [(34,34); (92,92); (47,47); (98,8); (102,12); (110,10); (114,13); (116,9)].
Definition hex_value (c : N) : option N :=
  if (48 <=? c) && (c <=? 57) then Some (c - 48) else if (65 <=? c) && (c <=? 70) then Some (c - 55)
  else if (97 <=? c) && (c <=? 102) then Some (c - 87) else None.
Definition hex4 (a b c d : N) : option N :=
  match hex_value a, hex_value b, hex_value c, hex_value d with
  | Some a, Some b, Some c, Some d => Some (4096 * a + 256 * b + 16 * c + d)
  | _, _, _, _ => None
  end.
Definition utf8 (u : N) : list N :=
  if u <? 128 then [u] else if u <? 2048 then [192 + u / 64; 128 + u mod 64]
  else if u <? 65536 then [224 + u / 4096; 128 + u / 64 mod 64; 128 + u mod 64]
  else [240 + u / 262144; 128 + u / 4096 mod 64; 128 + u / 64 mod 64; 128 + u mod 64].
Inductive string_text : list N -> list N -> Prop :=
| st_end : string_text [] []
| st_plain c t s : 32 <= c -> c <> 34 -> c <> 92 -> string_text t s -> string_text (c :: t) (c :: s)
| st_escape e c t s : In (e, c) escapes -> string_text t s -> string_text (92 :: e :: t) (c :: s)
| st_unicode a b c d u t s : hex4 a b c d = Some u -> u < 55296 \/ 57343 < u -> string_text t s ->
    string_text (92 :: 117 :: a :: b :: c :: d :: t) (utf8 u ++ s)
| st_pair a b c d u a' b' c' d' u' t s : hex4 a b c d = Some u -> 55296 <= u < 56320 -> hex4 a' b' c' d' = Some u' -> 56320 <= u' < 57344 ->
    string_text t s ->
    string_text (92 :: 117 :: a :: b :: c :: d :: 92 :: 117 :: a' :: b' :: c' :: d' :: t) (utf8 (65536 + 1024 * (u - 55296) + (u' - 56320)) ++ s).
Inductive value_text : list N -> json -> Prop :=
| vt_null : value_text (str "null") JNull
| vt_true : value_text (str "true") (JBool true)
| vt_false : value_text (str "false") (JBool false)
| vt_num t : number_text t -> value_text t (JNum t)
| vt_str t s : string_text t s -> value_text ([34] ++ t ++ [34]) (JStr s)
| vt_arr0 w : ws w -> value_text (str "[" ++ w ++ str "]") (JArr [])
| vt_arr t l : elements_text t l -> value_text (str "[" ++ t ++ str "]") (JArr l)
| vt_obj0 w : ws w -> value_text (str "{" ++ w ++ str "}") (JObj [])
| vt_obj t l : members_text t l -> value_text (str "{" ++ t ++ str "}") (JObj l)
with elements_text : list N -> list json -> Prop :=
| et_one w1 t v w2 : ws w1 -> value_text t v -> ws w2 -> elements_text (w1 ++ t ++ w2) [v]
| et_more w1 t v w2 r l : ws w1 -> value_text t v -> ws w2 -> elements_text r l -> elements_text (w1 ++ t ++ w2 ++ str "," ++ r) (v :: l)
with members_text : list N -> list (list N * json) -> Prop :=
| mt_one w1 k s w2 w3 t v w4 : ws w1 -> string_text k s -> ws w2 -> ws w3 -> value_text t v -> ws w4 ->
    members_text (w1 ++ [34] ++ k ++ [34] ++ w2 ++ str ":" ++ w3 ++ t ++ w4) [(s, v)]
| mt_more w1 k s w2 w3 t v w4 r l : ws w1 -> string_text k s -> ws w2 -> ws w3 -> value_text t v -> ws w4 -> members_text r l ->
    members_text (w1 ++ [34] ++ k ++ [34] ++ w2 ++ str ":" ++ w3 ++ t ++ w4 ++ str "," ++ r) ((s, v) :: l).
Definition json_text (t : list N) (v : json) : Prop := exists w1 u w2, t = w1 ++ u ++ w2 /\ ws w1 /\ ws w2 /\ value_text u v.

(* ---- what is printed ---- *)
(* a key is one or more words separated by spaces; words may have round brackets at their ends *)
Definition paren (c : N) : bool := (c =? 40) || (c =? 41).
Fixpoint drop_while (p : N -> bool) (l : list N) : list N := match l with c :: t => if p c then drop_while p t else l | [] => [] end.
Definition unparen (w : list N) : list N := rev (drop_while paren (rev (drop_while paren w))).
Definition word (w : list N) : Prop := Forall (fun c => 33 <= c <= 126 /\ c <> 34 /\ c <> 58 /\ c <> 92) w /\ unparen w <> [].
Inductive spelled : list (list N) -> list N -> Prop :=
| sp_one w : word w -> spelled [w] w
| sp_more w ws n k : word w -> 1 <= n -> spelled ws k -> spelled (w :: ws) (w ++ repN n 32 ++ k).
(* the key printed: first word in small letters, the others with a capital and without the round brackets *)
Definition small (c : N) : N := if (65 <=? c) && (c <=? 90) then c + 32 else c.
Definition capital (w : list N) : list N := match w with c :: t => (if (97 <=? c) && (c <=? 122) then c - 32 else c) :: t | [] => [] end.
Definition camel (words : list (list N)) : list N :=
  match words with [] => [] | w :: ws => map small w ++ concat (map (fun w => capital (unparen w)) ws) end.
(* a value without surprises: printable ASCII characters except backslash, no space at the ends *)
Definition plain (v : list N) : Prop :=
  v <> [] /\ Forall (fun c => 32 <= c <= 126 /\ c <> 92) v /\ hd 0 v <> 32 /\ last v 0 <> 32.
(* digits, possibly with a plus in front, of a number below 2^64 *)
Definition numeral (v : list N) : Prop :=
  exists d, (v = d \/ v = 43 :: d) /\ d <> [] /\ forallb is_digit d = true /\ dec_value d < 18446744073709551616.
(* what the value is to stand for: always a string if quotes are forced; otherwise null, true, false and numbers below 2^64 as such *)
Inductive shown : bool -> list N -> json -> Prop :=
| sh_quoted v : shown true v (JStr v)
| sh_null : shown false (str "null") JNull
| sh_true : shown false (str "true") (JBool true)
| sh_false : shown false (str "false") (JBool false)
| sh_num n : n < 18446744073709551616 -> shown false (dec n) (JNum (dec n))
| sh_str v : v <> str "null" -> v <> str "true" -> v <> str "false" -> ~ numeral v -> shown false v (JStr v).

(* Properly nested calls: fields, and groups of items between an opening and a closing call *)
Inductive item := FieldItem (force : bool) (msg : list N) | GroupItem (name : option (list N)) (b : bracket) (items : list item).
Fixpoint calls (i : item) : list call :=
  match i with
  | FieldItem force msg => [Field force msg]
  | GroupItem name b items => Open name b :: flat_map calls items ++ [Close]
  end.
(* what they stand for: an object has fields and named groups, an array has unnamed groups *)
Inductive member : item -> list N -> json -> Prop :=
| m_field force words key n m val j : spelled words key -> plain val -> shown force val j ->
    member (FieldItem force (key ++ repN n 32 ++ str ":" ++ repN m 32 ++ val)) (camel words) j
| m_group words name b items j : spelled words name -> contents b items j -> member (GroupItem (Some name) b items) (camel words) j
with members : list item -> list (list N * json) -> Prop :=
| ms_nil : members [] []
| ms_cons i k j l ms : member i k j -> members l ms -> members (i :: l) ((k, j) :: ms)
with elements : list item -> list json -> Prop :=
| es_nil : elements [] []
| es_cons b items j l js : contents b items j -> elements l js -> elements (GroupItem None b items :: l) (j :: js)
with contents : bracket -> list item -> json -> Prop :=
| c_object l ms : members l ms -> contents Curly l (JObj ms)
| c_array l js : elements l js -> contents Square l (JArr js).
