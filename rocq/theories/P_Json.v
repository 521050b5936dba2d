(* C41, C42: printing JSON. *)
From Coq Require Import String.
From Verif Require Import M_Base M_Metadata M_Buffer M_Rescue M_Json S_Json L_Base L_Log L_Json L_Json2.

(* C42: a group of properly nested calls prints a JSON text that stands for what was given, and for nothing else; afterwards the
   printer is as before. Keys and values are as in C41. *)
Theorem c42_nested_calls_print_json b l j : contents b l j ->
  exists t, do_calls (calls (GroupItem None b l)) [] = ROk (t, []) /\ json_text t j /\ forall j', json_text t j' -> j' = j.
Proof.
  intro C. destruct (json_whole b l j C) as (t & E & J). exists t. split; [exact E|]. split; [exact J|]. intros j' J'. exact (json_unambiguous _ _ _ J' J).
Qed.
(* C42 for the exit of a command with an error, when only the outermost bracket is open *)
Theorem c42_error_exit l ms e j : members l ms -> Forall (fun c => 32 <= c <= 126 /\ c <> 92) e -> shown false e j ->
  exists t, do_calls (Open None Curly :: flat_map calls l ++ [Error e; Close]) [] = ROk (t, []) /\
    json_text t (JObj (ms ++ [(str "error", j)])) /\ forall j', json_text t j' -> j' = JObj (ms ++ [(str "error", j)]).
Proof.
  intros M CE SH.
  destruct (proj1 (proj2 json_items) l ms M (mkContext true Curly) []) as (t & c' & E & B & T). pose proof (members_first l ms M _ _ _ _ _ E) as FI.
  set (v := if determine_if_skip_quotes false e then escape_quotes e else [34] ++ escape_quotes e ++ [34]).
  assert (MT : member_text ([34] ++ str "error" ++ [34] ++ str ":" ++ str " " ++ v ++ [10]) (str "error") j).
  { exists v. split; [reflexivity|]. split; [apply string_text_plain; repeat constructor; cbn; lia|]. apply value_ok'; assumption. }
  set (m := [34] ++ str "error" ++ [34] ++ str ":" ++ str " " ++ v ++ [10]) in MT.
  assert (EQ : do_calls (Open None Curly :: flat_map calls l ++ [Error e; Close]) [] = ROk (str "{" ++ [10] ++ (t ++ sep (first_item c') ++ m) ++ str "}" ++ [10], [])).
  { cbn [do_calls do_call comma rbind]. rewrite do_calls_app, E. cbn [rbind do_calls do_call]. unfold json_field.
    change (to_camelcase (str "error")) with (ROk (str "error")). cbn [rbind]. rewrite B. cbn [bracket_type close_str]. fold v. unfold m, sep.
    rewrite app_nil_r. cbn [open_str app]. repeat (rewrite <- !app_assoc; cbn [app]). reflexivity. }
  assert (J : json_text (str "{" ++ [10] ++ (t ++ sep (first_item c') ++ m) ++ str "}" ++ [10]) (JObj (ms ++ [(str "error", j)]))).
  { exists [], (str "{" ++ ([10] ++ (t ++ sep (first_item c') ++ m)) ++ str "}"), [10]. split; [repeat (cbn [app]; rewrite <- ?app_assoc); reflexivity|].
    split; [apply ws_nil|]. split; [apply ws_lf|]. apply vt_obj. apply members_text_ws; [apply ws_lf|]. rewrite FI. destruct ms as [|x ms].
    - subst t. cbn [app sep first_item]. apply members_text_one. exact MT.
    - destruct T as (u & -> & T). cbn [sep first_item]. apply (members_text_snoc u (x :: ms)); assumption. }
  exists (str "{" ++ [10] ++ (t ++ sep (first_item c') ++ m) ++ str "}" ++ [10]). split; [exact EQ|]. split; [exact J|].
  intros j' J'. exact (json_unambiguous _ _ _ J' J).
Qed.
(* non-vacuity: a report with a group, an array of groups, values of every kind *)
Definition a_report : list item :=
  [FieldItem false (str "SBX version         : 17"); FieldItem true (str "File UID : 0123456789AB");
   GroupItem (Some (str "ref block info")) Curly [FieldItem false (str "type : metadata")];
   GroupItem (Some (str "blocks")) Square [GroupItem None Curly [FieldItem false (str "File name (kept) : a ""b"": c")]; GroupItem None Curly []];
   FieldItem false (str "error : null")].
Definition its_json : json :=
  JObj [(str "sbxVersion", JNum (str "17")); (str "fileUID", JStr (str "0123456789AB"));
        (str "refBlockInfo", JObj [(str "type", JStr (str "metadata"))]);
        (str "blocks", JArr [JObj [(str "fileNameKept", JStr (str "a ""b"": c"))]; JObj []]); (str "error", JNull)].
Ltac chars := repeat (apply Forall_cons; [cbn; lia|]); apply Forall_nil.
Ltac is_word := split; [chars|discriminate].
Lemma not_numeral c v : is_digit c = false -> c <> 43 -> ~ numeral (c :: v).
Proof.
  intros D P (d & [E|E] & _ & F & _).
  - subst d. cbn [forallb] in F. rewrite D in F. discriminate.
  - injection E as -> _. contradiction.
Qed.
Ltac is_str := apply sh_str; [discriminate|discriminate|discriminate|apply not_numeral; [reflexivity|discriminate]].
Ltac is_plain := split; [discriminate|]; split; [chars|]; split; discriminate.
Ltac field words key n m val := match goal with |- member (FieldItem ?force _) _ _ =>
  refine (m_field force words (str key) n m (str val) _ _ _ _) end.
Example c42_a_report : contents Curly a_report its_json.
Proof.
  apply c_object. unfold a_report. repeat apply ms_cons; try apply ms_nil.
  - refine (m_field false [str "SBX"; str "version"] (str "SBX version") 9 1 (str "17") _ _ _ _).
    + apply (sp_more (str "SBX") _ 1 (str "version")); [is_word|discriminate|apply sp_one; is_word].
    + is_plain.
    + apply (sh_num 17). reflexivity.
  - refine (m_field true [str "File"; str "UID"] (str "File UID") 1 1 (str "0123456789AB") _ _ _ _).
    + apply (sp_more (str "File") _ 1 (str "UID")); [is_word|discriminate|apply sp_one; is_word].
    + is_plain.
    + apply sh_quoted.
  - refine (m_group [str "ref"; str "block"; str "info"] (str "ref block info") Curly _ _ _ _).
    + apply (sp_more (str "ref") _ 1 (str "block info")); [is_word|discriminate|]. apply (sp_more (str "block") _ 1 (str "info")); [is_word|discriminate|apply sp_one; is_word].
    + apply c_object. apply ms_cons; [|apply ms_nil]. refine (m_field false [str "type"] (str "type") 1 1 (str "metadata") _ _ _ _); [apply sp_one; is_word|is_plain|is_str].
  - refine (m_group [str "blocks"] (str "blocks") Square _ _ _ _); [apply sp_one; is_word|].
    apply c_array. apply es_cons; [|apply es_cons; [|apply es_nil]]; apply c_object; [|apply ms_nil]. apply ms_cons; [|apply ms_nil].
    refine (m_field false [str "File"; str "name"; str "(kept)"] (str "File name (kept)") 1 1 (str "a ""b"": c") _ _ _ _); [|is_plain|is_str].
    apply (sp_more (str "File") _ 1 (str "name (kept)")); [is_word|discriminate|]. apply (sp_more (str "name") _ 1 (str "(kept)")); [is_word|discriminate|apply sp_one; is_word].
  - refine (m_field false [str "error"] (str "error") 1 1 (str "null") _ _ _ _); [apply sp_one; is_word|is_plain|apply sh_null].
Qed.
(* C42 is false for a command that fails within a nested group: only the innermost bracket is closed (finding F23) *)
Theorem c42_error_in_group_refuted :
  exists l t st, do_calls (Open None Curly :: l ++ [Error (str "failed"); Close]) [] = ROk (t, st) /\ st <> [] /\ forall j, ~ json_text t j.
Proof.
  eexists [Open (Some (str "blocks")) Square; Open None Curly; Field false (str "Found at byte : 0"); Close], _, _. split; [vm_compute; reflexivity|].
  split; [discriminate|]. apply not_json. vm_compute. reflexivity.
Qed.

(* C41: one field, with the value complete and escaped. Holds for values of printable ASCII characters without backslash, without
   spaces at the ends, that are not words or numbers by themselves (or with quotes forced). The full statement asks this of every string. *)
Theorem c41_field_partial force words key n m val :
  spelled words key -> plain val -> (force = true \/ (val <> str "null" /\ val <> str "true" /\ val <> str "false" /\ ~ numeral val)) ->
  exists t, do_calls [Open None Curly; Field force (key ++ repN n 32 ++ str ":" ++ repN m 32 ++ val); Close] [] = ROk (t, []) /\
    json_text t (JObj [(camel words, JStr val)]) /\ forall j, json_text t j -> j = JObj [(camel words, JStr val)].
Proof.
  intros S P F. apply (c42_nested_calls_print_json Curly [FieldItem force (key ++ repN n 32 ++ str ":" ++ repN m 32 ++ val)] (JObj [(camel words, JStr val)])).
  apply c_object. apply ms_cons; [|apply ms_nil]. apply m_field; [exact S|exact P|]. destruct force; [apply sh_quoted|]. destruct F as [F|(A & B & C & D)]; [discriminate|]. apply sh_str; assumption.
Qed.
Example c41_field_case : spelled [str "File"; str "name"] (str "File name") /\ plain (str "a ""quoted"" name: x") /\
  camel [str "File"; str "name"] = str "fileName" /\ ~ numeral (str "a ""quoted"" name: x").
Proof.
  split; [apply (sp_more (str "File") _ 1 (str "name")); [is_word|discriminate|apply sp_one; is_word]|]. split; [is_plain|]. split; [reflexivity|apply not_numeral; [reflexivity|discriminate]].
Qed.
(* Values for which it is false (finding F22): what is printed for the field "name: v" *)
Definition print_value (v : list N) : result (list N) :=
  do! (t, _) <- do_calls [Open None Curly; Field false (str "name: " ++ v); Close] []; ROk t.
Definition prints (v : list N) (j : json) : Prop := exists t, print_value v = ROk t /\ json_text t j.
Definition prints_no_json (v : list N) : Prop := exists t, print_value v = ROk t /\ forall j, ~ json_text t j.
Definition e_acute : list N := [195; 169].
(* The program panics at a two-byte character; or drops what follows; a backslash at the end, control characters and the numbers +5 and 007
   make the text no JSON; null and 123 do not come out as strings; spaces at the ends are lost; an empty value becomes a space. *)
Theorem c41_values_refuted :
  (utf8_valid e_acute = true /\ print_value e_acute = RPanic) /\
  (utf8_valid (e_acute ++ str "a") = true /\ forall j, prints (e_acute ++ str "a") j -> j = JObj [(str "name", JStr e_acute)]) /\
  prints_no_json (str "a\") /\ prints_no_json (str "\x") /\ prints_no_json (str "a" ++ [10] ++ str "b") /\ prints_no_json (str "+5") /\ prints_no_json (str "007") /\
  (forall j, prints (str "null") j -> j = JObj [(str "name", JNull)]) /\ (forall j, prints (str "123") j -> j = JObj [(str "name", JNum (str "123"))]) /\
  (forall j, prints (str " a ") j -> j = JObj [(str "name", JStr (str "a"))]) /\ (forall j, prints [] j -> j = JObj [(str "name", JStr (str " "))]) /\
  (forall j, prints (str "\n") j -> j = JObj [(str "name", JStr [10])]).
Proof.
  assert (P : forall v j', match print_value v with ROk t => parse_json t = Some j' | _ => False end -> forall j, prints v j -> j = j').
  { intros v j' H j (t & E & J). rewrite E in H. apply parse_json_ok in J. congruence. }
  assert (Q : forall v, match print_value v with ROk t => parse_json t = None | _ => False end -> prints_no_json v).
  { intros v H. destruct (print_value v) as [t| |] eqn:E; try contradiction. exists t. split; [exact E|]. apply not_json, H. }
  split; [split; vm_compute; reflexivity|]. split; [split; [vm_compute; reflexivity|apply P; vm_compute; reflexivity]|].
  do 5 (split; [apply Q; vm_compute; reflexivity|]). do 4 (split; [apply P; vm_compute; reflexivity|]). apply P; vm_compute; reflexivity.
Qed.

Print Assumptions c42_nested_calls_print_json.
Print Assumptions c42_error_exit.
Print Assumptions c42_error_in_group_refuted.
Print Assumptions c41_field_partial.
Print Assumptions c41_values_refuted.
