(* A parser that finds what every JSON text stands for: a text stands for one value at most, and texts it refuses are not JSON.
   (It accepts some texts that are not JSON: numbers are checked at their beginning only.) *)
From Coq Require Import String Lia.
From Verif Require Import M_Base M_Buffer M_Rescue M_Json S_Json L_Base L_Log L_Json.

Definition oapp (a : list N) (o : option (list N * list N)) := match o with Some (s, r) => Some (a ++ s, r) | None => None end.
Fixpoint p_chars (t : list N) : option (list N * list N) :=
  match t with
  | [] => None
  | x :: t1 =>
      if x =? 34 then Some ([], t1)
      else if x =? 92 then
        match t1 with
        | [] => None
        | e :: t2 =>
            if e =? 117 then
              match t2 with
              | a :: b :: c :: d :: t3 =>
                  match hex4 a b c d with
                  | None => None
                  | Some u =>
                      if (u <? 55296) || (57343 <? u) then oapp (utf8 u) (p_chars t3)
                      else match t3 with
                           | _ :: _ :: a' :: b' :: c' :: d' :: t4 =>
                               match hex4 a' b' c' d' with
                               | None => None
                               | Some u' => oapp (utf8 (65536 + 1024 * (u - 55296) + (u' - 56320))) (p_chars t4)
                               end
                           | _ => None
                           end
                  end
              | _ => None
              end
            else match find (fun p => fst p =? e) escapes with
                 | Some (_, y) => oapp [y] (p_chars t2)
                 | None => None
                 end
        end
      else if x <? 32 then None else oapp [x] (p_chars t1)
  end.
Lemma p_chars_ok t s : string_text t s -> forall r, p_chars (t ++ 34 :: r) = Some (s, r).
Proof.
  induction 1 as [|c t s H1 H2 H3 H IH|e c t s I H IH|a b c d u t s X U H IH|a b c d u a' b' c' d' u' t s X U X' U' H IH]; intro r; cbn [app p_chars].
  - reflexivity.
  - destruct (N.eqb_spec c 34); [congruence|]. destruct (N.eqb_spec c 92); [congruence|]. destruct (N.ltb_spec c 32); [lia|]. rewrite IH. reflexivity.
  - change (92 =? 34) with false. change (92 =? 92) with true. cbv iota. cbn in I.
    repeat match type of I with _ \/ _ => destruct I as [I|I] end; try contradiction; injection I as <- <-; cbn; rewrite IH; reflexivity.
  - change (92 =? 34) with false. change (92 =? 92) with true. change (117 =? 117) with true. cbv iota. rewrite X.
    replace ((u <? 55296) || (57343 <? u)) with true; [rewrite IH; reflexivity|]. symmetry. destruct (N.ltb_spec u 55296), (N.ltb_spec 57343 u); try reflexivity. lia.
  - change (92 =? 34) with false. change (92 =? 92) with true. change (117 =? 117) with true. cbv iota. rewrite X.
    destruct (N.ltb_spec u 55296); [lia|]. destruct (N.ltb_spec 57343 u); [lia|]. cbn [orb]. rewrite X', IH. reflexivity.
Qed.

Definition is_ws (c : N) : bool := existsb (N.eqb c) [32; 9; 10; 13].
Definition skip_ws (t : list N) : list N := drop_while is_ws t.
Definition numch (c : N) : bool := is_digit c || existsb (N.eqb c) (str "+-.eE").
Fixpoint run (t : list N) : list N * list N :=
  match t with c :: t' => if numch c then let '(a, b) := run t' in (c :: a, b) else ([], t) | [] => ([], []) end.
Definition number_start (t : list N) : bool :=
  match t with
  | [] => false
  | c :: t' => (is_digit c || (c =? 45)) && negb ((c =? 48) && match t' with d :: _ => is_digit d | [] => false end)
  end.
Definition starts (c : N) (t : list N) : option (list N) := match t with x :: t' => if x =? c then Some t' else None | [] => None end.
Fixpoint p_value (fuel : nat) (t : list N) : option (json * list N) :=
  match fuel with
  | O => None
  | S k =>
      match starts 34 t with
      | Some t' => match p_chars t' with Some (s, r) => Some (JStr s, r) | None => None end
      | None =>
      match starts 91 t with
      | Some t' => match starts 93 (skip_ws t') with
                   | Some r => Some (JArr [], r)
                   | None => match p_elements k t' with Some (l, r) => Some (JArr l, r) | None => None end
                   end
      | None =>
      match starts 123 t with
      | Some t' => match starts 125 (skip_ws t') with
                   | Some r => Some (JObj [], r)
                   | None => match p_members k t' with Some (l, r) => Some (JObj l, r) | None => None end
                   end
      | None =>
      match p_tag (str "null") t, p_tag (str "true") t, p_tag (str "false") t with
      | Some r, _, _ => Some (JNull, r)
      | _, Some r, _ => Some (JBool true, r)
      | _, _, Some r => Some (JBool false, r)
      | None, None, None => let '(a, r) := run t in if number_start a then Some (JNum a, r) else None
      end end end end
  end
with p_elements (fuel : nat) (t : list N) : option (list json * list N) :=
  match fuel with
  | O => None
  | S k =>
      match p_value k (skip_ws t) with
      | None => None
      | Some (v, r) =>
          match starts 44 (skip_ws r) with
          | Some r => match p_elements k r with Some (l, r) => Some (v :: l, r) | None => None end
          | None => match starts 93 (skip_ws r) with Some r => Some ([v], r) | None => None end
          end
      end
  end
with p_members (fuel : nat) (t : list N) : option (list (list N * json) * list N) :=
  match fuel with
  | O => None
  | S k =>
      match starts 34 (skip_ws t) with
      | None => None
      | Some t1 =>
      match p_chars t1 with
      | None => None
      | Some (s, r) =>
      match starts 58 (skip_ws r) with
      | None => None
      | Some r =>
      match p_value k (skip_ws r) with
      | None => None
      | Some (v, r) =>
          match starts 44 (skip_ws r) with
          | Some r => match p_members k r with Some (l, r) => Some ((s, v) :: l, r) | None => None end
          | None => match starts 125 (skip_ws r) with Some r => Some ([(s, v)], r) | None => None end
          end
      end end end end
  end.
Definition parse_json (t : list N) : option json :=
  match p_value (S (S (length t))) (skip_ws t) with
  | Some (v, r) => match skip_ws r with [] => Some v | _ => None end
  | None => None
  end.

(* what follows a value: not a character of a number *)
Definition follows (r : list N) : Prop := match r with c :: _ => numch c = false | [] => True end.
Lemma run_app a : forall r, forallb numch a = true -> follows r -> run (a ++ r) = (a, r).
Proof.
  induction a as [|c a IH]; intros r H F.
  - cbn [app]. destruct r as [|c r]; [reflexivity|]. cbn [run]. cbn in F. rewrite F. reflexivity.
  - cbn [forallb] in H. apply Bool.andb_true_iff in H. destruct H as (H1 & H2). cbn [app run]. rewrite H1, (IH r H2 F). reflexivity.
Qed.
Lemma digits_numch d : forallb is_digit d = true -> forallb numch d = true.
Proof. intro H. apply forallb_forall. intros x I. rewrite forallb_forall in H. unfold numch. rewrite (H x I). reflexivity. Qed.
Lemma number_numch t : number_text t -> forallb numch t = true.
Proof.
  intros (mi & i & f & e & -> & M & I & F & E). rewrite !forallb_app. repeat (apply Bool.andb_true_iff; split).
  - destruct M as [->| ->]; reflexivity.
  - destruct I as [->|(c & r & -> & C & R)]; [reflexivity|]. apply digits_numch. cbn [forallb]. rewrite R. unfold is_digit.
    destruct (N.leb_spec 48 c), (N.leb_spec c 57); try lia; reflexivity.
  - destruct F as [->|(d & -> & _ & D)]; [reflexivity|]. rewrite forallb_app, (digits_numch d D). reflexivity.
  - destruct E as [->|(a & s & d & -> & A & S & _ & D)]; [reflexivity|]. rewrite !forallb_app, (digits_numch d D).
    destruct A as [->| ->], S as [->|[->| ->]]; reflexivity.
Qed.
Lemma number_number_start t : number_text t -> number_start t = true.
Proof.
  intros (mi & i & f & e & -> & M & I & F & E). destruct M as [->| ->].
  - cbn [app]. destruct I as [->|(c & r & -> & C & R)].
    + destruct F as [->|(d & -> & _ & D)]; [|reflexivity]. destruct E as [->|(a & s & d & -> & A & S & _ & D)]; [reflexivity|]. destruct A as [->| ->]; reflexivity.
    + cbn [app number_start]. unfold is_digit. destruct (N.leb_spec 48 c), (N.leb_spec c 57), (N.eqb_spec c 48); try lia; reflexivity.
  - destruct I as [->|(c & r & -> & C & R)]; reflexivity.
Qed.
Lemma skip_ws_app w t : ws w -> skip_ws (w ++ t) = skip_ws t.
Proof.
  induction 1 as [|c w H HW IH]; [reflexivity|]. cbn [app]. unfold skip_ws in *. cbn [drop_while]. replace (is_ws c) with true; [exact IH|].
  symmetry. apply existsb_exists. exists c. split; [exact H|apply N.eqb_refl].
Qed.
Lemma follows_ws w t : ws w -> follows t -> follows (w ++ t).
Proof.
  intros W F. destruct W as [|c w H W]; [exact F|]. cbn [app follows]. cbn in H. repeat (destruct H as [<-|H]; [reflexivity|]). contradiction.
Qed.
(* a value starts with a character of its own *)
Definition value_start (c : N) : bool := existsb (N.eqb c) ([34; 91; 123] ++ str "ntf-") || is_digit c.
Lemma value_starts t v : value_text t v -> exists c t', t = c :: t' /\ value_start c = true.
Proof.
  intro V. destruct V as [| | |t H|t s H|w W|t l E|w W|t l M]; try (eexists _, _; split; [reflexivity|reflexivity]).
  apply number_number_start in H. destruct t as [|c t]; [discriminate|]. exists c, t. split; [reflexivity|]. cbn [number_start] in H. apply Bool.andb_true_iff in H. destruct H as (H & _).
  unfold value_start. apply Bool.orb_true_iff in H. destruct H as [->|H]; [apply Bool.orb_true_r|]. apply N.eqb_eq in H. subst. reflexivity.
Qed.
Lemma value_start_ws c t : value_start c = true -> skip_ws (c :: t) = c :: t.
Proof.
  intro V. unfold skip_ws. cbn [drop_while]. destruct (is_ws c) eqn:W; [|reflexivity]. exfalso. unfold is_ws in W. apply existsb_exists in W. destruct W as (x & I & E). apply N.eqb_eq in E. subst x.
  cbn in I. repeat (destruct I as [<-|I]; [discriminate|]). contradiction.
Qed.
Lemma value_start_not c x : value_start c = true -> value_start x = false -> c =? x = false.
Proof. intros H1 H2. destruct (N.eqb_spec c x); [subst; congruence|reflexivity]. Qed.
Lemma p_tag_head x t c r : c <> x -> p_tag (x :: t) (c :: r) = None.
Proof. intro H. cbn [p_tag]. destruct (N.eqb_spec x c); [subst; congruence|reflexivity]. Qed.

Lemma skip_head c t : is_ws c = false -> skip_ws (c :: t) = c :: t.
Proof. intro H. unfold skip_ws. cbn [drop_while]. rewrite H. reflexivity. Qed.
Lemma starts_eq c t : starts c (c :: t) = Some t.
Proof. cbn [starts]. rewrite N.eqb_refl. reflexivity. Qed.
Scheme value_text_mut := Minimality for value_text Sort Prop
with elements_text_mut := Minimality for elements_text Sort Prop
with members_text_mut := Minimality for members_text Sort Prop.
Combined Scheme json_text_ind from value_text_mut, elements_text_mut, members_text_mut.
Lemma length_str s t : length (str s ++ t) = (length (str s) + length t)%nat.
Proof. apply app_length. Qed.
Lemma elements_starts t l r c : elements_text t l -> value_start c = false -> starts c (skip_ws (t ++ r)) = None.
Proof.
  intros E C. destruct E as [w1 t v w2 H1 V H2|w1 t v w2 u l H1 V H2 R]; rewrite <- !app_assoc, skip_ws_app by assumption;
  destruct (value_starts t v V) as (x & t' & -> & X); cbn [app]; rewrite value_start_ws by assumption; cbn [starts]; rewrite value_start_not; auto.
Qed.
Lemma members_starts t l r : members_text t l -> starts 125 (skip_ws (t ++ r)) = None.
Proof. intros E. destruct E as [w1 k s w2 w3 t v w4 H1 K H2 H3 V H4|w1 k s w2 w3 t v w4 u l H1 K H2 H3 V H4 R]; rewrite <- !app_assoc, skip_ws_app by assumption; reflexivity. Qed.
Lemma parses :
  (forall t v, value_text t v -> forall fuel r, (length t < fuel)%nat -> follows r -> p_value fuel (t ++ r) = Some (v, r)) /\
  (forall t l, elements_text t l -> forall fuel r, (S (length t) < fuel)%nat -> p_elements fuel (t ++ 93 :: r) = Some (l, r)) /\
  (forall t l, members_text t l -> forall fuel r, (S (length t) < fuel)%nat -> p_members fuel (t ++ 125 :: r) = Some (l, r)).
Proof.
  apply json_text_ind.
  - intros [|k] r L F; [lia|]. reflexivity.
  - intros [|k] r L F; [lia|]. reflexivity.
  - intros [|k] r L F; [lia|]. reflexivity.
  - intros t H [|k] r L F; [lia|]. pose proof (number_number_start t H) as NS. pose proof (number_numch t H) as NC.
    assert (RA : run (t ++ r) = (t, r)) by (apply run_app; assumption).
    destruct t as [|c t]; [discriminate|]. cbn [app] in *. cbn [number_start] in NS. apply Bool.andb_true_iff in NS. destruct NS as (D & NS').
    assert (CN : 45 <= c <= 57).
    { apply Bool.orb_true_iff in D. destruct D as [D|D]; [|apply N.eqb_eq in D; lia]. unfold is_digit in D. apply Bool.andb_true_iff in D. destruct D as (D1 & D2). apply N.leb_le in D1, D2. lia. }
    assert (NE : forall x, 57 < x \/ x < 45 -> starts x (c :: t ++ r) = None) by (intros x X; cbn [starts]; destruct (N.eqb_spec c x); [lia|reflexivity]).
    cbn [p_value]. rewrite !NE by lia. 
    change (str "null") with (110 :: str "ull"). change (str "true") with (116 :: str "rue"). change (str "false") with (102 :: str "alse"). rewrite !p_tag_head by lia.
    rewrite RA. cbn [number_start]. rewrite D, NS'. reflexivity.
  - intros t s H [|k] r L F; [lia|]. cbn [app p_value starts]. change (34 =? 34) with true. cbv iota. rewrite <- app_assoc. cbn [app]. rewrite (p_chars_ok t s H). reflexivity.
  - intros w W [|k] r L F; [lia|]. change (str "[") with [91]. change (str "]") with [93]. rewrite <- !app_assoc. cbn [app p_value starts]. change (91 =? 34) with false. change (91 =? 91) with true. cbv iota.
    rewrite skip_ws_app by assumption. reflexivity.
  - intros t l E IH [|k] r L F; [lia|]. change (str "[") with [91] in *. change (str "]") with [93] in *. rewrite <- !app_assoc. cbn [app p_value]. cbn [starts]. change (91 =? 34) with false. change (91 =? 91) with true. cbv iota.
    rewrite (elements_starts t l (93 :: r) 93 E eq_refl). rewrite IH; [reflexivity|]. cbn [app length] in L. rewrite app_length in L. cbn in L. lia.
  - intros w W [|k] r L F; [lia|]. change (str "{") with [123]. change (str "}") with [125]. rewrite <- !app_assoc. cbn [app p_value]. cbn [starts]. change (123 =? 34) with false. change (123 =? 91) with false. change (123 =? 123) with true. cbv iota.
    rewrite skip_ws_app by assumption. reflexivity.
  - intros t l E IH [|k] r L F; [lia|]. change (str "{") with [123] in *. change (str "}") with [125] in *. rewrite <- !app_assoc. cbn [app p_value]. cbn [starts]. change (123 =? 34) with false. change (123 =? 91) with false. change (123 =? 123) with true. cbv iota.
    rewrite (members_starts t l (125 :: r) E). rewrite IH; [reflexivity|]. cbn [app length] in L. rewrite app_length in L. cbn in L. lia.
  - intros w1 t v w2 H1 V IH H2 [|k] r L; [lia|]. cbn [p_elements]. rewrite <- !app_assoc, skip_ws_app by assumption. rewrite !app_length in L.
    destruct (value_starts t v V) as (c & t' & -> & C). cbn [app]. rewrite value_start_ws by assumption. change (c :: t' ++ w2 ++ 93 :: r) with ((c :: t') ++ w2 ++ 93 :: r).
    rewrite IH; [|lia|apply follows_ws; [assumption|reflexivity]]. rewrite skip_ws_app by assumption. reflexivity.
  - intros w1 t v w2 u l H1 V IH H2 E IHE [|k] r L; [lia|]. change (str ",") with [44] in *. cbn [p_elements]. rewrite <- !app_assoc, skip_ws_app by assumption. rewrite !app_length in L.
    destruct (value_starts t v V) as (c & t' & -> & C). cbn [app]. rewrite value_start_ws by assumption. change (c :: t' ++ w2 ++ 44 :: u ++ 93 :: r) with ((c :: t') ++ w2 ++ 44 :: u ++ 93 :: r).
    rewrite IH; [|lia|apply follows_ws; [assumption|reflexivity]]. rewrite skip_ws_app by assumption. rewrite (skip_head 44), starts_eq by reflexivity.
    rewrite IHE; [reflexivity|]. cbn [length] in L. lia.
  - intros w1 kt s w2 w3 t v w4 H1 K H2 H3 V IH H4 [|k] r L; [lia|]. change (str ":") with [58] in *. cbn [p_members]. rewrite <- !app_assoc, skip_ws_app by assumption. rewrite !app_length in L.
    cbn [app]. rewrite (skip_head 34), starts_eq by reflexivity. rewrite (p_chars_ok kt s K).
    rewrite skip_ws_app by assumption. rewrite (skip_head 58), starts_eq by reflexivity. rewrite skip_ws_app by assumption.
    destruct (value_starts t v V) as (c & t' & -> & C). cbn [app]. rewrite value_start_ws by assumption. change (c :: t' ++ w4 ++ 125 :: r) with ((c :: t') ++ w4 ++ 125 :: r).
    rewrite IH; [|cbn [length] in *; lia|apply follows_ws; [assumption|reflexivity]]. rewrite skip_ws_app by assumption. reflexivity.
  - intros w1 kt s w2 w3 t v w4 u l H1 K H2 H3 V IH H4 E IHE [|k] r L; [lia|]. change (str ":") with [58] in *. change (str ",") with [44] in *. cbn [p_members]. rewrite <- !app_assoc, skip_ws_app by assumption. rewrite !app_length in L.
    cbn [app]. rewrite (skip_head 34), starts_eq by reflexivity. rewrite (p_chars_ok kt s K).
    rewrite skip_ws_app by assumption. rewrite (skip_head 58), starts_eq by reflexivity. rewrite skip_ws_app by assumption.
    destruct (value_starts t v V) as (c & t' & -> & C). cbn [app]. rewrite value_start_ws by assumption. change (c :: t' ++ w4 ++ 44 :: u ++ 125 :: r) with ((c :: t') ++ w4 ++ 44 :: u ++ 125 :: r).
    rewrite IH; [|cbn [length] in *; lia|apply follows_ws; [assumption|reflexivity]]. rewrite skip_ws_app by assumption. rewrite (skip_head 44), starts_eq by reflexivity.
    rewrite IHE; [reflexivity|]. cbn [length] in L. lia.
Qed.
Lemma parse_json_ok t v : json_text t v -> parse_json t = Some v.
Proof.
  intros (w1 & u & w2 & -> & W1 & W2 & V). unfold parse_json. rewrite skip_ws_app by assumption.
  destruct (value_starts u v V) as (c & u' & E & C). rewrite E at 2. cbn [app]. rewrite value_start_ws by assumption. change (c :: u' ++ w2) with ((c :: u') ++ w2). rewrite <- E.
  rewrite (proj1 parses u v V); [|rewrite !app_length; lia|rewrite <- (app_nil_r w2); apply follows_ws; [assumption|exact I]].
  rewrite <- (app_nil_r w2), skip_ws_app by assumption. reflexivity.
Qed.
Lemma json_unambiguous t v v' : json_text t v -> json_text t v' -> v = v'.
Proof. intros H H'. apply parse_json_ok in H, H'. congruence. Qed.
Lemma not_json t : parse_json t = None -> forall v, ~ json_text t v.
Proof. intros E v H. apply parse_json_ok in H. congruence. Qed.
