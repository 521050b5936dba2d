(* Model of src/sbx_block/metadata.rs. Strings are byte lists; `String` values are the ones for
   which [utf8_valid] holds. i64 values are Z. *)
From Verif Require Import M_Base M_Multihash.

(* src/sbx_block/metadata.rs:9-19; UncheckedMetadata (lines 50-59) has the same shape with
   unchecked byte strings, so the same type is used. *)
Inductive metadata :=
| FNM (s : list N) | SNM (s : list N) | FSZ (x : N) | FDT (x : Z) | SDT (x : Z)
| HSH (h : hash_bytes) | RSD (x : N) | RSP (x : N).

(* src/sbx_block/metadata.rs:61-71 *)
Inductive metadata_id := IFNM | ISNM | IFSZ | IFDT | ISDT | IHSH | IRSD | IRSP.

Definition metadata_id_eqb (a b : metadata_id) : bool :=
  match a, b with
  | IFNM, IFNM | ISNM, ISNM | IFSZ, IFSZ | IFDT, IFDT | ISDT, ISDT | IHSH, IHSH
  | IRSD, IRSD | IRSP, IRSP => true
  | _, _ => false
  end.

(* src/sbx_block/metadata.rs:73 *)
Definition PREAMBLE_LEN : N := 4.

(* src/sbx_block/metadata.rs:75-84 *)
Definition single_info_size (m : metadata) : N :=
  match m with
  | FNM x | SNM x => lenN x
  | FSZ _ | FDT _ | SDT _ => 8
  | HSH h => total_length (param_new (fst h))
  | RSD _ | RSP _ => 1
  end.

(* src/sbx_block/metadata.rs:86-88 *)
Definition single_meta_size (m : metadata) : N := PREAMBLE_LEN + single_info_size m.

(* src/sbx_block/metadata.rs:90-102 *)
Definition id_to_bytes (i : metadata_id) : list N :=
  match i with
  | IFNM => [70; 78; 77]
  | ISNM => [83; 78; 77]
  | IFSZ => [70; 83; 90]
  | IFDT => [70; 68; 84]
  | ISDT => [83; 68; 84]
  | IHSH => [72; 83; 72]
  | IRSD => [82; 83; 68]
  | IRSP => [82; 83; 80]
  end.

(* src/sbx_block/metadata.rs:118-129 *)
Definition meta_to_id (m : metadata) : metadata_id :=
  match m with
  | FNM _ => IFNM | SNM _ => ISNM | FSZ _ => IFSZ | FDT _ => IFDT | SDT _ => ISDT
  | HSH _ => IHSH | RSD _ => IRSD | RSP _ => IRSP
  end.

(* i64 as its 64-bit two's complement pattern (transmute), and back (nom be_i64) *)
Definition i64_bits (x : Z) : N := Z.to_N (x mod 18446744073709551616)%Z.
Definition bits_i64 (n : N) : Z :=
  if n <? 9223372036854775808 then Z.of_N n else (Z.of_N n - 18446744073709551616)%Z.

(* src/sbx_block/metadata.rs:153-171: the info bytes *)
Definition info_bytes (m : metadata) : result (list N) :=
  match m with
  | FNM x | SNM x => ROk x
  | FSZ x => ROk (be_bytes 8 x)
  | FDT x | SDT x => ROk (be_bytes 8 (i64_bits x))
  | HSH h => hash_bytes_to_bytes h
  | RSD x | RSP x => ROk [x]
  end.

(* src/sbx_block/metadata.rs:131-174: bytes written for one field into a buffer with
   [cap] bytes left. `info_size as u8` truncates. *)
Definition single_to_bytes (m : metadata) (cap : N) : result (list N) :=
  if cap <? single_meta_size m then RErr TooMuchMetadata
  else match info_bytes m with
       | ROk info => ROk (id_to_bytes (meta_to_id m) ++ [u8 (single_info_size m)] ++ info)
       | RErr e => RErr e
       | RPanic => RPanic
       end.

(* src/sbx_block/metadata.rs:176-195: content of a buffer of [cap] bytes. On error the real
   buffer is left partly written; callers discard it. *)
Fixpoint metas_to_bytes (ms : list metadata) (cap : N) : result (list N) :=
  match ms with
  | [] => ROk (repN cap 26)
  | m :: ms' =>
      match single_to_bytes m cap with
      | ROk b =>
          match metas_to_bytes ms' (cap - lenN b) with
          | ROk r => ROk (b ++ r)
          | RErr e => RErr e
          | RPanic => RPanic
          end
      | RErr e => RErr e
      | RPanic => RPanic
      end
  end.

(* src/sbx_block/metadata.rs:238-252: numeric field parser; [width] is the value `n` must have *)
Definition num_p (id : metadata_id) (width : N) (mk : N -> metadata) (bs : list N)
  : option (metadata * list N) :=
  match tag_p (id_to_bytes id) bs with
  | Some (n :: r) =>
      if (1 <=? n) && (n =? width) then
        match take_p width r with
        | Some (d, r') => Some (mk (be_val d), r')
        | None => None
        end
      else None
  | _ => None
  end.

(* src/sbx_block/metadata.rs:253-265: string field parser *)
Definition str_p (id : metadata_id) (mk : list N -> metadata) (bs : list N)
  : option (metadata * list N) :=
  match tag_p (id_to_bytes id) bs with
  | Some (n :: r) =>
      if 1 <=? n then
        match take_p n r with
        | Some (d, r') => Some (mk d, r')
        | None => None
        end
      else None
  | _ => None
  end.

(* src/sbx_block/metadata.rs:276-279 *)
Definition hsh_p (bs : list N) : option (metadata * list N) :=
  match tag_p (id_to_bytes IHSH) bs with
  | Some r => match multihash_w_len_p r with
              | Some (h, r') => Some (HSH h, r')
              | None => None
              end
  | None => None
  end.

(* src/sbx_block/metadata.rs:268-274,283-292 *)
Definition single_meta_p : list N -> option (metadata * list N) :=
  alt_p (str_p IFNM FNM)
  (alt_p (str_p ISNM SNM)
  (alt_p (num_p IFSZ 8 FSZ)
  (alt_p (num_p IFDT 8 (fun n => FDT (bits_i64 n)))
  (alt_p (num_p ISDT 8 (fun n => SDT (bits_i64 n)))
  (alt_p hsh_p
  (alt_p (num_p IRSD 1 RSD)
         (num_p IRSP 1 RSP))))))).

(* src/sbx_block/metadata.rs:281-294: nom many0!. Every success consumes input, so the length
   of the input is enough fuel. *)
Fixpoint many0_meta (fuel : nat) (bs : list N) : list metadata :=
  match fuel with
  | O => []
  | S f => match single_meta_p bs with
           | None => []
           | Some (m, r) => m :: many0_meta f r
           end
  end.
Definition meta_p (bs : list N) : list metadata := many0_meta (length bs) bs.

(* String::from_utf8 (Rust standard library): well-formed UTF-8. *)
Definition inr (lo hi x : N) : bool := (lo <=? x) && (x <=? hi).
Fixpoint utf8_valid (l : list N) : bool :=
  match l with
  | [] => true
  | a :: t =>
      if a <? 128 then utf8_valid t
      else if inr 194 223 a then
        match t with b :: t' => inr 128 191 b && utf8_valid t' | _ => false end
      else if inr 224 239 a then
        match t with
        | b :: c :: t' =>
            (if a =? 224 then inr 160 191 b else if a =? 237 then inr 128 159 b else inr 128 191 b)
            && inr 128 191 c && utf8_valid t'
        | _ => false
        end
      else if inr 240 244 a then
        match t with
        | b :: c :: d :: t' =>
            (if a =? 240 then inr 144 191 b else if a =? 244 then inr 128 143 b else inr 128 191 b)
            && inr 128 191 c && inr 128 191 d && utf8_valid t'
        | _ => false
        end
      else false
  end.

(* src/sbx_block/metadata.rs:305-340: which fields are kept *)
Definition keep_meta (m : metadata) : bool :=
  match m with
  | FNM x | SNM x => utf8_valid x
  | FSZ _ | FDT _ | SDT _ | HSH _ => true
  | RSD d => 1 <=? d
  | RSP p => 1 <=? p
  end.

(* src/sbx_block/metadata.rs:301-302,319-337: first recorded RSD / RSP value *)
Fixpoint first_rsd (ms : list metadata) : option N :=
  match ms with
  | [] => None
  | RSD d :: ms' => if 1 <=? d then Some d else first_rsd ms'
  | _ :: ms' => first_rsd ms'
  end.
Fixpoint first_rsp (ms : list metadata) : option N :=
  match ms with
  | [] => None
  | RSP p :: ms' => if 1 <=? p then Some p else first_rsp ms'
  | _ :: ms' => first_rsp ms'
  end.

Definition is_rs_meta (m : metadata) : bool :=
  match m with RSD _ | RSP _ => true | _ => false end.

(* src/sbx_block/metadata.rs:297-359 *)
Definition filter_invalid_metadata (input : list metadata) : list metadata :=
  let res := filter keep_meta input in
  match first_rsd input, first_rsp input with
  | Some d, Some p => if 256 <? d + p then filter (fun m => negb (is_rs_meta m)) res else res
  | _, _ => res
  end.

(* src/sbx_block/metadata.rs:361-366; meta_p never fails *)
Definition metas_from_bytes (bs : list N) : list metadata := filter_invalid_metadata (meta_p bs).

(* src/sbx_block/metadata.rs:368-375 *)
Fixpoint get_meta_by_id (ms : list metadata) (i : metadata_id) : option metadata :=
  match ms with
  | [] => None
  | m :: ms' => if metadata_id_eqb (meta_to_id m) i then Some m else get_meta_by_id ms' i
  end.

(* src/sbx_block/mod.rs:697-710: update_meta on the list (replace first match or push) *)
Fixpoint update_meta_list (ms : list metadata) (m : metadata) : list metadata :=
  match ms with
  | [] => [m]
  | x :: ms' => if metadata_id_eqb (meta_to_id x) (meta_to_id m) then m :: ms'
                else x :: update_meta_list ms' m
  end.
(* src/sbx_block/mod.rs:712-719 *)
Definition update_metas_list (ms us : list metadata) : list metadata :=
  fold_left update_meta_list us ms.
(* src/sbx_block/mod.rs:721-729 *)
Definition remove_metas_list (ms : list metadata) (ids : list metadata_id) : list metadata :=
  filter (fun m => negb (existsb (metadata_id_eqb (meta_to_id m)) ids)) ms.
