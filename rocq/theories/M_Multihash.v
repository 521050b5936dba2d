(* Model of src/multihash.rs (types, parameters, serialisation, parser). The hash functions
   themselves (external crates) are not modelled. *)
From Verif Require Import M_Base.

(* src/multihash.rs:3-16 *)
Inductive hash_type :=
| SHA1 | SHA2_256 | SHA256 | SHA2_512_256 | SHA2_512_512 | SHA512
| BLAKE2B_256 | BLAKE2B_512 | BLAKE2S_128 | BLAKE2S_256.

(* src/multihash.rs:18 *)
Definition hash_bytes := (hash_type * list N)%type.

(* src/multihash.rs:91-95 *)
Record hparam := mkParam { hash_func_type : list N; digest_length : N }.

(* src/multihash.rs:108-124 *)
Definition SHA1_PARAM := mkParam [17] 20.
Definition SHA256_PARAM := mkParam [18] 32.
Definition SHA2_512_256_PARAM := mkParam [19] 32.
Definition SHA512_PARAM := mkParam [19] 64.
Definition BLAKE2B_256_PARAM := mkParam [178; 32] 32.
Definition BLAKE2B_512_PARAM := mkParam [178; 64] 64.
Definition BLAKE2S_128_PARAM := mkParam [178; 80] 16.
Definition BLAKE2S_256_PARAM := mkParam [178; 96] 32.

(* src/multihash.rs:127-139 *)
Definition param_new (t : hash_type) : hparam :=
  match t with
  | SHA1 => SHA1_PARAM
  | SHA2_256 | SHA256 => SHA256_PARAM
  | SHA2_512_256 => SHA2_512_256_PARAM
  | SHA2_512_512 | SHA512 => SHA512_PARAM
  | BLAKE2B_256 => BLAKE2B_256_PARAM
  | BLAKE2B_512 => BLAKE2B_512_PARAM
  | BLAKE2S_128 => BLAKE2S_128_PARAM
  | BLAKE2S_256 => BLAKE2S_256_PARAM
  end.

(* src/multihash.rs:141-143 *)
Definition total_length (p : hparam) : N := lenN (hash_func_type p) + 1 + digest_length p.

(* src/multihash.rs:64-78: bytes written; indexing a digest that is too short panics. *)
Definition hash_bytes_to_bytes (h : hash_bytes) : result (list N) :=
  let p := param_new (fst h) in
  if lenN (snd h) <? digest_length p then RPanic
  else ROk (hash_func_type p ++ [digest_length p] ++ takeN (digest_length p) (snd h)).

(* nom `tag!`: the input must start with the given bytes; returns the rest. *)
Fixpoint tag_p (t : list N) (bs : list N) : option (list N) :=
  match t, bs with
  | [], _ => Some bs
  | x :: t', y :: bs' => if x =? y then tag_p t' bs' else None
  | _ :: _, [] => None
  end.

(* nom `take!` under `complete!`: fails on short input. *)
Definition take_p (n : N) (bs : list N) : option (list N * list N) :=
  if lenN bs <? n then None else Some (takeN n bs, dropN n bs).

(* src/multihash.rs:329-344: parser for one hash type *)
Definition hash_p_w_len (t : hash_type) (p : hparam) (bs : list N) : option (hash_bytes * list N) :=
  match tag_p ([u8 (total_length p)] ++ hash_func_type p ++ [digest_length p]) bs with
  | None => None
  | Some r => match take_p (digest_length p) r with
              | None => None
              | Some (d, r') => Some ((t, d), r')
              end
  end.

(* nom `alt!` of two parsers *)
Definition alt_p {A} (a b : list N -> option (A * list N)) (bs : list N) : option (A * list N) :=
  match a bs with Some r => Some r | None => b bs end.

(* src/multihash.rs:346-386 *)
Definition multihash_w_len_p : list N -> option (hash_bytes * list N) :=
  alt_p (hash_p_w_len SHA1 SHA1_PARAM)
  (alt_p (hash_p_w_len SHA256 SHA256_PARAM)
  (alt_p (hash_p_w_len SHA2_512_256 SHA2_512_256_PARAM)
  (alt_p (hash_p_w_len SHA512 SHA512_PARAM)
  (alt_p (hash_p_w_len BLAKE2B_256 BLAKE2B_256_PARAM)
  (alt_p (hash_p_w_len BLAKE2B_512 BLAKE2B_512_PARAM)
  (alt_p (hash_p_w_len BLAKE2S_128 BLAKE2S_128_PARAM)
         (hash_p_w_len BLAKE2S_256 BLAKE2S_256_PARAM))))))).
