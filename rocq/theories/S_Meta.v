(* Specification vocabulary for metadata fields and stored hashes. *)
From Verif Require Import M_Base M_Multihash M_Metadata.

(* Published identifier bytes and digest length of each stored hash (SBX_FORMAT.md). *)
Definition hash_code (t : hash_type) : list N :=
  match t with
  | SHA1 => [17]
  | SHA2_256 | SHA256 => [18]
  | SHA2_512_256 | SHA2_512_512 | SHA512 => [19]
  | BLAKE2B_256 => [178; 32] | BLAKE2B_512 => [178; 64]
  | BLAKE2S_128 => [178; 80] | BLAKE2S_256 => [178; 96]
  end.
Definition hash_len (t : hash_type) : N :=
  match t with
  | SHA1 => 20
  | BLAKE2S_128 => 16
  | SHA2_256 | SHA256 | SHA2_512_256 | BLAKE2B_256 | BLAKE2S_256 => 32
  | SHA2_512_512 | SHA512 | BLAKE2B_512 => 64
  end.
(* aliases *)
Definition canon_hash (t : hash_type) : hash_type :=
  match t with SHA2_256 => SHA256 | SHA2_512_512 => SHA512 | _ => t end.

(* A field a user can ask to store: names are non-empty UTF-8 of at most 255 bytes, numbers fit
   their types, the digest has the right length, shard counts are 1..255. *)
Definition field_ok (m : metadata) : Prop :=
  match m with
  | FNM s | SNM s => 1 <= lenN s <= 255 /\ utf8_valid s = true /\ bytes_ok s = true
  | FSZ x => x < 2 ^ 64
  | FDT x | SDT x => (- 2 ^ 63 <= x < 2 ^ 63)%Z
  | HSH (t, d) => lenN d = hash_len t /\ bytes_ok d = true
  | RSD x | RSP x => 1 <= x <= 255
  end.
(* A field as far as the types of the program go: names are UTF-8 texts of any length, shard counts any byte. *)
Definition value_ok (m : metadata) : Prop :=
  match m with
  | FNM s | SNM s => utf8_valid s = true /\ bytes_ok s = true
  | RSD x | RSP x => x <= 255
  | _ => field_ok m
  end.
(* Bytes a field takes in the payload: 3 byte tag, 1 byte length, value. *)
Definition field_size (m : metadata) : N :=
  4 + match m with
      | FNM s | SNM s => lenN s
      | FSZ _ | FDT _ | SDT _ => 8
      | HSH (t, _) => lenN (hash_code t) + 1 + hash_len t
      | RSD _ | RSP _ => 1
      end.
Definition fields_size (ms : list metadata) : N := fold_right (fun m a => field_size m + a) 0 ms.
(* What comes back for a field: the same value, hash aliases resolved. *)
Definition canon_field (m : metadata) : metadata :=
  match m with HSH (t, d) => HSH (canon_hash t, d) | _ => m end.
(* The first recorded data and parity shard counts are compatible. *)
Definition shards_ok (ms : list metadata) : Prop :=
  forall d p, get_meta_by_id ms IRSD = Some (RSD d) -> get_meta_by_id ms IRSP = Some (RSP p) -> d + p <= 256.
(* m is the first field of ms with identifier i *)
Definition first_with (ms : list metadata) (i : metadata_id) (m : metadata) : Prop :=
  exists pre post, ms = pre ++ m :: post /\ meta_to_id m = i /\ (forall x, In x pre -> meta_to_id x <> i).

(* UTF-8: the encoding of a Unicode scalar value, and texts *)
Definition scalar (cp : N) : Prop := cp < 0xD800 \/ 0xE000 <= cp < 0x110000.
Definition utf8_enc (cp : N) : list N :=
  if cp <? 0x80 then [cp]
  else if cp <? 0x800 then [192 + cp / 64; 128 + cp mod 64]
  else if cp <? 0x10000 then [224 + cp / 4096; 128 + cp / 64 mod 64; 128 + cp mod 64]
  else [240 + cp / 262144; 128 + cp / 4096 mod 64; 128 + cp / 64 mod 64; 128 + cp mod 64].
Definition is_utf8 (s : list N) : Prop := exists cps, Forall scalar cps /\ s = flat_map utf8_enc cps.
