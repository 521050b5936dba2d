(* Model of src/sbx_specs.rs. *)
From Verif Require Import M_Base.

(* src/sbx_specs.rs:22-30 *)
Inductive version := V1 | V2 | V3 | V17 | V18 | V19.

(* derive(PartialEq) on Version, src/sbx_specs.rs:22 *)
Definition version_eqb (a b : version) : bool :=
  match a, b with
  | V1, V1 | V2, V2 | V3, V3 | V17, V17 | V18, V18 | V19, V19 => true
  | _, _ => false
  end.

(* src/sbx_specs.rs:2 *)
Definition SBX_LARGEST_BLOCK_SIZE : N := 4096.
(* src/sbx_specs.rs:4 *)
Definition SBX_FIRST_DATA_SEQ_NUM : N := 1.
(* src/sbx_specs.rs:6 *)
Definition SBX_LAST_SEQ_NUM : N := U32_MAX.
(* src/sbx_specs.rs:10 *)
Definition SBX_SCAN_BLOCK_SIZE : N := 128.
(* src/sbx_specs.rs:12,35 *)
Definition SBX_FILE_UID_LEN : N := 6.
(* src/sbx_specs.rs:14,36: b"SBx" *)
Definition SBX_SIGNATURE : list N := [83; 66; 120].
(* src/sbx_specs.rs:16,37 *)
Definition SBX_HEADER_SIZE : N := 16.
(* src/sbx_specs.rs:18 *)
Definition SBX_MAX_DATA_BLOCK_COUNT : N := U32_MAX.
(* src/sbx_specs.rs:20 *)
Definition SBX_MAX_BURST_ERR_RESISTANCE : N := 1000.

(* src/sbx_specs.rs:83-93 *)
Definition ver_to_usize (v : version) : N :=
  match v with V1 => 1 | V2 => 2 | V3 => 3 | V17 => 17 | V18 => 18 | V19 => 19 end.

(* src/sbx_specs.rs:41-81,108-118 *)
Definition ver_to_block_size (v : version) : N :=
  match v with
  | V1 | V17 => 512
  | V2 | V18 => 128
  | V3 | V19 => 4096
  end.

(* src/sbx_specs.rs:41-81,120-130 *)
Definition ver_to_data_size (v : version) : N :=
  ver_to_block_size v - SBX_HEADER_SIZE.

(* src/sbx_specs.rs:132-138 *)
Definition ver_uses_rs (v : version) : bool :=
  match v with V1 | V2 | V3 => false | V17 | V18 | V19 => true end.

(* src/sbx_specs.rs:140-146 *)
Definition ver_forces_meta_enabled (v : version) : bool :=
  match v with V1 | V2 | V3 => false | V17 | V18 | V19 => true end.

(* Option<(usize, usize, usize)>: data shards, parity shards, burst level. *)
Definition dpb := option (N * N * N).

(* src/sbx_specs.rs:148-163; assertion failures and unwrap of None are panics;
   `(data + parity) as u32` truncates, division by zero panics. *)
Definition ver_to_max_block_set_count (v : version) (o : dpb) : result (option N) :=
  if ver_uses_rs v then
    match o with
    | None => RPanic
    | Some (d, p, _) =>
        let s := u32 (d + p) in
        if s =? 0 then RPanic else ROk (Some (SBX_MAX_DATA_BLOCK_COUNT / s))
    end
  else match o with None => ROk None | Some _ => RPanic end.

(* src/sbx_specs.rs:165-181; u32 arithmetic (exact for the values that occur:
   sets * size <= u32::MAX). *)
Definition ver_to_last_data_seq_num_exc_parity (v : version) (o : dpb) : result N :=
  if ver_uses_rs v then
    match o with
    | None => RPanic
    | Some (d, p, _) =>
        match ver_to_max_block_set_count v o with
        | ROk (Some sets) => ROk (u32 (u32 (sets * u32 (d + p)) - u32 p))
        | _ => RPanic
        end
    end
  else match o with None => ROk SBX_LAST_SEQ_NUM | Some _ => RPanic end.

(* src/sbx_specs.rs:183-201 *)
Definition ver_to_max_data_file_size (v : version) (o : dpb) : result N :=
  let data_size := ver_to_data_size v in
  if ver_uses_rs v then
    match o with
    | None => RPanic
    | Some (d, p, _) =>
        match ver_to_max_block_set_count v o with
        | ROk (Some sets) => ROk (sets * d * data_size)
        | _ => RPanic
        end
    end
  else match o with None => ROk (SBX_MAX_DATA_BLOCK_COUNT * data_size) | Some _ => RPanic end.
