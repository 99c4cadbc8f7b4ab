(* What MessagePack bytes mean, and what they mean as records: a spec apart from the readers and
   writers of the model. *)
From Coq Require Import List Ascii String NArith ZArith Bool.
From Verif Require Import Str_Model Pack_Model.
Import ListNotations.
Local Open Scope list_scope.
Local Open Scope N_scope.

(* --- the format: values and the bytes that stand for them --- *)

(* A value of the format (https://github.com/msgpack/msgpack, not in /repo), as read by
   src/common/proto/msg/metadata_gen.go 1177-1283. *)
Inductive value :=
| VNil
| VBool (b : bool)
| VInt (z : Z)
| VFloat (bits : N)
| VFloat32 (bits : N)
| VText (s : str)
| VBin (s : bytes)
| VExt (b : bytes)
| VArr (l : list value)
| VMap (l : list (value * value)).

(* The number a run of bytes stands for, highest byte first (src/common/proto/msg/metadata_gen.go 1201). *)
Fixpoint number (b : bytes) : N :=
  match b with
  | [] => 0
  | c :: b => N_of_ascii c * 2 ^ (8 * N.of_nat (List.length b)) + number b
  end.

(* The same as a signed number: two's complement (src/common/proto/msg/metadata_gen.go 1201). *)
Definition two (b : bytes) : Z :=
  let bits := (8 * Z.of_nat (List.length b))%Z in
  let n := Z.of_N (number b) in
  if (n <? 2 ^ (bits - 1))%Z then n else (n - 2 ^ bits)%Z.

(* The bytes of an integer: one byte, or a mark and 1, 2, 4 or 8 bytes, unsigned or signed
   (src/common/proto/msg/metadata_gen.go 1201-1237). *)
Inductive int_bytes : Z -> bytes -> Prop :=
| I_pos n : n < 128 -> int_bytes (Z.of_N n) [ascii_of_N n]
| I_neg n : 224 <= n < 256 -> int_bytes (Z.of_N n - 256)%Z [ascii_of_N n]
| I_unsigned k m b : In (k, m) [(1%nat, 0xcc); (2%nat, 0xcd); (4%nat, 0xce); (8%nat, 0xcf)] ->
    List.length b = k -> int_bytes (Z.of_N (number b)) (ascii_of_N m :: b)
| I_signed k m b : In (k, m) [(1%nat, 0xd0); (2%nat, 0xd1); (4%nat, 0xd2); (8%nat, 0xd3)] ->
    List.length b = k -> int_bytes (two b) (ascii_of_N m :: b).

(* A count before what it counts: in the mark itself, or behind a mark
   (src/common/proto/msg/metadata_gen.go 1181-1256). *)
Inductive head (base max : N) (marks : list (nat * N)) : N -> bytes -> Prop :=
| H_small n : n < max -> head base max marks n [ascii_of_N (base + n)]
| H_large k m b : In (k, m) marks -> List.length b = k -> head base max marks (number b) (ascii_of_N m :: b).

(* The heads of strings, bytes, extensions, arrays and maps
   (src/common/proto/msg/metadata_gen.go 1181-1274). *)
Definition text_head := head 0xa0 32 [(1%nat, 0xd9); (2%nat, 0xda); (4%nat, 0xdb)].
Definition bin_head := head 0 0 [(1%nat, 0xc4); (2%nat, 0xc5); (4%nat, 0xc6)].
Definition ext_head := head 0 0 [(1%nat, 0xc7); (2%nat, 0xc8); (4%nat, 0xc9)].
Definition arr_head := head 0x90 16 [(2%nat, 0xdc); (4%nat, 0xdd)].
Definition map_head := head 0x80 16 [(2%nat, 0xde); (4%nat, 0xdf)].

(* The keys and values of a map in the order they are written
   (src/common/proto/msg/metadata_gen.go 1186-1280). *)
Fixpoint flat (l : list (value * value)) : list value :=
  match l with
  | [] => []
  | (k, x) :: l => k :: x :: flat l
  end.

(* Which bytes stand for a value; there is more than one choice for most
   (src/common/proto/msg/metadata_gen.go 1177-1283). *)
Inductive packs : value -> bytes -> Prop :=
| P_nil : packs VNil [ascii_of_N 0xc0]
| P_false : packs (VBool false) [ascii_of_N 0xc2]
| P_true : packs (VBool true) [ascii_of_N 0xc3]
| P_int z b : int_bytes z b -> packs (VInt z) b
| P_float b : List.length b = 8%nat -> packs (VFloat (number b)) (ascii_of_N 0xcb :: b)
| P_float32 b : List.length b = 4%nat -> packs (VFloat32 (number b)) (ascii_of_N 0xca :: b)
| P_text s h : text_head (len s) h -> packs (VText s) (h ++ s)
| P_bin s h : bin_head (len s) h -> packs (VBin s) (h ++ s)
| P_ext n h b : ext_head n h -> len b = n + 1 -> packs (VExt b) (h ++ b)
| P_fixext k m b :
    In (k, m) [(1%nat, 0xd4); (2%nat, 0xd5); (4%nat, 0xd6); (8%nat, 0xd7); (16%nat, 0xd8)] ->
    List.length b = S k -> packs (VExt b) (ascii_of_N m :: b)
| P_arr l h b : arr_head (len l) h -> packs_all l b -> packs (VArr l) (h ++ b)
| P_map l h b : map_head (len l) h -> packs_all (flat l) b -> packs (VMap l) (h ++ b)
with packs_all : list value -> bytes -> Prop :=
| P_none : packs_all [] []
| P_more x l b c : packs x b -> packs_all l c -> packs_all (x :: l) (b ++ c).

(* --- values as fields of records --- *)

(* Ranges of the Go types (src/common/proto/msg/metadata.go 28-40). *)
Definition fits_int (bits : Z) (z : Z) : Prop := (- 2 ^ (bits - 1) <= z < 2 ^ (bits - 1))%Z.
Definition fits_uint (bits : N) (n : N) : Prop := n < 2 ^ bits.
Definition fits_text (s : str) : Prop := len s < 2 ^ 32.
Definition fits_texts (l : list str) : Prop := len l < 2 ^ 32 /\ Forall fits_text l.
Definition fits_pointer {A} (ok : A -> Prop) (p : option A) : Prop :=
  match p with
  | None => True
  | Some x => ok x
  end.

(* A value as one of a Go type (src/common/proto/msg/metadata.go 28-40). *)
Definition as_bool (x : value) : option bool := match x with VBool b => Some b | _ => None end.
Definition as_int (bits : Z) (x : value) : option Z :=
  match x with
  | VInt z => if ((- 2 ^ (bits - 1) <=? z) && (z <? 2 ^ (bits - 1)))%Z then Some z else None
  | _ => None
  end.
Definition as_uint (bits : N) (x : value) : option N :=
  match x with
  | VInt z => if ((0 <=? z) && (z <? 2 ^ Z.of_N bits))%Z then Some (Z.to_N z) else None
  | _ => None
  end.
Definition as_float (widen : N -> N) (x : value) : option N :=
  match x with
  | VFloat n => Some n
  | VFloat32 n => Some (widen n)
  | _ => None
  end.
Definition as_text (x : value) : option str := match x with VText s => Some s | _ => None end.
Fixpoint all_texts (l : list value) : option (list str) :=
  match l with
  | [] => Some []
  | VText s :: l => match all_texts l with Some t => Some (s :: t) | None => None end
  | _ => None
  end.
Definition as_texts (x : value) : option (list str) := match x with VArr l => all_texts l | _ => None end.

(* A value that replaces the old one; a pointer is nil or a record laid over the old one
   (src/metaserver/internal/entity/raft_data_gen.go 421-435). *)
Definition only {A} (as_ : value -> option A) (old : A) (x : value) : option A := as_ x.
Definition as_pointer {A} (zero : A) (of : value -> A -> option A) (old : option A) (x : value)
    : option (option A) :=
  match x with
  | VNil => Some None
  | _ => option_map Some (of x (match old with Some o => o | None => zero end))
  end.

(* The fields of a map by name: a key is text or bytes (src/common/proto/msg/metadata_gen.go 1188). *)
Fixpoint names_of (l : list (value * value)) : option (list (str * value)) :=
  match l with
  | [] => Some []
  | (VText k, x) :: l | (VBin k, x) :: l =>
      match names_of l with Some fs => Some ((k, x) :: fs) | None => None end
  | _ => None
  end.

(* What a field holds in the end: the old value where the map does not have its name, and each value
   under its name laid over the one before (src/common/proto/msg/metadata_gen.go 1186-1280). *)
Fixpoint slot {A} (as_ : A -> value -> option A) (name : string) (fs : list (str * value)) (old : A)
    : option A :=
  match fs with
  | [] => Some old
  | (k, x) :: fs =>
      match (if str_eqb k (s2l name) then as_ old x else Some old) with
      | None => None
      | Some new => slot as_ name fs new
      end
  end.

(* A record out of what its fields hold, if all of them hold something
   (src/common/proto/msg/metadata_gen.go 1177-1283). *)
Definition ap {A B} (f : option (A -> B)) (x : option A) : option B :=
  match f, x with
  | Some f, Some x => Some (f x)
  | _, _ => None
  end.
Notation "f <*> x" := (ap f x) (at level 61, left associativity).

(* A map with names for keys, taken for its fields (src/common/proto/msg/metadata_gen.go 1181-1190). *)
Definition meaning {A} (x : value) (f : list (str * value) -> option A) : option A :=
  match x with
  | VMap l => match names_of l with Some fs => f fs | None => None end
  | _ => None
  end.

(* Values for fields of records (src/common/proto/msg/metadata_gen.go 1134-1174). *)
Definition named (name : string) (x : value) : value * value := (VText (s2l name), x).
Definition uint_value (n : N) : value := VInt (Z.of_N n).
Definition texts_value (l : list str) : value := VArr (map VText l).
Definition pointer_value {A} (f : A -> value) (p : option A) : value :=
  match p with
  | None => VNil
  | Some x => f x
  end.

(* --- the records --- *)

(* What a map means as `Extra`: src/common/proto/msg/metadata.go 10-14. *)
Definition extra_of (x : value) (old : extra) : option extra :=
  meaning x (fun fs => Some MkExtra
    <*> slot (only (as_int 64)) "total" fs (x_total old)
    <*> slot (only (as_int 64)) "first_version" fs (x_first old)
    <*> slot (only (as_int 64)) "last_version" fs (x_last old)).

(* The fields are of their types: src/common/proto/msg/metadata.go 10-14. *)
Definition extra_ok (z : extra) : Prop :=
  fits_int 64 (x_total z) /\
  fits_int 64 (x_first z) /\
  fits_int 64 (x_last z).

(* `Extra` as a map: src/common/proto/msg/metadata.go 10-14. *)
Definition extra_value (z : extra) : value :=
  VMap [
    named "total" (VInt (x_total z));
    named "first_version" (VInt (x_first z));
    named "last_version" (VInt (x_last z)) ].

(* What a map means as `Metadata`: src/common/proto/msg/metadata.go 16-22. *)
Definition metadata_of (x : value) (old : metadata) : option metadata :=
  meaning x (fun fs => Some MkMetadata
    <*> slot (as_pointer zero_extra extra_of) "Extra" fs (m_extra old)
    <*> slot (only as_text) "name" fs (m_name old)
    <*> slot (only as_text) "bucket" fs (m_bucket old)
    <*> slot (only (as_int 64)) "create_time" fs (m_create old)
    <*> slot (only (as_int 64)) "update_time" fs (m_update old)).

(* The fields are of their types: src/common/proto/msg/metadata.go 16-22. *)
Definition metadata_ok (z : metadata) : Prop :=
  fits_pointer extra_ok (m_extra z) /\
  fits_text (m_name z) /\
  fits_text (m_bucket z) /\
  fits_int 64 (m_create z) /\
  fits_int 64 (m_update z).

(* `Metadata` as a map: src/common/proto/msg/metadata.go 16-22. *)
Definition metadata_value (z : metadata) : value :=
  VMap [
    named "Extra" (pointer_value extra_value (m_extra z));
    named "name" (VText (m_name z));
    named "bucket" (VText (m_bucket z));
    named "create_time" (VInt (m_create z));
    named "update_time" (VInt (m_update z)) ].

(* What a map means as `Version`: src/common/proto/msg/metadata.go 28-40. *)
Definition version_of (x : value) (old : version) : option version :=
  meaning x (fun fs => Some MkVersion
    <*> slot (only as_bool) "compress" fs (v_compress old)
    <*> slot (only (as_int 8)) "store_strategy" fs (v_strategy old)
    <*> slot (only (as_int 32)) "data_shards" fs (v_data old)
    <*> slot (only (as_int 32)) "parity_shards" fs (v_parity old)
    <*> slot (only (as_int 64)) "shard_size" fs (v_shard old)
    <*> slot (only (as_int 64)) "size" fs (v_size old)
    <*> slot (only (as_int 64)) "ts" fs (v_ts old)
    <*> slot (only (as_uint 64)) "sequence" fs (v_sequence old)
    <*> slot (only as_text) "hash" fs (v_hash old)
    <*> slot (only as_text) "uniqueId" fs (v_unique old)
    <*> slot (only as_texts) "locate" fs (v_locate old)).

(* The fields are of their types: src/common/proto/msg/metadata.go 28-40. *)
Definition version_ok (z : version) : Prop :=
  fits_int 8 (v_strategy z) /\
  fits_int 32 (v_data z) /\
  fits_int 32 (v_parity z) /\
  fits_int 64 (v_shard z) /\
  fits_int 64 (v_size z) /\
  fits_int 64 (v_ts z) /\
  fits_uint 64 (v_sequence z) /\
  fits_text (v_hash z) /\
  fits_text (v_unique z) /\
  fits_texts (v_locate z).

(* `Version` as a map: src/common/proto/msg/metadata.go 28-40. *)
Definition version_value (z : version) : value :=
  VMap [
    named "compress" (VBool (v_compress z));
    named "store_strategy" (VInt (v_strategy z));
    named "data_shards" (VInt (v_data z));
    named "parity_shards" (VInt (v_parity z));
    named "shard_size" (VInt (v_shard z));
    named "size" (VInt (v_size z));
    named "ts" (VInt (v_ts z));
    named "sequence" (uint_value (v_sequence z));
    named "hash" (VText (v_hash z));
    named "uniqueId" (VText (v_unique z));
    named "locate" (texts_value (v_locate z)) ].

(* What a map means as `Bucket`: src/common/proto/msg/metadata.go 46-58. *)
Definition bucket_of (x : value) (old : bucket) : option bucket :=
  meaning x (fun fs => Some MkBucket
    <*> slot (only as_bool) "versioning" fs (b_versioning old)
    <*> slot (only as_bool) "readonly" fs (b_readonly old)
    <*> slot (only as_bool) "compress" fs (b_compress old)
    <*> slot (only (as_int 8)) "store_strategy" fs (b_strategy old)
    <*> slot (only (as_int 32)) "data_shards" fs (b_data old)
    <*> slot (only (as_int 32)) "parity_shards" fs (b_parity old)
    <*> slot (only (as_int 32)) "version_remains" fs (b_remains old)
    <*> slot (only (as_int 64)) "create_time" fs (b_create old)
    <*> slot (only (as_int 64)) "update_time" fs (b_update old)
    <*> slot (only as_text) "name" fs (b_name old)
    <*> slot (only as_texts) "policies" fs (b_policies old)).

(* The fields are of their types: src/common/proto/msg/metadata.go 46-58. *)
Definition bucket_ok (z : bucket) : Prop :=
  fits_int 8 (b_strategy z) /\
  fits_int 32 (b_data z) /\
  fits_int 32 (b_parity z) /\
  fits_int 32 (b_remains z) /\
  fits_int 64 (b_create z) /\
  fits_int 64 (b_update z) /\
  fits_text (b_name z) /\
  fits_texts (b_policies z).

(* `Bucket` as a map: src/common/proto/msg/metadata.go 46-58. *)
Definition bucket_value (z : bucket) : value :=
  VMap [
    named "versioning" (VBool (b_versioning z));
    named "readonly" (VBool (b_readonly z));
    named "compress" (VBool (b_compress z));
    named "store_strategy" (VInt (b_strategy z));
    named "data_shards" (VInt (b_data z));
    named "parity_shards" (VInt (b_parity z));
    named "version_remains" (VInt (b_remains z));
    named "create_time" (VInt (b_create z));
    named "update_time" (VInt (b_update z));
    named "name" (VText (b_name z));
    named "policies" (texts_value (b_policies z)) ].

(* What a map means as `RaftData`: src/metaserver/internal/entity/raft_data.go 24-33. *)
Definition raft_data_of (x : value) (old : raft_data) : option raft_data :=
  meaning x (fun fs => Some MkRaft
    <*> slot (only (as_int 8)) "type" fs (r_type old)
    <*> slot (only (as_int 8)) "dest" fs (r_dest old)
    <*> slot (only as_text) "name" fs (r_name old)
    <*> slot (only (as_uint 64)) "sequence" fs (r_sequence old)
    <*> slot (as_pointer zero_version version_of) "version" fs (r_version old)
    <*> slot (as_pointer zero_metadata metadata_of) "metadata" fs (r_metadata old)
    <*> slot (as_pointer zero_bucket bucket_of) "bucket" fs (r_bucket old)).

(* The fields are of their types: src/metaserver/internal/entity/raft_data.go 24-33. *)
Definition raft_data_ok (z : raft_data) : Prop :=
  fits_int 8 (r_type z) /\
  fits_int 8 (r_dest z) /\
  fits_text (r_name z) /\
  fits_uint 64 (r_sequence z) /\
  fits_pointer version_ok (r_version z) /\
  fits_pointer metadata_ok (r_metadata z) /\
  fits_pointer bucket_ok (r_bucket z).

(* `RaftData` as a map: src/metaserver/internal/entity/raft_data.go 24-33. *)
Definition raft_data_value (z : raft_data) : value :=
  VMap [
    named "type" (VInt (r_type z));
    named "dest" (VInt (r_dest z));
    named "name" (VText (r_name z));
    named "sequence" (uint_value (r_sequence z));
    named "version" (pointer_value version_value (r_version z));
    named "metadata" (pointer_value metadata_value (r_metadata z));
    named "bucket" (pointer_value bucket_value (r_bucket z)) ].

(* What a map means as `SlotInfo`: src/common/hashslot/slot_info.go 5-9. *)
Definition slot_info_of (x : value) (old : slot_info) : option slot_info :=
  meaning x (fun fs => Some MkSlots
    <*> slot (only as_text) "id" fs (s_group old)
    <*> slot (only as_text) "server_id" fs (s_server old)
    <*> slot (only as_texts) "slots" fs (s_slots old)).

(* The fields are of their types: src/common/hashslot/slot_info.go 5-9. *)
Definition slot_info_ok (z : slot_info) : Prop :=
  fits_text (s_group z) /\
  fits_text (s_server z) /\
  fits_texts (s_slots z).

(* `SlotInfo` as a map: src/common/hashslot/slot_info.go 5-9. *)
Definition slot_info_value (z : slot_info) : value :=
  VMap [
    named "id" (VText (s_group z));
    named "server_id" (VText (s_server z));
    named "slots" (texts_value (s_slots z)) ].

(* What a map means as `AdminCredential`: src/apiserver/internal/usecase/componet/auth/credential/admin_credential.go 5-8. *)
Definition credential_of (x : value) (old : credential) : option credential :=
  meaning x (fun fs => Some MkCredential
    <*> slot (only as_text) "username" fs (c_username old)
    <*> slot (only as_text) "password" fs (c_password old)).

(* The fields are of their types: src/apiserver/internal/usecase/componet/auth/credential/admin_credential.go 5-8. *)
Definition credential_ok (z : credential) : Prop :=
  fits_text (c_username z) /\
  fits_text (c_password z).

(* `AdminCredential` as a map: src/apiserver/internal/usecase/componet/auth/credential/admin_credential.go 5-8. *)
Definition credential_value (z : credential) : value :=
  VMap [
    named "username" (VText (c_username z));
    named "password" (VText (c_password z)) ].

(* What a map means as `disk.Info`: src/common/system/disk/model.go 30-39. *)
Definition disk_info_of (x : value) (old : disk_info) : option disk_info :=
  meaning x (fun fs => Some MkDisk
    <*> slot (only (as_uint 64)) "total" fs (d_total old)
    <*> slot (only (as_uint 64)) "free" fs (d_free old)
    <*> slot (only (as_uint 64)) "used" fs (d_used old)
    <*> slot (only (as_uint 64)) "files" fs (d_files old)
    <*> slot (only (as_uint 64)) "f_free" fs (d_ffree old)
    <*> slot (only (as_uint 32)) "major" fs (d_major old)
    <*> slot (only (as_uint 32)) "minor" fs (d_minor old)
    <*> slot (only as_text) "fs_type" fs (d_fs old)).

(* The fields are of their types: src/common/system/disk/model.go 30-39. *)
Definition disk_info_ok (z : disk_info) : Prop :=
  fits_uint 64 (d_total z) /\
  fits_uint 64 (d_free z) /\
  fits_uint 64 (d_used z) /\
  fits_uint 64 (d_files z) /\
  fits_uint 64 (d_ffree z) /\
  fits_uint 32 (d_major z) /\
  fits_uint 32 (d_minor z) /\
  fits_text (d_fs z).

(* `disk.Info` as a map: src/common/system/disk/model.go 30-39. *)
Definition disk_info_value (z : disk_info) : value :=
  VMap [
    named "total" (uint_value (d_total z));
    named "free" (uint_value (d_free z));
    named "used" (uint_value (d_used z));
    named "files" (uint_value (d_files z));
    named "f_free" (uint_value (d_ffree z));
    named "major" (uint_value (d_major z));
    named "minor" (uint_value (d_minor z));
    named "fs_type" (VText (d_fs z)) ].

(* What a map means as `disk.IOStats`: src/common/system/disk/model.go 48-58. *)
Definition io_stats_of (x : value) (old : io_stats) : option io_stats :=
  meaning x (fun fs => Some MkIo
    <*> slot (only (as_uint 64)) "read_bytes" fs (i_rbytes old)
    <*> slot (only (as_uint 64)) "write_bytes" fs (i_wbytes old)
    <*> slot (only (as_uint 64)) "read_count" fs (i_rcount old)
    <*> slot (only (as_uint 64)) "write_count" fs (i_wcount old)
    <*> slot (only (as_uint 64)) "read_time" fs (i_rtime old)
    <*> slot (only (as_uint 64)) "write_time" fs (i_wtime old)
    <*> slot (only (as_uint 64)) "current_ios" fs (i_current old)
    <*> slot (only (as_uint 64)) "io_time" fs (i_time old)
    <*> slot (only (as_uint 64)) "weighted_io" fs (i_weighted old)).

(* The fields are of their types: src/common/system/disk/model.go 48-58. *)
Definition io_stats_ok (z : io_stats) : Prop :=
  fits_uint 64 (i_rbytes z) /\
  fits_uint 64 (i_wbytes z) /\
  fits_uint 64 (i_rcount z) /\
  fits_uint 64 (i_wcount z) /\
  fits_uint 64 (i_rtime z) /\
  fits_uint 64 (i_wtime z) /\
  fits_uint 64 (i_current z) /\
  fits_uint 64 (i_time z) /\
  fits_uint 64 (i_weighted z).

(* `disk.IOStats` as a map: src/common/system/disk/model.go 48-58. *)
Definition io_stats_value (z : io_stats) : value :=
  VMap [
    named "read_bytes" (uint_value (i_rbytes z));
    named "write_bytes" (uint_value (i_wbytes z));
    named "read_count" (uint_value (i_rcount z));
    named "write_count" (uint_value (i_wcount z));
    named "read_time" (uint_value (i_rtime z));
    named "write_time" (uint_value (i_wtime z));
    named "current_ios" (uint_value (i_current z));
    named "io_time" (uint_value (i_time z));
    named "weighted_io" (uint_value (i_weighted z)) ].

(* What a map means as `mem.Status`: src/common/system/mem/model.go 5-10. *)
Definition mem_status_of (x : value) (old : mem_status) : option mem_status :=
  meaning x (fun fs => Some MkMem
    <*> slot (only (as_uint 64)) "all" fs (e_all old)
    <*> slot (only (as_uint 64)) "used" fs (e_used old)
    <*> slot (only (as_uint 64)) "free" fs (e_free old)
    <*> slot (only (as_uint 64)) "self" fs (e_self old)).

(* The fields are of their types: src/common/system/mem/model.go 5-10. *)
Definition mem_status_ok (z : mem_status) : Prop :=
  fits_uint 64 (e_all z) /\
  fits_uint 64 (e_used z) /\
  fits_uint 64 (e_free z) /\
  fits_uint 64 (e_self z).

(* `mem.Status` as a map: src/common/system/mem/model.go 5-10. *)
Definition mem_status_value (z : mem_status) : value :=
  VMap [
    named "all" (uint_value (e_all z));
    named "used" (uint_value (e_used z));
    named "free" (uint_value (e_free z));
    named "self" (uint_value (e_self z)) ].

(* What a map means as `cpu.Stat`: src/common/system/cpu/model.go 5-9. *)
Definition cpu_stat_of (widen : N -> N) (x : value) (old : cpu_stat) : option cpu_stat :=
  meaning x (fun fs => Some MkCpu
    <*> slot (only (as_float widen)) "used_percent" fs (p_percent old)
    <*> slot (only (as_int 64)) "logical_count" fs (p_logical old)
    <*> slot (only (as_int 64)) "physical_count" fs (p_physical old)).

(* The fields are of their types: src/common/system/cpu/model.go 5-9. *)
Definition cpu_stat_ok (z : cpu_stat) : Prop :=
  fits_uint 64 (p_percent z) /\
  fits_int 64 (p_logical z) /\
  fits_int 64 (p_physical z).

(* `cpu.Stat` as a map: src/common/system/cpu/model.go 5-9. *)
Definition cpu_stat_value (z : cpu_stat) : value :=
  VMap [
    named "used_percent" (VFloat (p_percent z));
    named "logical_count" (VInt (p_logical z));
    named "physical_count" (VInt (p_physical z)) ].

(* What a map means as `system.Info`: src/common/system/system_info.go 11-16. *)
Definition system_info_of (widen : N -> N) (x : value) (old : system_info) : option system_info :=
  meaning x (fun fs => Some MkSystem
    <*> slot (as_pointer zero_disk_info disk_info_of) "DiskInfo" fs (y_disk old)
    <*> slot (as_pointer zero_mem_status mem_status_of) "MemStatus" fs (y_mem old)
    <*> slot (as_pointer zero_cpu_stat (cpu_stat_of widen)) "CpuStatus" fs (y_cpu old)
    <*> slot (as_pointer zero_io_stats io_stats_of) "IoStatus" fs (y_io old)).

(* The fields are of their types: src/common/system/system_info.go 11-16. *)
Definition system_info_ok (z : system_info) : Prop :=
  fits_pointer disk_info_ok (y_disk z) /\
  fits_pointer mem_status_ok (y_mem z) /\
  fits_pointer cpu_stat_ok (y_cpu z) /\
  fits_pointer io_stats_ok (y_io z).

(* `system.Info` as a map: src/common/system/system_info.go 11-16. *)
Definition system_info_value (z : system_info) : value :=
  VMap [
    named "DiskInfo" (pointer_value disk_info_value (y_disk z));
    named "MemStatus" (pointer_value mem_status_value (y_mem z));
    named "CpuStatus" (pointer_value cpu_stat_value (y_cpu z));
    named "IoStatus" (pointer_value io_stats_value (y_io z)) ].
