(* MessagePack bytes of the records goodfs keeps and sends: the generated functions
   `MarshalMsg` and `UnmarshalMsg`, and the parts of the library they call.

   Simplified: the library (github.com/tinylib/msgp) is not in /repo; its Append*, Read* and
   Skip functions are modelled from the MessagePack format and the calls in the generated code.
   `Msgsize` (a hint for the capacity of a buffer) and the wrapping of errors are left out, as
   are the twins `EncodeMsg`/`DecodeMsg` over streams.  A float is the number of its bits; how a
   float of four bytes becomes one of eight is the parameter `widen`.  The capacity of a slice
   is taken to be its length. *)
From Coq Require Import List Ascii String NArith ZArith Bool.
From Verif Require Import Str_Model.
Import ListNotations.
Local Open Scope list_scope.
Local Open Scope N_scope.

(* A buffer `[]byte`: src/common/proto/msg/metadata_gen.go 1134. *)
Definition bytes := list ascii.

(* One byte out of a number, and back: the literals of `append(o, 0x8b, …)` in
   src/common/proto/msg/metadata_gen.go 1138. *)
Definition chr (n : N) : ascii := ascii_of_N n.
Definition ord (c : ascii) : N := N_of_ascii c.

(* `len(s)` of a string or buffer: src/common/proto/msg/metadata_gen.go 1169. *)
Definition len {A} (l : list A) : N := N.of_nat (List.length l).

(* The k bytes of a number, highest first; numbers are cut to k bytes.
   Library, called from src/common/proto/msg/metadata_gen.go 1144-1171. *)
Fixpoint be (k : nat) (n : N) : bytes :=
  match k with
  | O => []
  | S k => chr (n / 256 ^ N.of_nat k mod 256) :: be k n
  end.

(* The number in a run of bytes, highest first.
   Library, called from src/common/proto/msg/metadata_gen.go 1201-1272. *)
Definition un_be (b : bytes) : N := fold_left (fun a c => a * 256 + ord c) b 0.

(* The first n bytes and the others; nothing when the buffer is short (`ErrShortBytes`).
   Library, called from src/common/proto/msg/metadata_gen.go 1201-1272. *)
Definition take (n : N) (b : bytes) : option (bytes * bytes) :=
  if len b <? n then None else Some (firstn (N.to_nat n) b, skipn (N.to_nat n) b).

(* The next k bytes as a number. Library, as above:
   src/common/proto/msg/metadata_gen.go 1201-1272. *)
Definition word (k : N) (b : bytes) : option (N * bytes) :=
  match take k b with
  | None => None
  | Some (p, r) => Some (un_be p, r)
  end.

(* A number of k bytes read as a signed one (two's complement). Library, called from
   src/common/proto/msg/metadata_gen.go 1201-1231. *)
Definition signed (k : N) (n : N) : Z :=
  if n <? 2 ^ (8 * k - 1) then Z.of_N n else (Z.of_N n - 2 ^ Z.of_N (8 * k))%Z.

(* --- what the library appends --- *)

(* `AppendNil`, `AppendBool`, `AppendFloat64`: src/common/proto/msg/metadata_gen.go 756,
   src/common/proto/msg/metadata_gen.go 1139, src/common/system/cpu/model_gen.go 98. *)
Definition app_nil : bytes := [chr 0xc0].
Definition app_bool (b : bool) : bytes := [chr (if b then 0xc3 else 0xc2)].
Definition app_float (n : N) : bytes := chr 0xcb :: be 8 n.

(* `AppendInt64`, and `AppendInt8`, `AppendInt32`, `AppendInt` through it:
   src/common/proto/msg/metadata_gen.go 1142-1157. *)
Definition app_int (z : Z) : bytes :=
  (let u := fun k => Z.to_N (z mod 2 ^ k) in
   if 0 <=? z then
     if z <=? 127 then [chr (Z.to_N z)]
     else if z <=? 32767 then chr 0xd1 :: be 2 (u 16)
     else if z <=? 2147483647 then chr 0xd2 :: be 4 (u 32)
     else chr 0xd3 :: be 8 (u 64)
   else
     if -32 <=? z then [chr (u 8)]
     else if -128 <=? z then chr 0xd0 :: be 1 (u 8)
     else if -32768 <=? z then chr 0xd1 :: be 2 (u 16)
     else if -2147483648 <=? z then chr 0xd2 :: be 4 (u 32)
     else chr 0xd3 :: be 8 (u 64))%Z.

(* `AppendUint64` and `AppendUint32`: src/common/proto/msg/metadata_gen.go 1160,
   src/common/system/disk/model_gen.go 569. *)
Definition app_uint (n : N) : bytes :=
  if n <=? 127 then [chr n]
  else if n <? 2 ^ 8 then chr 0xcc :: be 1 n
  else if n <? 2 ^ 16 then chr 0xcd :: be 2 n
  else if n <? 2 ^ 32 then chr 0xce :: be 4 n
  else chr 0xcf :: be 8 n.

(* `AppendString`: src/common/proto/msg/metadata_gen.go 1163. *)
Definition app_string (s : str) : bytes :=
  (if len s <? 32 then [chr (0xa0 + len s)]
   else if len s <? 2 ^ 8 then chr 0xd9 :: be 1 (len s)
   else if len s <? 2 ^ 16 then chr 0xda :: be 2 (len s)
   else chr 0xdb :: be 4 (len s)) ++ s.

(* `AppendArrayHeader`: src/common/proto/msg/metadata_gen.go 1169. *)
Definition app_array (n : N) : bytes :=
  if n <? 16 then [chr (0x90 + n)]
  else if n <? 2 ^ 16 then chr 0xdc :: be 2 n
  else chr 0xdd :: be 4 n.

(* The header and strings of a `[]string`: src/common/proto/msg/metadata_gen.go 1169-1172. *)
Definition app_strings (l : list str) : bytes :=
  app_array (len l mod 2 ^ 32) ++ List.concat (map app_string l).

(* The name of a field and its value: the literal bytes are those of `AppendString` on the name,
   src/common/proto/msg/metadata_gen.go 1137-1139. *)
Definition put (name : string) (value : bytes) : bytes := app_string (s2l name) ++ value.

(* A pointer, written as nil or as the record behind it:
   src/metaserver/internal/entity/raft_data_gen.go 344-352. *)
Definition app_pointer {A} (marshal : A -> bytes) (p : option A) : bytes :=
  match p with
  | None => app_nil
  | Some x => marshal x
  end.

(* --- what the library reads --- *)

(* `ReadBoolBytes`: src/common/proto/msg/metadata_gen.go 1195. *)
Definition read_bool (b : bytes) : option (bool * bytes) :=
  match b with
  | [] => None
  | c :: r => if ord c =? 0xc2 then Some (false, r) else if ord c =? 0xc3 then Some (true, r) else None
  end.

(* `ReadInt64Bytes` and `ReadIntBytes`: every integer of the format that fits in an int64.
   src/common/proto/msg/metadata_gen.go 1219, src/common/proto/msg/metadata_gen.go 519. *)
Definition read_int64 (b : bytes) : option (Z * bytes) :=
  let unsigned k r := match word k r with
                      | None => None
                      | Some (n, r) => if n <? 2 ^ 63 then Some (Z.of_N n, r) else None
                      end in
  let sign k r := match word k r with
                  | None => None
                  | Some (n, r) => Some (signed k n, r)
                  end in
  match b with
  | [] => None
  | c :: r =>
      if ord c <? 0x80 then Some (Z.of_N (ord c), r)
      else if 0xe0 <=? ord c then Some ((Z.of_N (ord c) - 256)%Z, r)
      else if ord c =? 0xcc then unsigned 1 r
      else if ord c =? 0xcd then unsigned 2 r
      else if ord c =? 0xce then unsigned 4 r
      else if ord c =? 0xcf then unsigned 8 r
      else if ord c =? 0xd0 then sign 1 r
      else if ord c =? 0xd1 then sign 2 r
      else if ord c =? 0xd2 then sign 4 r
      else if ord c =? 0xd3 then sign 8 r
      else None
  end.

(* `ReadInt8Bytes` and `ReadInt32Bytes`: an int64 checked against the narrower type.
   src/common/proto/msg/metadata_gen.go 1201-1213. *)
Definition read_int (bits : Z) (b : bytes) : option (Z * bytes) :=
  match read_int64 b with
  | None => None
  | Some (z, r) => if ((- 2 ^ (bits - 1) <=? z) && (z <? 2 ^ (bits - 1)))%Z then Some (z, r) else None
  end.

(* `ReadUint64Bytes`: every integer of the format that is not negative.
   src/common/proto/msg/metadata_gen.go 1237. *)
Definition read_uint64 (b : bytes) : option (N * bytes) :=
  let sign k r := match word k r with
                  | None => None
                  | Some (n, r) => if n <? 2 ^ (8 * k - 1) then Some (n, r) else None
                  end in
  match b with
  | [] => None
  | c :: r =>
      if ord c <? 0x80 then Some (ord c, r)
      else if ord c =? 0xcc then word 1 r
      else if ord c =? 0xcd then word 2 r
      else if ord c =? 0xce then word 4 r
      else if ord c =? 0xcf then word 8 r
      else if ord c =? 0xd0 then sign 1 r
      else if ord c =? 0xd1 then sign 2 r
      else if ord c =? 0xd2 then sign 4 r
      else if ord c =? 0xd3 then sign 8 r
      else None
  end.

(* `ReadUint64Bytes` and `ReadUint32Bytes`: src/common/system/disk/model_gen.go 615-633. *)
Definition read_uint (bits : N) (b : bytes) : option (N * bytes) :=
  match read_uint64 b with
  | None => None
  | Some (n, r) => if n <? 2 ^ bits then Some (n, r) else None
  end.

(* `ReadFloat64Bytes`: src/common/system/cpu/model_gen.go 127. *)
Definition read_float (widen : N -> N) (b : bytes) : option (N * bytes) :=
  match b with
  | [] => None
  | c :: r =>
      if ord c =? 0xcb then word 8 r
      else if ord c =? 0xca then
        match word 4 r with
        | None => None
        | Some (n, r) => Some (widen n, r)
        end
      else None
  end.

(* `ReadStringBytes`: src/common/proto/msg/metadata_gen.go 1243. *)
Definition read_string (b : bytes) : option (str * bytes) :=
  let rest k r := match word k r with
                  | None => None
                  | Some (n, r) => take n r
                  end in
  match b with
  | [] => None
  | c :: r =>
      if (0xa0 <=? ord c) && (ord c <? 0xc0) then take (ord c - 0xa0) r
      else if ord c =? 0xd9 then rest 1 r
      else if ord c =? 0xda then rest 2 r
      else if ord c =? 0xdb then rest 4 r
      else None
  end.

(* `ReadMapKeyZC`: the name of a field, a string or bytes.
   src/common/proto/msg/metadata_gen.go 1188. *)
Definition read_key (b : bytes) : option (str * bytes) :=
  let rest k r := match word k r with
                  | None => None
                  | Some (n, r) => take n r
                  end in
  match b with
  | [] => None
  | c :: r =>
      if ord c =? 0xc4 then rest 1 r
      else if ord c =? 0xc5 then rest 2 r
      else if ord c =? 0xc6 then rest 4 r
      else read_string b
  end.

(* `ReadArrayHeaderBytes`: src/common/proto/msg/metadata_gen.go 1256. *)
Definition read_array (b : bytes) : option (N * bytes) :=
  match b with
  | [] => None
  | c :: r =>
      if (0x90 <=? ord c) && (ord c <? 0xa0) then Some (ord c - 0x90, r)
      else if ord c =? 0xdc then word 2 r
      else if ord c =? 0xdd then word 4 r
      else None
  end.

(* `ReadMapHeaderBytes`: src/common/proto/msg/metadata_gen.go 1181. *)
Definition read_map (b : bytes) : option (N * bytes) :=
  match b with
  | [] => None
  | c :: r =>
      if (0x80 <=? ord c) && (ord c <? 0x90) then Some (ord c - 0x80, r)
      else if ord c =? 0xde then word 2 r
      else if ord c =? 0xdf then word 4 r
      else None
  end.

(* `getSize` inside `Skip`: how many bytes belong to the next value itself, and how many values
   follow inside it. src/common/proto/msg/metadata_gen.go 1274. *)
Definition size_of (b : bytes) : option (N * N) :=
  let tail h k r := match word k r with
                    | None => None
                    | Some (n, _) => Some (h + n, 0)
                    end in
  let parts h k m r := match word k r with
                       | None => None
                       | Some (n, _) => Some (h, m * n)
                       end in
  match b with
  | [] => None
  | c :: r =>
      let l := ord c in
      if l <? 0x80 then Some (1, 0)
      else if l <? 0x90 then Some (1, 2 * (l - 0x80))
      else if l <? 0xa0 then Some (1, l - 0x90)
      else if l <? 0xc0 then Some (1 + (l - 0xa0), 0)
      else if 0xe0 <=? l then Some (1, 0)
      else if l =? 0xc0 then Some (1, 0)
      else if l =? 0xc2 then Some (1, 0)
      else if l =? 0xc3 then Some (1, 0)
      else if l =? 0xc4 then tail 2 1 r
      else if l =? 0xc5 then tail 3 2 r
      else if l =? 0xc6 then tail 5 4 r
      else if l =? 0xc7 then tail 3 1 r
      else if l =? 0xc8 then tail 4 2 r
      else if l =? 0xc9 then tail 6 4 r
      else if l =? 0xca then Some (5, 0)
      else if l =? 0xcb then Some (9, 0)
      else if l =? 0xcc then Some (2, 0)
      else if l =? 0xcd then Some (3, 0)
      else if l =? 0xce then Some (5, 0)
      else if l =? 0xcf then Some (9, 0)
      else if l =? 0xd0 then Some (2, 0)
      else if l =? 0xd1 then Some (3, 0)
      else if l =? 0xd2 then Some (5, 0)
      else if l =? 0xd3 then Some (9, 0)
      else if l =? 0xd4 then Some (3, 0)
      else if l =? 0xd5 then Some (4, 0)
      else if l =? 0xd6 then Some (6, 0)
      else if l =? 0xd7 then Some (10, 0)
      else if l =? 0xd8 then Some (18, 0)
      else if l =? 0xd9 then tail 2 1 r
      else if l =? 0xda then tail 3 2 r
      else if l =? 0xdb then tail 5 4 r
      else if l =? 0xdc then parts 3 2 1 r
      else if l =? 0xdd then parts 5 4 1 r
      else if l =? 0xde then parts 3 2 2 r
      else if l =? 0xdf then parts 5 4 2 r
      else None
  end.

(* `Skip`, with the calls still to do counted instead of nested: each turn reads at least one
   byte, so a fuel of the length of the buffer is enough.
   src/common/proto/msg/metadata_gen.go 1274. *)
Fixpoint skip_all (fuel : nat) (todo : N) (b : bytes) : option bytes :=
  if todo =? 0 then Some b
  else match fuel with
       | O => None
       | S fuel =>
           match size_of b with
           | None => None
           | Some (size, inside) =>
               match take size b with
               | None => None
               | Some (_, r) => skip_all fuel (todo - 1 + inside) r
               end
           end
       end.

(* `Skip`: src/common/proto/msg/metadata_gen.go 1274. *)
Definition skip (b : bytes) : option bytes := skip_all (List.length b) 1 b.

(* --- reading records --- *)

(* What an `UnmarshalMsg` does: how many strings it makes room for, and the value with the bytes
   left, or an error. src/common/proto/msg/metadata_gen.go 1177-1283. *)
Definition out (A : Type) : Type := N * option (A * bytes).

(* A read without strings to make: src/common/proto/msg/metadata_gen.go 1195-1199. *)
Definition plain {A} (x : option (A * bytes)) : out A := (0, x).

(* One read after another, stopping at the first error:
   src/common/proto/msg/metadata_gen.go 1195-1199. *)
Definition bind {A B} (x : out A) (f : A -> bytes -> out B) : out B :=
  match x with
  | (n, None) => (n, None)
  | (n, Some (a, r)) => let (m, y) := f a r in (n + m, y)
  end.

(* A value put in its field: src/common/proto/msg/metadata_gen.go 1195. *)
Definition into {A B} (set : A -> B) (x : out A) : out B := bind x (fun a r => (0, Some (set a, r))).

(* The strings of an array one after another; each turn reads at least one byte.
   src/common/proto/msg/metadata_gen.go 1266-1272. *)
Fixpoint strings (fuel : nat) (n : N) (b : bytes) : option (list str * bytes) :=
  if n =? 0 then Some ([], b)
  else match fuel with
       | O => None
       | S fuel =>
           match read_string b with
           | None => None
           | Some (s, r) =>
               match strings fuel (n - 1) r with
               | None => None
               | Some (l, r) => Some (s :: l, r)
               end
           end
       end.

(* A `[]string`: room for the number of strings the header names is made before any of them is
   read, unless the old slice has it. src/common/proto/msg/metadata_gen.go 1254-1272. *)
Definition read_strings (old : list str) (b : bytes) : out (list str) :=
  match read_array b with
  | None => (0, None)
  | Some (n, r) => (if n <=? len old then 0 else n, strings (List.length r) n r)
  end.

(* A pointer: nil, or a record read into the old one or into a new one.
   src/metaserver/internal/entity/raft_data_gen.go 421-435. *)
Definition read_pointer {A} (zero : A) (unmarshal : A -> bytes -> out A) (old : option A) (b : bytes)
    : out (option A) :=
  let there := into Some (unmarshal (match old with Some x => x | None => zero end) b) in
  match b with
  | c :: r => if ord c =? 0xc0 then (0, Some (None, r)) else there
  | [] => there
  end.

(* A field of no known name is skipped: src/common/proto/msg/metadata_gen.go 1273-1279. *)
Definition unknown {A} (z : A) (b : bytes) : out A :=
  plain match skip b with
        | None => None
        | Some r => Some (z, r)
        end.

(* The loop over the fields of a record; each turn reads at least one byte.
   src/common/proto/msg/metadata_gen.go 1186-1280. *)
Fixpoint fields {A} (field : str -> A -> bytes -> out A) (fuel : nat) (n : N) (z : A) (b : bytes) : out A :=
  if n =? 0 then (0, Some (z, b))
  else match fuel with
       | O => (0, None)
       | S fuel =>
           match read_key b with
           | None => (0, None)
           | Some (k, r) => bind (field k z r) (fun z r => fields field fuel (n - 1) z r)
           end
       end.

(* `UnmarshalMsg` of a record with the given fields: src/common/proto/msg/metadata_gen.go 1177-1283. *)
Definition unmarshal {A} (field : str -> A -> bytes -> out A) (z : A) (b : bytes) : out A :=
  match read_map b with
  | None => (0, None)
  | Some (n, r) => fields field (List.length r) n z r
  end.

(* --- the records --- *)

(* `Extra`: src/common/proto/msg/metadata.go 10-14. *)
Record extra := MkExtra {
  x_total : Z;
  x_first : Z;
  x_last : Z
}.

(* A new `Extra`: src/common/proto/msg/metadata.go 10-14. *)
Definition zero_extra : extra := MkExtra 0%Z 0%Z 0%Z.

(* `MarshalMsg`: src/common/proto/msg/metadata_gen.go 485-498. *)
Definition marshal_extra (z : extra) : bytes :=
  chr 0x83 ::
  put "total" (app_int (x_total z)) ++
  put "first_version" (app_int (x_first z)) ++
  put "last_version" (app_int (x_last z)).

(* The `switch` over names of fields in `UnmarshalMsg`: src/common/proto/msg/metadata_gen.go 501-546. *)
Definition extra_field (k : str) (z : extra) (b : bytes) : out extra :=
  if str_eqb k (s2l "total") then
    into (fun x => MkExtra x (x_first z) (x_last z))
      (plain (read_int 64 b))
  else if str_eqb k (s2l "first_version") then
    into (fun x => MkExtra (x_total z) x (x_last z))
      (plain (read_int 64 b))
  else if str_eqb k (s2l "last_version") then
    into (fun x => MkExtra (x_total z) (x_first z) x)
      (plain (read_int 64 b))
  else unknown z b.

(* `Metadata`: src/common/proto/msg/metadata.go 16-22. *)
Record metadata := MkMetadata {
  m_extra : option extra;
  m_name : str;
  m_bucket : str;
  m_create : Z;
  m_update : Z
}.

(* A new `Metadata`: src/common/proto/msg/metadata.go 16-22. *)
Definition zero_metadata : metadata := MkMetadata None [] [] 0%Z 0%Z.

(* `MarshalMsg`: src/common/proto/msg/metadata_gen.go 750-782. *)
Definition marshal_metadata (z : metadata) : bytes :=
  chr 0x85 ::
  put "Extra" (app_pointer marshal_extra (m_extra z)) ++
  put "name" (app_string (m_name z)) ++
  put "bucket" (app_string (m_bucket z)) ++
  put "create_time" (app_int (m_create z)) ++
  put "update_time" (app_int (m_update z)).

(* The `switch` over names of fields in `UnmarshalMsg`: src/common/proto/msg/metadata_gen.go 785-888. *)
Definition metadata_field (k : str) (z : metadata) (b : bytes) : out metadata :=
  if str_eqb k (s2l "Extra") then
    into (fun x => MkMetadata x (m_name z) (m_bucket z) (m_create z) (m_update z))
      (read_pointer zero_extra (unmarshal extra_field) (m_extra z) b)
  else if str_eqb k (s2l "name") then
    into (fun x => MkMetadata (m_extra z) x (m_bucket z) (m_create z) (m_update z))
      (plain (read_string b))
  else if str_eqb k (s2l "bucket") then
    into (fun x => MkMetadata (m_extra z) (m_name z) x (m_create z) (m_update z))
      (plain (read_string b))
  else if str_eqb k (s2l "create_time") then
    into (fun x => MkMetadata (m_extra z) (m_name z) (m_bucket z) x (m_update z))
      (plain (read_int 64 b))
  else if str_eqb k (s2l "update_time") then
    into (fun x => MkMetadata (m_extra z) (m_name z) (m_bucket z) (m_create z) x)
      (plain (read_int 64 b))
  else unknown z b.

(* `Version`: src/common/proto/msg/metadata.go 28-40. *)
Record version := MkVersion {
  v_compress : bool;
  v_strategy : Z;
  v_data : Z;
  v_parity : Z;
  v_shard : Z;
  v_size : Z;
  v_ts : Z;
  v_sequence : N;
  v_hash : str;
  v_unique : str;
  v_locate : list str
}.

(* A new `Version`: src/common/proto/msg/metadata.go 28-40. *)
Definition zero_version : version := MkVersion false 0%Z 0%Z 0%Z 0%Z 0%Z 0%Z 0 [] [] [].

(* `MarshalMsg`: src/common/proto/msg/metadata_gen.go 1134-1174. *)
Definition marshal_version (z : version) : bytes :=
  chr 0x8b ::
  put "compress" (app_bool (v_compress z)) ++
  put "store_strategy" (app_int (v_strategy z)) ++
  put "data_shards" (app_int (v_data z)) ++
  put "parity_shards" (app_int (v_parity z)) ++
  put "shard_size" (app_int (v_shard z)) ++
  put "size" (app_int (v_size z)) ++
  put "ts" (app_int (v_ts z)) ++
  put "sequence" (app_uint (v_sequence z)) ++
  put "hash" (app_string (v_hash z)) ++
  put "uniqueId" (app_string (v_unique z)) ++
  put "locate" (app_strings (v_locate z)).

(* The `switch` over names of fields in `UnmarshalMsg`: src/common/proto/msg/metadata_gen.go 1177-1283. *)
Definition version_field (k : str) (z : version) (b : bytes) : out version :=
  if str_eqb k (s2l "compress") then
    into (fun x => MkVersion x (v_strategy z) (v_data z) (v_parity z) (v_shard z) (v_size z) (v_ts z) (v_sequence z) (v_hash z) (v_unique z) (v_locate z))
      (plain (read_bool b))
  else if str_eqb k (s2l "store_strategy") then
    into (fun x => MkVersion (v_compress z) x (v_data z) (v_parity z) (v_shard z) (v_size z) (v_ts z) (v_sequence z) (v_hash z) (v_unique z) (v_locate z))
      (plain (read_int 8 b))
  else if str_eqb k (s2l "data_shards") then
    into (fun x => MkVersion (v_compress z) (v_strategy z) x (v_parity z) (v_shard z) (v_size z) (v_ts z) (v_sequence z) (v_hash z) (v_unique z) (v_locate z))
      (plain (read_int 32 b))
  else if str_eqb k (s2l "parity_shards") then
    into (fun x => MkVersion (v_compress z) (v_strategy z) (v_data z) x (v_shard z) (v_size z) (v_ts z) (v_sequence z) (v_hash z) (v_unique z) (v_locate z))
      (plain (read_int 32 b))
  else if str_eqb k (s2l "shard_size") then
    into (fun x => MkVersion (v_compress z) (v_strategy z) (v_data z) (v_parity z) x (v_size z) (v_ts z) (v_sequence z) (v_hash z) (v_unique z) (v_locate z))
      (plain (read_int 64 b))
  else if str_eqb k (s2l "size") then
    into (fun x => MkVersion (v_compress z) (v_strategy z) (v_data z) (v_parity z) (v_shard z) x (v_ts z) (v_sequence z) (v_hash z) (v_unique z) (v_locate z))
      (plain (read_int 64 b))
  else if str_eqb k (s2l "ts") then
    into (fun x => MkVersion (v_compress z) (v_strategy z) (v_data z) (v_parity z) (v_shard z) (v_size z) x (v_sequence z) (v_hash z) (v_unique z) (v_locate z))
      (plain (read_int 64 b))
  else if str_eqb k (s2l "sequence") then
    into (fun x => MkVersion (v_compress z) (v_strategy z) (v_data z) (v_parity z) (v_shard z) (v_size z) (v_ts z) x (v_hash z) (v_unique z) (v_locate z))
      (plain (read_uint 64 b))
  else if str_eqb k (s2l "hash") then
    into (fun x => MkVersion (v_compress z) (v_strategy z) (v_data z) (v_parity z) (v_shard z) (v_size z) (v_ts z) (v_sequence z) x (v_unique z) (v_locate z))
      (plain (read_string b))
  else if str_eqb k (s2l "uniqueId") then
    into (fun x => MkVersion (v_compress z) (v_strategy z) (v_data z) (v_parity z) (v_shard z) (v_size z) (v_ts z) (v_sequence z) (v_hash z) x (v_locate z))
      (plain (read_string b))
  else if str_eqb k (s2l "locate") then
    into (fun x => MkVersion (v_compress z) (v_strategy z) (v_data z) (v_parity z) (v_shard z) (v_size z) (v_ts z) (v_sequence z) (v_hash z) (v_unique z) x)
      (read_strings (v_locate z) b)
  else unknown z b.

(* `Bucket`: src/common/proto/msg/metadata.go 46-58. *)
Record bucket := MkBucket {
  b_versioning : bool;
  b_readonly : bool;
  b_compress : bool;
  b_strategy : Z;
  b_data : Z;
  b_parity : Z;
  b_remains : Z;
  b_create : Z;
  b_update : Z;
  b_name : str;
  b_policies : list str
}.

(* A new `Bucket`: src/common/proto/msg/metadata.go 46-58. *)
Definition zero_bucket : bucket := MkBucket false false false 0%Z 0%Z 0%Z 0%Z 0%Z 0%Z [] [].

(* `MarshalMsg`: src/common/proto/msg/metadata_gen.go 241-281. *)
Definition marshal_bucket (z : bucket) : bytes :=
  chr 0x8b ::
  put "versioning" (app_bool (b_versioning z)) ++
  put "readonly" (app_bool (b_readonly z)) ++
  put "compress" (app_bool (b_compress z)) ++
  put "store_strategy" (app_int (b_strategy z)) ++
  put "data_shards" (app_int (b_data z)) ++
  put "parity_shards" (app_int (b_parity z)) ++
  put "version_remains" (app_int (b_remains z)) ++
  put "create_time" (app_int (b_create z)) ++
  put "update_time" (app_int (b_update z)) ++
  put "name" (app_string (b_name z)) ++
  put "policies" (app_strings (b_policies z)).

(* The `switch` over names of fields in `UnmarshalMsg`: src/common/proto/msg/metadata_gen.go 284-390. *)
Definition bucket_field (k : str) (z : bucket) (b : bytes) : out bucket :=
  if str_eqb k (s2l "versioning") then
    into (fun x => MkBucket x (b_readonly z) (b_compress z) (b_strategy z) (b_data z) (b_parity z) (b_remains z) (b_create z) (b_update z) (b_name z) (b_policies z))
      (plain (read_bool b))
  else if str_eqb k (s2l "readonly") then
    into (fun x => MkBucket (b_versioning z) x (b_compress z) (b_strategy z) (b_data z) (b_parity z) (b_remains z) (b_create z) (b_update z) (b_name z) (b_policies z))
      (plain (read_bool b))
  else if str_eqb k (s2l "compress") then
    into (fun x => MkBucket (b_versioning z) (b_readonly z) x (b_strategy z) (b_data z) (b_parity z) (b_remains z) (b_create z) (b_update z) (b_name z) (b_policies z))
      (plain (read_bool b))
  else if str_eqb k (s2l "store_strategy") then
    into (fun x => MkBucket (b_versioning z) (b_readonly z) (b_compress z) x (b_data z) (b_parity z) (b_remains z) (b_create z) (b_update z) (b_name z) (b_policies z))
      (plain (read_int 8 b))
  else if str_eqb k (s2l "data_shards") then
    into (fun x => MkBucket (b_versioning z) (b_readonly z) (b_compress z) (b_strategy z) x (b_parity z) (b_remains z) (b_create z) (b_update z) (b_name z) (b_policies z))
      (plain (read_int 32 b))
  else if str_eqb k (s2l "parity_shards") then
    into (fun x => MkBucket (b_versioning z) (b_readonly z) (b_compress z) (b_strategy z) (b_data z) x (b_remains z) (b_create z) (b_update z) (b_name z) (b_policies z))
      (plain (read_int 32 b))
  else if str_eqb k (s2l "version_remains") then
    into (fun x => MkBucket (b_versioning z) (b_readonly z) (b_compress z) (b_strategy z) (b_data z) (b_parity z) x (b_create z) (b_update z) (b_name z) (b_policies z))
      (plain (read_int 32 b))
  else if str_eqb k (s2l "create_time") then
    into (fun x => MkBucket (b_versioning z) (b_readonly z) (b_compress z) (b_strategy z) (b_data z) (b_parity z) (b_remains z) x (b_update z) (b_name z) (b_policies z))
      (plain (read_int 64 b))
  else if str_eqb k (s2l "update_time") then
    into (fun x => MkBucket (b_versioning z) (b_readonly z) (b_compress z) (b_strategy z) (b_data z) (b_parity z) (b_remains z) (b_create z) x (b_name z) (b_policies z))
      (plain (read_int 64 b))
  else if str_eqb k (s2l "name") then
    into (fun x => MkBucket (b_versioning z) (b_readonly z) (b_compress z) (b_strategy z) (b_data z) (b_parity z) (b_remains z) (b_create z) (b_update z) x (b_policies z))
      (plain (read_string b))
  else if str_eqb k (s2l "policies") then
    into (fun x => MkBucket (b_versioning z) (b_readonly z) (b_compress z) (b_strategy z) (b_data z) (b_parity z) (b_remains z) (b_create z) (b_update z) (b_name z) x)
      (read_strings (b_policies z) b)
  else unknown z b.

(* `RaftData`: src/metaserver/internal/entity/raft_data.go 24-33. *)
Record raft_data := MkRaft {
  r_type : Z;
  r_dest : Z;
  r_name : str;
  r_sequence : N;
  r_version : option version;
  r_metadata : option metadata;
  r_bucket : option bucket
}.

(* A new `RaftData`: src/metaserver/internal/entity/raft_data.go 24-33. *)
Definition zero_raft_data : raft_data := MkRaft 0%Z 0%Z [] 0 None None None.

(* `MarshalMsg`: src/metaserver/internal/entity/raft_data_gen.go 328-377. `Batch` is not written: src/metaserver/internal/entity/raft_data.go 32. *)
Definition marshal_raft_data (z : raft_data) : bytes :=
  chr 0x87 ::
  put "type" (app_int (r_type z)) ++
  put "dest" (app_int (r_dest z)) ++
  put "name" (app_string (r_name z)) ++
  put "sequence" (app_uint (r_sequence z)) ++
  put "version" (app_pointer marshal_version (r_version z)) ++
  put "metadata" (app_pointer marshal_metadata (r_metadata z)) ++
  put "bucket" (app_pointer marshal_bucket (r_bucket z)).

(* The `switch` over names of fields in `UnmarshalMsg`: src/metaserver/internal/entity/raft_data_gen.go 380-490. *)
Definition raft_data_field (k : str) (z : raft_data) (b : bytes) : out raft_data :=
  if str_eqb k (s2l "type") then
    into (fun x => MkRaft x (r_dest z) (r_name z) (r_sequence z) (r_version z) (r_metadata z) (r_bucket z))
      (plain (read_int 8 b))
  else if str_eqb k (s2l "dest") then
    into (fun x => MkRaft (r_type z) x (r_name z) (r_sequence z) (r_version z) (r_metadata z) (r_bucket z))
      (plain (read_int 8 b))
  else if str_eqb k (s2l "name") then
    into (fun x => MkRaft (r_type z) (r_dest z) x (r_sequence z) (r_version z) (r_metadata z) (r_bucket z))
      (plain (read_string b))
  else if str_eqb k (s2l "sequence") then
    into (fun x => MkRaft (r_type z) (r_dest z) (r_name z) x (r_version z) (r_metadata z) (r_bucket z))
      (plain (read_uint 64 b))
  else if str_eqb k (s2l "version") then
    into (fun x => MkRaft (r_type z) (r_dest z) (r_name z) (r_sequence z) x (r_metadata z) (r_bucket z))
      (read_pointer zero_version (unmarshal version_field) (r_version z) b)
  else if str_eqb k (s2l "metadata") then
    into (fun x => MkRaft (r_type z) (r_dest z) (r_name z) (r_sequence z) (r_version z) x (r_bucket z))
      (read_pointer zero_metadata (unmarshal metadata_field) (r_metadata z) b)
  else if str_eqb k (s2l "bucket") then
    into (fun x => MkRaft (r_type z) (r_dest z) (r_name z) (r_sequence z) (r_version z) (r_metadata z) x)
      (read_pointer zero_bucket (unmarshal bucket_field) (r_bucket z) b)
  else unknown z b.

(* `SlotInfo`: src/common/hashslot/slot_info.go 5-9. *)
Record slot_info := MkSlots {
  s_group : str;
  s_server : str;
  s_slots : list str
}.

(* A new `SlotInfo`: src/common/hashslot/slot_info.go 5-9. *)
Definition zero_slot_info : slot_info := MkSlots [] [] [].

(* `MarshalMsg`: src/common/hashslot/slot_info_gen.go 113-129. *)
Definition marshal_slot_info (z : slot_info) : bytes :=
  chr 0x83 ::
  put "id" (app_string (s_group z)) ++
  put "server_id" (app_string (s_server z)) ++
  put "slots" (app_strings (s_slots z)).

(* The `switch` over names of fields in `UnmarshalMsg`: src/common/hashslot/slot_info_gen.go 132-190. *)
Definition slot_info_field (k : str) (z : slot_info) (b : bytes) : out slot_info :=
  if str_eqb k (s2l "id") then
    into (fun x => MkSlots x (s_server z) (s_slots z))
      (plain (read_string b))
  else if str_eqb k (s2l "server_id") then
    into (fun x => MkSlots (s_group z) x (s_slots z))
      (plain (read_string b))
  else if str_eqb k (s2l "slots") then
    into (fun x => MkSlots (s_group z) (s_server z) x)
      (read_strings (s_slots z) b)
  else unknown z b.

(* `AdminCredential`: src/apiserver/internal/usecase/componet/auth/credential/admin_credential.go 5-8. *)
Record credential := MkCredential {
  c_username : str;
  c_password : str
}.

(* A new `AdminCredential`: src/apiserver/internal/usecase/componet/auth/credential/admin_credential.go 5-8. *)
Definition zero_credential : credential := MkCredential [] [].

(* `MarshalMsg`: src/apiserver/internal/usecase/componet/auth/credential/admin_credential_gen.go 77-87. *)
Definition marshal_credential (z : credential) : bytes :=
  chr 0x82 ::
  put "username" (app_string (c_username z)) ++
  put "password" (app_string (c_password z)).

(* The `switch` over names of fields in `UnmarshalMsg`: src/apiserver/internal/usecase/componet/auth/credential/admin_credential_gen.go 90-129. *)
Definition credential_field (k : str) (z : credential) (b : bytes) : out credential :=
  if str_eqb k (s2l "username") then
    into (fun x => MkCredential x (c_password z))
      (plain (read_string b))
  else if str_eqb k (s2l "password") then
    into (fun x => MkCredential (c_username z) x)
      (plain (read_string b))
  else unknown z b.

(* `disk.Info`: src/common/system/disk/model.go 30-39. *)
Record disk_info := MkDisk {
  d_total : N;
  d_free : N;
  d_used : N;
  d_files : N;
  d_ffree : N;
  d_major : N;
  d_minor : N;
  d_fs : str
}.

(* A new `disk.Info`: src/common/system/disk/model.go 30-39. *)
Definition zero_disk_info : disk_info := MkDisk 0 0 0 0 0 0 0 [].

(* `MarshalMsg`: src/common/system/disk/model_gen.go 536-576. *)
Definition marshal_disk_info (z : disk_info) : bytes :=
  chr 0x88 ::
  put "total" (app_uint (d_total z)) ++
  put "free" (app_uint (d_free z)) ++
  put "used" (app_uint (d_used z)) ++
  put "files" (app_uint (d_files z)) ++
  put "f_free" (app_uint (d_ffree z)) ++
  put "major" (app_uint (d_major z)) ++
  put "minor" (app_uint (d_minor z)) ++
  put "fs_type" (app_string (d_fs z)).

(* The `switch` over names of fields in `UnmarshalMsg`: src/common/system/disk/model_gen.go 579-654. *)
Definition disk_info_field (k : str) (z : disk_info) (b : bytes) : out disk_info :=
  if str_eqb k (s2l "total") then
    into (fun x => MkDisk x (d_free z) (d_used z) (d_files z) (d_ffree z) (d_major z) (d_minor z) (d_fs z))
      (plain (read_uint 64 b))
  else if str_eqb k (s2l "free") then
    into (fun x => MkDisk (d_total z) x (d_used z) (d_files z) (d_ffree z) (d_major z) (d_minor z) (d_fs z))
      (plain (read_uint 64 b))
  else if str_eqb k (s2l "used") then
    into (fun x => MkDisk (d_total z) (d_free z) x (d_files z) (d_ffree z) (d_major z) (d_minor z) (d_fs z))
      (plain (read_uint 64 b))
  else if str_eqb k (s2l "files") then
    into (fun x => MkDisk (d_total z) (d_free z) (d_used z) x (d_ffree z) (d_major z) (d_minor z) (d_fs z))
      (plain (read_uint 64 b))
  else if str_eqb k (s2l "f_free") then
    into (fun x => MkDisk (d_total z) (d_free z) (d_used z) (d_files z) x (d_major z) (d_minor z) (d_fs z))
      (plain (read_uint 64 b))
  else if str_eqb k (s2l "major") then
    into (fun x => MkDisk (d_total z) (d_free z) (d_used z) (d_files z) (d_ffree z) x (d_minor z) (d_fs z))
      (plain (read_uint 32 b))
  else if str_eqb k (s2l "minor") then
    into (fun x => MkDisk (d_total z) (d_free z) (d_used z) (d_files z) (d_ffree z) (d_major z) x (d_fs z))
      (plain (read_uint 32 b))
  else if str_eqb k (s2l "fs_type") then
    into (fun x => MkDisk (d_total z) (d_free z) (d_used z) (d_files z) (d_ffree z) (d_major z) (d_minor z) x)
      (plain (read_string b))
  else unknown z b.

(* `disk.IOStats`: src/common/system/disk/model.go 48-58. *)
Record io_stats := MkIo {
  i_rbytes : N;
  i_wbytes : N;
  i_rcount : N;
  i_wcount : N;
  i_rtime : N;
  i_wtime : N;
  i_current : N;
  i_time : N;
  i_weighted : N
}.

(* A new `disk.IOStats`: src/common/system/disk/model.go 48-58. *)
Definition zero_io_stats : io_stats := MkIo 0 0 0 0 0 0 0 0 0.

(* `MarshalMsg`: src/common/system/disk/model_gen.go 241-280. *)
Definition marshal_io_stats (z : io_stats) : bytes :=
  chr 0x89 ::
  put "read_bytes" (app_uint (i_rbytes z)) ++
  put "write_bytes" (app_uint (i_wbytes z)) ++
  put "read_count" (app_uint (i_rcount z)) ++
  put "write_count" (app_uint (i_wcount z)) ++
  put "read_time" (app_uint (i_rtime z)) ++
  put "write_time" (app_uint (i_wtime z)) ++
  put "current_ios" (app_uint (i_current z)) ++
  put "io_time" (app_uint (i_time z)) ++
  put "weighted_io" (app_uint (i_weighted z)).

(* The `switch` over names of fields in `UnmarshalMsg`: src/common/system/disk/model_gen.go 283-364. *)
Definition io_stats_field (k : str) (z : io_stats) (b : bytes) : out io_stats :=
  if str_eqb k (s2l "read_bytes") then
    into (fun x => MkIo x (i_wbytes z) (i_rcount z) (i_wcount z) (i_rtime z) (i_wtime z) (i_current z) (i_time z) (i_weighted z))
      (plain (read_uint 64 b))
  else if str_eqb k (s2l "write_bytes") then
    into (fun x => MkIo (i_rbytes z) x (i_rcount z) (i_wcount z) (i_rtime z) (i_wtime z) (i_current z) (i_time z) (i_weighted z))
      (plain (read_uint 64 b))
  else if str_eqb k (s2l "read_count") then
    into (fun x => MkIo (i_rbytes z) (i_wbytes z) x (i_wcount z) (i_rtime z) (i_wtime z) (i_current z) (i_time z) (i_weighted z))
      (plain (read_uint 64 b))
  else if str_eqb k (s2l "write_count") then
    into (fun x => MkIo (i_rbytes z) (i_wbytes z) (i_rcount z) x (i_rtime z) (i_wtime z) (i_current z) (i_time z) (i_weighted z))
      (plain (read_uint 64 b))
  else if str_eqb k (s2l "read_time") then
    into (fun x => MkIo (i_rbytes z) (i_wbytes z) (i_rcount z) (i_wcount z) x (i_wtime z) (i_current z) (i_time z) (i_weighted z))
      (plain (read_uint 64 b))
  else if str_eqb k (s2l "write_time") then
    into (fun x => MkIo (i_rbytes z) (i_wbytes z) (i_rcount z) (i_wcount z) (i_rtime z) x (i_current z) (i_time z) (i_weighted z))
      (plain (read_uint 64 b))
  else if str_eqb k (s2l "current_ios") then
    into (fun x => MkIo (i_rbytes z) (i_wbytes z) (i_rcount z) (i_wcount z) (i_rtime z) (i_wtime z) x (i_time z) (i_weighted z))
      (plain (read_uint 64 b))
  else if str_eqb k (s2l "io_time") then
    into (fun x => MkIo (i_rbytes z) (i_wbytes z) (i_rcount z) (i_wcount z) (i_rtime z) (i_wtime z) (i_current z) x (i_weighted z))
      (plain (read_uint 64 b))
  else if str_eqb k (s2l "weighted_io") then
    into (fun x => MkIo (i_rbytes z) (i_wbytes z) (i_rcount z) (i_wcount z) (i_rtime z) (i_wtime z) (i_current z) (i_time z) x)
      (plain (read_uint 64 b))
  else unknown z b.

(* `mem.Status`: src/common/system/mem/model.go 5-10. *)
Record mem_status := MkMem {
  e_all : N;
  e_used : N;
  e_free : N;
  e_self : N
}.

(* A new `mem.Status`: src/common/system/mem/model.go 5-10. *)
Definition zero_mem_status : mem_status := MkMem 0 0 0 0.

(* `MarshalMsg`: src/common/system/mem/model_gen.go 109-125. *)
Definition marshal_mem_status (z : mem_status) : bytes :=
  chr 0x84 ::
  put "all" (app_uint (e_all z)) ++
  put "used" (app_uint (e_used z)) ++
  put "free" (app_uint (e_free z)) ++
  put "self" (app_uint (e_self z)).

(* The `switch` over names of fields in `UnmarshalMsg`: src/common/system/mem/model_gen.go 128-179. *)
Definition mem_status_field (k : str) (z : mem_status) (b : bytes) : out mem_status :=
  if str_eqb k (s2l "all") then
    into (fun x => MkMem x (e_used z) (e_free z) (e_self z))
      (plain (read_uint 64 b))
  else if str_eqb k (s2l "used") then
    into (fun x => MkMem (e_all z) x (e_free z) (e_self z))
      (plain (read_uint 64 b))
  else if str_eqb k (s2l "free") then
    into (fun x => MkMem (e_all z) (e_used z) x (e_self z))
      (plain (read_uint 64 b))
  else if str_eqb k (s2l "self") then
    into (fun x => MkMem (e_all z) (e_used z) (e_free z) x)
      (plain (read_uint 64 b))
  else unknown z b.

(* `cpu.Stat`: src/common/system/cpu/model.go 5-9. *)
Record cpu_stat := MkCpu {
  p_percent : N;
  p_logical : Z;
  p_physical : Z
}.

(* A new `cpu.Stat`: src/common/system/cpu/model.go 5-9. *)
Definition zero_cpu_stat : cpu_stat := MkCpu 0 0%Z 0%Z.

(* `MarshalMsg`: src/common/system/cpu/model_gen.go 93-106. *)
Definition marshal_cpu_stat (z : cpu_stat) : bytes :=
  chr 0x83 ::
  put "used_percent" (app_float (p_percent z)) ++
  put "logical_count" (app_int (p_logical z)) ++
  put "physical_count" (app_int (p_physical z)).

(* The `switch` over names of fields in `UnmarshalMsg`: src/common/system/cpu/model_gen.go 109-154. *)
Definition cpu_stat_field (widen : N -> N) (k : str) (z : cpu_stat) (b : bytes) : out cpu_stat :=
  if str_eqb k (s2l "used_percent") then
    into (fun x => MkCpu x (p_logical z) (p_physical z))
      (plain (read_float widen b))
  else if str_eqb k (s2l "logical_count") then
    into (fun x => MkCpu (p_percent z) x (p_physical z))
      (plain (read_int 64 b))
  else if str_eqb k (s2l "physical_count") then
    into (fun x => MkCpu (p_percent z) (p_logical z) x)
      (plain (read_int 64 b))
  else unknown z b.

(* `system.Info`: src/common/system/system_info.go 11-16. *)
Record system_info := MkSystem {
  y_disk : option disk_info;
  y_mem : option mem_status;
  y_cpu : option cpu_stat;
  y_io : option io_stats
}.

(* A new `system.Info`: src/common/system/system_info.go 11-16. *)
Definition zero_system_info : system_info := MkSystem None None None None.

(* `MarshalMsg`: src/common/system/system_info_gen.go 189-237. *)
Definition marshal_system_info (z : system_info) : bytes :=
  chr 0x84 ::
  put "DiskInfo" (app_pointer marshal_disk_info (y_disk z)) ++
  put "MemStatus" (app_pointer marshal_mem_status (y_mem z)) ++
  put "CpuStatus" (app_pointer marshal_cpu_stat (y_cpu z)) ++
  put "IoStatus" (app_pointer marshal_io_stats (y_io z)).

(* The `switch` over names of fields in `UnmarshalMsg`: src/common/system/system_info_gen.go 240-335. *)
Definition system_info_field (widen : N -> N) (k : str) (z : system_info) (b : bytes) : out system_info :=
  if str_eqb k (s2l "DiskInfo") then
    into (fun x => MkSystem x (y_mem z) (y_cpu z) (y_io z))
      (read_pointer zero_disk_info (unmarshal disk_info_field) (y_disk z) b)
  else if str_eqb k (s2l "MemStatus") then
    into (fun x => MkSystem (y_disk z) x (y_cpu z) (y_io z))
      (read_pointer zero_mem_status (unmarshal mem_status_field) (y_mem z) b)
  else if str_eqb k (s2l "CpuStatus") then
    into (fun x => MkSystem (y_disk z) (y_mem z) x (y_io z))
      (read_pointer zero_cpu_stat (unmarshal (cpu_stat_field widen)) (y_cpu z) b)
  else if str_eqb k (s2l "IoStatus") then
    into (fun x => MkSystem (y_disk z) (y_mem z) (y_cpu z) x)
      (read_pointer zero_io_stats (unmarshal io_stats_field) (y_io z) b)
  else unknown z b.

(* `EncodeMsgp`: src/common/util/util.go 203-209. *)
Definition encode_msgp {A} (marshal : A -> bytes) (z : A) : bytes := marshal z.

(* `DecodeMsgp`: what is left behind the record is dropped. src/common/util/util.go 194-200. *)
Definition decode_msgp {A} (unmarshal : A -> bytes -> out A) (z : A) (b : bytes) : option A :=
  match snd (unmarshal z b) with
  | None => None
  | Some (z, _) => Some z
  end.
