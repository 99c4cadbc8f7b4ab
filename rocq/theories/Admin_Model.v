(** Model of the listings of the admin server: it asks the master of every group of
    metadata servers for the beginning of its list, sorts the answers and cuts a page.

    Source: src/adminserver/internal/usecase/logic/metadata_logic.go 48-125, 246-260,
    src/adminserver/internal/usecase/webapi/metadata_server.go 13-45,
    src/common/proto/msg/metadata.go 16-26, 60-62,
    src/metaserver/internal/controller/http/metadata_rest.go 87-124, bucket_rest.go 88-105,
    src/metaserver/internal/usecase/service/metadata_service.go 178-183,
    src/metaserver/internal/usecase/repo/bucket_repo.go 78-95,
    src/common/util/util.go 257-270.

    Simplified: the requests do not fail on the way and all goroutines end before the
    wait (a lost error is C51); [sort.Slice] is any function that sorts; the order the
    metadata server gives its answer by time is not kept by it, so the answer stays in
    the order of the keys. *)
From Verif Require Import Str_Model Meta_Model Util_Model.
From stdpp Require Import gmap.
Local Open Scope list_scope.

(** int of Go on 64 bits. *)
Definition int64 (z : Z) : Z := ((z + 2 ^ 63) mod 2 ^ 64 - 2 ^ 63)%Z.

(** What [fmt.Sprintf] appends for the two arguments the format does not mention
    (fmt, doPrintf; msg/metadata.go 25). *)
Definition extra_open : str := s2l "%!(EXTRA string=/, string="%string.
Definition extra_close : str := s2l ")"%string.

(** [Metadata.ID] (msg/metadata.go 24-26): [fmt.Sprintf] with the bucket as format.
    [verbs] is its result for buckets with a percent sign. *)
Definition meta_id (verbs : str -> str -> str) (m : metadata) : str :=
  if existsb (fun c => (N_of_ascii c =? 37)%N) (m_bucket m) then verbs (m_bucket m) (m_name m)
  else m_bucket m ++ extra_open ++ m_name m ++ extra_close.

(** [Metadata] handler [List] (metadata_rest.go 87-124) with the binding
    [required,lte=10000], and [ListMetadata] of the client (webapi/metadata_server.go
    13-28); [None] is an answer other than 200. *)
Definition ask_objects (prefix : str) (n : Z) (d : db) : option (list metadata * nat) :=
  if (n =? 0)%Z || (10000 <? n)%Z then None else Some (list_metadata prefix (Z.to_nat n) d).

(** The same for buckets (bucket_rest.go 88-105, bucket_repo.go 78-95, webapi/metadata_server.go
    30-45); [make] panics for a negative capacity. *)
Definition ask_buckets (prefix : str) (n : Z) (d : db) : option (list bucket * nat) :=
  if (n <=? 0)%Z || (10000 <? n)%Z then None else Some (list_buckets prefix (Z.to_nat n) d).

(** What a listing ends with. *)
Inductive listing (A : Type) := Page (l : list A) (total : nat) | Failed | Panicked.
Arguments Page {A}. Arguments Failed {A}. Arguments Panicked {A}.

(** All answers, or nothing if one failed ([WaitUntilError], metadata_logic.go 75-77,
    118-120). *)
Fixpoint gather {A} (l : list (option (list A * nat))) : option (list A * nat) :=
  match l with
  | [] => Some ([], 0)
  | None :: _ => None
  | Some (x, n) :: l' => match gather l' with None => None | Some (y, m) => Some (x ++ y, n + m) end
  end.

(** [make] (metadata_logic.go 50, 93): the capacity; 2^45 pointers are the most. *)
Definition bad_cap (servers : nat) (page size : Z) : bool :=
  let c := int64 (Z.of_nat servers * page * size) in (c <? 0)%Z || (2 ^ 45 <? c)%Z.

(** The prefix asked for (metadata_logic.go 63). *)
Definition object_key (bucket name : str) : str :=
  match bucket with [] => name | _ => bucket ++ s2l "/"%string ++ name end.

(** [MetadataPaging] (metadata_logic.go 48-85) with the answers of the servers in the
    order they come. *)
Definition metadata_paging (srt : list metadata -> list metadata) (servers : list db)
    (bucket name : str) (page size : Z) : listing metadata :=
  if bad_cap (length servers) page size then Panicked
  else match servers with
  | [] => Page [] 0
  | _ => match gather (map (ask_objects (object_key bucket name) (int64 (page * size))) servers) with
         | None => Failed
         | Some (lst, totals) =>
             let lst := srt lst in
             match paging_offset page size (Z.of_nat (length lst)) with
             | (st, ed, true) => match slice lst st ed with Some l => Page l totals | None => Panicked end
             | (_, _, false) => Page [] 0
             end
         end
  end.

(** [BucketPaging] (metadata_logic.go 91-125). *)
Definition bucket_paging (srt : list bucket -> list bucket) (servers : list db)
    (name : str) (page size : Z) : listing bucket :=
  if bad_cap (length servers) page size then Panicked
  else match servers with
  | [] => Page [] 0
  | _ => match gather (map (ask_buckets name (int64 (page * size))) servers) with
         | None => Failed
         | Some (lst, totals) =>
             let lst := srt lst in
             match paging_offset page size (Z.of_nat (length lst)) with
             | (st, ed, _) => match slice lst st ed with Some l => Page l totals | None => Panicked end
             end
         end
  end.

(** [TotalBuckets], [TotalObjects] (metadata_logic.go 246-260). *)
Definition total_of {A} (l : listing A) : option nat := match l with Page _ n => Some n | _ => None end.
Definition total_buckets srt servers : option nat := total_of (bucket_paging srt servers [] 1 1).
Definition total_objects srt servers : option nat := total_of (metadata_paging srt servers [] [] 1 1).

(** A sort by a key, for the examples ([sort.Slice], metadata_logic.go 78-80, 121-123). *)
Fixpoint sinsert {A} (key : A -> str) (x : A) (l : list A) : list A :=
  match l with
  | [] => [x]
  | y :: l' => if str_ltb (key x) (key y) then x :: y :: l' else y :: sinsert key x l'
  end.
Definition ssort {A} (key : A -> str) (l : list A) : list A := fold_right (sinsert key) [] l.
