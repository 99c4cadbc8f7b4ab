(** Model of the data server's path index: for every object name the storage
    paths of its files, kept as one text
    (src/objectserver/internal/db/object_path_cache.go). *)
From Verif Require Import Str_Model.

(** object_path_cache.go:14 [Sep = ","]. *)
Definition sep : ascii := ","%char.

(** object_path_cache.go:15 [SepEnc = "%2C"]. *)
Definition sep_enc : str := s2l "%2C".

(** [bytes.HasPrefix]-and-strip: the rest of [s] after [p], as used by
    [bytes.ReplaceAll], [bytes.Cut] and [bytes.TrimPrefix]. *)
Fixpoint strip (p s : str) : option str :=
  match p, s with
  | [], _ => Some s
  | _ :: _, [] => None
  | x :: p', y :: s' => if ascii_dec x y then strip p' s' else None
  end.

(** object_path_cache.go:54-57 [encodeValue]: [bytes.ReplaceAll(val, Sep, SepEnc)]. *)
Fixpoint encode_path (s : str) : str :=
  match s with
  | [] => []
  | c :: s' => if ascii_dec c sep then sep_enc ++ encode_path s' else c :: encode_path s'
  end.

(** object_path_cache.go:59-62 [decodeValue]: [bytes.ReplaceAll(val, SepEnc, Sep)],
    scanning from the left without overlaps. *)
Fixpoint decode_path (s : str) : str :=
  match s with
  | [] => []
  | c1 :: t =>
      match t with
      | c2 :: (c3 :: r) =>
          if str_eq_dec [c1; c2; c3] sep_enc then sep :: decode_path r
          else c1 :: decode_path t
      | _ => c1 :: decode_path t
      end
  end.

(** [bytes.Cut(s, p)] for a text separator: around the first occurrence of [p]. *)
Fixpoint cut_str (p s : str) : option (str * str) :=
  match strip p s with
  | Some r => Some ([], r)
  | None =>
      match s with
      | [] => None
      | c :: s' =>
          match cut_str p s' with
          | Some (a, b) => Some (c :: a, b)
          | None => None
          end
      end
  end.

(** [bytes.TrimPrefix(s, Sep)] (object_path_cache.go:138). *)
Definition trim_prefix (s : str) : str :=
  match s with
  | c :: r => if ascii_dec c sep then r else s
  | [] => []
  end.

(** [bytes.TrimSuffix(s, Sep)] (object_path_cache.go:137). *)
Fixpoint trim_suffix (s : str) : str :=
  match s with
  | [] => []
  | [c] => if ascii_dec c sep then [] else [c]
  | c :: r => c :: trim_suffix r
  end.

(** The stored text of one name: [None] when the key is absent
    ([badger.ErrKeyNotFound]).  The database itself (transactions, other keys)
    is not modelled: every operation reads and writes exactly one key. *)
Definition cell := option str.

(** object_path_cache.go:64-78 [Put]: append to a non-empty text, else replace.
    The [item.Value] buffer that is appended to is taken as a private copy. *)
Definition path_put (v : cell) (path : str) : cell :=
  let value := encode_path path in
  match v with
  | Some (c :: r) => Some ((c :: r) ++ sep :: value)
  | _ => Some value
  end.

(** object_path_cache.go:81-103 [Get]: the paths, or [None] for [os.ErrNotExist].
    [bytes.Split] never returns an empty slice for a non-empty separator, so
    lines 90-92 are dead. *)
Definition path_get (v : cell) : option (list str) :=
  match v with
  | None => None
  | Some value => Some (map decode_path (split_on sep value))
  end.

(** [bytes.LastIndexByte(value, ',')]: the text before and after the last separator. *)
Fixpoint cut_last (s : str) : option (str * str) :=
  match s with
  | [] => None
  | c :: s' =>
      match cut_last s' with
      | Some (a, b) => Some (c :: a, b)
      | None => if ascii_dec c sep then Some ([], s') else None
      end
  end.

(** object_path_cache.go:106-124 [GetLast]: only when a separator stands at an
    index greater than 0. *)
Definition path_last (v : cell) : option str :=
  match v with
  | None => None
  | Some value =>
      match cut_last value with
      | Some (_ :: _, b) => Some (decode_path b)
      | _ => None
      end
  end.

(** object_path_cache.go:126-149 [Remove]: the error [badger.ErrKeyNotFound] is
    swallowed and leaves the text as it was. *)
Definition path_remove (v : cell) (path : str) : cell :=
  match v with
  | None => None
  | Some value =>
      match cut_str (encode_path path) value with
      | None => Some value
      | Some (before, after) =>
          let before := trim_suffix before in
          let after := trim_prefix after in
          Some (match before with [] => after | _ => before ++ sep :: after end)
      end
  end.

(** object_path_cache.go:151-160 [RemoveAll]. *)
Definition path_remove_all (v : cell) : cell := None.

(** object_path_cache.go:162-180 [IteratorAll] on one key: the paths handed to
    the callback. *)
Definition path_iterate (v : cell) : list str :=
  match v with None => [] | Some value => map decode_path (split_on sep value) end.

(** A call of the index for one name. *)
Inductive path_op := PPut (path : str) | PRemove (path : str) | PRemoveAll.

(** One call (the three writers above). *)
Definition path_step (v : cell) (o : path_op) : cell :=
  match o with
  | PPut p => path_put v p
  | PRemove p => path_remove v p
  | PRemoveAll => path_remove_all v
  end.

(** A history of calls from the absent key. *)
Definition path_run (ops : list path_op) : cell := fold_left path_step ops None.
