(** Model of src/common/hashslot: slot ranges ("edges"), slot tables and the
    operations on them.  Go [int] is modelled by [Z] (parsing already bounds the
    values to int64, no operation below adds two slots).  [*Edge] pointers are
    modelled as values. *)
From Verif Require Export Str_Model.
From Coq Require Export Sorting.Permutation Sorting.Sorted.
Local Open Scope Z_scope.

(** edge.go:5-9 [type Edge struct]. *)
Record edge := mkEdge { e_start : Z; e_end : Z; e_value : str }.

(** edge.go:21-26 [EdgeList.Less]. *)
Definition edge_less (a b : edge) : bool :=
  if e_start a =? e_start b then e_end a <? e_end b else e_start a <? e_start b.

(** Order used by [sort.Sort]: [a] may stand before [b]. *)
Definition edge_le (a b : edge) : Prop := edge_less b a = false.

(** [sort.Sort(edges)] (hash_slot.go:44,185) is Go's unstable pattern-defeating
    quicksort.  The model does not fix the algorithm: every definition below
    takes the sorting function as a parameter and theorems hold for every
    function that returns an ordered permutation. *)
Definition sorter := list edge -> list edge.

Definition is_sorter (sort : sorter) : Prop :=
  forall l, Permutation l (sort l) /\ StronglySorted edge_le (sort l).

(** One concrete sorter (insertion sort), used in examples. *)
Fixpoint insert_edge (e : edge) (l : list edge) : list edge :=
  match l with
  | [] => [e]
  | x :: l' => if edge_less x e then x :: insert_edge e l' else e :: l
  end.
Definition isort (l : list edge) : list edge := fold_right insert_edge [] l.

(** hash_slot.go:21-41 [formatInt]; [None] = error. *)
Definition format_int (slot : str) : option (Z * Z) :=
  match split_on "-"%char slot with
  | [a; b] =>
      match atoi a with
      | None => None
      | Some s =>
          if s <? 0 then None
          else match atoi b with
               | None => None
               | Some e => if e <? 0 then None else Some (s, e)
               end
      end
  | _ => None
  end.

(** hash_slot.go:46-57: the validation loop over the sorted list; [pre] is
    [edges[i-1]] ([None] for i = 0).  [true] = no error. *)
Fixpoint validate_loop (pre : option edge) (l : list edge) : bool :=
  match l with
  | [] => true
  | e :: l' =>
      if e_start e >=? e_end e then false
      else match pre with
           | None => validate_loop (Some e) l'
           | Some p =>
               if (e_start p =? e_start e) || (e_end p >? e_start e) then false
               else validate_loop (Some e) l'
           end
  end.

(** hash_slot.go:43-59 [sortAndValidate]: sorts in place, so the sorted list is
    part of the result; the boolean is "error == nil". *)
Definition sort_and_validate (sort : sorter) (l : list edge) : list edge * bool :=
  let s := sort l in (s, validate_loop None s).

(** hash_slot.go:61-75 [wrapSlotsOriginal]. *)
Fixpoint wrap_slots_original (slots : list str) (identify : str) : option (list edge) :=
  match slots with
  | [] => Some []
  | s :: rest =>
      match format_int s with
      | None => None
      | Some (a, b) =>
          match wrap_slots_original rest identify with
          | None => None
          | Some es => Some (mkEdge a b identify :: es)
          end
      end
  end.

(** hash_slot.go:78-84 [WrapSlotsToEdges]: result list and success flag
    (the list is returned together with a validation error). *)
Definition wrap_slots_to_edges (sort : sorter) (slots : list str) (identify : str)
  : option (list edge * bool) :=
  match wrap_slots_original slots identify with
  | None => None
  | Some es => Some (sort_and_validate sort es)
  end.

(** hash_slot.go:91-98: concatenation of the owners' ranges.  The Go map is
    modelled as an association list in the order [range] happens to visit it. *)
Fixpoint wrap_all (slots_map : list (str * list str)) : option (list edge) :=
  match slots_map with
  | [] => Some []
  | (value, slots) :: rest =>
      match wrap_slots_original slots value with
      | None => None
      | Some es =>
          match wrap_all rest with
          | None => None
          | Some es' => Some (es ++ es')
          end
      end
  end.

(** hash_slot.go:87-103 [WrapSlots]. *)
Definition wrap_slots (sort : sorter) (slots_map : list (str * list str)) : option (list edge) :=
  match slots_map with
  | [] => None
  | _ =>
      match wrap_all slots_map with
      | None => None
      | Some es =>
          let '(sorted, ok) := sort_and_validate sort es in
          if ok then Some sorted else None
      end
  end.

(** Go library [sort.Search] (binary search, first index where [f] is true),
    used at hash_slot.go:134,143.  Fuel [j - i] always suffices; running out of
    fuel is reported as [None]. *)
Fixpoint search_loop (fuel : nat) (f : nat -> bool) (i j : nat) : option nat :=
  if (i <? j)%nat then
    match fuel with
    | O => None
    | S fuel' =>
        let h := Nat.div2 (i + j) in
        if f h then search_loop fuel' f i h else search_loop fuel' f (S h) j
    end
  else Some i.
Definition sort_search (n : nat) (f : nat -> bool) : option nat := search_loop n f 0 n.

(** hash_slot.go:134-136: predicate "slot < edges[i].End". *)
Definition before_end (slot : Z) (edges : list edge) (i : nat) : bool :=
  match nth_error edges i with Some e => slot <? e_end e | None => false end.

(** hash_slot.go:132-140 [GetSlotIdentify]; [None] = error. *)
Definition get_slot_identify (slot : Z) (edges : list edge) : option str :=
  match sort_search (List.length edges) (before_end slot edges) with
  | None => None
  | Some idx =>
      match nth_error edges idx with
      | Some e => if slot >=? e_start e then Some (e_value e) else None
      | None => None
      end
  end.

(** hash_slot.go:142-149 [IsSlotInEdges]. *)
Definition is_slot_in_edges (slot : Z) (edges : list edge) : bool :=
  match sort_search (List.length edges) (before_end slot edges) with
  | None => false
  | Some idx =>
      match nth_error edges idx with
      | Some e => slot >=? e_start e
      | None => false
      end
  end.

(** hash_slot.go:113-115 [CalcBytesSlot]; [crc32.ChecksumIEEE] is a parameter. *)
Definition max_slot : N := 16383.
Definition calc_bytes_slot (crc32 : str -> N) (bt : str) : Z := Z.of_N (N.land (crc32 bt) max_slot).

(** hash_slot.go:105-111 [GetStringIdentify], [GetDataIdentify]. *)
Definition get_string_identify (crc32 : str -> N) (key : str) (edges : list edge) : option str :=
  get_slot_identify (calc_bytes_slot crc32 key) edges.

(** hash_slot.go:117-130 [CopyOfEdges]. *)
Definition copy_of_edges (identify : str) (edges : list edge) : list edge :=
  filter (fun e => str_eqb identify [] || str_eqb (e_value e) identify) edges.

(** hash_slot.go:152-167 [FindRangeCurrentData]: loop body for one edge,
    state (pieces found so far, remaining length). *)
Definition find_range_step (start end_ : Z) (acc : list edge * Z) (e : edge) : list edge * Z :=
  let '(res, range_len) := acc in
  let ed := Z.min (e_end e) end_ in
  if (e_start e <? start) && (start <? e_end e) then
    (res ++ [mkEdge start ed (e_value e)], range_len - (ed - start))
  else if (e_start e >=? start) && (e_start e <? end_) then
    (res ++ [mkEdge (e_start e) ed (e_value e)], range_len - (ed - e_start e))
  else (res, range_len).

Definition find_range_current_data (start end_ : Z) (edges : list edge) : list edge * bool :=
  let '(res, range_len) := fold_left (find_range_step start end_) edges ([], end_ - start) in
  (res, range_len =? 0).

(** hash_slot.go:170-179 [IsValidEdge]. *)
Definition is_valid_edge (e : edge) (edges : list edge) : bool :=
  let '(res, fully) := find_range_current_data (e_start e) (e_end e) edges in
  if negb fully then false
  else match res with
       | [p] => str_eqb (e_value p) (e_value e)
       | _ => false
       end.

(** hash_slot.go:186-198 [CombineEdges] loop; the accumulator is [newEdges] in
    reverse (its last element first).  Go updates [last] through the pointer. *)
Definition combine_step (acc : list edge) (e : edge) : list edge :=
  match acc with
  | [] => [e]
  | last :: before =>
      if e_start e <=? e_end last then
        mkEdge (Z.min (e_start last) (e_start e)) (Z.max (e_end last) (e_end e)) (e_value last)
          :: before
      else e :: last :: before
  end.

(** hash_slot.go:182-200 [CombineEdges]. *)
Definition combine_edges (sort : sorter) (src dest : list edge) : list edge :=
  rev (fold_left combine_step (sort (src ++ dest)) []).

(** hash_slot.go:209-223: inner loop of [RemoveEdges] for one [edge]. *)
Definition remove_one (del e : edge) : list edge :=
  if (e_end e <=? e_start del) || (e_end del <=? e_start e) then [e]
  else
    (if e_start e <? e_start del then [mkEdge (e_start e) (e_start del) (e_value e)] else [])
    ++ (if e_end e >? e_end del then [mkEdge (e_end del) (e_end e) (e_value e)] else []).

(** hash_slot.go:203-229 [RemoveEdges].  The two buffers are used alternately,
    one is read while the other is written, so they do not alias. *)
Definition remove_edges (src dest : list edge) : list edge :=
  fold_left (fun src del => flat_map (remove_one del) src) dest src.

(** edge.go:32-38 [EdgeList.Strings]: [fmt.Sprint(edge.Start, "-", edge.End)]. *)
Definition edge_string (e : edge) : str := print_Z (e_start e) ++ "-"%char :: print_Z (e_end e).
Definition edge_strings (l : list edge) : list str := map edge_string l.
