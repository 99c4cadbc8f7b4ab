(** Models of small shared helpers: src/common/datasize, src/common/wildcard,
    src/common/util/util.go, src/common/util/slices, src/common/util/math,
    src/common/request. *)
From Verif Require Export Str_Model.
Local Open Scope Z_scope.

(** ** src/common/datasize/datasize.go *)

(** [strings.ToUpper] (datasize.go:92).  Simplified to ASCII: the only non-ASCII
    runes whose upper case is ASCII become 'I' or 'S', which no unit contains. *)
Definition to_upper_char (c : ascii) : ascii :=
  let n := N_of_ascii c in
  if ((97 <=? n) && (n <=? 122))%N then ascii_of_N (n - 32) else c.
Definition to_upper (s : str) : str := map to_upper_char s.

(** datasize.go:17-24, 74-89: unit names and values. *)
Definition units : list (str * N) :=
  [ (s2l "B", 1%N); (s2l "KB", (2 ^ 10)%N); (s2l "MB", (2 ^ 20)%N);
    (s2l "GB", (2 ^ 30)%N); (s2l "TB", (2 ^ 40)%N); (s2l "PB", (2 ^ 50)%N) ].
Definition unit_PB : N := (2 ^ 50)%N.

(** [unitNameMap] lookup, datasize.go:105. *)
Fixpoint lookup_unit (u : str) (l : list (str * N)) : option N :=
  match l with
  | [] => None
  | (n, v) :: l' => if str_eqb n u then Some v else lookup_unit u l'
  end.

Definition is_digit_b (c : ascii) : bool :=
  ((48 <=? N_of_ascii c) && (N_of_ascii c <=? 57))%N.

(** The longest digit prefix and the rest: the two groups of
    [^(\d+)(B|KB|MB|GB|TB|PB)?$], datasize.go:11,93 (the units start with a
    letter, so the greedy digit group is the longest digit prefix). *)
Fixpoint span_digits (s : str) : str * str :=
  match s with
  | [] => ([], [])
  | c :: s' => if is_digit_b c then let '(d, r) := span_digits s' in (c :: d, r) else ([], s)
  end.

(** datasize.go:123-125 [IsExceedLimit]. *)
Definition is_exceed_limit (num : Z) (u : N) : bool := (u =? unit_PB)%N && (num >=? 1024).

(** datasize.go:91-112 [Parse]; [uint64] arithmetic wraps modulo 2^64. *)
Definition uint64 (z : Z) : N := Z.to_N (z mod 2 ^ 64).
Definition parse_size (s0 : str) : option N :=
  let s := to_upper s0 in
  let '(d, u) := span_digits s in
  match d with
  | [] => None
  | _ =>
      match u with
      | [] => match atoi d with Some num => Some (uint64 num) | None => None end
      | _ =>
          match lookup_unit u units with
          | None => None (* the regular expression does not match *)
          | Some v =>
              match atoi d with
              | None => None
              | Some num =>
                  if is_exceed_limit num v then None
                  else Some (N.modulo (uint64 num * v) (2 ^ 64))%N
              end
          end
      end
  end.

(** ** src/common/wildcard/wildcard.go (on runes, here numbers) *)

Definition rune_star : N := 42.
Definition rune_quest : N := 63.

(** wildcard.go:50-69 [deepMatchRune].  The loop consumes one pattern rune per
    round, the '*' case recurses on the text. *)
Fixpoint deep_match (simple : bool) (pattern : list N) (text : list N) {struct pattern} : bool :=
  match pattern with
  | [] => match text with [] => true | _ => false end
  | c :: p =>
      if (c =? rune_star)%N then
        (fix star (t : list N) : bool :=
           deep_match simple p t ||
           match t with [] => false | _ :: t' => star t' end) text
      else if (c =? rune_quest)%N then
        match text with [] => simple | _ :: t => deep_match simple p t end
      else
        match text with
        | [] => false
        | x :: t => if (x =? c)%N then deep_match simple p t else false
        end
  end.

(** wildcard.go:39-48 [Match] and 24-33 [MatchSimple]. *)
Definition wild_match_gen (simple : bool) (pattern name : list N) : bool :=
  match pattern with
  | [] => match name with [] => true | _ => false end
  | _ => if list_eq_dec N.eq_dec pattern [rune_star] then true
         else deep_match simple pattern name
  end.
Definition wild_match := wild_match_gen false.
Definition wild_match_simple := wild_match_gen true.

(** ** src/common/util/util.go:257-270 [PagingOffset] *)
Definition paging_offset (page size total : Z) : Z * Z * bool :=
  if page =? 0 then (0, 0, false)
  else
    let offset := (page - 1) * size in
    if offset >=? total then (0, 0, false)
    else
      let e := offset + size in
      let e := if e >? total then total else e in
      (offset, e, true).

(** Go slice expression [l[a:b]]; [None] = run-time panic. *)
Definition slice {A} (l : list A) (a b : Z) : option (list A) :=
  if (0 <=? a) && (a <=? b) && (b <=? Z.of_nat (List.length l))
  then Some (firstn (Z.to_nat (b - a)) (skipn (Z.to_nat a) l)) else None.

(** ** src/common/util/math/math.go *)

(** math.go:5-10 [LogicMod]; Go [%] truncates, [Z.rem]; division by zero panics. *)
Definition logic_mod (a b : Z) : option Z :=
  if b =? 0 then None
  else Some (if (a <? 0) || (b <? 0) then b + Z.rem a b else Z.rem a b).

(** ** src/common/util/slices/slices.go:95-116 [SafeChunk]; [None] = panic.
    Simplified: the capacity of the slice is its length. *)
Definition safe_index (i n : Z) : option Z :=
  if i <? 0 then logic_mod i n else if i >=? n then Some (n - 1) else Some i.
Definition safe_chunk {A} (arr : list A) (start end_ : Z) : option (list A) :=
  let n := Z.of_nat (List.length arr) in
  match safe_index start n, safe_index end_ n with
  | Some s, Some e =>
      let '(s, e) := if s >? e then (e, s) else (s, e) in
      slice arr s (e + 1)
  | _, _ => None
  end.

(** [copy(arr[j:], arr[:j])] for j <= len(arr). *)
Definition copy_double {A} (j : nat) (arr : list A) : list A :=
  let src := firstn j arr in
  let k := Nat.min j (List.length arr - j) in
  firstn j arr ++ firstn k src ++ skipn (j + k) arr.

(** slices.go:25-27, 38-40: doubling loop; [fuel] bounds the rounds, [None] when
    exhausted. *)
Fixpoint fill_loop {A} (fuel j : nat) (arr : list A) : option (list A) :=
  if (j <? List.length arr)%nat then
    match fuel with
    | O => None
    | S f => fill_loop f (j * 2) (copy_double j arr)
    end
  else Some arr.

(** slices.go:17-28 [Fill]. *)
Definition fill {A} (arr : list A) (v : A) : option (list A) :=
  match arr with
  | [] => Some []
  | _ :: rest => fill_loop (List.length arr) 1 (v :: rest)
  end.

(** slices.go:30-41 [FillPattern]: [copy(arr, pattern)] first. *)
Definition copy_prefix {A} (arr pattern : list A) : list A :=
  firstn (List.length arr) pattern ++ skipn (List.length pattern) arr.
Definition fill_pattern {A} (arr pattern : list A) : option (list A) :=
  match arr, pattern with
  | [], _ => Some arr
  | _, [] => Some arr
  | _, _ => fill_loop (List.length arr) (List.length pattern) (copy_prefix arr pattern)
  end.

(** slices.go:67-75 [ExtremalIndex]: index kept in [ex]. *)
Fixpoint extremal_loop {A} (fn : A -> A -> bool) (all : list A) (i : nat) (ex : nat) (l : list A) : nat :=
  match l with
  | [] => ex
  | x :: l' =>
      match nth_error all ex with
      | Some e => extremal_loop fn all (S i) (if fn e x then i else ex) l'
      | None => ex
      end
  end.
Definition extremal_index {A} (fn : A -> A -> bool) (arr : list A) : nat := extremal_loop fn arr 0 0 arr.

(** ** src/common/request/range.go *)

(** [strings.TrimSpace], ASCII white space (range.go:46).  Simplified: Unicode
    spaces are not trimmed. *)
Definition is_space (c : ascii) : bool :=
  let n := N_of_ascii c in ((n =? 32) || ((9 <=? n) && (n <=? 13)))%N.
Fixpoint trim_left (s : str) : str :=
  match s with [] => [] | c :: s' => if is_space c then trim_left s' else s end.
Definition trim_space (s : str) : str := rev (trim_left (rev (trim_left s))).

(** util.go:142-151 [ToInt64]: empty -> 0; on error [ParseInt] returns 0 for a
    syntax error and the nearest bound for a range error. *)
Definition to_int64 (s : str) : Z :=
  match s with
  | [] => 0
  | _ =>
      let v :=
        match s with
        | "-"%char :: r => match parse_digits r with Some n => Some (- Z.of_N n) | None => None end
        | "+"%char :: r => match parse_digits r with Some n => Some (Z.of_N n) | None => None end
        | _ => match parse_digits s with Some n => Some (Z.of_N n) | None => None end
        end in
      match v with
      | Some z => Z.max int64_min (Z.min int64_max z)
      | None => 0
      end
  end.

(** [strings.Cut(str, "bytes=")]: the text after the first occurrence. *)
Fixpoint after_prefix (pre s : str) : option str :=
  match pre, s with
  | [], _ => Some s
  | p :: pre', c :: s' => if ascii_dec p c then after_prefix pre' s' else None
  | _ :: _, [] => None
  end.
Fixpoint cut_str (sep s : str) : option str :=
  match after_prefix sep s with
  | Some r => Some r
  | None => match s with [] => None | _ :: s' => cut_str sep s' end
  end.

(** range.go:46-54: one tuple. *)
Definition range_tuple (t : str) : Z * Z :=
  match split_on "-"%char (trim_space t) with
  | [] => (0, 0)
  | [a] => (to_int64 a, 0)
  | a :: b :: _ => (to_int64 a, to_int64 b)
  end.

(** range.go:32-57 [Range.ConvertFrom]; [None] = false. *)
Definition range_convert (s : str) : option (list (Z * Z)) :=
  match s with
  | [] => None
  | _ =>
      match cut_str (s2l "bytes=") s with
      | None => None
      | Some r => Some (map range_tuple (split_on ","%char r))
      end
  end.
