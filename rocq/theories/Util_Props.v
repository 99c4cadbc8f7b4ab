From Verif Require Import Str_Spec Str_Model Util_Model Util_Spec Util_Proofs.
Local Open Scope Z_scope.

(** * C09: data sizes *)

(** A text is accepted exactly when it is digits followed by an optional unit, the
    digits fit a signed 64-bit number and it is not 1024 PB or more; the result is
    the product modulo 2^64. *)
Theorem C09_size_text_iff : forall s r,
  parse_size s = Some r <->
  exists n k, size_text s n k /\ Z.of_N n <= int64_max /\ ~ (k = 2 ^ 50 /\ 1024 <= n)%N /\
              r = ((n * k) mod 2 ^ 64)%N.
Proof. exact parse_size_iff. Qed.
Print Assumptions C09_size_text_iff.

(** Full claim: an accepted text means exactly n units.  It holds while the product
    fits 64 bits; the missing part is refuted below. *)
Theorem C09_size_exact_partial : forall s n k,
  size_text s n k -> Z.of_N n <= int64_max -> ~ (k = 2 ^ 50 /\ 1024 <= n)%N -> (n * k < 2 ^ 64)%N ->
  parse_size s = Some (n * k)%N.
Proof. exact parse_size_exact. Qed.
Print Assumptions C09_size_exact_partial.

Theorem C09_size_exact_refuted : exists s n k,
  size_text s n k /\ (0 < n * k)%N /\ parse_size s = Some 0%N.
Proof.
  exists (s2l "16777216TB"), 16777216%N, 1099511627776%N.
  split; [|split; [reflexivity|vm_compute; reflexivity]].
  exists (s2l "16777216"), (s2l "TB"). split; [reflexivity|]. split; [|cbn; auto 10].
  split; [discriminate|]. split; [|reflexivity].
  repeat constructor; unfold dec_digit; vm_compute; intuition discriminate.
Qed.
Print Assumptions C09_size_exact_refuted.

Example C09_nonvacuous : parse_size (s2l "12kb") = Some 12288%N /\ parse_size (s2l "12Kib") = None
  /\ parse_size (s2l "1024PB") = None /\ parse_size (s2l "1023PB") = Some 1151795604700004352%N.
Proof. vm_compute. auto. Qed.
Example C09_text : size_text (s2l "12kb") 12 1024.
Proof.
  exists (s2l "12"), (s2l "KB"). split; [reflexivity|]. split; [|cbn; auto].
  split; [discriminate|]. split; [|reflexivity]. repeat constructor; vm_compute; intuition discriminate.
Qed.

(** * C10: wildcards *)

Theorem C10_wildcard_exact : forall pattern name, wild_match pattern name = true <-> glob pattern name.
Proof. exact wild_match_iff. Qed.
Print Assumptions C10_wildcard_exact.

(** The simple variant: what it accepts exactly.  The documented claim ("'?' at the
    end is optional") is the case where [p2] is empty. *)
Theorem C10_simple_exact : forall pattern name, wild_match_simple pattern name = true <->
  glob pattern name \/ exists p1 p2, pattern = p1 ++ rune_quest :: p2 /\ glob p1 name.
Proof. exact wild_match_simple_iff. Qed.
Print Assumptions C10_simple_exact.

(** The documented claim fails: "a?b" accepts "a". *)
Theorem C10_simple_doc_refuted : exists pattern name, wild_match_simple pattern name = true /\
  ~ glob pattern name /\ ~ (exists p1, pattern = p1 ++ [rune_quest] /\ glob p1 name).
Proof. exact wild_simple_doc_false. Qed.
Print Assumptions C10_simple_doc_refuted.

Example C10_nonvacuous :
  wild_match (map N_of_ascii (s2l "a*?c")) (map N_of_ascii (s2l "axyzc")) = true /\
  wild_match (map N_of_ascii (s2l "a*?c")) (map N_of_ascii (s2l "ac")) = false.
Proof. vm_compute. auto. Qed.

(** * C12: paging *)

(** Page k of a listing is the k-th block of [size] items; a page past the end is
    reported as absent (and is empty). *)
Theorem C12_page_exact : forall (A : Type) (l : list A) (size k : nat), (1 <= k)%nat -> (1 <= size)%nat ->
  (((k - 1) * size < List.length l)%nat ->
     exists a b, paging_offset (Z.of_nat k) (Z.of_nat size) (Z.of_nat (List.length l)) = (a, b, true) /\
                 slice l a b = Some (page_of l size k)) /\
  ((List.length l <= (k - 1) * size)%nat ->
     paging_offset (Z.of_nat k) (Z.of_nat size) (Z.of_nat (List.length l)) = (0, 0, false) /\
     page_of l size k = []).
Proof. exact paging_page. Qed.
Print Assumptions C12_page_exact.

(** Reading enough pages one after the other returns the listing. *)
Theorem C12_pages_cover : forall (A : Type) (size n : nat) (l : list A), (1 <= size)%nat ->
  (List.length l <= n * size)%nat ->
  List.concat (map (page_of l size) (seq 1 n)) = l.
Proof. exact pages_concat. Qed.
Print Assumptions C12_pages_cover.

(** A negative page number is not refused and the following slice panics. *)
Theorem C12_every_page_number_refuted : exists (page size : Z) (l : list nat) a b,
  paging_offset page size (Z.of_nat (List.length l)) = (a, b, true) /\ slice l a b = None.
Proof. exists (-1), 2, [1; 2; 3]%nat, (-4), (-2). vm_compute. auto. Qed.
Print Assumptions C12_every_page_number_refuted.

Example C12_nonvacuous : map (page_of [1; 2; 3; 4; 5]%nat 2) (seq 1 4) = [[1; 2]; [3; 4]; [5]; []]%nat.
Proof. reflexivity. Qed.

(** * C41: range headers *)

Theorem C41_range_header_roundtrip : forall l, l <> [] ->
  (forall a b, In (a, b) l -> 0 <= a <= int64_max /\ 0 <= b <= int64_max) ->
  range_convert (s2l "bytes=" ++ range_header_text l) = Some l.
Proof. exact range_convert_print. Qed.
Print Assumptions C41_range_header_roundtrip.

(** A suffix range ("the last 500 bytes") is read as "from 0 to 500". *)
Theorem C41_suffix_range_refuted : range_convert (s2l "bytes=-500") = range_convert (s2l "bytes=0-500").
Proof. vm_compute. reflexivity. Qed.
Print Assumptions C41_suffix_range_refuted.

Example C41_nonvacuous : range_convert (s2l "bytes=10-20,30-40") = Some [(10, 20); (30, 40)]
  /\ range_header_text [(10, 20); (30, 40)] = s2l "10-20,30-40".
Proof. vm_compute. auto. Qed.

(** * C42: chunks with negative indexes *)

(** [start] and [end_] (inclusive) count from the tail when negative and are cut to
    the last element when too large; either order is accepted. *)
(** Partial.  Full statement: Asking for elements start..end (inclusive, negative counting from the
    tail, too large cut to the last) returns exactly those elements and never fails.  It fails in
    general: [C42_chunk_total_refuted]. *)
Theorem C42_chunk_exact_partial : forall (A : Type) (arr : list A) s e, let n := Z.of_nat (List.length arr) in
  0 < n -> - n < s -> - n < e ->
  let i := if s <? 0 then n + s else Z.min s (n - 1) in
  let j := if e <? 0 then n + e else Z.min e (n - 1) in
  safe_chunk arr s e =
    Some (firstn (Z.to_nat (Z.max i j + 1 - Z.min i j)) (skipn (Z.to_nat (Z.min i j)) arr)).
Proof. exact safe_chunk_total. Qed.
Print Assumptions C42_chunk_exact_partial.

(** Missing: the first element addressed from the tail, and empty arrays, panic. *)
Theorem C42_chunk_total_refuted :
  safe_chunk [1; 2; 3]%nat (-3) (-1) = None /\ safe_chunk (@nil nat) 2 (-1) = None.
Proof. vm_compute. auto. Qed.
Print Assumptions C42_chunk_total_refuted.

Example C42_nonvacuous : safe_chunk [1; 2; 3; 4; 5]%nat 2 (-1) = Some [3; 4; 5]%nat.
Proof. reflexivity. Qed.

(** * C46: bulk fill *)

Theorem C46_fill_exact : forall (A : Type) (arr : list A) v, fill arr v = Some (repeat v (List.length arr)).
Proof. exact fill_spec. Qed.
Print Assumptions C46_fill_exact.

Theorem C46_fill_pattern_exact : forall (A : Type) (arr pat : list A), pat <> [] -> arr <> [] ->
  exists r, fill_pattern arr pat = Some r /\ List.length r = List.length arr /\
    forall i, (i < List.length arr)%nat -> nth_error r i = nth_error pat (i mod List.length pat).
Proof. exact fill_pattern_spec. Qed.
Print Assumptions C46_fill_pattern_exact.

Example C46_nonvacuous : fill_pattern (repeat 0 8)%nat [1; 2; 3]%nat = Some [1; 2; 3; 1; 2; 3; 1; 2]%nat.
Proof. reflexivity. Qed.

(** * C47: extremal element *)

(** With a strict weak order, nothing in the list beats the element at the returned
    index. *)
Theorem C47_extremal_exact : forall (A : Type) (fn : A -> A -> bool) (arr : list A),
  (forall a b c, fn a b = false -> fn b c = false -> fn a c = false) ->
  (forall a b, fn a b = true -> fn b a = false) ->
  (forall a, fn a a = false) -> arr <> [] ->
  exists e, nth_error arr (extremal_index fn arr) = Some e /\ forall x, In x arr -> fn e x = false.
Proof. exact extremal_index_spec. Qed.
Print Assumptions C47_extremal_exact.

Example C47_nonvacuous : extremal_index Nat.ltb [3; 9; 2; 9]%nat = 1%nat.
Proof. reflexivity. Qed.
