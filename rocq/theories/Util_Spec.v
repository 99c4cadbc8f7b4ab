(** Specifications for the small helpers. *)
From Verif Require Import Str_Spec Util_Model.
Local Open Scope Z_scope.

(** The text [s] (any letter case) is [n] units of [k] bytes. *)
Definition size_units : list (str * N) :=
  [ ([], 1%N); (s2l "B", 1%N); (s2l "KB", 1024%N); (s2l "MB", 1048576%N);
    (s2l "GB", 1073741824%N); (s2l "TB", 1099511627776%N); (s2l "PB", 1125899906842624%N) ].
Definition size_text (s : str) (n k : N) : Prop :=
  exists d u, to_upper s = d ++ u /\ dec_text d n /\ In (u, k) size_units.

(** [glob p s]: [s] is an instance of [p], where '*' stands for any run of
    characters and '?' for exactly one. *)
Fixpoint glob (p s : list N) : Prop :=
  match p with
  | [] => s = []
  | c :: p' =>
      if (c =? 42)%N then exists s1 s2, s = s1 ++ s2 /\ glob p' s2
      else if (c =? 63)%N then exists x s', s = x :: s' /\ glob p' s'
      else exists s', s = c :: s' /\ glob p' s'
  end.

(** Page [k] (from 1) of size [size] of a listing. *)
Definition page_of {A} (l : list A) (size k : nat) : list A := firstn size (skipn ((k - 1) * size) l).

(** The header text for a list of byte ranges. *)
Fixpoint range_header_text (l : list (Z * Z)) : str :=
  match l with
  | [] => []
  | [(a, b)] => print_Z a ++ "-"%char :: print_Z b
  | (a, b) :: l' => (print_Z a ++ "-"%char :: print_Z b) ++ ","%char :: range_header_text l'
  end.

