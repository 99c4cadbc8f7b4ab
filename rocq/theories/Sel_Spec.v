(** Words for the theorems about the load of data servers. *)
From Coq Require Import List Bool Arith NArith ZArith.
From Coq Require Import Permutation.
From Verif Require Import Str_Model Sel_Model.
Import ListNotations.
Local Open Scope list_scope.

(** [l] are the first of [ds] by [le], which may hold both ways: those left come after them. *)
Definition first_by (le : str -> str -> Prop) (ds l : list str) : Prop :=
  exists rest, Permutation ds (l ++ rest) /\ forall x y, In x l -> In y rest -> le x y.

(** The sum of a number over the drives. *)
Definition total_of (f : iostat -> N) (l : list iostat) : N := fold_right N.add 0%N (map f l).

(** The average, rounded down, if the sum fits 64 bits. *)
Definition averages (f : iostat -> N) (l : list iostat) (s : iostat) : Prop :=
  (total_of f l < 2 ^ 64)%N -> f s = (total_of f l / N.of_nat (List.length l))%N.
