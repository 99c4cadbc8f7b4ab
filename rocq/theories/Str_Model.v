(** Text helpers shared by the models: Go strings as lists of bytes, decimal
    printing ([fmt.Sprint] of an integer) and parsing ([strconv.Atoi],
    [strconv.ParseInt], [strconv.ParseUint]), [strings.Split]. *)
From Coq Require Export List ZArith NArith Lia Bool Ascii String.
From Coq Require Import Decimal DecimalN.
Export ListNotations.
Close Scope string_scope.
Open Scope list_scope.

(** A Go string: a sequence of bytes. *)
Definition str := list ascii.

(** Literal helper for examples (no code counterpart). *)
Definition s2l (s : string) : str := list_ascii_of_string s.

Definition str_eq_dec : forall a b : str, {a = b} + {a <> b} :=
  list_eq_dec ascii_dec.

(** Go [a == b] on strings. *)
Definition str_eqb (a b : str) : bool := if str_eq_dec a b then true else false.

(** Go [a < b] on strings (bytewise lexicographic); also the key order of bolt. *)
Fixpoint str_ltb (a b : str) : bool :=
  match a, b with
  | _, [] => false
  | [], _ :: _ => true
  | x :: a', y :: b' =>
      if (N_of_ascii x <? N_of_ascii y)%N then true
      else if (N_of_ascii x =? N_of_ascii y)%N then str_ltb a' b' else false
  end.

(** Digits of a decimal numeral as text. *)
Fixpoint uint_to_str (u : Decimal.uint) : str :=
  match u with
  | Nil => []
  | D0 u => "0"%char :: uint_to_str u
  | D1 u => "1"%char :: uint_to_str u
  | D2 u => "2"%char :: uint_to_str u
  | D3 u => "3"%char :: uint_to_str u
  | D4 u => "4"%char :: uint_to_str u
  | D5 u => "5"%char :: uint_to_str u
  | D6 u => "6"%char :: uint_to_str u
  | D7 u => "7"%char :: uint_to_str u
  | D8 u => "8"%char :: uint_to_str u
  | D9 u => "9"%char :: uint_to_str u
  end.

(** One digit. *)
Definition digit_of (c : ascii) : option (Decimal.uint -> Decimal.uint) :=
  match c with
  | "0"%char => Some D0 | "1"%char => Some D1 | "2"%char => Some D2
  | "3"%char => Some D3 | "4"%char => Some D4 | "5"%char => Some D5
  | "6"%char => Some D6 | "7"%char => Some D7 | "8"%char => Some D8
  | "9"%char => Some D9 | _ => None
  end.

(** Text of digits only, to a numeral; [None] on any other byte. *)
Fixpoint str_to_uint (s : str) : option Decimal.uint :=
  match s with
  | [] => Some Nil
  | c :: s' =>
      match digit_of c, str_to_uint s' with
      | Some d, Some u => Some (d u)
      | _, _ => None
      end
  end.

(** [fmt.Sprint(n)] / ["%d"] of a non-negative integer. *)
Definition print_N (n : N) : str := uint_to_str (N.to_uint n).

(** [fmt.Sprint(z)] of an integer. *)
Definition print_Z (z : Z) : str :=
  match z with
  | Z0 => print_N 0
  | Zpos p => print_N (Npos p)
  | Zneg p => "-"%char :: print_N (Npos p)
  end.

(** Non-empty digit text to its value. *)
Definition parse_digits (s : str) : option N :=
  match s with
  | [] => None
  | _ => match str_to_uint s with Some u => Some (N.of_uint u) | None => None end
  end.

(** [strconv.Atoi] / [strconv.ParseInt(s,10,64)] on a 64-bit platform: an
    optional sign, at least one digit, value within int64; [None] is an error. *)
Definition int64_min : Z := (- 2 ^ 63)%Z.
Definition int64_max : Z := (2 ^ 63 - 1)%Z.

Definition atoi (s : str) : option Z :=
  let signed :=
    match s with
    | "-"%char :: r => match parse_digits r with Some n => Some (- Z.of_N n)%Z | None => None end
    | "+"%char :: r => match parse_digits r with Some n => Some (Z.of_N n) | None => None end
    | _ => match parse_digits s with Some n => Some (Z.of_N n) | None => None end
    end in
  match signed with
  | Some z => if (int64_min <=? z)%Z && (z <=? int64_max)%Z then Some z else None
  | None => None
  end.

(** [strings.Split(s, sep)] for a one-byte separator. *)
Fixpoint split_on (sep : ascii) (s : str) : list str :=
  match s with
  | [] => [[]]
  | c :: s' =>
      if ascii_dec c sep then [] :: split_on sep s'
      else match split_on sep s' with
           | [] => [[c]]
           | w :: ws => (c :: w) :: ws
           end
  end.

(** [strings.Cut(s, sep)] for a one-byte separator: text before and after the
    first occurrence, [None] when absent. *)
Fixpoint cut_on (sep : ascii) (s : str) : option (str * str) :=
  match s with
  | [] => None
  | c :: s' =>
      if ascii_dec c sep then Some ([], s')
      else match cut_on sep s' with
           | Some (a, b) => Some (c :: a, b)
           | None => None
           end
  end.
