(** What the settings of a server should be, independent of how they are settled. *)
From Coq Require Import List Ascii ZArith Bool.
From Verif Require Import Str_Model Setup_Model.
Import ListNotations.
Local Open Scope list_scope.
Local Open Scope Z_scope.

(** A value of a kind. *)
Definition of_kind (k : kind) (v : sval) : Prop :=
  match k, v with
  | KFlag, VFlag _ | KNum, VNum _ | KText, VText _ | KNames, VNames _ => True
  | _, _ => False
  end.

(** The variable of a field, if it has one that is set. *)
Definition in_env (f : field) (env : str -> option str) : option str :=
  match f_var f with Some x => env x | None => None end.

(** What a setting is that nobody gives: off, 0, empty. *)
Definition nothing (k : kind) (v : sval) : Prop :=
  match k with KFlag => v = VFlag false | KNum => v = VNum 0 | KText => v = VText [] | KNames => v = VNames [] end.

(** What is asked for: by the variable, else by the file, else by the default. *)
Inductive asked (num : str -> option Z) (f : field) (env : str -> option str) : option sval -> sval -> Prop :=
| asked_env raw file v : in_env f env = Some raw -> read_val num (f_kind f) raw = Some v -> asked num f env file v
| asked_file v : in_env f env = None -> asked num f env (Some v) v
| asked_default d : in_env f env = None -> f_def f = Some d -> asked num f env None d
| asked_nothing v : in_env f env = None -> f_def f = None -> f_need f = false -> nothing (f_kind f) v -> asked num f env None v.

(** No, nothing, none: what a file says with such a value cannot be told from silence. *)
Definition blank (v : sval) : Prop := v = VFlag false \/ v = VNum 0 \/ v = VText [].

(** The fields of a server agree with what is asked. *)
Definition as_asked (num : str -> option Z) (fs : list field) (env : str -> option str) (file : str -> option sval)
  (l : list (str * sval)) : Prop :=
  List.length l = List.length fs /\
  forall i f, nth_error fs i = Some f -> exists v, nth_error l i = Some (f_key f, v) /\ asked num f env (file (f_key f)) v.

(** A file that has values of the right kinds. *)
Definition typed (fs : list field) (file : str -> option sval) : Prop :=
  forall f, In f fs -> match file (f_key f) with Some v => of_kind (f_kind f) v | None => True end.

(** A list written with commas. *)
Inductive commas : list str -> str -> Prop :=
| commas_one a : ~ In ","%char a -> commas [a] a
| commas_more a l s : ~ In ","%char a -> commas l s -> commas (a :: l) (a ++ ","%char :: s).
