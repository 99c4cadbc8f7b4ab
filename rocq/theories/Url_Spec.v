(** The name that the last element of a path stands for (RFC 3986). *)
From Coq Require Import Ascii String List Bool.
From Verif Require Import Str_Model Url_Model.
Import ListNotations.
Local Open Scope list_scope.

(** A last element [t] of a path means the name [n]: [%] and two digits are the byte, all
    else is itself. *)
Inductive means : str -> str -> Prop :=
| means_nil : means [] []
| means_byte : forall h l b7 b6 b5 b4 b3 b2 b1 b0 t n, unhex h = Some (b7, b6, b5, b4) -> unhex l = Some (b3, b2, b1, b0) ->
    means t n -> means ("%"%char :: h :: l :: t) (Ascii b0 b1 b2 b3 b4 b5 b6 b7 :: n)
| means_self : forall c t n, c <> "%"%char -> means t n -> means (c :: t) (c :: n).

(** It can be the last element of the path of a request. *)
Definition element (t : str) : Prop := t <> [] /\ ~ In "/"%char t /\ existsb ctl t = false.

(** Letters, digits, [+], [/], [=] (base64). *)
Definition base64_char (c : ascii) : bool :=
  isc c "abcdefghijklmnopqrstuvwxyzABCDEFGHIJKLMNOPQRSTUVWXYZ0123456789+/=".
