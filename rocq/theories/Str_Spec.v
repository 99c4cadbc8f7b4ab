(** Independent reading of decimal texts, used by specifications. *)
From Verif Require Import Str_Model.

(** A decimal digit byte. *)
Definition dec_digit (c : ascii) : Prop := (48 <= N_of_ascii c <= 57)%N.

(** Value of a digit text, most significant digit first. *)
Definition dec_value (s : str) : N :=
  fold_left (fun n c => 10 * n + (N_of_ascii c - 48))%N s 0%N.

(** [s] is a non-empty digit text of value [n]. *)
Definition dec_text (s : str) (n : N) : Prop :=
  s <> [] /\ Forall dec_digit s /\ dec_value s = n.

(** [s] is an optionally '+'-signed digit text of value [n]. *)
Definition plus_dec_text (s : str) (n : N) : Prop :=
  dec_text s n \/ exists r, s = "+"%char :: r /\ dec_text r n.
