(** What a download is held to: when it has ended, nobody is still sending for it. *)
From Verif Require Export Hold_Model.

(** Nobody is sending. *)
Definition quiet (win : nat) (bs : list body) : Prop := forall b, In b bs -> held win b = false.

(** Answers other than 200 are short. *)
Definition brief (win : nat) (a : answer) : Prop :=
  match a with Answered st n => st = 200 \/ n <= win | NoAnswer => True end.
Definition answer_of (o : op) : answer := match o with Seek a _ | Read a _ => a end.
