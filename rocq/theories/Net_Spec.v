(** What is to hold of uploads to data servers that fail. *)
From Verif Require Import Net_Model.
From Coq Require Import List.
Import ListNotations.

(** Every request to data server [i] is done and answered with success. *)
Definition answers {B} (e : env B) (i : nat) : Prop :=
  ev_post e i = Fine /\ (forall k, ev_patch e k i = SFine) /\ ev_put e i = Fine.

(** No error of a worker is overlooked. *)
Definition none_lost {B} (e : env B) : Prop := forall g, ev_lost e g = false.

(** Data server [i] holds the object, given to it as [l], and nothing temporary. *)
Definition holds {B} (f : nat -> piece B) (i : nat) (l : list (list B)) : Prop :=
  p_obj (f i) = Some l /\ p_temp (f i) = None.

(** The first [n] data servers hold nothing. *)
Definition clean {B} (f : nat -> piece B) (n : nat) : Prop :=
  forall i, i < n -> p_obj (f i) = None /\ p_temp (f i) = None.
