(** Vocabulary for who sent the content that is stored. *)
From Verif Require Import Str_Model Meta_Model Api_Model Client_Model Client_Spec.
Local Open Scope list_scope.
Local Notation length := List.length.

(** The client sent all it announced, and the digest it announced is that of what it sent
    (headers and body of one request, Client_Model [upload]; entity/dto.go 23-32, 41-48). *)
Definition sent_all (u : upload) : Prop := (u_size u <= length (u_sent u))%nat.
Definition told_truth (sha : str -> str) (u : upload) : Prop :=
  u_digest u = sha (firstn (u_size u) (u_sent u)).
