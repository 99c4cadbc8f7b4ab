(** Words for the theorems about commands. *)
From stdpp Require Import list.
From Verif Require Import Str_Model Str_Proofs Meta_Model Migrate_Model Migrate_Spec Group_Model Cmd_Model.
Local Open Scope list_scope.

(** No comma in a text. *)
Definition plain (s : str) : Prop := ~ List.In ","%char s.

(** [id,host:port,index] and [id,host:port]. *)
Definition voter_text (v : str * str * N) : str := fst (fst v) ++ ","%char :: snd (fst v) ++ ","%char :: print_N (snd v).
Definition service_text (v : str * str) : str := fst v ++ ","%char :: snd v.
Definition good_voter (v : str * str * N) : Prop := plain (fst (fst v)) /\ plain (snd (fst v)) /\ (snd v < 2 ^ 64)%N.
Definition good_service (v : str * str) : Prop := plain (fst v) /\ plain (snd v).

(** A text that is no voter. *)
Definition no_voter (t : str) : Prop := List.length (split_on ","%char t) <> 3.
Definition no_service (t : str) : Prop := List.length (split_on ","%char t) <> 2.

(** Texts with commas between them. *)
Fixpoint commas (l : list str) : str :=
  match l with [] => [] | [x] => x | x :: r => x ++ ","%char :: commas r end.
