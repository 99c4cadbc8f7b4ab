(** What the servers should know of each other and hold after a join. *)
From Coq Require Import List Ascii ZArith Bool Permutation.
From Verif Require Import Str_Model Sel_Model Share_Model.
Import ListNotations.
Local Open Scope list_scope.
Local Open Scope Z_scope.

(** The bytes of files, independent of the model's counter. *)
Inductive bytes_of : list (str * Z) -> Z -> Prop :=
| bytes_nil : bytes_of [] 0
| bytes_cons : forall n s l b, bytes_of l b -> bytes_of ((n, s) :: l) (s + b).

(** A server that tells what it stores: it answers, and if its drives can be read, there is one. *)
Definition tells (p : peer) : Prop := pr_up p = true /\ pr_drives p <> Some [].

(** Sizes of files are positive. *)
Definition sized (l : list (str * Z)) : Prop := forall f, In f l -> 0 < snd f.

(** All files of a group of servers. *)
Definition everything (mine : list (str * Z)) (peers : list peer) : list (str * Z) :=
  mine ++ List.concat (map pr_files peers).

(** The servers whose addresses are discovered are the peers, and the server itself. *)
Definition discovered (ips : list str) (self : str) (peers : list peer) : Prop :=
  (forall a, In a ips <-> a = self \/ In a (map pr_addr peers)) /\
  ~ In self (map pr_addr peers) /\ NoDup (map pr_addr peers).

(** [a] is the share of [n] servers of [t] bytes, rounded up. *)
Definition fair (a t : Z) (n : nat) : Prop := Z.of_nat n * (a - 1) < t <= Z.of_nat n * a.

(** A group of servers as it should be before a join: everybody is discovered and tells what it
    stores, and it is less than the numbers that the plan counts exactly. *)
Record fit (ips : list str) (self : str) (mine : list (str * Z)) (peers : list peer) : Prop := {
  fit_known : discovered ips self peers;
  fit_tells : forall p, In p peers -> tells p;
  fit_sized : sized (everything mine peers);
  fit_small : forall b, bytes_of (everything mine peers) b -> b < 2 ^ 53 }.
