(** Vocabulary of the properties of Drive_Props. *)
From Verif Require Import Str_Model Drive_Model.
From stdpp Require Import gmap.
Local Open Scope list_scope.
Local Open Scope N_scope.

(** What the configuration says about a mount point: the list of allowed ones, if there
    is any, otherwise all but the excluded ones. *)
Definition allowed (includes excludes : list str) (mp : str) : Prop :=
  (includes <> [] -> mp ∈ includes) /\ (includes = [] -> mp ∉ excludes).

(** A drive with most space. *)
Definition most_space (l : list driver) (d : driver) : Prop :=
  d ∈ l /\ forall d', d' ∈ l -> d_free d' <= d_free d.

(** The space of a drive not yet spoken for. *)
Definition unspoken (w : weights) (d : driver) : Z := Z.of_N (d_free d) - Z.of_N (w (d_mp d)).

(** A drive with most of it. *)
Definition most_unspoken (w : weights) (l : list driver) (d : driver) : Prop :=
  d ∈ l /\ forall d', d' ∈ l -> (unspoken w d' <= unspoken w d)%Z.

(** Every selection of a sequence takes a drive with most unspoken space. *)
Fixpoint each_most (factor : N) (w : weights) (ls : list (list driver)) : Prop :=
  match ls with
  | [] => True
  | l :: ls' => match select_weighted factor w l with
                | Some (d, w') => most_unspoken w l d /\ each_most factor w' ls'
                | None => each_most factor w ls'
                end
  end.

(** Sensible drives: some space, below 2^64, mount points differ. *)
Definition sensible (l : list driver) : Prop :=
  (forall d, d ∈ l -> 0 < d_free d < two64) /\
  (forall d d', d ∈ l -> d' ∈ l -> d_mp d = d_mp d' -> d = d').
