(** What the path index of a data server must do, independent of its encoding. *)
From Verif Require Import Str_Model Path_Model.

(** Drop the first occurrence. *)
Fixpoint drop_first (p : str) (l : list str) : list str :=
  match l with
  | [] => []
  | x :: r => if str_eq_dec x p then r else x :: drop_first p r
  end.

(** The paths recorded by a history: puts append, removes drop one. *)
Definition spec_step (l : list str) (o : path_op) : list str :=
  match o with
  | PPut p => l ++ [p]
  | PRemove p => drop_first p l
  | PRemoveAll => []
  end.

Definition spec_run (ops : list path_op) : list str := fold_left spec_step ops [].

(** What [Get] must answer. *)
Definition spec_get (l : list str) : option (list str) :=
  match l with [] => None | _ => Some l end.

(** What [GetLast] must answer. *)
Definition spec_last (l : list str) : option str :=
  match l with [] => None | _ => Some (last l []) end.

(** [p] stands somewhere inside [s]. *)
Definition inside (p s : str) : Prop := exists a b, s = a ++ p ++ b.

(** A path the index can keep apart from its own encoding: not empty and
    without the text ["%2C"]. *)
Definition plain (p : str) : Prop := p <> [] /\ ~ inside (s2l "%2C") p.

(** The text of [p] stands nowhere inside the text of [x] (texts as stored, where
    a comma is written ["%2C"]). *)
Definition apart (p x : str) : Prop := ~ inside (encode_path p) (encode_path x).

(** A removal that the code performs as specified: of a path that stands inside
    no recorded one, or of one that is recorded first at a place which is not
    the last, with no earlier path containing it. *)
Definition clean_remove (p : str) (l : list str) : Prop :=
  (forall x, In x l -> apart p x) \/
  (exists a b, l = a ++ p :: b /\ b <> [] /\ forall x, In x a -> apart p x).

(** A history of which every step is a put of a plain path or a clean removal
    of a plain path. *)
Fixpoint clean_history (l : list str) (ops : list path_op) : Prop :=
  match ops with
  | [] => True
  | PPut p :: r => plain p /\ clean_history (l ++ [p]) r
  | PRemove p :: r => plain p /\ clean_remove p l /\ clean_history (drop_first p l) r
  | PRemoveAll :: r => clean_history [] r
  end.
