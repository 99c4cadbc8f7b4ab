(** Words for the theorems about the pages of the metadata server. *)
From Verif Require Import Str_Model Meta_Model Rest_Model.
From stdpp Require Import gmap.

(** Success as clients understand it. *)
Definition went_well (a : answer) : Prop := (200 <= an_status a < 300)%Z.

(** Every record is kept under the id of the object it names. *)
Definition named (d : db) : Prop :=
  forall id m, d_meta d !! id = Some m -> id = m_bucket m ++ "/"%char :: m_name m.

(** A request whose body is about the object of its path. *)
Definition fits_path (d : db) (r : request) : Prop :=
  match r with
  | MPost id b => id = m_bucket (json_value b) ++ "/"%char :: m_name (json_value b)
  | MPut id b => forall m, d_meta d !! id = Some m -> m_name (json_value b) = m_name m
  | _ => True
  end.

(** The texts of a number: one that [strconv] reads, or not. *)
Definition unreadable (t : str) : Prop := t <> [] /\ atoi t = None.

(** Pages that only read. *)
Definition reads (r : request) : Prop :=
  match r with MGet _ _ _ | VGet _ _ | VList _ _ _ | KGet _ => True | _ => False end.
