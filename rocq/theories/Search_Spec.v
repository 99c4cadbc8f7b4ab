(** What finding by hash beside writes is held to. *)
From Verif Require Import Str_Model Meta_Model Meta_Spec Search_Model.
From stdpp Require Import gmap.

(** The writes are calls and location changes; migrated numbers lie in 1..[B]. *)
Definition event_ok (B : N) (e : event) : Prop :=
  match e with
  | Write (HFind _) => False
  | Write o => hop_ok B o
  | _ => True
  end.

(** An execution from the empty database, short enough that numbers stay in the range of
    Go's int. *)
Definition execution (B : N) (es : list event) : Prop :=
  Forall (event_ok B) es /\ (B + N.of_nat (length es) < 2 ^ 63)%N.

(** The database after some transactions. *)
Definition db_after (es : list event) : db := s_db (run (start db_empty) es).

(** The searches after some transactions. *)
Definition searches_after (es : list event) : list search := s_searches (run (start db_empty) es).

(** No object is removed, no version comes from another server. *)
Definition plain (e : event) : Prop :=
  match e with
  | Write o => ~ is_call removes_some_object o /\ ~ is_call migrates o
  | _ => True
  end.

(** Every stored version is in the answer of a search for its content. *)
Definition all_found (d : db) : Prop :=
  forall id n v, get_ver id n d = Some v -> v ∈ snd (find_by_hash (v_hash v) d).
