(** What requests that continue one upload at the same time are held to. *)
From Verif Require Import Tandem_Model.
From Coq Require Import List Arith.
Import ListNotations.

(** An object of rows [w] with the size in the token; only its last row may be short. *)
Definition object (t : setup) (w : list nat) : Prop :=
  0 < t_shards t /\ 0 < t_row t /\ 0 < length w /\
  t_row t * (length w - 1) < t_size t <= t_row t * length w.

(** A request that carries what the object has at the offset it names: some rows from a row
    boundary on, perhaps cut off within a row, or nothing at the very end. *)
Definition honest (t : setup) (w : list nat) (q : request) : Prop :=
  (exists k, q_first q = t_row t * k /\
     q_rows q = firstn (length (q_rows q)) (skipn k w) /\
     t_row t * (k + length (q_rows q)) <= t_size t /\
     match q_tail q with
     | None => True
     | Some (c, n) => 0 < n < t_row t /\ nth_error w (k + length (q_rows q)) = Some c /\
                      t_row t * (k + length (q_rows q)) + n <= t_size t
     end) \/
  (q_first q = t_size t /\ q_rows q = [] /\ q_tail q = None).

(** What reading the object takes of a stored file: as many rows as the object has. *)
Definition intact (w : list nat) (file : option (list nat)) : Prop :=
  exists l, file = Some l /\ firstn (length w) l = w.

(** No request is being served and none left anything behind. *)
Definition quiet (s : state) : Prop :=
  (forall j p g, s_phase s j <> Flight p g) /\ s_stray s = [].

(** Requests that begin only when the one before is through. *)
Fixpoint apart (t : setup) (qs : nat -> request) (s : state) (es : list event) : Prop :=
  match es with
  | [] => True
  | e :: r => match e with Begin _ => quiet s | _ => True end /\ apart t qs (step t qs s e) r
  end.

(** The rows that a request carries. *)
Definition carries (q : request) (c : nat) : Prop :=
  In c (q_rows q) \/ exists n, q_tail q = Some (c, n).
