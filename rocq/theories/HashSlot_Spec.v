(** Specification vocabulary for slot tables: what it means to hold a slot. *)
From Verif Require Import Str_Spec HashSlot_Model.
Local Open Scope Z_scope.

(** Range [e] contains slot [s] (half-open). *)
Definition contains (e : edge) (s : Z) : Prop := e_start e <= s < e_end e.

(** Some range of [l] contains slot [s]. *)
Definition covered (l : list edge) (s : Z) : Prop := exists e, In e l /\ contains e s.

(** Owner [v] holds slot [s] in table [l]. *)
Definition holds (l : list edge) (v : str) (s : Z) : Prop :=
  exists e, In e l /\ e_value e = v /\ contains e s.

(** Ranges are non-empty. *)
Definition nonempty (l : list edge) : Prop := forall e, In e l -> e_start e < e_end e.

(** No slot lies in two different positions of the list. *)
Definition pairwise_disjoint (l : list edge) : Prop :=
  forall i j a b s, nth_error l i = Some a -> nth_error l j = Some b ->
    contains a s -> contains b s -> i = j.

(** Each range ends at or before the start of every later one. *)
Definition ascending (l : list edge) : Prop := StronglySorted (fun a b => e_end a <= e_start b) l.

(** Each range ends strictly before the start of every later one (no two
    ranges touch). *)
Definition separated (l : list edge) : Prop := StronglySorted (fun a b => e_end a < e_start b) l.

(** The text [t] denotes the range [a,b): two decimal numbers (each may carry a
    '+') that fit in an int64, separated by '-'. *)
Definition range_text (t : str) (a b : Z) : Prop :=
  exists x y, t = x ++ "-"%char :: y /\
    plus_dec_text x (Z.to_N a) /\ plus_dec_text y (Z.to_N b) /\
    0 <= a <= int64_max /\ 0 <= b <= int64_max.

(** The ranges written in a slot table given as owner -> texts "a-b". *)
Definition table_range (tbl : list (str * list str)) (v : str) (a b : Z) : Prop :=
  exists slots t, In (v, slots) tbl /\ In t slots /\ range_text t a b.

(** Every text of the table is a well-formed non-empty range. *)
Definition table_wellformed (tbl : list (str * list str)) : Prop :=
  forall v slots t, In (v, slots) tbl -> In t slots ->
    exists a b, range_text t a b /\ a < b.

(** All texts of the table, in order, with the ranges they denote. *)
Definition table_texts (tbl : list (str * list str)) : list str := flat_map snd tbl.

(** No slot lies in two of the table's range texts (at two positions). *)
Definition table_disjoint (tbl : list (str * list str)) : Prop :=
  forall i j t u a b c d s,
    nth_error (table_texts tbl) i = Some t -> nth_error (table_texts tbl) j = Some u ->
    range_text t a b -> range_text u c d ->
    a <= s < b -> c <= s < d -> i = j.
