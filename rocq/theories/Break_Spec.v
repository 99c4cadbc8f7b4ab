(** What downloads are to give (C128-C130). *)
From Verif Require Export Break_Model Rs_Spec.

(** An answer that reports success has the whole content; no answer is none at all. *)
Definition honest {B} (content : list B) (r : reply B) : Prop :=
  exists st body, r = Answer st body /\ (st = 200%Z -> body = content).

(** The shards of a row have different lengths. *)
Definition uneven {B} (row : list (option (list B))) : Prop :=
  exists a b, In (Some a) row /\ In (Some b) row /\ length a <> length b.

(** A code that refuses rows of different lengths (reedsolomon [checkShards]). *)
Definition refuses {B} (lib : rs_lib B) : Prop :=
  forall row, uneven row -> lib_reconstruct lib row = None.

(** A code that leaves rows alone in which nothing is missing. *)
Definition keeps {B} (lib : rs_lib B) (n : nat) : Prop :=
  forall len row, 0 < len -> length row = n -> Forall (fun s => length s = len) row ->
    lib_reconstruct lib (map Some row) = Some row.

(** A source that gives the first [m] blocks of a shard and then ends in any way, or the
    whole of it and a regular end; with [None] one that never answers. *)
Inductive gives {B} (bps : nat) (shard : list B) : option nat -> option (feed B) -> Prop :=
| gives_none : gives bps shard None None
| gives_never : forall t, gives bps shard None (Some (Waiting (repeat None t)))
| gives_some : forall m e t, m * bps <= length shard ->
    gives bps shard (Some m) (Some (Waiting (Some (firstn (m * bps) shard, e) :: t)))
| gives_whole : forall m e t, length shard <= m * bps -> e <> Lost ->
    gives bps shard (Some m) (Some (Waiting (Some (shard, e) :: t))).

(** A source whose first answer breaks off within the first block. *)
Definition torn {B} (bps : nat) (e : ending) (s : option (feed B)) : Prop :=
  exists l t, s = Some (Waiting (Some (l, e) :: t)) /\ 0 < length l < bps.

(** A source that has at least one block. *)
Definition ready {B} (bps : nat) (s : option (feed B)) : Prop :=
  exists l e t, s = Some (Waiting (Some (l, e) :: t)) /\ bps <= length l.

(** The first block of a source. *)
Definition first_block {B} (bps : nat) (s : option (feed B)) : list B :=
  match s with Some (Waiting (Some (l, _) :: _)) => firstn bps l | _ => [] end.
