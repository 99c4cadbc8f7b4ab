(** What the upload properties C27-C29 and C51 talk about. *)
From Verif Require Export Upload_Model.

(** At every crash point a visible version has all shards. *)
Definition data_first (n : nat) (before : nat -> bool) (t : list effect) : Prop :=
  forall p q, t = p ++ q -> In Visible p -> forall i, i < n -> before i = true \/ In (Committed i) p.

(** A request that finishes an upload on a data server. *)
Definition is_finish {B} (r : nat * @ps_req B) : bool := match snd r with Put | Delete => true | Patch _ => false end.

(** The request body is the part of the object at the offset. *)
Definition honest {B} (w : list B) (off : nat) (bts : list (list B)) : Prop :=
  concat bts = firstn (length (concat bts)) (skipn off w).

(** States that requests of a client sending the object [w] can reach without finishing,
    no data server failing. *)
Inductive resumed {B} (zero : B) (rf : bool) (lib : rs_lib B) (c : rs_config) (w : list B) : @shard_files B -> Prop :=
| resumed_start : resumed zero rf lib c w empty_files
| resumed_patch : forall f off bts f' r, resumed zero rf lib c w f -> honest w off bts ->
    big_patch zero rf lib c (length w) f off bts no_fails = (f', r) ->
    match r with Partial _ | BadRange _ => True | _ => False end -> resumed zero rf lib c w f'.
