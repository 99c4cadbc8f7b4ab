(** What registration and discovery should do, stated without the model's helpers
    (C76-C79). *)
From Verif Require Import Str_Model Meta_Model Registry_Model.
From stdpp Require Import gmap.
Local Open Scope list_scope.

(** ** Discovery (C76) *)

(** The entry of [k] in the copy is that of etcd after the first [i] changes. *)
Definition as_of (p : str) (i : nat) (s : view) (k : str) : Prop :=
  w_data s !! k = (if prefixb p k then etcd_at (take i (w_log s)) !! k else None).

(** The copy is the part of etcd's present content below the prefix, at [k]. *)
Definition up_to_date (p : str) (s : view) (k : str) : Prop :=
  w_data s !! k = (if prefixb p k then etcd_at (w_log s) !! k else None).

(** Operations that enter the server itself under [k], change [k] in etcd. *)
Definition enters (k : str) (o : vop) : Prop := exists v, o = VSelf k v.
Definition changes (k : str) (o : vop) : Prop := exists e, o = VEvent e /\ event_key e = k.

(** A calm run: changes before the fetch, none between the fetch and the watch, then changes
    and deliveries in any order. *)
Definition calm (ops : list vop) : Prop :=
  exists pre mid post, ops = pre ++ VGet :: mid ++ VWatch :: post /\
    Forall (fun o => (exists e, o = VEvent e) \/ (exists k v, o = VSelf k v)) pre /\
    Forall (fun o => exists k v, o = VSelf k v) mid /\
    Forall (fun o => o = VDeliver \/ (exists e, o = VEvent e) \/ (exists k v, o = VSelf k v)) post.

(** Has the copy missed the last change of [k]?  A change of [k] is missed when it falls
    between the fetch and the watch, between two watches, or is not yet delivered when the
    watch is cancelled; the next change of [k] that is delivered makes up for it. *)
Definition misses (k : str) (s : view) (o : vop) (b : bool) : bool :=
  match o, w_phase s with
  | VEvent e, (PGot | PBroken | PDead) => b || str_eqb (event_key e) k
  | VCancel, PWatch i => b || existsb (fun e => str_eqb (event_key e) k) (drop i (w_log s))
  | VDeliver, PWatch i =>
      match w_log s !! i with Some e => b && negb (str_eqb (event_key e) k) | None => b end
  | _, _ => b
  end.
Fixpoint missed (p k : str) (s : view) (ops : list vop) (b : bool) : bool :=
  match ops with
  | [] => b
  | o :: r => missed p k (vstep p s o) r (misses k s o b)
  end.

(** ** Ids (C77) *)

(** The id can be read back from the key: it has no slash, and for a server without a role the
    key has no underscore. *)
Definition readable (c : rcfg) (r : role) : Prop :=
  ~ In "/"%char (sid c) /\
  (r = RPlain -> ~ In "_"%char (rc_group c) /\ ~ In "_"%char (rc_name c) /\ ~ In "_"%char (sid c)).

Definition entry_of (x : rcfg * role) : str * str := (reg_key x.1 x.2, rc_addr x.1).

(** [m] finds exactly the listed servers, by their ids. *)
Definition finds (m : gmap str str) (l : list (rcfg * role)) : Prop :=
  forall i a, m !! i = Some a <-> exists x, x ∈ l /\ sid x.1 = i /\ rc_addr x.1 = a.

(** The servers asked for: as masters (or without a role), as slaves. *)
Definition asked (master : bool) (r : role) : bool :=
  match r with RPlain | RMaster => master | RSlave => negb master end.

Definition is_digit (c : ascii) : Prop := (48 <= N_of_ascii c <= 57)%N.

(** ** Staying registered (C78) *)

(** etcd grants every lease asked for; every put reaches it; the server is not closed. *)
Definition op_served (o : lop) : Prop :=
  match o with LStep None _ => False | LCall false => False | LClose => False | _ => True end.

(** Registered under a lease that lives. *)
Definition registered (s : life) : Prop := exists l, lf_entry s = Some l /\ In l (lf_live s).

(** ** One role (C79) *)

(** An operation with the call it starts run to its end. *)
Definition settle (s : member) (o : mop) : member :=
  match o with
  | MGrant _ | MLeader _ => mrun s (o :: repeat (MStep (length (mb_tasks s))) 6)
  | MExpire _ => mstep s o
  | MStep _ => s
  end.
Definition settled (s : member) (ops : list mop) : member := foldl settle s ops.

(** The role of the last change, in a list of operations. *)
Fixpoint last_role (r : role) (ops : list mop) : role :=
  match ops with
  | [] => r
  | MLeader b :: l => last_role (role_of b) l
  | _ :: l => last_role r l
  end.

(** Nothing is entered under another role than [r]; what is entered has a live lease. *)
Definition only_under (r : role) (s : member) : Prop :=
  (forall r', r' <> r -> mb_entry r' s = None) /\
  (forall l, mb_entry r s = Some l -> In l (mb_live s)).

Definition grants_ok (o : mop) : Prop := match o with MGrant id => id <> 0%N | _ => True end.
Definition all_done (s : member) : Prop := Forall (fun t => t = TDone) (mb_tasks s).
