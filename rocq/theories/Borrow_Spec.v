(** Words for the theorems about memory used after its transaction. *)
From Coq Require Import List Ascii Arith Bool.
From Verif Require Import Str_Model Meta_Model Borrow_Model.
Import ListNotations.
Local Open Scope list_scope.

(** The memory read at the beginning is as it was. *)
Definition intact (s0 s : bolt) : Prop :=
  bo_mem s (bo_page s0) = bo_mem s0 (bo_page s0) /\ bo_gen s = bo_gen s0.

(** The page of the database holds what is stored. *)
Definition settled (s : bolt) : Prop := bo_mem s (bo_page s) = render (bo_items s).

(** Others write this key. *)
Definition puts (k : str) (ops : list xop) : Prop := exists v p, In (XPut k v p) ops.

(** The number of write transactions there may be. *)
Fixpoint writes (ops : list xop) : nat :=
  match ops with
  | [] => 0
  | XNext _ :: r => writes r
  | _ :: r => S (writes r)
  end.

(** No mapping anew. *)
Definition no_grow (o : xop) : Prop := o <> XGrow.

(** The versions of the keys that have one. *)
Definition versions_of {V} (ver : str -> str -> option V) (keys : list str) : list V :=
  flat_map (fun k => match cut_last "."%char k with
                     | Some (name, t) => match ver name t with Some v => [v] | None => [] end
                     | None => [] end) keys.

(** The keys that have none any more. *)
Definition stale {V} (ver : str -> str -> option V) (k : str) : bool :=
  match cut_last "."%char k with
  | Some (name, t) => match ver name t with Some _ => false | None => true end
  | None => false end.

(** A key of the index: a name, a dot and a number. *)
Definition dotted (k : str) : Prop := cut_last "."%char k <> None.

(** What a migration of buckets promises: the process lives on; what was stored and nobody wrote
    since is still there or was acknowledged as it was; only buckets in the slots are sent;
    at the end each of them was sent or is reported. *)
Definition safe_migration (s0 : bolt) (sel : str -> bool) (ops : list xop) : Prop :=
  let m := xrun (mig_start s0 sel) ops in
  mg_dead m = false /\
  (forall k v, find_item k (bo_items s0) = Some v -> ~ puts k ops ->
     find_item k (bo_items (mg_db m)) = Some v \/ In (k, v) (mg_sent m)) /\
  (forall k, In k (map fst (mg_sent m)) -> In k (map fst (bo_items s0)) /\ sel k = true) /\
  (mg_todo m = [] -> forall k, In k (map fst (bo_items s0)) -> sel k = true ->
     In k (map fst (mg_sent m)) \/ In k (mg_errs m)).
