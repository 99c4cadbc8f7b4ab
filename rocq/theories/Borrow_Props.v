(** C143, C144: memory of the database used after its transaction. *)
From Coq Require Import List Ascii Arith Bool String.
From Verif Require Import Str_Model Meta_Model Borrow_Model Borrow_Spec Borrow_Proofs.
Import ListNotations.
Local Open Scope list_scope.

(** ** C143: migrating buckets *)

(** With a read transaction open until all removals are done the migration keeps its promise,
    whatever others write and in whatever order the removals run.  (The code has none: the
    transaction ends before the first bucket is sent.) *)
(** Partial.  Full statement: While buckets migrate, whatever others write and in whatever order the
    removals run, each bucket in the slots is sent or reported, only acknowledged buckets are
    removed, every other bucket stays, and the server lives on.  It fails in general:
    [C143_lost_refuted], [C143_dies_refuted].  Refuted for the code: keys are slices of bolt's
    memory used after the transaction, so removals can delete a bucket that was not to be moved,
    without any error, and the process dies when the file is mapped anew. *)
Theorem C143_pinned_partial : forall s0 sel ops, settled s0 -> bo_pinned s0 = true -> safe_migration s0 sel ops.
Proof. exact safe_pinned. Qed.
Print Assumptions C143_pinned_partial.

(** As the code is: while there is no more than one write transaction and the file does not
    grow. *)
(** Partial; the full statement is at [C143_pinned_partial]. *)
Theorem C143_few_partial : forall s0 sel ops, settled s0 -> writes ops <= 1 -> Forall no_grow ops -> safe_migration s0 sel ops.
Proof. exact safe_few. Qed.
Print Assumptions C143_few_partial.

Definition bucket_of (c : ascii) : str * str := (repeat c 4, repeat c 12).
Definition eight : list (str * str) := map bucket_of (s2l "abcdefgh"%string).
Definition to_c (k : str) : bool := existsb (str_eqb k) [s2l "aaaa"%string; s2l "bbbb"%string; s2l "cccc"%string].
Definition three_rounds : list xop := [XNext true; XNext true; XNext true; XRemove 0 1; XRemove 0 0; XRemove 0 1].

Example C143_nonvacuous :
  settled (bolt_of eight true) /\
  (let m := xrun (mig_start (bolt_of eight true) to_c) [XNext true; XNext false; XNext true; XRemove 1 1; XRemove 0 2] in
   map fst (mg_sent m) = map s2l ["aaaa"%string; "cccc"%string] /\ mg_errs m = [s2l "bbbb"%string] /\
   map fst (bo_items (mg_db m)) = map s2l ["bbbb"; "dddd"; "eeee"; "ffff"; "gggg"; "hhhh"]%string) /\
  (let ops := [XNext true; XNext true; XNext true; XRemove 2 1] in
   let m := xrun (mig_start (bolt_of eight false) to_c) ops in
   writes ops = 1 /\ Forall no_grow ops /\
   map fst (bo_items (mg_db m)) = map s2l ["aaaa"; "bbbb"; "dddd"; "eeee"; "ffff"; "gggg"; "hhhh"]%string).
Proof.
  split; [reflexivity|]. split; [vm_compute; repeat split; reflexivity|]. cbv zeta.
  split; [reflexivity|]. split; [repeat constructor; discriminate|vm_compute; reflexivity].
Qed.

(** As the code is, three removals are enough to lose a bucket that was never to be moved:
    [gggg] is in none of the slots, nobody wrote it, it was not sent, no error is reported, and
    it is gone, while [cccc], which was moved away, is still there. *)
Theorem C143_lost_refuted : exists s0 sel ops,
  settled s0 /\ bo_pinned s0 = false /\ Forall no_grow ops /\ (forall k, ~ puts k ops) /\
  let m := xrun (mig_start s0 sel) ops in
  mg_dead m = false /\ mg_todo m = [] /\ mg_go m = [] /\ mg_errs m = [] /\
  (exists k v, find_item k (bo_items s0) = Some v /\ sel k = false /\
     find_item k (bo_items (mg_db m)) = None /\ ~ In k (map fst (mg_sent m))) /\
  (exists k, In k (map fst (mg_sent m)) /\ sel k = true /\ find_item k (bo_items (mg_db m)) <> None).
Proof.
  exists (bolt_of eight false), to_c, three_rounds.
  split; [reflexivity|]. split; [reflexivity|]. split; [repeat constructor; discriminate|].
  split; [intros k (v & p & H); cbn in H; intuition discriminate|].
  cbv zeta. split; [vm_compute; reflexivity|]. split; [vm_compute; reflexivity|]. split; [vm_compute; reflexivity|].
  split; [vm_compute; reflexivity|]. split.
  - exists (s2l "gggg"%string), (repeat "g"%char 12). split; [vm_compute; reflexivity|]. split; [vm_compute; reflexivity|].
    split; [vm_compute; reflexivity|]. vm_compute. intuition discriminate.
  - exists (s2l "cccc"%string). split; [vm_compute; auto|]. split; [vm_compute; reflexivity|]. vm_compute. discriminate.
Qed.
Print Assumptions C143_lost_refuted.

(** When the file grows before the last bucket is sent the process ends: for every database and
    all slots with a bucket in them. *)
Theorem C143_dies_refuted : forall l sel ack, existsb (fun i : str * str => sel (fst i)) l = true ->
  mg_dead (xrun (mig_start (bolt_of l false) sel) [XGrow; XNext ack]) = true.
Proof. exact grown_dies. Qed.
Print Assumptions C143_dies_refuted.

Example C143_dies_case : existsb (fun i : str * str => to_c (fst i)) eight = true.
Proof. reflexivity. Qed.

(** ** C144: finding versions by their hash *)

(** With a read transaction open all the time the answer is the versions there are, and no
    entry of a version that exists is removed. *)
(** Partial.  Full statement: FindByHash answers the versions of all entries of a hash that still
    exist, in order, and removes none of their entries.  It fails in general: [C144_panics_refuted].
    Refuted for the code: with two removed versions and another entry, of names of one length, the
    second removal overwrites the page the keys are in and the request panics. *)
Theorem C144_pinned_partial : forall V (ver : str -> str -> option V) s pages,
  settled s -> bo_pinned s = true -> Forall dotted (map fst (bo_items s)) ->
  exists s', find_by ver pages s = FDone s' (versions_of ver (map fst (bo_items s))) /\
             forall k, stale ver k = false -> find_item k (bo_items s') = find_item k (bo_items s).
Proof. exact found_pinned. Qed.
Print Assumptions C144_pinned_partial.

(** As the code is: with at most one entry of a version that is gone. *)
(** Partial; the full statement is at [C144_pinned_partial]. *)
Theorem C144_one_partial : forall V (ver : str -> str -> option V) s pages,
  settled s -> Forall dotted (map fst (bo_items s)) ->
  List.length (List.filter (stale ver) (map fst (bo_items s))) <= 1 ->
  exists s', find_by ver pages s = FDone s' (versions_of ver (map fst (bo_items s))) /\
             forall k, stale ver k = false -> find_item k (bo_items s') = find_item k (bo_items s).
Proof. exact found_one. Qed.
Print Assumptions C144_one_partial.

(** Two removed versions of objects with the same content, and names of the same length, and
    one more object with that content: the request ends in a panic. *)
Theorem C144_panics_refuted : forall V (ver : str -> str -> option V) k0 k1 ks len p1 rest, ks <> [] ->
  Forall (fun k => List.length k = len) (k0 :: k1 :: ks) -> NoDup (k0 :: k1 :: ks) ->
  stale ver k0 = true -> stale ver k1 = true -> p1 <> 0 ->
  find_by ver (p1 :: 0 :: rest) (bolt_of (map (fun k => (k, [])) (k0 :: k1 :: ks)) false) = FPanic.
Proof. exact two_stale. Qed.
Print Assumptions C144_panics_refuted.

(** Versions by name: those of [c] only. *)
Definition only_c (name t : str) : option str := if str_eqb name (s2l "b/c"%string) then Some (name ++ t) else None.
Definition three_keys : list str := map s2l ["b/a.1"; "b/b.1"; "b/c.1"]%string.

Example C144_nonvacuous :
  Forall (fun k => List.length k = 5) three_keys /\ NoDup three_keys /\ Forall dotted three_keys /\
  stale only_c (s2l "b/a.1"%string) = true /\ stale only_c (s2l "b/b.1"%string) = true /\
  find_by only_c [1; 0] (bolt_of (map (fun k => (k, [])) three_keys) false) = FPanic /\
  (exists s', find_by only_c [1; 2] (bolt_of (map (fun k => (k, [])) three_keys) true) = FDone s' [s2l "b/c1"%string] /\
              bo_items s' = [(s2l "b/c.1"%string, [])]) /\
  (exists s', find_by only_c [1] (bolt_of (map (fun k => (k, [])) (tl three_keys)) false) = FDone s' [s2l "b/c1"%string] /\
              bo_items s' = [(s2l "b/c.1"%string, [])]).
Proof.
  split; [repeat constructor|]. split; [repeat constructor; vm_compute; intuition discriminate|].
  split; [repeat constructor; vm_compute; discriminate|]. split; [reflexivity|]. split; [reflexivity|]. split; [reflexivity|].
  split; eexists; split; reflexivity.
Qed.
