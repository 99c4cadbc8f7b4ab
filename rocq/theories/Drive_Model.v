(** Model of a data server's list of drives and of the choice of the drive for a new
    piece.

    Source: src/objectserver/internal/usecase/component/driver_manager.go 33-64, 86-121,
    driver_balancer.go 21-67, src/common/util/slices/slices.go 65-77,
    src/common/collection/set/map_set.go 9-34, set.go 21-27,
    src/objectserver/internal/usecase/pool/instance.go 103-108.

    Simplified: mount points and paths are joined by appending; what the system reports
    about mount points is given.  [sort.Slice] is the insertion sort Go uses for less than
    twelve elements; for more it may order drives of equal space differently.  The factor
    of the weighted balancer, computed with floating-point logarithms (42-49), is given. *)
From Verif Require Import Str_Model.
From stdpp Require Import gmap.
Local Open Scope list_scope.
Local Open Scope N_scope.

(** driver_manager.go 15-19 [Driver]; sizes are uint64. *)
Record driver := mk_driver { d_mp : str; d_free : N; d_total : N }.

(** ** The list *)

(** driver_manager.go 42-48: the sets of mount points; [Includes], when not empty, decides alone. *)
Definition permitted (includes excludes : list str) (mp : str) : bool :=
  match includes with
  | [] => negb (bool_decide (mp ∈ excludes))
  | _ => bool_decide (mp ∈ includes)
  end.

(** driver_manager.go 40-60: [stat] is [disk.GetInfo], [None] its error. *)
Fixpoint list_drives (includes excludes : list str) (stat : str -> option (N * N)) (mps : list str) : list driver :=
  match mps with
  | [] => []
  | mp :: mps' =>
      let rest := list_drives includes excludes stat mps' in
      if permitted includes excludes mp then
        match stat mp with Some (free, total) => mk_driver mp free total :: rest | None => rest end
      else rest
  end.

(** driver_manager.go 33-64 [Update]: [mps] is what [disk.AllMountPoints] gives, [None] an
    error, which leaves the list as it was. *)
Definition update (includes excludes : list str) (stat : str -> option (N * N)) (mps : option (list str))
    (old : list driver) : list driver :=
  match mps with Some l => list_drives includes excludes stat l | None => old end.

(** ** The drive with most space *)

(** One round of insertion sort by [FreeSpace] (driver_balancer.go 25-27). *)
Fixpoint insert_drive (x : driver) (l : list driver) : list driver :=
  match l with
  | [] => [x]
  | y :: l' => if d_free x <? d_free y then x :: y :: l' else y :: insert_drive x l'
  end.
Definition sort_drives (l : list driver) : list driver := fold_left (fun acc x => insert_drive x acc) l [].

(** driver_balancer.go 21-29 [spaceFirstBalancer.Select]: the drive, and the list, which
    is sorted in place; [None] is the error. *)
Definition select_first (l : list driver) : option driver * list driver :=
  match l with
  | [] => (None, [])
  | _ => let s := sort_drives l in (last s, s)
  end.

(** driver_manager.go 90-96 [SelectMountPointFallback]. *)
Definition select_mp (fallback : str) (l : list driver) : str * list driver :=
  match select_first l with
  | (Some d, l') => (d_mp d, l')
  | (None, l') => (fallback, l')
  end.

(** ** Requests sorting the same list at the same time *)

(** Where a request is in the sort: it compares element [j] with the one before, loads
    both, stores both ([reflect.Swapper] of pointers), goes on; then it takes the last. *)
Inductive thread :=
| TTest (i j : nat)
| TLoad1 (i j : nat)
| TLoad2 (i j : nat) (a : driver)
| TStore1 (i j : nat) (a b : driver)
| TStore2 (i j : nat) (b : driver)
| TPick
| TDone (d : option driver).

(** One step of a request. *)
Definition tstep (arr : list driver) (t : thread) : list driver * thread :=
  match t with
  | TTest i j =>
      if (length arr <=? i)%nat then (arr, TPick)
      else match j with
           | O => (arr, TTest (S i) (S i))
           | S j' => match arr !! j, arr !! j' with
                     | Some x, Some y => if d_free x <? d_free y then (arr, TLoad1 i j) else (arr, TTest (S i) (S i))
                     | _, _ => (arr, TPick)
                     end
           end
  | TLoad1 i j => match arr !! pred j with Some a => (arr, TLoad2 i j a) | None => (arr, TPick) end
  | TLoad2 i j a => match arr !! j with Some b => (arr, TStore1 i j a b) | None => (arr, TPick) end
  | TStore1 i j a b => (<[j := a]> arr, TStore2 i j b)
  | TStore2 i j b => (<[pred j := b]> arr, TTest i (pred j))
  | TPick => (arr, TDone (last arr))
  | TDone d => (arr, TDone d)
  end.

(** Requests taking turns: each number names the request that makes its next step. *)
Definition mstep (s : list driver * list thread) (k : nat) : list driver * list thread :=
  let '(arr, ts) := s in
  match ts !! k with
  | Some t => let '(arr', t') := tstep arr t in (arr', <[k := t']> ts)
  | None => s
  end.
Definition mrun (ks : list nat) (s : list driver * list thread) : list driver * list thread := fold_left mstep ks s.

(** A request begins (insertion sort starts with the second element). *)
Definition tstart : thread := TTest 1 1.

(** ** The weighted balancer *)

Definition two64 : N := 18446744073709551616.

(** [sw.weighted] (driver_balancer.go 32); a missing key reads as 0. *)
Definition weights := str -> N.

(** driver_balancer.go 61 [cur.FreeSpace - w2], unsigned. *)
Definition remaining (w : weights) (d : driver) : N := (d_free d + two64 - w (d_mp d) mod two64) mod two64.

(** slices.go 65-77 [ExtremalIndex], [Extremal] on a list with the first element taken off. *)
Definition extremal {A} (better : A -> A -> bool) (x : A) (l : list A) : A :=
  fold_left (fun ex cur => if better ex cur then cur else ex) l x.

(** driver_balancer.go 51-67 [spaceWeightedBalancer.Select] with its factor; [None]
    without drives. *)
Definition select_weighted (factor : N) (w : weights) (l : list driver) : option (driver * weights) :=
  match l with
  | [] => None
  | d :: _ =>
      let p := extremal (fun ex cur => remaining w ex <? remaining w cur) d l in
      let w1 := (w (d_mp p) + factor) mod two64 in
      let w2 := if d_free p <? w1 then w1 / factor else w1 in
      Some (p, fun mp => if bool_decide (mp = d_mp p) then w2 else w mp)
  end.

(** Selections one after the other; the drives' data may change in between. *)
Fixpoint selections (factor : N) (w : weights) (ls : list (list driver)) : list driver * weights :=
  match ls with
  | [] => ([], w)
  | l :: ls' => match select_weighted factor w l with
                | Some (d, w') => let '(ds, w'') := selections factor w' ls' in (d :: ds, w'')
                | None => selections factor w ls'
                end
  end.

(** ** Finding a file *)

(** What [os.Stat] says about a path. *)
Inductive stat_answer := SThere | SAbsent | SError.

(** driver_manager.go 98-105, 107-115 [IsPathExist], [FindMountPath]. *)
Fixpoint find_path (stat : str -> stat_answer) (l : list driver) (path : str) : option str :=
  match l with
  | [] => None
  | d :: l' => match stat (d_mp d ++ path) with SAbsent => find_path stat l' path | _ => Some (d_mp d ++ path) end
  end.
