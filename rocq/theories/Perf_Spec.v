(** What the stores of measurements promise (the comments at store.go 27-51), apart from
    how they keep them. *)
From Verif Require Import Str_Model Perf_Model.
Local Open Scope Z_scope.
Local Open Scope list_scope.

(** A measurement asked for by kind and action; an empty text asks for all. *)
Definition matchb (kind action : str) (p : perf) : bool :=
  (str_eqb kind [] || str_eqb (p_kind p) kind) && (str_eqb action [] || str_eqb (p_action p) action).

(** The measurements a store holds after puts and clears, in the order of their arrival. *)
Definition sp_step (l : list perf) (o : lop) : list perf :=
  match o with
  | LPut l' => l ++ l'
  | LClear k a => filter (fun p => negb (matchb k a p)) l
  end.
Definition sp_run (ops : list lop) : list perf := fold_left sp_step ops [].

(** The costs of one kind and action. *)
Definition costs (kind action : str) (l : list perf) : list Z :=
  map p_cost (filter (fun p => str_eqb (p_kind p) kind && str_eqb (p_action p) action) l).

(** One row for each kind and action that occurs, with the value [f] of their costs. *)
Definition is_table (f : list Z -> Z) (l rows : list perf) : Prop :=
  NoDup (map (fun r => (p_kind r, p_action r)) rows) /\
  forall r, In r rows <->
    (exists p, In p l /\ p_kind p = p_kind r /\ p_action p = p_action r) /\
    p_cost r = f (costs (p_kind r) (p_action r) l).

(** The sum of costs, and their average with the fraction dropped. *)
Definition total (l : list Z) : Z := fold_right Z.add 0 l.
Definition mean (l : list Z) : Z := Z.quot (total l) (Z.of_nat (List.length l)).

(** A duration is an int64. *)
Definition duration (c : Z) : Prop := - 2 ^ 63 <= c < 2 ^ 63.

(** Names with a dot break the keys; empty names mean all. *)
Definition plain (s : str) : Prop := s <> [] /\ ~ In "."%char s.

(** [b] begins with [a] and goes on with a byte below the dot: keys of [b] then come
    between [a] and the keys of [a]. *)
Definition between (a b : str) : Prop :=
  exists c r, b = a ++ c :: r /\ (N_of_ascii c < N_of_ascii ".")%N.

(** No name is the beginning of another. *)
Definition prefix_free (l : list str) : Prop :=
  forall a b, In a l -> In b l -> forall r, b = a ++ r -> r = [].

(** Kinds and actions that keep apart. *)
Definition good_names (K A : list str) : Prop :=
  Forall plain K /\ Forall plain A /\ prefix_free K /\ prefix_free A.

(** Measurements with these names. *)
Definition named (K A : list str) (p : perf) : Prop :=
  In (p_kind p) K /\ In (p_action p) A /\ duration (p_cost p).

(** Puts of such measurements; clears by both names or of everything. *)
Definition lawful (K A : list str) (o : lop) : Prop :=
  match o with
  | LPut l => Forall (named K A) l
  | LClear k a => (In k K /\ In a A) \/ (k = [] /\ a = [])
  end.

(** The names in use (store.go 9-19). *)
Definition own_actions : list str := [s2l "write"%string; s2l "read"%string].
Definition own_kinds : list str := [s2l "http"%string; s2l "grpc"%string; s2l "bolt"%string; s2l "disk"%string].

(** ** The collector *)

(** The calls whose goroutines have run, in the order they ran, and those waiting. *)
Definition ran_step (x : list perf * list perf) (e : cev) : list perf * list perf :=
  match e with
  | EAsync p => (fst x, snd x ++ [p])
  | ERun i _ =>
      match nth_error (snd x) i with
      | Some p => (fst x ++ [p], firstn i (snd x) ++ skipn (S i) (snd x))
      | None => x
      end
  | _ => x
  end.
Definition ran (es : list cev) : list perf := fst (fold_left ran_step es ([], [])).
Definition waiting (es : list cev) : list perf := snd (fold_left ran_step es ([], [])).

(** The store refuses nothing. *)
Definition obliging (e : cev) : Prop :=
  match e with ERun _ ok | ETick _ ok | EClose ok => ok = true | EAsync _ => True end.

(** Only the servers below [n] put. *)
Definition by_servers (n : nat) (o : esop) : Prop := match o with SAsk i _ => (i < n)%nat | _ => True end.
