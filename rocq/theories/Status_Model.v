(** Model of the migration status of a metadata server
    (src/metaserver/internal/usecase/db/hashslot_db.go) as a machine whose threads
    are calls in progress: every atomic operation of a call is one step, and any
    thread may make the next one.  Simplified: writes to the two unprotected
    fields are single steps; etcd is one map. *)
From Verif Require Export Owner_Model.
Local Notation length := List.length.
Local Open Scope list_scope.

(** hashslot_db.go:21-26. *)
Inductive status := Normal | MigTo | MigFrom | Closed.
Inductive direction := To | From.
Definition migrating (d : direction) : status := match d with To => MigTo | From => MigFrom end.
Definition status_eqb (a b : status) : bool :=
  match a, b with
  | Normal, Normal | MigTo, MigTo | MigFrom, MigFrom | Closed, Closed => true
  | _, _ => false
  end.

(** The calls: hashslot_db.go:117-135 [ReadyMigrateFrom]/[ReadyMigrateTo],
    137-155 [FinishMigrateTo]/[FinishMigrateFrom], 174-187 [Save], 189-199
    [Remove], 214-227 [Close].  The number in [Finish] has no counterpart in the
    code: it tells which start the caller means to finish. *)
Inductive call :=
| Ready (d : direction) (host : str) (slots : list str)
| Finish (d : direction) (meant : nat)
| Save (id : str) (info : str * list str)
| Remove (id : str)
| Close.

(** Where a call is: at its first operation; before writing [migratingHost]
    (lines 119, 129, 139, 149), before writing [migratingSlots] (120, 130, 140,
    150); before writing etcd (185, 194); returned. *)
Inductive pc :=
| PCall (c : call)
| PSetHost (host : str) (slots : list str)
| PSetSlots (slots : list str)
| PPut (id : str) (info : str * list str)
| PDelete (id : str)
| PDone (ok : bool).

(** What happened, for the specification only. *)
Inductive event :=
| EStart (tid : nat) (d : direction) (host : str) (slots : list str)
| EFinish (tid : nat) (d : direction) (meant : nat)
| EClose (tid : nat)
| ECheck (tid : nat)
| ETable (tid : nat).

(** hashslot_db.go:43-51 with the calls in progress and the events so far. *)
Record state := mk_state {
  st_status : status; st_host : str; st_slots : list str; st_kv : etcd;
  st_threads : list pc; st_log : list event }.

(** hashslot_db.go:53-62 [NewHashSlotDB]. *)
Definition init (kv : etcd) : state := mk_state Normal [] [] kv [] [].

Definition set_status (s : state) (x : status) : state := mk_state x (st_host s) (st_slots s) (st_kv s) (st_threads s) (st_log s).
Definition set_host (s : state) (x : str) : state := mk_state (st_status s) x (st_slots s) (st_kv s) (st_threads s) (st_log s).
Definition set_slots (s : state) (x : list str) : state := mk_state (st_status s) (st_host s) x (st_kv s) (st_threads s) (st_log s).
Definition set_kv (s : state) (x : etcd) : state := mk_state (st_status s) (st_host s) (st_slots s) x (st_threads s) (st_log s).
Definition set_threads (s : state) (x : list pc) : state := mk_state (st_status s) (st_host s) (st_slots s) (st_kv s) x (st_log s).
Definition emit (s : state) (e : event) : state := mk_state (st_status s) (st_host s) (st_slots s) (st_kv s) (st_threads s) (st_log s ++ [e]).

Fixpoint list_set {A : Type} (l : list A) (i : nat) (x : A) : list A :=
  match l, i with
  | [], _ => []
  | _ :: r, O => x :: r
  | y :: r, S j => y :: list_set r j x
  end.
Definition goto (s : state) (tid : nat) (p : pc) : state := set_threads s (list_set (st_threads s) tid p).

(** etcd [Delete] (hashslot_db.go:194). *)
Definition kv_remove (kv : etcd) (g : str) : etcd :=
  filter (fun gi => if str_eq_dec (fst gi) g then false else true) kv.

(** One operation of thread [tid].  [ok]: the etcd call succeeds; in [Close]:
    keep waiting (lines 217-225). *)
Definition operate (s : state) (tid : nat) (p : pc) (ok : bool) : state :=
  match p with
  | PCall (Ready d host slots) =>
      if status_eqb (st_status s) Normal
      then goto (emit (set_status s (migrating d)) (EStart tid d host slots)) tid (PSetHost host slots)
      else goto s tid (PDone false)
  | PCall (Finish d meant) =>
      if status_eqb (st_status s) (migrating d)
      then goto (emit (set_status s Normal) (EFinish tid d meant)) tid (PSetHost [] [])
      else goto s tid (PDone false)
  | PCall (Save id info) =>
      if status_eqb (st_status s) Normal
      then goto (emit s (ECheck tid)) tid (PPut id info)
      else goto s tid (PDone false)
  | PCall (Remove id) =>
      if status_eqb (st_status s) Normal
      then goto (emit s (ECheck tid)) tid (PDelete id)
      else goto s tid (PDone false)
  | PCall Close =>
      if status_eqb (st_status s) Normal
      then goto (emit (set_status s Closed) (EClose tid)) tid (PDone true)
      else if ok then s else goto s tid (PDone false)
  | PSetHost host slots => goto (set_host s host) tid (PSetSlots slots)
  | PSetSlots slots => goto (set_slots s slots) tid (PDone true)
  | PPut id info =>
      if ok then goto (emit (set_kv s (kv_put (st_kv s) id info)) (ETable tid)) tid (PDone true)
      else goto s tid (PDone false)
  | PDelete id =>
      if ok then goto (emit (set_kv s (kv_remove (st_kv s) id)) (ETable tid)) tid (PDone true)
      else goto s tid (PDone false)
  | PDone _ => s
  end.

(** A call is made, or thread [tid] makes its next operation. *)
Inductive action := Invoke (c : call) | Step (tid : nat) (ok : bool).

Definition act (s : state) (a : action) : state :=
  match a with
  | Invoke c => set_threads s (st_threads s ++ [PCall c])
  | Step tid ok =>
      match nth_error (st_threads s) tid with
      | Some p => operate s tid p ok
      | None => s
      end
  end.
Definition run (s : state) (l : list action) : state := fold_left act l s.

(** A call that runs alone from start to end (three operations at most). *)
Definition exec (s : state) (c : call) (ok : bool) : state :=
  let n := length (st_threads s) in run s [Invoke c; Step n ok; Step n ok; Step n ok].
Definition returned (s : state) : bool := match last (st_threads s) (PDone false) with PDone ok => ok | _ => false end.

(** hashslot_db.go:68-74 [GetMigrateTo]/[GetMigrateFrom]. *)
Definition get_migrate (s : state) (d : direction) : bool * str * list str :=
  (status_eqb (st_status s) (migrating d), st_host s, st_slots s).

(** hashslot_server.go:29-37 [StartMigration] running alone:
    hashslot_service.go:83-121 and 226-271.  [prepared]: lines 84-118 succeed;
    [moved]: lines 232-249 succeed; [found]: the record read at lines 255-258, if
    any; [saved]: etcd accepts the write of line 262.  [id], [sid] are the store
    id and server id; the removal of ranges is [rest]. *)
Definition start_migration (s : state) (host : str) (slots : list str) (prepared moved : bool)
  (found : option (list str)) (rest : list str -> list str) (saved : bool) (id sid : str) : state :=
  if negb prepared then s
  else
    let k := length (st_threads s) in
    let s1 := exec s (Ready To host slots) true in
    if negb (returned s1) then s1
    else
      let '(ok, h, _) := get_migrate s1 To in
      if ok && str_eqb h host then
        let s2 :=
          if negb moved then s1
          else
            let s3 := exec s1 (Finish To k) true in
            match found with
            | None => s3
            | Some cur => exec s3 (Save id (sid, rest cur)) saved
            end in
        exec s2 (Finish To k) true
      else s1.

(** Calls one after the other; [Close] gives up when it has to wait. *)
Definition exec1 (s : state) (co : call * bool) : state :=
  match fst co with Close => exec s Close false | c => exec s c (snd co) end.
Definition exec_all (s : state) (l : list (call * bool)) : state := fold_left exec1 l s.
