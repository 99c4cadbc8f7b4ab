(** Model of the measurements the admin server shows: the reports of the servers in etcd,
    the series kept of them, the pages.

    Source: src/adminserver/internal/usecase/db/server_stat_db.go 20-177,
    src/adminserver/internal/usecase/logic/server_monitor.go 23-108,
    src/adminserver/internal/controller/http/server_state.go 103-108,
    src/common/cst/etcd_prefix.go 35-37, src/common/util/util.go 130-139,
    src/common/system/system_info.go 11-25.

    Simplified: etcd as in [Registry_Model]; a fetch gives its entries in some fixed order;
    the times of the points are left out; the figures of a processor are numbers; shares of
    memory are exact; accesses to the maps are atomic ([Race_Model] is about that). *)
From Verif Require Import Str_Model Meta_Model Registry_Model.
From stdpp Require Import gmap.
Local Open Scope list_scope.

(** ** Reports *)

(** What [util.DecodeMsgp] (server_stat_db.go 142-145) makes of a value: an error, a record
    without processor or memory (nil pointers), or both. *)
Inductive record := Garbled | Incomplete | Report (cpu : Z) (used all : N).

(** server_stat_db.go 156, in hundredths: [None] is not a number ([all] is 0). *)
Definition mem_percent (used all : N) : option N :=
  if (all =? 0)%N then None else Some ((used * 100 + (all - 1)) / all)%N.

(** cst/etcd_prefix.go 35-37 [FmtSystemInfo] with an empty id (the name of the directory: 22). *)
Definition fmt_system (group serv : str) : str := group ++ s2l "/sys_info/"%string ++ serv ++ s2l "/"%string.

(** server_stat_db.go 140-141: what follows the last slash, or all of it. *)
Definition stat_id (key : str) : str := match cut_last "/"%char key with Some (_, b) => b | None => key end.

(** ** Series *)

(** server_stat_db.go 22. *)
Definition max_stat : nat := 59.

(** server_stat_db.go 43-49: the oldest element gets the new value and goes to the end. *)
Definition append_one {A} (l : list A) (x : A) : list A :=
  if length l =? max_stat then tail l ++ [x] else l ++ [x].

(** server_stat_db.go 30-33. *)
Record tline := mk_tline { tl_cpu : list Z; tl_mem : list (option N) }.
Definition tline_new : tline := mk_tline [] [].
(** server_stat_db.go 42-57 [Append]. *)
Definition tl_append (t : tline) (c : Z) (m : option N) : tline := mk_tline (append_one (tl_cpu t) c) (append_one (tl_mem t) m).

(** server_stat_db.go 85: by service, by server. *)
Notation stats := (gmap str (gmap str tline)).

Inductive added := AOk | AErr | APanic.

(** server_stat_db.go 133-159 [addStat]. *)
Definition add_stat (dec : str -> record) (db : stats) (serv key value : str) : stats * added :=
  let mp := default ∅ (db !! serv) in
  let id := stat_id key in
  let tl := default tline_new (mp !! id) in
  match dec value with
  | Garbled => (<[serv := mp]> db, AErr)
  | Incomplete => (<[serv := <[id := tl]> mp]> db, APanic)
  | Report c u a => (<[serv := <[id := tl_append tl c (mem_percent u a)]> mp]> db, AOk)
  end.

(** ** Following etcd *)

(** The goroutine of a service (server_stat_db.go 111-129): before the fetch; with the
    entries still to be added, after a fetch at event [f]; watching from event [w], next to
    be delivered [i]; ended, since the channel of the watch was closed (162). *)
Inductive mphase := MStart | MLoading (f : nat) (todo : list (str * str)) | MWatching (f w i : nat) | MClosed (f w i : nat).

Record mon := mk_mon { mo_log : list event; mo_db : stats; mo_phase : str -> mphase; mo_alive : bool }.

Inductive mop :=
| MChange (e : event)     (* something changes in etcd *)
| MFetch (s : str)        (* the fetch of a service succeeds *)
| MFetchFail (s : str)    (* it fails *)
| MAdd (s : str)          (* the next fetched entry is added *)
| MWatch (s : str)        (* all are added, the watch is set up *)
| MDeliver (s : str)      (* it delivers the next change *)
| MClose (s : str).       (* its channel is closed *)

Definition set_phase (f : str -> mphase) (s : str) (p : mphase) : str -> mphase :=
  fun s' => if str_eqb s' s then p else f s'.

(** What becomes of the server when [addStat] panics: [graceful.Recover] (112) panics again
    (Panic_Model). *)
Definition after_add (m : mon) (s : str) (p : mphase) (r : stats * added) : mon :=
  mk_mon (mo_log m) (fst r) (set_phase (mo_phase m) s p) (match snd r with APanic => false | _ => true end).

(** server_stat_db.go 106-131 [init], 161-172 [watching].  After a failed fetch [res] is nil
    and 119 panics.  The watch has no starting revision (127). *)
Definition mon_step (dec : str -> record) (group : str) (m : mon) (o : mop) : mon :=
  if mo_alive m then
    match o with
    | MChange e => mk_mon (mo_log m ++ [e]) (mo_db m) (mo_phase m) true
    | MFetch s =>
        match mo_phase m s with
        | MStart =>
            mk_mon (mo_log m) (mo_db m)
              (set_phase (mo_phase m) s (MLoading (length (mo_log m))
                 (map_to_list (filter (fun kv => prefixb (fmt_system group s) kv.1 = true) (etcd_at (mo_log m)))))) true
        | _ => m
        end
    | MFetchFail s =>
        match mo_phase m s with
        | MStart => mk_mon (mo_log m) (mo_db m) (mo_phase m) false
        | _ => m
        end
    | MAdd s =>
        match mo_phase m s with
        | MLoading f ((k, v) :: todo) => after_add m s (MLoading f todo) (add_stat dec (mo_db m) s k v)
        | _ => m
        end
    | MWatch s =>
        match mo_phase m s with
        | MLoading f [] => mk_mon (mo_log m) (mo_db m) (set_phase (mo_phase m) s (MWatching f (length (mo_log m)) (length (mo_log m)))) true
        | _ => m
        end
    | MDeliver s =>
        match mo_phase m s with
        | MWatching f w i =>
            match mo_log m !! i with
            | Some (EPut k v) =>
                if prefixb (fmt_system group s) k then after_add m s (MWatching f w (S i)) (add_stat dec (mo_db m) s k v)
                else mk_mon (mo_log m) (mo_db m) (set_phase (mo_phase m) s (MWatching f w (S i))) true
            | Some (EDel k) => mk_mon (mo_log m) (mo_db m) (set_phase (mo_phase m) s (MWatching f w (S i))) true
            | None => m
            end
        | _ => m
        end
    | MClose s =>
        match mo_phase m s with
        | MWatching f w i => mk_mon (mo_log m) (mo_db m) (set_phase (mo_phase m) s (MClosed f w i)) true
        | _ => m
        end
    end
  else m.

Definition mon_start (log : list event) : mon := mk_mon log ∅ (fun _ => MStart) true.
Definition mon_run (dec : str -> record) (group : str) (m : mon) (ops : list mop) : mon := foldl (mon_step dec group) m ops.

(** ** Pages *)

(** The names of the kinds of servers (the configuration). *)
Record names := mk_names { n_api : str; n_meta : str; n_data : str }.

(** server_monitor.go 69-80 [NameOfServerNo]. *)
Definition name_of_no (c : names) (n : Z) : str :=
  if (n =? 0)%Z then n_api c else if (n =? 1)%Z then n_meta c else if (n =? 2)%Z then n_data c else [].

(** util.go 130-139 [ToInt]: unreadable texts are 0, numbers too large the largest. *)
Definition clip64 (z : Z) : Z := Z.max int64_min (Z.min z int64_max).
Definition to_int_any (s : str) : Z :=
  match s with
  | "-"%char :: r => match parse_digits r with Some n => clip64 (- Z.of_N n) | None => 0%Z end
  | "+"%char :: r => match parse_digits r with Some n => clip64 (Z.of_N n) | None => 0%Z end
  | _ => match parse_digits s with Some n => clip64 (Z.of_N n) | None => 0%Z end
  end.

(** A page: processor or memory. *)
Inductive series := SCpu (l : list Z) | SMem (l : list (option N)).

(** server_state.go 103-108 [UsageTimeline], server_monitor.go 83-94 [StatTimeline],
    server_stat_db.go 99-104 [GetTimeline]. *)
Definition usage (c : names) (db : stats) (type server : str) : gmap str series :=
  let tls := default ∅ (db !! name_of_no c (to_int_any server)) in
  fmap (fun t => if str_eqb type (s2l "cpu"%string) then SCpu (tl_cpu t) else SMem (tl_mem t)) tls.

(** server_monitor.go 96-108 [StatTimeLineOverview], for one kind of servers, which the
    iteration gives in the order [order]: each one replaces the one before. *)
Definition overview (order : list (str * tline)) : option tline :=
  fold_left (fun _ kt => Some (snd kt)) order None.

(** server_monitor.go 23-40 [SysInfo] over the fetched entries: [None] is an error. *)
Fixpoint sys_info (dec : str -> record) (kvs : list (str * str)) (acc : gmap str record) : option (gmap str record) :=
  match kvs with
  | [] => Some acc
  | (k, v) :: r =>
      match dec v with
      | Garbled => None
      | d => sys_info dec r (<[stat_id k := d]> acc)
      end
  end.

(** server_monitor.go 42-59 [ServerStat]: address and report of each server; a server without
    a report has the empty one (system_info.go 18-25 [ZeroInfo]). *)
Definition server_stat (dec : str -> record) (servers : gmap str str) (kvs : list (str * str)) : option (gmap str (str * record)) :=
  match sys_info dec kvs ∅ with
  | None => None
  | Some infos => Some (map_imap (fun id addr => Some (addr, default (Report 0 0 0) (infos !! id))) servers)
  end.
