(** Model of what API servers know about the load of data servers when they choose among them
    (src/apiserver/internal/usecase/componet/selector/space_first_selector.go 13-80,
    weighted_io_first.go 13-71; the choice itself is in Api_Model), of the numbers data servers
    tell (src/objectserver/internal/controller/http/stat/stat.go 15-24,
    src/common/system/disk/stat.go 10-59, stat_linux.go 36-69) and of the reports servers keep
    in etcd (src/common/system/syncer.go 17-68).

    Simplified: the maps are changed by one request at a time (Race_Model has the accesses without
    lock); fetching takes no time; a refresh comes before the first choice of a request only. *)
From Coq Require Import List Bool Arith NArith ZArith Ascii.
From Verif Require Import Str_Model Util_Model Api_Model Panic_Model.
Import ListNotations.
Local Open Scope list_scope.
Local Notation length := List.length.

(** ** The numbers of the disks *)

(** [IOStats] (disk/model.go 48-58). *)
Record iostat := IOStat {
  io_rbytes : N; io_wbytes : N; io_rcount : N; io_wcount : N; io_rtime : N; io_wtime : N;
  io_current : N; io_time : N; io_weighted : N }.

Definition w64 (n : N) : N := (n mod 2 ^ 64)%N.

(** One pass of the loop in [GetAverageIOStats] (disk/stat.go 38-47): the sum of the read times
    adds itself, the write times are not added. *)
Definition add_stat (a s : iostat) : iostat :=
  IOStat (w64 (io_rbytes a + io_rbytes s)) (w64 (io_wbytes a + io_wbytes s))
    (w64 (io_rcount a + io_rcount s)) (w64 (io_wcount a + io_wcount s))
    (w64 (io_rtime a + io_rtime a)) (io_wtime a)
    (w64 (io_current a + io_current s)) (w64 (io_time a + io_time s)) (w64 (io_weighted a + io_weighted s)).

Definition zero_stat : iostat := IOStat 0 0 0 0 0 0 0 0 0.

(** [GetAverageIOStats] (disk/stat.go 32-59) for the drives of the machine; [None]: the division
    by zero panics. *)
Definition average (drives : list iostat) : option iostat :=
  let t := fold_left add_stat drives zero_stat in
  match drives with
  | [] => None
  | _ =>
      let n := N.of_nat (length drives) in
      Some (IOStat (io_rbytes t / n) (io_wbytes t / n) (io_rcount t / n) (io_wcount t / n)
              (io_rtime t / n) (io_wtime t / n) (io_current t / n) (io_time t / n) (io_weighted t / n))%N
  end.

(** [GetInfo] (disk/stat_linux.go 36-61): total, free and used bytes of a file system with blocks of
    [frsize] bytes; [None] is the error at 58-60. *)
Definition sub64 (a b : N) : N := w64 (a + (2 ^ 64 - w64 b))%N.
Definition disk_info (frsize blocks bfree bavail : N) : option (N * N * N) :=
  let reserved := sub64 bfree bavail in
  let total := w64 (frsize * sub64 blocks reserved) in
  let free := w64 (frsize * bavail) in
  if (total <? free)%N then None else Some (total, free, sub64 total free).

(** ** What a data server tells *)

(** The headers [Capacity] and [Weighted-IO] of an answer; a header that is missing reads as the
    empty text. *)
Record told_stat := ToldStat { ts_capacity : str; ts_weighted : str }.

(** [Info] (stat.go 15-24) with the stored bytes [cap] and the drives, if they can be read; [None]: it
    panics, which is answered with 500 (Panic_Model). *)
Definition stat_info (cap : Z) (drives : option (list iostat)) : option told_stat :=
  match drives with
  | None => Some (ToldStat (print_Z cap) [])
  | Some l =>
      match average l with
      | None => None
      | Some s => Some (ToldStat (print_Z cap) (print_N (io_weighted s)))
      end
  end.

(** ** What an API server knows *)

(** [util.ToInt32] (util.go 163-165, 130-139): the low 32 bits with sign. *)
Definition to_int32 (s : str) : Z := ((to_int64 s + 2 ^ 31) mod 2 ^ 32 - 2 ^ 31)%Z.

(** One entry of the map of a strategy; the map and the time of its last change. *)
Record known := Known { kn_map : str -> option Z; kn_at : Z }.
Definition set_known (m : str -> option Z) (ip : str) (v : option Z) : str -> option Z :=
  fun x => if str_eqb x ip then v else m x.

(** The two strategies, and what they read of an answer (space_first_selector.go 38,
    weighted_io_first.go 42). *)
Inductive kind := SpaceFirst | IoFirst.
Definition read_stat (k : kind) (t : told_stat) : Z :=
  match k with SpaceFirst => to_int64 (ts_capacity t) | IoFirst => to_int32 (ts_weighted t) end.

(** [fetchSpaceInfo] (24-40) and [fetchIoInfo] (weighted_io_first.go 29-45); [answer]: what
    [StatObject] gives for an address, [None] an error; [busy]: another request is fetching. *)
Definition fetch (k : kind) (answer : str -> option told_stat) (ds : list str) (m : str -> option Z) : str -> option Z :=
  fold_left (fun m ip => set_known m ip (option_map (read_stat k) (answer ip))) ds m.

Definition minute : Z := 60000000000.
Definition refresh (k : kind) (busy : bool) (answer : str -> option told_stat) (now : Z) (ds : list str) (kn : known) : known :=
  if (minute <? now - kn_at kn)%Z then
    if busy then kn else Known (fetch k answer ds (kn_map kn)) now
  else kn.

Definition strategy_of (k : kind) (m : str -> option Z) : strategy str :=
  match k with SpaceFirst => SSpace m | IoFirst => SIo m end.

(** A map after the requests [h] (each with the time, the servers, what they answer), from the start of
    the server (space_first_selector.go 13-17, weighted_io_first.go 19-23: an empty map, the time zero). *)
Definition known0 : known := Known (fun _ => None) 0.
Definition knows (k : kind) (h : list (bool * (str -> option told_stat) * Z * list str)) : known :=
  fold_left (fun kn r => match r with (busy, answer, now, ds) => refresh k busy answer now ds kn end) h known0.

(** [SelectDataServer] (discovery_logic.go 35-46) with such a strategy: [n] of the servers [ds]. *)
Definition choose (k : kind) (busy : bool) (answer : str -> option told_stat) (now : Z) (ds : list str) (n : nat) (kn : known)
  : known * option (list str) :=
  let kn' := refresh k busy answer now ds kn in
  (kn', select_servers (repeat (strategy_of k (kn_map kn')) n) ds).

(** ** Reports in etcd *)

(** [StatSyncer] (syncer.go 17-25) of one server and its key in etcd: the lease it uses, 0 for none;
    the leases that live; the lease of the report, if there is one; does the server run. *)
Record syncer := Syncer { sy_lease : N; sy_live : list N; sy_report : option N; sy_runs : bool }.

(** A lease is granted and told (etcd_lifecycle.go 57-61, app.go 24-27 of the data server: followed by
    [Sync]); a minute has passed (syncer.go 37-40); the server stops ([StartAutoSave]'s function,
    44-49); it crashes; a lease ends. *)
Inductive sevent := EGranted (id : N) | ETick | EStop | ECrash | ELapse (id : N).

(** [Sync] (52-63): etcd takes an entry without lease, or with a lease that lives. *)
Definition sync (s : syncer) : syncer :=
  if (sy_lease s =? 0)%N || existsb (N.eqb (sy_lease s)) (sy_live s)
  then Syncer (sy_lease s) (sy_live s) (Some (sy_lease s)) (sy_runs s) else s.

Definition sync_step (s : syncer) (e : sevent) : syncer :=
  match e with
  | EGranted id =>
      if sy_runs s then sync (Syncer id (id :: sy_live s) (sy_report s) true) else s
  | ETick => if sy_runs s then sync s else s
  | EStop => if sy_runs s then Syncer (sy_lease s) (sy_live s) None false else s
  | ECrash => Syncer (sy_lease s) (sy_live s) (sy_report s) false
  | ELapse id =>
      Syncer (sy_lease s) (filter (fun x => negb (x =? id)%N) (sy_live s))
        (match sy_report s with Some l => if (negb (l =? 0) && (l =? id))%N then None else Some l | None => None end) (sy_runs s)
  end.
Definition sync_run (s : syncer) (l : list sevent) : syncer := fold_left sync_step l s.
Definition syncer0 : syncer := Syncer 0 [] None true.

(** A report is made in a goroutine with [Recover] deferred (syncer.go 30-31, etcd_lifecycle.go
    34-37); without drives it panics (system_info.go 40). *)
Definition report_panic (drives : list iostat) : option pval :=
  match average drives with None => Some (PValue (s2l "integer divide by zero"%string)) | Some _ => None end.
Definition after_report (sv : server) (drives : list iostat) : server * reply :=
  finish sv (JGo [g_recover false], report_panic drives).
